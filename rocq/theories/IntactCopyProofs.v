(** Copies of intact objects (C70, C71). *)
From Verif Require Import Base Unicode Utf8 Json TextFile DigestModel InventorySpec NamasteSpec PathModel FsModel FsSpec FsProofs FswSpec ValidatorSpec.

Section Transfer.
  Variables (H : hashfn) (w w' : node) (h h' : place).
  (** nothing new, *)
  Hypothesis Old : forall p e, p <> [] -> look w' (h' ++ p) = Some e -> look w (h ++ p) = Some e.
  (** all the files (and whatever else is not a directory), *)
  Hypothesis Files : forall p, leaf w (h ++ p) -> look w' (h' ++ p) = look w (h ++ p).
  (** and directories with something in them still have something in them. *)
  Hypothesis Dirs : forall p k, p <> [] -> look w' (h' ++ p) = Some EDir -> look w (h ++ p ++ [k]) <> None -> exists k', look w' (h' ++ p ++ [k']) <> None.

  Lemma file_same p b : p <> [] -> (at_root w' h' p = Some (EFile b) <-> at_root w h p = Some (EFile b)).
  Proof.
    intros Hp. split; [now apply Old|]. unfold at_root. intros L. rewrite Files; [exact L|]. split; rewrite L; discriminate.
  Qed.
  Lemma some_old p : p <> [] -> at_root w' h' p <> None -> at_root w h p <> None.
  Proof. intros Hp L. destruct (at_root w' h' p) as [e|] eqn:E; [|congruence]. apply Old in E; [|exact Hp]. unfold at_root. rewrite E. discriminate. Qed.
  Lemma leaf_same p : p <> [] -> (leaf w' (h' ++ p) <-> leaf w (h ++ p)).
  Proof.
    intros Hp. split; [|intros L; unfold leaf; rewrite Files by exact L; exact L]. intros [L1 L2]. destruct (look w' (h' ++ p)) as [e|] eqn:E; [|congruence]. unfold leaf. rewrite (Old p e Hp E). split; congruence.
  Qed.

  Lemma inventory_same dir b j : inventory_at w' h' dir b j <-> inventory_at w h dir b j.
  Proof. unfold inventory_at. rewrite file_same; [reflexivity|destruct dir; discriminate]. Qed.
  Lemma sidecar_copied dir alg b : sidecar H true w h dir alg b -> sidecar H true w' h' dir alg b.
  Proof.
    assert (N : dir ++ [`"inventory.json." ++ alg] <> []) by (destruct dir; discriminate).
    intros [_ S]. destruct (S eq_refl) as (sb & t & l & x & L & R). apply (file_same _ _ N) in L. split; [rewrite L; discriminate|]. intros _. exists sb, t, l, x. split; [exact L|exact R].
  Qed.
  Lemma inventory_of_same head v j f : inventory_of w' h' head v j f <-> inventory_of w h head v j f.
  Proof. unfold inventory_of. split; intros (A & b & I & O); (split; [exact A|]); exists b; (split; [|exact O]); now apply inventory_same. Qed.
  Lemma fits_copied alg d p : file_fits H w h alg d p -> p <> [] -> file_fits H w' h' alg d p.
  Proof.
    intros (r & b & E & L & D) N. exists r, b. split; [exact E|]. split; [|exact D]. apply file_same; [|exact L]. intros ->. apply N. rewrite E. reflexivity.
  Qed.

  Section Object.
    Variables (spec : str) (rb : bytes) (root : json) (f : facts) (head : str).
    Hypothesis I : intact H true w h spec rb root f head.
    Hypothesis Versions : forall v, In v (f_versions f) -> look w' (h' ++ [v]) = Some EDir.

    Lemma inventory_file v : v = head \/ In v (f_versions f) -> (has_inventory w' h' v <-> has_inventory w h v).
    Proof.
      intros Hv. split; [apply some_old; discriminate|]. intros X. destruct (in_versions _ _ _ _ _ _ _ _ _ I) as (A & B & _).
      assert (Y : exists b, at_root w h [v; `"inventory.json"] = Some (EFile b)).
      { destruct (list_eq_dec N.eq_dec v head) as [->|N]; [destruct (A X) as [L _]; eauto|]. destruct Hv as [Hv|Hv]; [contradiction|]. destruct (B v Hv N X) as (b & j & g & (L & _) & _). exists b. exact L. }
      destruct Y as [b Y]. apply file_same in Y; [|discriminate]. unfold has_inventory. rewrite Y. discriminate.
    Qed.
    Lemma sidecar_name_same v name : sidecar_name w' h' f head v name <-> sidecar_name w h f head v name.
    Proof.
      unfold sidecar_name. split; (intros [(E & X & R)|(j & g & X & R)]; [left|right]).
      1, 3: split; [exact E|split; [|exact R]]; apply (inventory_file v); auto.
      1, 2: exists j, g; split; [now apply inventory_of_same|exact R].
    Qed.
    Lemma seen_same v : content_seen w' h' f head v <-> content_seen w h f head v.
    Proof. unfold content_seen. now rewrite sidecar_name_same. Qed.
    Lemma content_same p : content w' h' f head p <-> content w h f head p.
    Proof.
      unfold content. split; intros (v & r & A & B & C & D & E); exists v, r; (split; [exact A|split; [now apply seen_same|split; [exact C|split; [|exact E]]]]);
        (apply leaf_same; [discriminate|exact D]).
    Qed.

    Theorem intact_copied : intact H true w' h' spec rb root f head.
    Proof.
      pose proof I as [I1 I2 I3 I4 I5 I6 I7 I8 I9 I10].
      assert (NE : forall alg d p, file_fits H w h alg d p -> file_fits H w' h' alg d p).
      { intros alg d p X. apply fits_copied; [exact X|]. intros ->. destruct X as (r & b & E & L & _). 
        destruct I2 as [L2 _]. cbn [app] in L2. 
        assert (D : look w h = Some EDir) by (apply (look_above w h (`"inventory.json") []); unfold at_root in L2; rewrite L2; discriminate).
        destruct r as [|c r]; [unfold at_root in L; rewrite app_nil_r, D in L; discriminate|].
        destruct r as [|c' r]; [|destruct c; discriminate]. cbn in E. rewrite <- E in L. apply I6 in L. cbn [root_entry] in L. destruct L as [L|[L|[L|[]]]]; discriminate. }
      split.
      - destruct I1 as (A & B & b & t & L & C). split; [exact A|]. split.
        + intros name. rewrite <- B. unfold tagged. split; intros [X Y]; (split; [|exact Y]); [now apply (some_old [name])|].
          assert (E : name = `"0=ocfl_object_" ++ spec) by (apply B; split; assumption). apply file_same in L; [|discriminate]. intros Z. rewrite E in Z. pose proof (eq_trans (eq_sym L) Z). discriminate.
        + exists b, t. split; [apply file_same; [discriminate|exact L]|exact C].
      - now apply inventory_same.
      - exact I3.
      - exact I4.
      - now apply sidecar_copied.
      - intros name e L. apply Old in L; [|discriminate]. apply I6 in L. destruct e as [b| |]; cbn [root_entry] in *; auto.
        destruct L as [L|[L|[L X]]]; auto. right. right. split; [exact L|]. intros k e' Lk. apply X with k. now apply Old.
      - destruct I7 as (A & B & C & D). split; [|split; [|split]].
        + intros X. apply inventory_file in X; [|now left]. destruct (A X) as [A1 A2]. split; [apply file_same; [discriminate|exact A1]|now apply sidecar_copied].
        + intros v Hv N X. apply inventory_file in X; [|now right]. destruct (B v Hv N X) as (b & j & g & B1 & B2 & B3 & B4). exists b, j, g. split; [now apply inventory_same|]. split; [exact B2|]. split; [now apply sidecar_copied|exact B4].
        + intros v v' j j' g g' Bf X Y. apply C with v v' j j'; auto; now apply inventory_of_same.
        + intros X v j g Hv Y. apply inventory_file in X; [|now left]. apply (D X v j); auto. now apply inventory_of_same.
      - intros v Hv. destruct (I8 v Hv) as (A & B & C). split; [now apply Versions|]. split.
        + intros c e L. apply Old in L; [|discriminate]. rewrite sidecar_name_same. now apply B.
        + intros X r Hr L. apply seen_same in X. destruct (C X r Hr) as [k Lk]; [now apply Old|]. destruct (Dirs (v :: f_cdir f :: r) k) as [k' Lk']; [discriminate|exact L|exact Lk|]. exists k'. exact Lk'.
      - intros p. rewrite content_same. apply I9.
      - intros _. destruct (I10 eq_refl) as (A & B & C). split; [|split].
        + intros d p X. apply NE. now apply A.
        + intros alg d p X. apply NE. now apply B.
        + intros v j g Hv X. apply inventory_of_same in X. destruct (C v j g Hv X) as [C1 C2]. split; [intros d p Y Z; apply NE; now apply C1|intros alg d p Y Z; apply NE; now apply C2].
    Qed.
  End Object.
End Transfer.

(** The same tree at another place. *)
Lemma intact_same H w w' h h' spec rb root f head : (forall p, look w' (h' ++ p) = look w (h ++ p)) ->
  intact H true w h spec rb root f head -> intact H true w' h' spec rb root f head.
Proof.
  intros S I. apply (intact_copied H w w' h h'); auto.
  - intros p e _. now rewrite S.
  - intros p k _ _ L. exists k. now rewrite S.
  - intros v Hv. rewrite S. apply (in_directories _ _ _ _ _ _ _ _ _ I v Hv).
Qed.
