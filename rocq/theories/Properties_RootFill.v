(** C68, C69: the objects that are added to a storage root are those that are in it. *)
From Coq Require Import Permutation.
From Verif Require Import Base Unicode Regex Utf8 Json PyJson JsonTextModel JsonFileProofs Log DigestModel LayoutModel LayoutSpec LayoutProofs ContentPathProofs TextFile PathModel FsModel FsSpec FsProofs FsStepProofs FswModel FswSpec FswProofs FswCopyProofs CopyFrameProofs
  NamasteModel NamasteSpec NamasteProofs Properties_Fsw InventorySpec InventoryValidatorModel InventoryRulesProofs InventoryOpsSpec InventoryParseProofs InventoryModel ParseModel ValidatorSpec ValidatorModel ValidatorBasicProofs ValidatorContentProofs ObjectModel ObjectExamples UpdateSpec
  Properties_Layout Properties_Object StorageRootModel StorageRootSpec StorageRootProofs StorageRootRunProofs Properties_StorageRoot Properties_RootList RootAddSpec RootAddProofs Properties_RootAdd RootFillProofs RootInitSpec ObjectSpec Properties_RootInit.
From Verif Require Properties_Validator.

Lemma listed_fun w p a b : Forall fname p -> listed_as w p a -> listed_as w p b -> a = b.
Proof. intros F A B. apply listed_as_iff in A; [|exact F]. apply listed_as_iff in B; [|exact F]. congruence. Qed.
Lemma identified_listed w p id : identified w p id -> listed_as w p id.
Proof. intros (b & d & A & B & C & D). exists b, d. auto. Qed.

(** * C68 *)
Section C68.
  Variables (H : hashfn) (id_encode : str -> str) (e : env) (s : sroot) (w : node) (r od : str).
  Let h := at_path (base_of (e_cwd e) r) r.
  Let src := at_path (base_of (e_cwd e) od) od.
  Let w' := after (add H id_encode e od s) w.
  Hypothesis Tree : tree w.
  Hypothesis Local : no_url r.
  Hypothesis Local2 : no_url od.
  Hypothesis Root : s_root s = Some r.
  Hypothesis Fresh : s_layout s = None.

  (** An object with one declaration that has been added where objects are looked for is one
      of the objects after that, with its identifier, and the others are as before. *)
  Theorem C68_found : forall s' id path rel, result (add H id_encode e od s) w = Ok (s', Ok (id, path)) ->
    at_path h path = h ++ rel -> findable w h rel -> single_declaration w src ->
    (forall rel', object_root w' h rel' <-> rel' = rel \/ object_root w h rel') /\
    (forall i, listed_as w' (h ++ rel) i <-> i = id) /\
    (forall rel' i, object_root w h rel' -> (listed_as w' (h ++ rel') i <-> listed_as w (h ++ rel') i)).
  Proof.
    intros s' id path rel E Ep Fd Sd. destruct (C48_exact H id_encode e s w r od Tree Local Local2 Root Fresh s' id path E) as (B & T & N & C3 & C4 & C5 & C6 & C7).
    pose proof (proj1 (C48_when H id_encode e s w r od Tree Local Local2 Root Fresh id path) (ex_intro _ s' E)) as (_ & _ & _ & P).
    fold h src in B, N, C3, C4, C5, C7, P. fold w' in T, C3, C4, C5, C6, C7. rewrite Ep in N, C3, C4, C5, C7. pose proof (be_source _ _ _ _ _ _ _ _ _ B) as Hsrc.
    split; [exact (objects_after w w' h src rel Hsrc P N C3 C5 C6 C7 Fd Sd)|]. destruct (identifiers_after w w' h src rel Hsrc N C3 C5 C6 C7) as [I1 I2]. split; [|exact I2].
    intros i. rewrite (I1 i). pose proof (identified_listed _ _ _ (be_id _ _ _ _ _ _ _ _ _ B)) as L. split; [|intros ->; exact L].
    intros L'. eapply listed_fun; [|exact L'|exact L]. eapply look_fnames; [exact Tree|rewrite Hsrc; discriminate].
  Qed.
End C68.
Print Assumptions C68_found.

(** * C69 *)

(** A path of k directories and the object, with names that are not used for anything else in
    a storage root *)
Definition level (k : nat) (rel : place) : Prop :=
  Forall fname rel /\ List.length rel = S k /\ hd [] rel <> `"extensions" /\ forall t, hd [] rel <> `"0=" ++ t.
(** The root of a storage root without objects: no directories but extensions/ *)
Definition no_objects (w : node) (h : place) : Prop := forall q, q <> [] -> hd [] q <> `"extensions" -> look w (h ++ q) <> Some EDir.

(** What happens to a storage root: objects are added, and what is not in it can change as it
    likes. *)
Section Filled.
  Variables (H : hashfn) (id_encode : str -> str) (e : env) (s : sroot) (h : place) (w0 : node) (k : nat).
  Inductive filled : list (str * str) -> node -> Prop :=
  | filled_none : filled [] w0
  | filled_add l w od s' id rel : filled l w -> no_url od -> single_declaration w (at_path (base_of (e_cwd e) od) od) -> level k rel ->
      result (add H id_encode e od s) w = Ok (s', Ok (id, J rel)) -> filled (l ++ [(J rel, id)]) (after (add H id_encode e od s) w)
  | filled_failed l w od s' x : filled l w -> no_url od -> plain w (at_path (base_of (e_cwd e) od) od) ->
      result (add H id_encode e od s) w = Ok (s', Raise x) -> filled l (after (add H id_encode e od s) w)
  | filled_other l w w' : filled l w -> tree w' -> (forall q, look w' (h ++ q) = look w (h ++ q)) -> filled l w'.
End Filled.

Section Kept.
  Variables (H : hashfn) (w w' : node) (h : place).
  Hypothesis Ext : forall t, look w' (h ++ `"extensions" :: t) = look w (h ++ `"extensions" :: t).
  Hypothesis Lay : look w' (h ++ [`"ocfl_layout.json"]) = look w (h ++ [`"ocfl_layout.json"]).
  Hypothesis Decl : forall t, look w' (h ++ [`"0=" ++ t]) = look w (h ++ [`"0=" ++ t]).

  Lemma declared_kept v : root_declared w h v -> root_declared w' h v.
  Proof.
    intros (A & B & b & t & L & C). split; [exact A|]. split.
    - intros name. rewrite <- B. unfold tagged. split; intros (L1 & x & Ex); (split; [|eauto]); rewrite Ex in *; change (`"0" ++ `"=" ++ x) with (`"0=" ++ x) in *; [rewrite <- Decl|rewrite Decl]; exact L1.
    - exists b, t. split; [|exact C]. change (`"0=ocfl_" ++ v) with (`"0=" ++ `"ocfl_" ++ v). rewrite Decl. exact L.
  Qed.
  Lemma described_kept lay : layout_described H w h lay -> layout_described H w' h lay.
  Proof.
    destruct lay as [l|]; cbn [layout_described]; [|now rewrite Lay]. intros (b & d & n & t & l0 & A1 & A2 & A3 & A4 & A5 & A6). exists b, d, n, t, l0. rewrite Lay. repeat (split; [assumption|]).
    cbn zeta in *. rewrite Ext. exact A6.
  Qed.
  Lemma known_kept : known_extensions w h -> known_extensions w' h.
  Proof. intros A x Hx. apply A. rewrite <- Ext. exact Hx. Qed.
End Kept.

Lemma J_inj a b : Forall fname a -> Forall fname b -> a <> [] -> b <> [] -> J a = J b -> a = b.
Proof.
  intros Fa Fb Na Nb E. apply (join_inj slash) in E; auto; intros c Hc; [rewrite Forall_forall in Fa; apply Fa in Hc|rewrite Forall_forall in Fb; apply Fb in Hc]; destruct Hc as (_ & _ & _ & X); exact X.
Qed.

Section C69.
  Variables (H : hashfn) (id_encode : str -> str) (e : env) (s : sroot) (w0 : node) (r : str) (k : nat) (v : str) (lay : layout).
  Let h := at_path (base_of (e_cwd e) r) r.
  Hypothesis Local : no_url r.
  Hypothesis Root : s_root s = Some r.
  Hypothesis Fresh : s_layout s = None.
  (** a storage root with a layout and no objects *)
  Hypothesis Tree : tree w0.
  Hypothesis Dir : look w0 h = Some EDir.
  Hypothesis Declared : root_declared w0 h v.
  Hypothesis Version : s_spec s = None \/ s_spec s = Some v.
  Hypothesis Described : layout_described H w0 h (Some lay).
  Hypothesis Empty : no_objects w0 h.
  Hypothesis Logged : s_log s <> None \/ known_extensions w0 h.

  Record content (l : list (str * str)) (w : node) : Prop := {
    ct_tree : tree w;
    ct_dir : look w h = Some EDir;
    ct_declared : root_declared w h v;
    ct_described : layout_described H w h (Some lay);
    ct_log : s_log s <> None \/ known_extensions w h;
    ct_free : forall q, q <> [] -> (List.length q <= k)%nat -> hd [] q <> `"extensions" -> ~ has_files w (h ++ q);
    ct_level : forall p id, In (p, id) l -> exists rel, p = J rel /\ level k rel;
    ct_objects : forall rel, object_root w h rel <-> Forall fname rel /\ rel <> [] /\ exists id, In (J rel, id) l;
    ct_ids : forall rel id, Forall fname rel -> rel <> [] -> In (J rel, id) l -> forall i, listed_as w (h ++ rel) i <-> i = id;
    ct_path : forall p id, In (p, id) l -> identifier_to_path H id_encode lay id = Ok p;
    ct_once : NoDup (map fst l) }.

  Lemma content_none : content [] w0.
  Proof.
    split; auto.
    - intros q Hq _ He (f & L & _). apply (Empty q Hq He). rewrite <- app_assoc in L. exact (look_above w0 (h ++ q) f [] ltac:(rewrite <- app_assoc; exact L)).
    - intros p id [].
    - intros rel. split; [|intros (_ & _ & ? & [])]. intros ((V1 & V2 & V3 & _) & _). now contradiction (Empty rel V1 V2).
    - intros rel id _ _ [].
    - intros p id [].
    - constructor.
  Qed.

  Lemma content_other l w w' : content l w -> tree w' -> (forall q, look w' (h ++ q) = look w (h ++ q)) -> content l w'.
  Proof.
    intros [A1 A2 A3 A4 A5 A6 A7 A8 A9 A11 A10] T S.
    assert (Lf : forall q, leaf w' (h ++ q) <-> leaf w (h ++ q)) by (intros q; unfold leaf; now rewrite S).
    assert (Hf : forall q, has_files w' (h ++ q) <-> has_files w (h ++ q)) by (intros q; unfold has_files; split; intros (f & L); exists f; rewrite <- app_assoc in *; now apply Lf).
    assert (Ob : forall rel, object_root w' h rel <-> object_root w h rel).
    { intros rel. unfold object_root, visited, single_declaration. rewrite S. split; intros ((V1 & V2 & V3 & V4) & (d & D1 & D2 & D3)); (split; [split; [exact V1|split; [exact V2|split; [exact V3|intros q c t E Hq X; apply (V4 q c t E Hq); now apply Hf]]]|]);
      exists d; (split; [exact D1|]); rewrite <- app_assoc in *; (split; [now apply Lf|]); intros t X; apply D3; rewrite <- app_assoc in *; now apply Lf. }
    split; auto.
    - pose proof (S []) as X. rewrite app_nil_r in X. now rewrite X.
    - apply (declared_kept w w' h); auto.
    - apply (described_kept H w w' h); auto.
    - destruct A5 as [A5|A5]; [now left|right]. apply (known_kept w w' h); auto.
    - intros q Hq Hl He X. apply (A6 q Hq Hl He). now apply Hf.
    - intros rel. rewrite Ob. apply A8.
    - intros rel id F N I i. rewrite <- (A9 rel id F N I i). unfold listed_as. rewrite <- !app_assoc, S. reflexivity.
  Qed.

  Lemma content_add l w od s' id rel : content l w -> no_url od -> single_declaration w (at_path (base_of (e_cwd e) od) od) -> level k rel ->
    result (add H id_encode e od s) w = Ok (s', Ok (id, J rel)) -> content (l ++ [(J rel, id)]) (after (add H id_encode e od s) w).
  Proof.
    intros [A1 A2 A3 A4 A5 A6 A7 A8 A9 A11 A10] Lo Sd Lv E.
    destruct (C48_exact H id_encode e s w r od A1 Local Lo Root Fresh s' id (J rel) E) as (B & T & N & C3 & C4 & C5 & C6 & C7).
    pose proof (proj1 (C48_when H id_encode e s w r od A1 Local Lo Root Fresh id (J rel)) (ex_intro _ s' E)) as (_ & _ & _ & P).
    destruct Lv as (Fr & Lr & He & H0). assert (Nr : rel <> []) by (intros ->; discriminate). set (w' := after (add H id_encode e od s) w) in *. set (src := at_path (base_of (e_cwd e) od) od) in *.
    fold h in B, N, C3, C4, C5, C7. assert (Fh : Forall fname h) by (eapply look_fnames; [exact A1|rewrite A2; discriminate]). assert (Ep : at_path h (J rel) = h ++ rel) by (now apply at_path_join).
    assert (Fd : findable w h rel).
    { split; [exact Nr|]. split; [exact He|]. intros q c t Eq Hq. apply A6; [exact Hq| |].
      - apply (f_equal (@List.length str)) in Eq. rewrite Lr, app_length in Eq. cbn in Eq. clear -Eq. change (list N) with str. lia.
      - destruct q as [|x q]; [congruence|]. rewrite Eq in He. exact He. }
    destruct (C68_found H id_encode e s w r od A1 Local Lo Root Fresh s' id (J rel) rel E Ep Fd Sd) as (O1 & O2 & O3). fold h w' in O1, O2, O3.
    pose proof (be_source _ _ _ _ _ _ _ _ _ B) as Hsrc. rewrite Ep in N, C3, C4, C5, C7.
    assert (Hh : forall c t, hd [] rel <> c -> look w' (h ++ c :: t) = look w (h ++ c :: t)).
    { intros c t Hc. destruct (look w (h ++ c :: t)) eqn:L; [rewrite C6 by (rewrite L; discriminate); exact L|]. apply (still_none w w' h rel C7 _ L).
      - intros u Eu. rewrite <- app_assoc in Eu. apply app_inv_head in Eu. destruct rel as [|x rel]; [congruence|]. injection Eu as Eu _. cbn in Hc. congruence.
      - intros u Eu. rewrite <- app_assoc in Eu. apply app_inv_head in Eu. destruct rel as [|x rel]; [congruence|]. injection Eu as Eu _. cbn in Hc. congruence. }
    split.
    - exact T.
    - rewrite C6; [exact A2|rewrite A2; discriminate].
    - apply (declared_kept w w' h); auto.
    - apply (described_kept H w w' h); auto. pose proof A4 as (b & _ & _ & _ & _ & L & _). apply C6. rewrite L. discriminate.
    - destruct A5 as [A5|A5]; [now left|right]. apply (known_kept w w' h); auto.
    - intros q Hq Hl Hx X. apply (new_files w w' h src rel Hsrc C3 C5 C6 C7) in X as [X|(t & f & b & Eq & _)]; [exact (A6 q Hq Hl Hx X)|].
      rewrite Eq, app_length, Lr in Hl. clear -Hl. lia.
    - intros p i I. apply in_app_or in I as [I|[I|[]]]; [eauto|]. injection I as <- <-. exists rel. repeat split; auto.
    - intros rel'. rewrite O1, A8. split.
      + intros [-> |(F & N' & i & I)]; [split; [exact Fr|split; [exact Nr|]]; exists id; apply in_or_app; right; now left|]. split; [exact F|]. split; [exact N'|]. exists i. apply in_or_app. now left.
      + intros (F & N' & i & I). apply in_app_or in I as [I|[I|[]]]; [right; eauto|left]. injection I as I _. symmetry. now apply J_inj.
    - intros rel' i F N' I j. apply in_app_or in I as [I|[I|[]]].
      + rewrite O3; [now apply A9|]. apply A8. eauto.
      + injection I as I <-. assert (X : rel = rel') by (now apply J_inj). rewrite <- X. apply O2.
    - intros p i I. apply in_app_or in I as [I|[I|[]]]; [eauto|]. injection I as <- <-. destruct (be_path _ _ _ _ _ _ _ _ _ B) as (l' & [Hu|(Hu & _)] & Hp).
      + pose proof (layout_fun _ _ _ _ _ Hu A4) as X. injection X as <-. exact Hp.
      + pose proof (layout_fun _ _ _ _ _ Hu A4) as X. discriminate.
    - rewrite map_app. cbn [map fst]. apply NoDup_app_iff. split; [exact A10|]. split; [constructor; [intros []|constructor]|]. intros x I [Ex|[]]. subst x. apply in_map_iff in I as ((p & i) & Ei & I). cbn in Ei. subst p.
      assert (O : object_root w h rel) by (apply A8; eauto). destruct O as ((_ & _ & O & _) & _). specialize (N []). rewrite app_nil_r, O in N. discriminate.
  Qed.

  Lemma filled_content l w : filled H id_encode e s h w0 k l w -> content l w.
  Proof.
    intros F. induction F as [|l w od s' id rel F IH Lo Sd Lv E|l w od s' x F IH Lo P E|l w w' F IH T S].
    - apply content_none.
    - eapply content_add; eauto.
    - rewrite (C48_failed H id_encode e s w r od (ct_tree _ _ IH) Local Lo Root Fresh s' x E P). exact IH.
    - now apply (content_other l w w').
  Qed.

  (** All the objects that were added, and nothing else, are in the list of objects, each once,
      with their identifiers; different objects have different identifiers. *)
  Theorem C69_exact : forall l w, filled H id_encode e s h w0 k l w ->
    (exists s' l', list_objects H e s w = ([], Ok (s', Ok l')) /\ Permutation l' l) /\
    NoDup (map fst l) /\ NoDup (map snd l) /\ (forall rel, object_root w h rel -> level k rel).
  Proof.
    intros l w F. pose proof (filled_content l w F) as C. pose proof C as [A1 A2 A3 A4 A5 A6 A7 A8 A9 A11 A10].
    assert (Ob : forall rel, object_root w h rel -> exists id, In (J rel, id) l /\ forall i, listed_as w (h ++ rel) i <-> i = id).
    { intros rel O. pose proof (proj1 (A8 rel) O) as (F1 & N & id & I). exists id. split; [exact I|]. now apply A9. }
    split; [|split; [exact A10|split]].
    - destruct (C67_partial H e w s r (conj Root Fresh) (conj A1 (conj Local A2))) as (s' & l' & E & N & I & _).
      + exists v, (Some lay). auto.
      + exact A5.
      + intros rel O. destruct (Ob rel O) as (id & _ & Hid). exists id. now apply Hid.
      + exists s', l'. split; [exact E|]. apply NoDup_Permutation; [now apply NoDup_map_inv in N|now apply NoDup_map_inv in A10|]. intros (p & id). rewrite I. split.
        * intros (rel & -> & O & Lid). destruct (Ob rel O) as (id' & I' & Hid). apply Hid in Lid. now subst.
        * intros I'. destruct (A7 p id I') as (rel & -> & Fr & Lr & _). assert (Nr : rel <> []) by (intros ->; discriminate). exists rel. split; [reflexivity|]. split; [apply A8; eauto|]. now apply (A9 rel id Fr Nr I').
    - clear -A10 A11. induction l as [|[p i] l IH]; [constructor|]. cbn [map fst snd] in *. inversion A10 as [|? ? X Y]; subst. constructor; [|apply IH; [intros q j Ij; apply A11; now right|exact Y]].
      intros I. apply in_map_iff in I as ((p' & i') & Ei & I). cbn in Ei. subst i'. apply X. apply in_map_iff. exists (p', i). split; [|exact I].
      pose proof (A11 p i (or_introl eq_refl)) as X1. pose proof (A11 p' i (or_intror I)) as X2. rewrite X1 in X2. apply Ok_inv in X2. cbn. congruence.
    - intros rel O. destruct (proj1 (A8 rel) O) as (F1 & N & id & I). destruct (A7 _ _ I) as (rel' & E' & L'). assert (X : rel = rel'); [|rewrite X; exact L'].
      apply J_inj; auto; [apply L'|]. intros X. destruct L' as (_ & L' & _). rewrite X in L'. discriminate.
  Qed.
End C69.
Print Assumptions C69_exact.

(** The paths of the layout 0003 with tuples, of nnnn-uuid-quadtree, and of 0002 for most
    identifiers are such paths. *)
Lemma path_J l p : path_of l p -> p = J l.
Proof. exact (fun E => E). Qed.
Lemma safe_fname c : safe_component c -> fname c.
Proof. intros (A & B & C & D). repeat split; auto. Qed.

Lemma hex_first (x : str) : (forall c, In c x -> is_lower_hex c = true) -> x <> `"extensions" /\ forall t : str, x <> `"0=" ++ t.
Proof.
  intros Hx. split.
  - intros ->. specialize (Hx 120%N). cbn in Hx. assert (is_lower_hex 120 = true) by (apply Hx; auto). discriminate.
  - intros t ->. specialize (Hx 61%N). cbn in Hx. assert (is_lower_hex 61 = true) by (apply Hx; auto). discriminate.
Qed.

Theorem C69_level_0003 : forall H enc a ts nt n id p, hash_ok H -> config_0003_ok a ts nt n -> (0 < nt)%Z -> id <> [] ->
  identifier_to_path H enc (L0003 a ts nt) id = Ok p -> exists rel, p = J rel /\ level (Z.to_nat nt) rel.
Proof.
  intros H enc a ts nt n id p Hok Hc Hnt Hid Hp. destruct (C05_shape H enc a ts nt n id p Hok Hc Hid Hp) as (b & tuples & en & _ & Ep & Hl & Ht & Hcc & _ & _ & Hs).
  exists (tuples ++ [en]). split; [now apply path_J|]. destruct tuples as [|x tuples]; [cbn in Hl; lia|].
  assert (X : x <> `"extensions" /\ forall t : str, x <> `"0=" ++ t).
  { destruct Hc as (Hlen & _ & Hts & _ & Hz & _). destruct (Hok a n b Hlen) as [_ Hhex]. rewrite Forall_forall in Hhex. assert (Hx : forall c, In c x -> is_lower_hex c = true).
    { intros c Ic. apply Hhex. assert (I2 : In c (concat (x :: tuples))) by (cbn; apply in_or_app; now left). rewrite Hcc in I2. now apply In_firstn in I2. }
    exact (hex_first x Hx). }
  split; [apply Forall_forall; intros c Ic; now apply safe_fname, Hs|]. split; [rewrite app_length, Hl; cbn; lia|]. exact X.
Qed.
Print Assumptions C69_level_0003.

Lemma quad_fname x : uuid_quad x -> fname x.
Proof.
  intros Hq. pose proof Hq as [Hl _]. apply quad_spec, quad_plain in Hq as [A B]. split; [exact A|]. split; [intros ->; discriminate|]. split; [intros ->; discriminate|exact B].
Qed.
Theorem C69_level_uuid : forall H enc prefix id p, identifier_to_path H enc (LUuid prefix) id = Ok p -> exists rel, p = J rel /\ level 7 rel.
Proof.
  intros H enc prefix id p Hp. destruct (C07_shape prefix id p Hp) as (q & u & nl & (a & b & c & d & e & f & g & hh & Eq & Fq & _) & _ & Ep & Hl & Hc & _).
  exists q. split; [now apply path_J|]. split; [apply Forall_forall; intros x Ix; rewrite Forall_forall in Fq; now apply quad_fname, Fq|]. split; [exact Hl|].
  rewrite Eq in *. cbn [hd]. inversion Fq as [|? ? [La Fa] _]; subst. split.
  - intros ->. cbn in La. discriminate.
  - intros t ->. inversion Fa as [|? ? _ Fa2]; subst. inversion Fa2 as [|? ? [Hd|Hd] _]; subst; [vm_compute in Hd; discriminate|clear -Hd; lia].
Qed.
Print Assumptions C69_level_uuid.

Theorem C69_level_flat : forall H enc id p, identifier_to_path H enc L0002 id = Ok p -> id <> `"extensions" -> (forall t, id <> `"0=" ++ t) -> exists rel, p = J rel /\ level 0 rel.
Proof.
  intros H enc id p Hp He H0. change (flat_direct_path id = Ok p) in Hp. pose proof (C04_flat_direct id) as [A B].
  assert (S : safe_component id).
  { unfold flat_direct_path in Hp. destruct (str_in_spec id [[]; `"."; `".."]) as [I|I]; [discriminate|]. cbn [orb] in Hp. match type of Hp with context [char_in ?x id] => destruct (char_in_spec x id) as [J1|J1] end; [discriminate|].
    cbn [In] in I. split; [|split; [|split]]; [intros X; apply I; auto|intros X; apply I; auto|intros X; apply I; auto|exact J1]. }
  rewrite (A S) in Hp. apply Ok_inv in Hp. subst p. exists [id]. split; [reflexivity|]. split; [constructor; [now apply safe_fname|constructor]|]. cbn. auto.
Qed.
Print Assumptions C69_level_flat.

(** A storage root made by initialize, with the layout 0003 and tuples, and filled: every
    object that was added is listed. (The object itself has to have one declaration.) *)
Inductive stored (H : hashfn) (id_encode : str -> str) (e : env) (s : sroot) (h : place) (w0 : node) : list (str * str) -> node -> Prop :=
| stored_none : stored H id_encode e s h w0 [] w0
| stored_add l w od s' id path : stored H id_encode e s h w0 l w -> no_url od -> single_declaration w (at_path (base_of (e_cwd e) od) od) ->
    result (add H id_encode e od s) w = Ok (s', Ok (id, path)) -> stored H id_encode e s h w0 (l ++ [(path, id)]) (after (add H id_encode e od s) w)
| stored_failed l w od s' x : stored H id_encode e s h w0 l w -> no_url od -> plain w (at_path (base_of (e_cwd e) od) od) ->
    result (add H id_encode e od s) w = Ok (s', Raise x) -> stored H id_encode e s h w0 l (after (add H id_encode e od s) w)
| stored_other l w w' : stored H id_encode e s h w0 l w -> tree w' -> (forall q, look w' (h ++ q) = look w (h ++ q)) -> stored H id_encode e s h w0 l w'.

Lemma identified_id w p id : identified w p id -> id <> [].
Proof. intros (b & d & _ & J & ((f & ((Hm & Hn) & _)) & _) & M). pose proof (json_load_cases b) as Hw. rewrite J in Hw. pose proof (member_fun _ _ _ _ Hw M Hm) as X. injection X as ->. exact Hn. Qed.

Section Store.
  Variables (H : hashfn) (id_encode : str -> str) (e : env) (spec params : option str) (s1 s1' s : sroot) (w : node) (r a : str) (ts nt : Z) (n : nat).
  Let h := at_path (base_of (e_cwd e) r) r.
  Let w0 := after (initialize H e spec params s1) w.
  Hypothesis Hash : hash_ok H.
  Hypothesis Tree : tree w.
  Hypothesis Cwd : Forall fname (e_cwd e).
  Hypothesis Local : no_url r.
  (** the storage root is made, by an instance *)
  Hypothesis Root1 : s_root s1 = Some r.
  Hypothesis Fresh1 : s_layout s1 = None.
  Hypothesis Made : result (initialize H e spec params s1) w = Ok (s1', Ok tt).
  Hypothesis Layout : s_layout s1' = Some (L0003 a ts nt).
  Hypothesis Config : config_0003_ok a ts nt n.
  Hypothesis Tuples : (0 < nt)%Z.
  (** and used, by others *)
  Hypothesis Root : s_root s = Some r.
  Hypothesis Fresh : s_layout s = None.
  Hypothesis Version : s_spec s = None \/ s_spec s = s_spec s1'.

  Lemma made : exists v, tree w0 /\ look w0 h = Some EDir /\ root_declared w0 h v /\ s_spec s1' = Some v /\ layout_described H w0 h (Some (L0003 a ts nt)) /\ no_objects w0 h /\ known_extensions w0 h.
  Proof.
    destruct (C10_structure H e spec params s1 w r Hash Tree Cwd Local Root1 Fresh1 s1' Made) as (v & S & T & Hh & D & L); [rewrite Layout; discriminate|rewrite Layout; exact I|].
    fold h w0 in T, Hh, D, L. rewrite Layout in Hh, L. exists v. split; [exact T|]. split; [apply Hh|]. split; [exact D|]. split; [exact S|]. split; [exact L|].
    assert (Only : forall q x, look w0 (h ++ q) = Some EDir -> q = x -> q <> [] -> exists y b, In (q ++ y, b) (root_files v (Some (L0003 a ts nt))) /\ y <> []).
    { intros q x Lq _ Hq. destruct (hl_only _ _ _ Hh q EDir Hq Lq) as (y & b & Hi). exists y, b. split; [exact Hi|]. intros ->. rewrite app_nil_r in Hi. apply (hl_files _ _ _ Hh) in Hi. rewrite Lq in Hi. discriminate. }
    split.
    - intros q Hq He Lq. destruct (Only q q Lq eq_refl Hq) as (y & b & Hi & Hy). cbn [root_files layout_config In] in Hi.
      destruct q as [|c q]; [congruence|]. destruct Hi as [Hi|[Hi|[Hi|[]]]]; apply (f_equal fst) in Hi; cbn [fst app] in Hi; injection Hi as Hc Hr.
      + symmetry in Hr. apply app_eq_nil in Hr as [_ Hr]. exact (Hy Hr).
      + symmetry in Hr. apply app_eq_nil in Hr as [_ Hr]. exact (Hy Hr).
      + apply He. cbn. symmetry. exact Hc.
    - intros k Lk. destruct (Only _ _ Lk eq_refl ltac:(discriminate)) as (y & b & Hi & Hy). cbn [root_files layout_config In] in Hi.
      destruct Hi as [Hi|[Hi|[Hi|[]]]]; apply (f_equal fst) in Hi; cbn [fst app] in Hi; try discriminate. apply (f_equal (fun l => hd [] (tl l))) in Hi. cbn [hd tl] in Hi. right. left. exact Hi.
  Qed.

  Theorem C69_stored : forall l w', stored H id_encode e s h w0 l w' ->
    (exists s' l', list_objects H e s w' = ([], Ok (s', Ok l')) /\ Permutation l' l) /\ NoDup (map fst l) /\ NoDup (map snd l).
  Proof.
    intros l w' St. destruct made as (v & T & Dr & D & S & L & No & Kn). assert (V : s_spec s = None \/ s_spec s = Some v) by (rewrite <- S; exact Version).
    assert (F : filled H id_encode e s h w0 (Z.to_nat nt) l w').
    { induction St as [|l w' od s' id path F IH Lo Sd E|l w' od s' x F IH Lo P E|l w' w2 F IH T2 S2].
      - constructor.
      - pose proof (filled_content H id_encode e s w0 r (Z.to_nat nt) v (L0003 a ts nt) Local Root Fresh T Dr D L No (or_intror Kn) l w' IH) as C.
        pose proof (ct_tree _ _ _ _ _ _ _ _ _ _ C) as T'. pose proof (ct_described _ _ _ _ _ _ _ _ _ _ C) as L'.
        pose proof (proj1 (C48_when H id_encode e s w' r od T' Local Lo Root Fresh id path) (ex_intro _ s' E)) as (B & _).
        assert (Hp : identifier_to_path H id_encode (L0003 a ts nt) id = Ok path).
        { destruct (be_path _ _ _ _ _ _ _ _ _ B) as (l' & [Hu|(Hu & _)] & Hp); pose proof (layout_fun _ _ _ _ _ Hu L') as X; [injection X as X; rewrite X in Hp; exact Hp|discriminate]. }
        destruct (C69_level_0003 H id_encode a ts nt n id path Hash Config Tuples (identified_id _ _ _ (be_id _ _ _ _ _ _ _ _ _ B)) Hp) as (rel & Er & Lv). rewrite Er in *.
        eapply filled_add; eauto.
      - eapply filled_failed; eauto.
      - eapply filled_other; eauto. }
    destruct (C69_exact H id_encode e s w0 r (Z.to_nat nt) v (L0003 a ts nt) Local Root Fresh T Dr D V L No (or_intror Kn) l w' F) as (A & B & C & _). auto.
  Qed.
End Store.
Print Assumptions C69_stored.

(** The example: two objects in a new storage root *)
Definition ex_store_disk : node := Dir [(`"o1", ex_new_object (`"info:b")); (`"o2", ex_new_object (`"info:c"))].
Definition ex_store_new : sroot := set_layout_name (Some (`"0003")) ex_sroot.
Definition ex_store : node := after (initialize toy_hash ex_env None None ex_store_new) ex_store_disk.
Lemma ex_declared w o d : tree w -> get w [o] = Ok (Dir d) -> nodup_b (keys d) = true -> 
  forallb (fun k => negb (startswith (`"0=") k) || str_eqb k (`"0=ocfl_object_1.1")) (keys d) = true ->
  match dget (`"0=ocfl_object_1.1") d with Some (File _) => true | _ => false end = true -> single_declaration w [o].
Proof.
  intros T G _ A B. exists (`"0=ocfl_object_1.1"). split; [exists (`"1.1"), []; split; [right; now left|split; [reflexivity|exact I]]|].
  assert (L : forall k, look w ([o] ++ [k]) = match dget k d with Some n => Some (match n with File b => EFile b | Dir _ => EDir | Other => EOther end) | None => None end).
  { intros k. unfold look. assert (Eg : get w ([o] ++ [k]) = match dget k d with Some n => Ok n | None => Raise FileNotFoundError end).
    { cbn [app] in *. cbn [get] in *. destruct w as [|d0|]; try discriminate. destruct (dget o d0) as [m|]; [|discriminate]. apply Ok_inv in G. subst m. cbn [get]. destruct (dget k d); reflexivity. }
    rewrite Eg. destruct (dget k d) as [[]|]; reflexivity. }
  split.
  - split; rewrite L; destruct (dget (`"0=ocfl_object_1.1") d) as [[]|]; discriminate.
  - intros t [Lt _]. rewrite L in Lt. destruct (dget (`"0=" ++ t) d) as [m|] eqn:E; [|congruence]. apply dget_In in E. rewrite forallb_forall in A.
    assert (X : In (`"0=" ++ t) (keys d)) by (apply in_map_iff; exists (`"0=" ++ t, m); auto). apply A in X. apply orb_prop in X as [X|X]; [|now apply str_eqb_eq].
    exfalso. cbn in X. discriminate.
Qed.
Example C69_ex : exists w2, stored toy_hash (fun i => i) ex_env ex_sroot [`"r"] ex_store
    [(`"623/a6f/666/info%3ab", `"info:b"); (`"633/a6f/666/info%3ac", `"info:c")] w2 /\
  returned (list_objects toy_hash ex_env ex_sroot w2) = Ok [(`"623/a6f/666/info%3ab", `"info:b"); (`"633/a6f/666/info%3ac", `"info:c")].
Proof.
  assert (T : tree ex_store) by (apply tree_b_ok; vm_compute; reflexivity).
  set (w1 := after (ex_add (`"o1")) ex_store). assert (T1 : tree w1) by (apply tree_b_ok; vm_compute; reflexivity).
  exists (after (ex_add (`"o2")) w1). split; [|vm_compute; reflexivity].
  eapply (stored_add _ _ _ _ _ _ [(`"623/a6f/666/info%3ab", `"info:b")] w1).
  - eapply (stored_add _ _ _ _ _ _ [] ex_store (`"o1")); [constructor|apply no_url_b_ok; reflexivity| |vm_compute; reflexivity].
    eapply (ex_declared ex_store (`"o1")); [exact T|vm_compute; reflexivity|vm_compute; reflexivity|vm_compute; reflexivity|vm_compute; reflexivity].
  - apply no_url_b_ok. reflexivity.
  - eapply (ex_declared w1 (`"o2")); [exact T1|vm_compute; reflexivity|vm_compute; reflexivity|vm_compute; reflexivity|vm_compute; reflexivity].
  - vm_compute. reflexivity.
Qed.
Example C69_stored_ex : tree ex_store_disk /\ exists s', result (initialize toy_hash ex_env None None ex_store_new) ex_store_disk = Ok (s', Ok tt) /\ s_layout s' = Some (L0003 (`"sha256") 3 3) /\
  config_0003_ok (`"sha256") 3 3 64.
Proof. split; [apply tree_b_ok; vm_compute; reflexivity|]. eexists. split; [vm_compute; reflexivity|]. split; [reflexivity|exact default_0003_ok]. Qed.

(** With the layout 0002 the object "0=x" (or with any other text) is taken for a declaration
    of the storage root, which cannot be used any more. *)
Theorem C69_declaration_refuted : exists w s' path, tree w /\ is_true (snd (validate_opened toy_hash (Properties_Validator.ex_conf true) w [`"o1"] 0)) = true /\
  result (ex_add (`"o1")) w = Ok (s', Ok (`"0=x", path)) /\ (exists l, returned (list_objects toy_hash ex_env ex_sroot w) = Ok l) /\
  exists c, returned (list_objects toy_hash ex_env ex_sroot (after (ex_add (`"o1")) w)) = Raise (StorageRootException c).
Proof.
  exists (ex_both (ex_root [ex_layout_named (`"0002-flat-direct-storage-layout")]) [(`"o1", ex_new_object (`"0=x"))]).
  eexists _, _. split; [apply tree_b_ok; vm_compute; reflexivity|]. split; [vm_compute; reflexivity|]. split; [vm_compute; reflexivity|]. split; [eexists; vm_compute; reflexivity|eexists; vm_compute; reflexivity].
Qed.
Print Assumptions C69_declaration_refuted.
