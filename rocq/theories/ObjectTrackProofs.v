(** What holds of an object after any number of updates (C34-C36, C39-C41, C45, C46). *)
From Coq Require Import Permutation Sorted.
From Verif Require Import Base Unicode Regex Utf8 Json PyJson JsonTextModel JsonTextSpec JsonTextProofs JsonFileProofs Log DigestModel LayoutModel LayoutProofs
  ObjectUtilsModel ObjectUtilsProofs InventorySpec InventoryValidatorModel InventoryValidatorProofs InventoryRulesProofs
  InventoryModel InventoryOpsSpec InventoryOpsProofs NewVersionModel NewVersionProofs NewVersionOpsProofs VersionNumberProofs InventoryParseProofs ParseModel
  ContentPathProofs TextFile PathModel FsModel FsSpec FsProofs FswModel FswSpec FswProofs FswCopyProofs ValidatorSpec ValidatorBasicProofs ObjectModel ObjectSpec ObjectInvProofs ObjectRulesProofs
  ObjectParseProofs ObjectAddProofs ContentNameProofs ObjectGrowProofs ObjectStartProofs ObjectCopyProofs ObjectWriteProofs ObjectSourceProofs ObjectFactsProofs NamasteSpec ValidatorVersionProofs ObjectMadeProofs ObjectIntactProofs ObjectExtendProofs FsStepProofs NamasteModel NamasteProofs ObjectStoreProofs ObjectCreateProofs ValidatorModel ValidatorIntactProofs ObjectUpdateProofs ObjectNextProofs ObjectDigestProofs ObjectVersionProofs ObjectExtractProofs.


(** * Objects and the files of their versions *)

Section History.
  Variables (H : hashfn) (h : place) (sd : str) (P : object -> Prop).
  Local Notation uniform := (uniform P).
  Local Notation collision_free := (collision_free H P).
  Local Notation history := (history H h sd P).
  Local Notation same_listing := (same_listing H).

  (** What is known then *)
  Record tracked (w : node) (l : list (list (place * bytes))) (alg spec : nat -> str) (ivs : nat -> inventory) (C : list (place * bytes)) : Prop := {
    tr_made : made H w h sd (List.length l) alg spec ivs C;
    tr_alg : forall k, (1 <= k <= List.length l)%nat -> exists c, P c /\ alg k = o_alg c;
    tr_spec : sd = `"1.1" \/ List.length l = 1%nat -> no_later (spec (List.length l)) sd;
    tr_later : forall k, (2 <= k <= List.length l)%nat -> spec k = `"1.1";
    tr_first : spec 1%nat = sd;
    tr_full : forall k, (1 <= k <= List.length l)%nat -> full (ivs k);
    tr_cdir : forall c, P c -> content_directory_to_use (ivs (List.length l)) <> side_name (o_alg c);
    tr_files : forall k F, nth_error l k = Some F -> same_files H (ivs (S k)) (alg (S k)) (vn (S k)) F;
    tr_names : forall F r b, In F l -> In (r, b) F -> r <> [] /\ Forall fname r;
    tr_nodup : forall F, In F l -> NoDup (map fst F);
    tr_content : forall r b, In (r, b) C -> exists F es, In F l /\ In (es, b) F;
    tr_once : (forall c, P c -> o_dedupe c = true /\ o_forward_delta c = true) ->
      forall d p p', stored (ivs (List.length l)) d p -> stored (ivs (List.length l)) d p' -> p = p';
    tr_per_version : (forall c, P c -> o_dedupe c = true) ->
      forall d v r r', stored (ivs (List.length l)) d (J (v :: r)) -> stored (ivs (List.length l)) d (J (v :: r')) -> Forall fname (v :: r) -> Forall fname (v :: r') -> r = r'
  }.

  Lemma made_elsewhere h0 w w' n alg spec ivs C : made H w h0 sd n alg spec ivs C -> tree w' -> (forall y, look w' (h ++ y) = look w (h0 ++ y)) ->
    made H w' h sd n alg spec ivs C.
  Proof using.
    intros M T E. destruct M as [a1 a2 [x1 x2 x3] a4 a5 a6 a7 a8 a9 a10 a11 a12 a13 a14 a15 a16 a17 a18 a19]. 
    assert (Hh : look w' h = Some EDir) by (specialize (E []); rewrite !app_nil_r in E; rewrite E; exact x1).
    assert (Fh : Forall fname h) by (eapply look_fnames; [exact T|rewrite Hh; discriminate]). constructor; auto. constructor.
    - specialize (E []). rewrite !app_nil_r in E. congruence.
    - intros r b Hi. rewrite E. auto.
    - intros r en Hr. rewrite E. now apply x3.
  Qed.

  Lemma files_unique w src F F' : files_at w src F -> files_at w src F' -> forall x, In x F <-> In x F'.
  Proof using. intros [_ A] [_ B] [es b]. now rewrite A, B. Qed.
  Lemma same_files_ext i a v F F' : (forall x, In x F <-> In x F') -> same_files H i a v F -> same_files H i a v F'.
  Proof using. intros E S d p. rewrite (S d p). split; intros (es & b & Hi & R); exists es, b; (split; [now apply E|auto]). Qed.

  Lemma copy_once alg spec n i0 norm fd dd old F nv d c c' : growing H alg spec n i0 norm fd dd old F nv -> dd = true ->
    (exists es b, In (es, b) F /\ In (J es, c) (nv_copy nv) /\ d = H alg b) -> (exists es b, In (es, b) F /\ In (J es, c') (nv_copy nv) /\ d = H alg b) -> c = c'.
  Proof using.
    intros G Hd (es & b & H1 & H2 & ->) (es' & b' & H3 & H4 & E). assert (es = es') by exact (gw_dedupe _ _ _ _ _ _ _ _ _ _ _ G Hd es b c es' b' c' H1 H3 H2 H4 E). subst es'.
    pose proof (gw_keys _ _ _ _ _ _ _ _ _ _ _ G) as Nk. pose proof (In_dget _ _ _ Nk H2) as E1. pose proof (In_dget _ _ _ Nk H4) as E2. congruence.
  Qed.
  Lemma copy_below alg spec n i0 norm fd dd old F nv d c : growing H alg spec n i0 norm fd dd old F nv -> fname (content_directory_to_use i0) ->
    (exists es b, In (es, b) F /\ In (J es, c) (nv_copy nv) /\ d = H alg b) -> exists r, c = J (vn n :: r) /\ Forall fname r.
  Proof using.
    intros G Hc (es & b & H1 & H2 & _). destruct (gw_copy _ _ _ _ _ _ _ _ _ _ _ G _ _ H2) as (_ & _ & r & _ & _ & -> & _ & _ & Hr). exists (content_directory_to_use i0 :: r). split; [reflexivity|].
    constructor; [auto|]. eapply Forall_impl; [|exact Hr]. intros q Hq. apply Hq.
  Qed.

  Lemma tracked_some w l alg spec ivs C : tracked w l alg spec ivs C -> (1 <= List.length l)%nat.
  Proof using. intros T. exact (md_some _ _ _ _ _ _ _ _ _ (tr_made _ _ _ _ _ _ T)). Qed.
  Lemma tracked_distinct w l alg spec ivs C c : tracked w l alg spec ivs C -> collision_free l -> P c -> distinct H (o_alg c) C.
  Proof using.
    intros T CF Pc r b r' b' H1 H2. destruct (tr_content _ _ _ _ _ _ T r b H1) as (F & es & A1 & A2). destruct (tr_content _ _ _ _ _ _ T r' b' H2) as (F' & es' & B1 & B2).
    exact (CF c F F' es b es' b' Pc A1 B1 A2 B2).
  Qed.
  Lemma content_unique w l alg spec ivs C r b b' : tracked w l alg spec ivs C -> In (r, b) C -> In (r, b') C -> b = b'.
  Proof using.
    intros T H1 H2. pose proof (tr_made _ _ _ _ _ _ T) as M. assert (A : forall x, In (r, x) C -> look w (h ++ r) = Some (EFile x)).
    { intros x Hx. apply (hl_files _ _ _ (md_holds _ _ _ _ _ _ _ _ _ M)). unfold object_files. rewrite !in_app_iff. auto. }
    apply A in H1, H2. congruence.
  Qed.
  Lemma stored_of i alg0 s n v d p : sound alg0 s n i -> in_state i v d p -> exists c, stored i d c.
  Proof using.
    intros So (vs & b & st & l & Hvs & Hb & Hst & Hd & Hp). destruct (so_blocks _ _ _ _ So _ _ _ Hvs Hb) as (_ & st' & E & G). rewrite Hst in E. apply Some_inv in E. subst st'.
    destruct (so_manifest _ _ _ _ So) as [m Hm]. destruct (sg_digests _ _ _ G d l Hd) as (c & cs & Hc).
    exists c, m, (c :: cs). unfold manifest in Hc. rewrite Hm in Hc. split; [auto|]. split; [exact Hc|now left].
  Qed.

  (** ** The inventory for the next version *)

  Record base (w : node) (n : nat) (alg spec : nat -> str) (ivs : nat -> inventory) (C : list (place * bytes)) (c : object) (i1 : inventory) : Prop := {
    ba_start : start_inventory_change H (Some (o_alg c)) (o_fixity c) w h (sort_inv (ivs n)) = Ok (i1, Some (alg n));
    ba_based : based H n alg ivs C (o_alg c) i1;
    ba_sound : sound (o_alg c) (spec n) n i1;
    ba_full : full i1;
    ba_stored : forall d p p', stored i1 d p -> stored i1 d p' -> exists d0, stored (ivs n) d0 p /\ stored (ivs n) d0 p';
    ba_state : forall F v, same_files H (ivs n) (alg n) v F -> (alg n = o_alg c \/ forall r b es b', In (r, b) C -> In (es, b') F -> H (alg n) b = H (alg n) b' -> b = b') ->
      same_files H i1 (o_alg c) v F
  }.
  Lemma base_exists w l alg spec ivs C c : hash_ok H -> tracked w l alg spec ivs C -> P c -> In (o_alg c) [`"sha512"; `"sha256"] -> uniform \/ collision_free l ->
    exists i1, base w (List.length l) alg spec ivs C c i1.
  Proof using.
    intros HH T Pc Hac Hun. pose proof (tr_made _ _ _ _ _ _ T) as M. pose proof (tracked_some _ _ _ _ _ _ T) as Hn. set (n := List.length l) in *.
    pose proof (md_head _ _ _ _ _ _ _ _ _ M) as So0. pose proof (sound_sorted _ _ _ _ So0) as So.
    pose proof (tr_full _ _ _ _ _ _ T n ltac:(lia)) as Fu. destruct (tr_alg _ _ _ _ _ _ T n ltac:(lia)) as (cn & Pn & En).
    destruct (str_eqb_spec (o_alg c) (alg n)) as [Ea|Ne].
    - exists (kept (o_fixity c) (sort_inv (ivs n))). constructor.
      + rewrite Ea. apply start_same; [exact (so_alg _ _ _ _ So)|auto|exact (so_manifest _ _ _ _ So)].
      + rewrite Ea. eapply kept_based; eauto.
      + rewrite Ea. now apply sound_kept.
      + now apply full_kept, full_sorted.
      + assert (St : forall d p, stored (kept (o_fixity c) (sort_inv (ivs n))) d p <-> stored (ivs n) d p).
        { intros d p. rewrite <- (stored_sorted (ivs n)). unfold stored. destruct (kept_fields (o_fixity c) (sort_inv (ivs n))) as (_ & _ & _ & _ & _ & E6 & _). now rewrite E6. }
        intros d p p' H1 H2. exists d. split; now apply St.
      + intros F v Sf _ d p. rewrite kept_state, Ea. apply Sf.
    - assert (CF : collision_free l). { destruct Hun as [Hun|CF]; [|exact CF]. exfalso. apply Ne. rewrite En. now apply Hun. }
      assert (D1 : distinct H (alg n) C) by (rewrite En; eapply tracked_distinct; eauto). assert (D2 : distinct H (o_alg c) C) by (eapply tracked_distinct; eauto).
      exists (changed (fnew H w h n ivs (o_alg c)) (o_alg c) (fixity_after (alg n) (o_fixity c) (sort_inv (ivs n))) (sort_inv (ivs n))). constructor.
      + eapply change_ok; eauto.
      + eapply changed_based; eauto. exact (tr_full _ _ _ _ _ _ T).
      + eapply changed_sound; eauto.
      + eapply changed_full; eauto.
      + intros d p p' H1 H2. apply changed_stored in H1; [|exact (so_manifest _ _ _ _ So)]. apply changed_stored in H2; [|exact (so_manifest _ _ _ _ So)].
        destruct H1 as (d1 & E1 & H1), H2 as (d2 & E2 & H2). assert (d1 = d2).
        { assert (K : forall d p, stored (sort_inv (ivs n)) d p -> In d (keys (manifest (sort_inv (ivs n))))).
          { intros d0 p0 Hs. apply stored_iff in Hs as (l0 & Hs & _). apply in_map_iff. exists (d0, l0). auto. }
          apply (fnew_inj H w h sd n alg spec ivs C (o_alg c)); eauto. congruence. }
        subst d2. exists d1. split; now apply stored_sorted.
      + intros F v Sf Hc d p. rewrite changed_state by (eapply some_states; eauto).
        destruct Hc as [Hc|Hc]; [congruence|].
        assert (Q : forall es b, In (es, b) F -> in_state (sort_inv (ivs n)) v (H (alg n) b) (J es) -> fnew H w h n ivs (o_alg c) (H (alg n) b) = H (o_alg c) b).
        { intros es b Hi Hs. destruct (stored_of _ _ _ _ _ _ _ So Hs) as [cc Hcc]. destruct (stored_content H w h sd n alg spec ivs C (o_alg c) HH M Hac _ _ Hcc) as (r & b' & A1 & A2 & A3 & _).
          rewrite (fnew_content H w h sd n alg spec ivs C (o_alg c) HH M Hac D1 Fu _ cc r b' Hcc A2 A1). f_equal. exact (Hc r b' es b A1 Hi (eq_sym A3)). }
        split.
        * intros (d0 & -> & Hs). pose proof (proj1 (in_state_sorted _ _ _ _) Hs) as Hs'. apply Sf in Hs' as (es & b & Hi & -> & ->). exists es, b. split; [auto|]. split; [auto|]. now apply (Q es).
        * intros (es & b & Hi & -> & ->). assert (Hs : in_state (sort_inv (ivs n)) v (H (alg n) b) (J es)) by (apply in_state_sorted, Sf; eauto). exists (H (alg n) b). split; [symmetry; now apply (Q es)|auto].
  Qed.

  (** ** Every update keeps track *)

  Lemma listing_files i a v F F' : (forall r b, In (r, b) F -> r <> [] /\ Forall fname r) -> (forall r b, In (r, b) F' -> r <> [] /\ Forall fname r) ->
    same_files H i a v F' -> (same_files H i a v F <-> same_listing a F F').
  Proof using.
    intros N1 N2 S'. split.
    - intros S es d. split; intros (b & Hi & E).
      + assert (Q : in_state i v d (J es)) by (apply S; eauto). apply S' in Q as (es' & b' & Q1 & Q2 & Q3). destruct (N1 _ _ Hi), (N2 _ _ Q1). apply names_join_inj in Q2; auto. subst es'. eauto.
      + assert (Q : in_state i v d (J es)) by (apply S'; eauto). apply S in Q as (es' & b' & Q1 & Q2 & Q3). destruct (N2 _ _ Hi), (N1 _ _ Q1). apply names_join_inj in Q2; auto. subst es'. eauto.
    - intros L d p. rewrite (S' d p). split; intros (es & b & Hi & -> & E).
      + destruct (proj2 (L es d)) as (b' & A & B); [eauto|]. eauto.
      + destruct (proj1 (L es d)) as (b' & A & B); [eauto|]. eauto.
  Qed.

  (** One more version; the object is tracked where it would be if it were complete. *)
  Lemma track_next c w w' l alg spec ivs C i1 sp1 bk i0 norm fd dd old F F' nv K : tracked w l alg spec ivs C -> P c -> let n := List.length l in
    (dd = o_dedupe c /\ fd = o_forward_delta c) -> sound (o_alg c) sp1 n i1 -> full i1 ->
    (forall d p p', stored i1 d p -> stored i1 d p' -> exists d0, stored (ivs n) d0 p /\ stored (ivs n) d0 p') ->
    next_facts (o_alg c) n i1 [] bk i0 -> growing H (o_alg c) (`"1.1") (S n) i0 norm fd dd old F' nv ->
    copied norm (vn (S n)) (content_directory_to_use i0) F' (nv_copy nv) K -> (forall x, In x F' <-> In x F) -> NoDup (map fst F) ->
    (forall r b, In (r, b) F -> r <> [] /\ Forall fname r) ->
    made H w' h sd (S n) (upd alg (S n) (o_alg c)) (upd spec (S n) (`"1.1")) (upd ivs (S n) (nv_inv nv)) (C ++ map snd K) ->
    tracked w' (l ++ [F]) (upd alg (S n) (o_alg c)) (upd spec (S n) (`"1.1")) (upd ivs (S n) (nv_inv nv)) (C ++ map snd K).
  Proof using.
    intros T Pc n [-> ->] So Fu1 St1 Nf G Kc EF NdF NF M'. pose proof (tracked_some _ _ _ _ _ _ T) as Hn1. fold n in Hn1.
    assert (El : List.length (l ++ [F]) = S n) by (rewrite app_length; cbn; unfold n; lia).
    assert (Old : forall d p, stored i0 d p <-> stored i1 d p) by (intros d p; unfold stored; now rewrite (nf_manifest _ _ _ _ _ _ Nf)).
    assert (OldV : forall d p, stored i1 d p -> exists v r, In v (names None n) /\ p = J (v :: r) /\ Forall fname (v :: r)).
    { intros d p Hs. apply stored_iff in Hs. assert (Hp : In p (paths_of (manifest i1))) by (apply In_paths_of; eauto).
      destruct (so_content _ _ _ _ So p Hp) as (v & r & Hv & _ & Hf & _ & ->). exists v, (content_directory_to_use i1 :: r). split; [auto|]. split; [auto|].
      constructor; [eapply names_fname; eauto|]. constructor; [apply So|auto]. }
    assert (Fcd : fname (content_directory_to_use i0)) by exact (proj1 (so_cdir _ _ _ _ (nf_sound _ _ _ _ _ _ Nf))).
    assert (OldNew : forall d d' v r r', stored i1 d (J (v :: r)) -> Forall fname (v :: r) -> (exists es b, In (es, b) F' /\ In (J es, J (v :: r')) (nv_copy nv) /\ d' = H (o_alg c) b) -> Forall fname (v :: r') -> False).
    { intros d d' v r r' Hs F1 Hnew F2. destruct (OldV _ _ Hs) as (v1 & r1 & Hv & E1 & Fv). destruct (copy_below _ _ _ _ _ _ _ _ _ _ _ _ G Fcd Hnew) as (r2 & E2 & F3).
      apply names_join_inj in E1; auto; try discriminate. apply names_join_inj in E2; auto; try discriminate; [|constructor; [apply vn_fname|auto]].
      apply (f_equal (hd [])) in E1, E2. cbn [hd] in E1, E2. subst v1. apply In_vn in Hv as (k & Hk & E). rewrite E in E2. apply vn_inj in E2. lia. }
    pose proof (md_cdir _ _ _ _ _ _ _ _ _ M' n ltac:(lia)) as Ecd. rewrite upd_same, upd_other in Ecd by lia.
    constructor; rewrite ?El, ?upd_same; auto.
    - intros k Hk. destruct (Nat.eq_dec k (S n)) as [->|Hne]; [exists c; now rewrite upd_same|]. rewrite upd_other by auto. apply (tr_alg _ _ _ _ _ _ T). lia.
    - intros [->|?]; [now left|lia].
    - intros k Hk. destruct (Nat.eq_dec k (S n)) as [->|Hne]; [now rewrite upd_same|]. rewrite upd_other by auto. apply (tr_later _ _ _ _ _ _ T). lia.
    - rewrite upd_other by lia. exact (tr_first _ _ _ _ _ _ T).
    - intros k Hk. destruct (Nat.eq_dec k (S n)) as [->|Hne]; [|rewrite upd_other by auto; apply (tr_full _ _ _ _ _ _ T); lia]. rewrite upd_same. apply (gw_full _ _ _ _ _ _ _ _ _ _ _ G).
      eapply full_next; [exact Nf| |exact Fu1]. destruct (so_versions _ _ _ _ So) as (vs & Hv & _). eauto.
    - intros c' Pc'. unfold content_directory_to_use. rewrite <- Ecd. exact (tr_cdir _ _ _ _ _ _ T c' Pc').
    - intros k F0 E. destruct (Nat.eq_dec k n) as [->|Hne].
      + rewrite !upd_same. rewrite nth_error_app2 in E by (unfold n; lia). replace (n - List.length l)%nat with 0%nat in E by (unfold n; lia). cbn in E. apply Some_inv in E. subst F0.
        apply (same_files_ext _ _ _ _ _ EF). intros d p. rewrite (gw_state _ _ _ _ _ _ _ _ _ _ _ G), (nf_state _ _ _ _ _ _ Nf). split.
        * intros [[Hs|(_ & l0 & [] & _)]|(_ & Hs)]; auto. exfalso. assert (V : is_version i1 (vn (S n))) by (destruct Hs as (vs & b & st & l0 & ? & ? & _); exists vs, b; auto).
          apply (sound_is_version _ _ _ _ _ So), In_vn in V as (k & Hk & Ek). apply vn_inj in Ek. lia.
        * intros Hs. right. split; [reflexivity|auto].
      + assert (Hk : (k < List.length (l ++ [F]))%nat) by (apply nth_error_Some; congruence). rewrite El in Hk. rewrite nth_error_app1 in E by (fold n; lia). rewrite !upd_other by lia. exact (tr_files _ _ _ _ _ _ T k F0 E).
    - intros F0 r b Hi0 Hb. apply in_app_or in Hi0 as [Hi0|[<-|[]]]; [exact (tr_names _ _ _ _ _ _ T F0 r b Hi0 Hb)|]. eauto.
    - intros F0 Hi0. apply in_app_or in Hi0 as [Hi0|[<-|[]]]; [exact (tr_nodup _ _ _ _ _ _ T F0 Hi0)|exact NdF].
    - intros r b Hb. apply in_app_or in Hb as [Hb|Hb]; [destruct (tr_content _ _ _ _ _ _ T r b Hb) as (F0 & es & X1 & X2); exists F0, es; split; [apply in_or_app; auto|auto]|].
      apply in_map_iff in Hb as ([s [r0 b0]] & E & Hb). cbn in E. injection E as -> ->. destruct (cp_each _ _ _ _ _ _ Kc _ _ _ Hb) as (es & r' & Hf & _). exists F, es. split; [apply in_or_app; right; now left|now apply EF].
    - intros Hp d p p' H1 H2. destruct (Hp c Pc) as [Hdd Hfd]. apply (gw_stored _ _ _ _ _ _ _ _ _ _ _ G) in H1, H2. destruct H1 as [H1|H1], H2 as [H2|H2].
      + apply Old in H1, H2. destruct (St1 d p p' H1 H2) as (d0 & X1 & X2). exact (tr_once _ _ _ _ _ _ T Hp d0 p p' X1 X2).
      + exfalso. destruct H2 as (es & b & X1 & X2 & ->). exact (gw_delta _ _ _ _ _ _ _ _ _ _ _ G Hfd es b p' X1 X2 p H1).
      + exfalso. destruct H1 as (es & b & X1 & X2 & ->). exact (gw_delta _ _ _ _ _ _ _ _ _ _ _ G Hfd es b p X1 X2 p' H2).
      + eapply copy_once; [exact G|auto|eauto|eauto].
    - intros Hp d v r r' H1 H2 F1 F2. apply (gw_stored _ _ _ _ _ _ _ _ _ _ _ G) in H1, H2. destruct H1 as [H1|H1], H2 as [H2|H2].
      + apply Old in H1, H2. destruct (St1 d _ _ H1 H2) as (d0 & X1 & X2). exact (tr_per_version _ _ _ _ _ _ T Hp d0 v r r' X1 X2 F1 F2).
      + exfalso. apply Old in H1. eapply OldNew; eauto.
      + exfalso. apply Old in H2. eapply OldNew; eauto.
      + pose proof (copy_once _ _ _ _ _ _ _ _ _ _ _ _ _ G (Hp c Pc) H1 H2) as E. apply names_join_inj in E; auto; try discriminate. congruence.
  Qed.

  Lemma update_step_inv c e w l alg spec ivs C sp path m abort F : hash_ok H -> tracked w l alg spec ivs C -> update_call c e w sp path m h -> P c -> In (o_alg c) [`"sha512"; `"sha256"] ->
    sd = `"1.1" \/ List.length l = 1%nat -> (N.of_nat (List.length l) < 99999)%N -> uniform \/ (forall y, h <> dest_of (e_cwd e) sp ++ y) ->
    files_at w (dest_of (e_cwd e) sp) F -> uniform \/ collision_free l ->
    let x := add_version_with_content H c e (Some path) (Some sp) (Some m) abort in
    (abort = true /\ same_listing (o_alg c) F (last l []) /\ result x w = Ok None /\ after x w = w) \/
    (~ (abort = true /\ same_listing (o_alg c) F (last l [])) /\ exists i alg' spec' ivs' C', result x w = Ok (Some i) /\ tracked (after x w) (l ++ [F]) alg' spec' ivs' C' /\ ivs' (S (List.length l)) = i).
  Proof using.
    intros HH T Uc Pc Hac Hsd Hn Hout Fa Hun x. pose proof (tracked_some _ _ _ _ _ _ T) as Hn1.
    destruct (base_exists w l alg spec ivs C c HH T Pc Hac Hun) as [i1 [St B So Fu1 St1 Sf1]].
    pose proof (tr_made _ _ _ _ _ _ T) as M. set (n := List.length l) in *. destruct Uc as [U1 U2 U3 [U4 U5] U6 U7].
    destruct (tr_alg _ _ _ _ _ _ T n ltac:(lia)) as (cn & Pn & En).
    assert (Out : alg n = o_alg c \/ forall y, dest_of (e_cwd e) sp ++ y <> h ++ [side_name (alg n)]).
    { destruct Hout as [Hu|Ho]; [left; rewrite En; now apply Hu|]. right. intros y E. destruct (rev_case y) as [->|(y0 & z & ->)].
      - rewrite app_nil_r in E. pose proof (sk_dir _ _ _ U6) as Hd. rewrite E in Hd. rewrite (files_there _ _ _ _ _ _ _ _ _ M _ _ (IO_side _ _ _ _ _ _)) in Hd. discriminate.
      - rewrite app_assoc in E. apply app_inj_tail in E as [E _]. apply (Ho y0). auto. }
    destruct (add_version_gen H c e w h sd n alg spec ivs C m sp path (dest_of (e_cwd e) sp) abort i1 HH M (tr_spec _ _ _ _ _ _ T Hsd)) as (i0 & F' & nv & K & Fa' & Nf & G & Kc & Res); auto; try lia.
    { exact (tr_cdir _ _ _ _ _ _ T c Pc). }
    fold x in Res. pose proof (files_unique _ _ _ _ Fa' Fa) as EF.
    assert (NF : forall r b, In (r, b) F -> r <> [] /\ Forall fname r).
    { intros r b Hb. apply EF in Hb. exact (files_names w _ F' (md_tree _ _ _ _ _ _ _ _ _ M) (sk_dir _ _ _ U6) Fa' r b Hb). }
    assert (Hlast : In (last l []) l /\ nth_error l (n - 1) = Some (last l [])).
    { clear -Hn1. destruct (exists_last (l := l)) as (l' & F0 & ->); [intros ->; cbn in Hn1; lia|]. rewrite last_last. split; [apply in_or_app; right; now left|].
      unfold n. rewrite app_length. cbn [List.length]. rewrite nth_error_app2 by lia. replace (_ - _)%nat with 0%nat by lia. reflexivity. }
    destruct Hlast as [HL1 HL2].
    assert (Same : same_files H i1 (o_alg c) (vn n) F' <-> same_listing (o_alg c) F (last l [])).
    { rewrite <- (listing_files i1 (o_alg c) (vn n) F (last l [])); [split; apply same_files_ext; [exact EF|intros; symmetry; apply EF]|exact NF|intros r b; exact (tr_names _ _ _ _ _ _ T _ r b HL1)|].
      pose proof (tr_files _ _ _ _ _ _ T _ _ HL2) as Q. replace (S (n - 1)) with n in Q by lia. apply Sf1; [exact Q|].
      destruct Hun as [Hu|CF]; [left; rewrite En; now apply Hu|]. right. intros r b es b' I1 I2. rewrite En. destruct (tr_content _ _ _ _ _ _ T r b I1) as (F1 & es1 & J1 & J2).
      exact (CF cn F1 (last l []) es1 b es b' Pn J1 HL1 J2 I2). }
    destruct Res as [(R1 & R2 & R3 & R4)|(R1 & R2 & _ & M')]; [left; split; [auto|]; split; [now apply Same|auto]|].
    right. split; [intros [? Hs]; apply R1; split; [auto|now apply Same]|]. exists (nv_inv nv).
    exists (upd alg (S n) (o_alg c)), (upd spec (S n) (`"1.1")), (upd ivs (S n) (nv_inv nv)), (C ++ map snd K). split; [exact R2|]. split; [|apply upd_same].
    eapply track_next; eauto. apply Fa.
  Qed.

  Lemma update_step c e w l alg spec ivs C sp path m abort F : hash_ok H -> tracked w l alg spec ivs C -> update_call c e w sp path m h -> P c -> In (o_alg c) [`"sha512"; `"sha256"] ->
    sd = `"1.1" \/ List.length l = 1%nat -> (N.of_nat (List.length l) < 99999)%N -> uniform \/ (forall y, h <> dest_of (e_cwd e) sp ++ y) ->
    files_at w (dest_of (e_cwd e) sp) F -> uniform \/ collision_free l ->
    let x := add_version_with_content H c e (Some path) (Some sp) (Some m) abort in
    (abort = true /\ same_listing (o_alg c) F (last l []) /\ result x w = Ok None /\ after x w = w) \/
    (~ (abort = true /\ same_listing (o_alg c) F (last l [])) /\ (exists i, result x w = Ok (Some i)) /\ exists alg' spec' ivs' C', tracked (after x w) (l ++ [F]) alg' spec' ivs' C').
  Proof using.
    intros HH T Uc Pc Hac Hsd Hn Hout Fa Hun x. destruct (update_step_inv c e w l alg spec ivs C sp path m abort F HH T Uc Pc Hac Hsd Hn Hout Fa Hun) as [Q|(Q & i & alg' & spec' & ivs' & C' & Q1 & Q2 & _)]; [left; exact Q|].
    right. split; [exact Q|]. split; [eauto|eauto].
  Qed.

  Lemma track_first c w' i0 norm fd dd old F F' nv K : P c -> o_spec c = sd -> (forall c', P c' -> o_cdir c <> Some (side_name (o_alg c'))) -> dd = o_dedupe c ->
    growing H (o_alg c) (o_spec c) 1 i0 norm fd dd old F' nv -> copied norm (vn 1) (content_directory_to_use i0) F' (nv_copy nv) K ->
    (forall d p, ~ stored i0 d p) -> (forall v d p, ~ in_state i0 v d p) ->
    content_directory_to_use i0 = (match o_cdir c with Some cd => cd | None => DEFAULT_CONTENT_DIRECTORY end) -> full (nv_inv nv) ->
    (forall x, In x F' <-> In x F) -> NoDup (map fst F) -> (forall r b, In (r, b) F -> r <> [] /\ Forall fname r) ->
    made H w' h (o_spec c) 1 (fun _ => o_alg c) (fun _ => o_spec c) (fun _ => nv_inv nv) (map snd K) ->
    tracked w' [F] (fun _ => o_alg c) (fun _ => o_spec c) (fun _ => nv_inv nv) (map snd K).
  Proof using.
    intros Pc Es Hcd -> G Kc N1 N2 Ec Fu EF NdF NF M. rewrite Es in M.
    pose proof (so_cdir _ _ _ _ (gw_sound _ _ _ _ _ _ _ _ _ _ _ G)) as [Fcd _].
    assert (Ecd : content_directory_to_use (nv_inv nv) = content_directory_to_use i0).
    { pose proof (gw_rest _ _ _ _ _ _ _ _ _ _ _ G) as Sr. unfold content_directory_to_use. now rewrite (proj1 (proj2 (proj2 (proj2 (proj2 Sr))))). }
    rewrite Ecd in Fcd.
    assert (New : forall d p, stored (nv_inv nv) d p -> exists es b, In (es, b) F' /\ In (J es, p) (nv_copy nv) /\ d = H (o_alg c) b).
    { intros d p Hs. apply (gw_stored _ _ _ _ _ _ _ _ _ _ _ G) in Hs as [Hs|Hs]; [now apply N1 in Hs|auto]. }
    constructor; cbn [List.length]; rewrite ?Es; auto.
    - eauto.
    - intros _. now left.
    - intros k Hk. lia.
    - intros c' Pc'. rewrite Ecd, Ec. pose proof (Hcd c' Pc') as Hn. destruct (o_cdir c) as [cd|]; [congruence|]. discriminate.
    - intros [|k] F0 E; [|destruct k; discriminate]. cbn in E. apply Some_inv in E. subst F0. apply (same_files_ext _ _ _ _ _ EF). intros d p. rewrite (gw_state _ _ _ _ _ _ _ _ _ _ _ G). split.
      + intros [Hs|(_ & Hs)]; [now apply N2 in Hs|auto].
      + intros Hs. right. split; [reflexivity|auto].
    - intros F0 r b [<-|[]] Hb. eauto.
    - intros F0 [<-|[]]. exact NdF.
    - intros r b Hb. apply in_map_iff in Hb as ([s [r0 b0]] & E & Hb). cbn in E. injection E as -> ->. destruct (cp_each _ _ _ _ _ _ Kc _ _ _ Hb) as (es & r' & Hf & _). exists F, es. split; [now left|now apply EF].
    - intros Hp d p p' H1 H2. eapply copy_once; [exact G|apply (Hp c Pc)|apply New; eauto|apply New; eauto].
    - intros Hp d v r r' H1 H2 F1 F2. pose proof (copy_once _ _ _ _ _ _ _ _ _ _ _ _ _ G (Hp c Pc) (New _ _ H1) (New _ _ H2)) as E. apply names_join_inj in E; auto; try discriminate. congruence.
  Qed.


  Lemma create_step c e w sp op id m F : hash_ok H -> tree w -> create_call c e w sp op id m h -> P c -> o_spec c = sd ->
    (forall c', P c' -> o_cdir c <> Some (side_name (o_alg c'))) -> files_at w (dest_of (e_cwd e) sp) F ->
    let x := create H c e (Some sp) (Some m) (Some op) in
    (exists i, result x w = Ok i) /\ (exists alg spec ivs C, tracked (after x w) [F] alg spec ivs C) /\
    (forall q en, look w q = Some en -> look (after x w) q = Some en) /\ (forall q, (forall y, q <> h ++ y) -> look (after x w) q = look w q).
  Proof using.
    intros HH Tw [C1 C2 C3 C4 C5 C6 C7 C8 C9 C10] Pc Es Hcd Fa x.
    destruct (create_made H c e w sp op id m (dest_of (e_cwd e) sp) h HH C1 Tw C2 C3 C5 C6 C4 C7 eq_refl C8 C9 C10) as (F' & nv & i0 & K & Fa' & G & Kc & N1 & N2 & _ & Ec & Fu & R & M & Keep).
    fold x in R, M, Keep. split; [eauto|]. split; [|exact Keep].
    exists (fun _ => o_alg c), (fun _ => o_spec c), (fun _ => nv_inv nv), (map snd K). pose proof (files_unique _ _ _ _ Fa' Fa) as EF.
    eapply track_first; eauto; [apply Fa|]. intros r b Hb. apply EF in Hb. exact (files_names w _ F' Tw (sk_dir _ _ _ C8) Fa' r b Hb).
  Qed.
End History.
