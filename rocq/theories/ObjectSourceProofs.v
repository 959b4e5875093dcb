(** All files of a source directory in the file system; the next version (C34-C36, C46). *)
From Coq Require Import Permutation Sorted.
From Verif Require Import Base Unicode Regex Utf8 Json PyJson JsonTextModel JsonTextSpec JsonTextProofs JsonFileProofs Log DigestModel LayoutModel LayoutProofs
  ObjectUtilsModel ObjectUtilsProofs InventorySpec InventoryValidatorModel InventoryValidatorProofs InventoryRulesProofs
  InventoryModel InventoryOpsSpec InventoryOpsProofs NewVersionModel NewVersionProofs NewVersionOpsProofs VersionNumberProofs InventoryParseProofs ParseModel
  ContentPathProofs TextFile PathModel FsModel FsSpec FsProofs FswModel FswSpec FswProofs FswCopyProofs ValidatorSpec ValidatorBasicProofs ObjectModel ObjectSpec ObjectInvProofs ObjectRulesProofs
  ObjectParseProofs ObjectAddProofs ContentNameProofs ObjectGrowProofs ObjectStartProofs.

Lemma source_walk norm w src : tree w -> source_ok norm w src -> exists F,
  files_at w src F /\ fsw_walk_files w src [PathModel.slash] = Ok (map (fun eb => join [PathModel.slash] (fst eb)) F) /\
  sources norm F (fun p => fs_read w src p).
Proof.
  intros Tw [S1 S2 S3]. apply look_dir in S1 as Hd. destruct Hd as [d Hd]. pose proof (tree_get _ _ _ Tw Hd) as Td.
  assert (Fsrc : Forall fname src) by (apply (look_fnames w); [auto|rewrite S1; discriminate]).
  set (bytes_at := fun r => match get (Dir d) r with Ok (File b) => b | _ => [] end).
  exists (map (fun r => (r, bytes_at r)) (leaves (Dir d))).
  assert (Lk : forall r, look w (src ++ r) = look (Dir d) r) by (intros r; rewrite look_app, Hd; reflexivity).
  assert (Lf : forall r, In r (leaves (Dir d)) <-> exists b, look w (src ++ r) = Some (EFile b)).
  { intros r. rewrite (leaves_spec (Dir d) r Td eq_refl). unfold leaf. rewrite <- Lk. split.
    - intros [H1 H2]. specialize (S3 r). destruct (look w (src ++ r)) as [[b| |]|]; try congruence. eauto.
    - intros [b Hb]. rewrite Hb. split; discriminate. }
  assert (Lb : forall r b, look w (src ++ r) = Some (EFile b) -> bytes_at r = b).
  { intros r b Hb. rewrite Lk in Hb. apply look_file in Hb. unfold bytes_at. now rewrite Hb. }
  assert (FA : files_at w src (map (fun r => (r, bytes_at r)) (leaves (Dir d)))).
  { split.
    - rewrite map_map. cbn [fst]. rewrite map_id. now apply leaves_nodup.
    - intros es b. rewrite in_map_iff. split.
      + intros (r & E & Hr). injection E as <- <-. apply Lf in Hr as [b Hb]. rewrite Hb. now rewrite (Lb _ _ Hb).
      + intros Hb. exists es. split; [f_equal; now apply Lb|]. apply Lf. eauto. }
  split; [exact FA|]. split.
  - rewrite (fsw_walk_files_ok w src [PathModel.slash] (Dir d)); [|auto|intros E; discriminate E| |reflexivity].
    + rewrite map_map. reflexivity.
    + rewrite at_path_slash. rewrite <- Hd. f_equal. transitivity (src ++ []); [|apply app_nil_r]. now apply (at_path_join src []).
  - destruct FA as [Fn FA]. constructor.
    + intros es b Hi. apply FA in Hi. split.
      * intros ->. rewrite app_nil_r, S1 in Hi. discriminate.
      * assert (Fes : Forall fname (src ++ es)) by (apply (look_fnames w); [auto|rewrite Hi; discriminate]). apply Forall_app in Fes as [_ Fes].
        specialize (S2 es b Hi). rewrite Forall_forall in *. intros e He. split; [auto|]. destruct (S2 e He). auto.
    + exact Fn.
    + intros es b es' b' Hi Hi' [x ->]. destruct x as [|x0 x]; [now rewrite app_nil_r|]. exfalso. apply FA in Hi, Hi'. rewrite app_assoc in Hi'.
      rewrite (look_below_leaf w (src ++ es) (x0 :: x)) in Hi'; [discriminate|discriminate|]. rewrite Hi. discriminate.
    + intros es b Hi. apply FA in Hi. apply fs_read_look. rewrite at_path_join; [auto|auto|].
      assert (Fes : Forall fname (src ++ es)) by (apply (look_fnames w); [auto|rewrite Hi; discriminate]). now apply Forall_app in Fes.
Qed.

Lemma sources_perm norm F L src : Permutation F L -> sources norm F src -> sources norm L src.
Proof.
  intros P [R1 R2 R3 R4]. pose proof (Permutation_sym P) as P'. constructor.
  - intros es b Hi. apply (R1 es b). now apply (Permutation_in _ P').
  - eapply Permutation_NoDup; [apply Permutation_map, P|auto].
  - intros es b es' b' Hi Hi'. apply (R3 es b es' b'); now apply (Permutation_in _ P').
  - intros es b Hi. apply R4. now apply (Permutation_in _ P').
Qed.
Lemma files_perm w src F L : Permutation F L -> files_at w src F -> files_at w src L.
Proof.
  intros P [H1 H2]. split; [eapply Permutation_NoDup; [apply Permutation_map, P|auto]|]. intros es b. rewrite <- H2. split; apply Permutation_in; [now apply Permutation_sym|auto].
Qed.

(** add_from_srcdir for a version with an empty state *)
Theorem from_srcdir_grow H alg spec n i0 norm fd dd old w src nv : hash_ok H -> In norm [None; Some (`"uri"); Some (`"md5")] ->
  (forall p, In p (paths_of (manifest i0)) -> exists v r, In v (names None (n - 1)) /\ Forall fname r /\ p = join [PathModel.slash] (v :: content_directory_to_use i0 :: r)) ->
  (forall d p, ~ in_state i0 (version_fmt None (N.of_nat n)) d p) ->
  tree w -> source_ok norm w src -> growing H alg spec n i0 norm fd dd old [] nv ->
  exists F nv', nv_from_srcdir H w src nv = Ok nv' /\ files_at w src F /\ growing H alg spec n i0 norm fd dd old F nv'.
Proof.
  intros HH Hn Ho He Tw Sk G. destruct (source_walk norm w src Tw Sk) as (F & FA & Ew & Sr).
  assert (P : Permutation (sorted_strs (map (fun eb => join [PathModel.slash] (fst eb)) F)) (map (fun eb => join [PathModel.slash] (fst eb)) F)) by apply Permutation_sym, isort_perm.
  apply Permutation_map_inv in P as (L & EL & PL). pose proof (sources_perm _ _ _ _ PL Sr) as SrL. pose proof (files_perm _ _ _ _ PL FA) as FL.
  destruct (grow_all H alg spec n i0 norm fd dd old HH Hn Ho He L [] nv L (fun p => fs_read w src p) G SrL) as (nv' & E & G').
  - rewrite app_nil_r. apply incl_refl.
  - rewrite app_nil_r. apply (proj1 FL).
  - exists (rev L), nv'. rewrite app_nil_r in G'. split; [|split; [|auto]].
    + unfold nv_from_srcdir. rewrite Ew. cbn [ebind]. unfold add_from_srcdir. rewrite EL, E. reflexivity.
    + eapply files_perm; [apply Permutation_rev|exact FL].
Qed.

(** The same for a first version, whose state is not set before the first file is added *)
Theorem from_srcdir_first H alg spec i norm dd w src : hash_ok H -> In norm [None; Some (`"uri"); Some (`"md5")] ->
  i_head i = Some (`"v1") -> sound alg spec 1 (blank (`"v1") i) -> state i (`"v1") = [] -> (exists vb, dget (`"v1") (versions_block i) = Some vb) -> i_manifest i = Some [] ->
  tree w -> source_ok norm w src -> (exists es b, look w (src ++ es) = Some (EFile b)) ->
  exists F nv', nv_from_srcdir H w src (mk_nv i norm false dd None []) = Ok nv' /\ files_at w src F /\
    growing H alg spec 1 (blank (`"v1") i) norm false dd None F nv'.
Proof.
  intros HH Hn Hh So Hs [vb Hv] Hm Tw Sk (es0 & b0 & Hf).
  assert (Hst : forall d p, ~ in_state (blank (`"v1") i) (version_fmt None (N.of_nat 1)) d p).
  { intros d p. rewrite (in_state_iff _ _ _ _ (sound_dicts _ _ _ _ So)). change (version_fmt None (N.of_nat 1)) with (`"v1").
    assert (E : state (blank (`"v1") i) (`"v1") = []).
    { unfold blank, state, versiondata, set_state, update_version. rewrite Hv. unfold versions_block at 1, set_versions. cbn [i_versions or_empty]. rewrite dget_dset_same. reflexivity. }
    rewrite E. intros (l & [] & _). }
  assert (Hma : manifest (blank (`"v1") i) = []) by (unfold blank; rewrite manifest_set_state; unfold manifest; now rewrite Hm).
  assert (G : growing H alg spec 1 (blank (`"v1") i) norm false dd None [] (mk_nv (blank (`"v1") i) norm false dd None [])).
  { constructor; cbn [nv_inv nv_norm nv_forward_delta nv_dedupe nv_old_alg nv_copy]; auto.
    - apply same_rest_refl. eapply sound_dicts; eauto.
    - reflexivity.
    - intros v d p. split; [auto|]. intros [?|(_ & es & b & [] & _)]; auto.
    - intros d c. split; [auto|]. intros [?|(es & b & [] & _)]; auto.
    - intros s c [].
    - constructor.
    - constructor.
    - intros _ es b c es' b' c' [].
    - intros _ _ es b []. }
  assert (Hold : forall p, In p (paths_of (manifest (blank (`"v1") i))) -> exists v r, In v (names None (1 - 1)) /\ Forall fname r /\ p = join [PathModel.slash] (v :: content_directory_to_use (blank (`"v1") i) :: r)).
  { intros p. rewrite Hma. intros []. }
  destruct (from_srcdir_grow H alg spec 1 (blank (`"v1") i) norm false dd None w src _ HH Hn Hold Hst Tw Sk G) as (F & nv' & E & FA & G').
  exists F, nv'. split; [|auto]. unfold nv_from_srcdir in *. destruct (source_walk norm w src Tw Sk) as (F' & FA' & Ew & _). rewrite Ew in *. cbn [ebind] in *.
  unfold add_from_srcdir in *. destruct (sorted_strs (map (fun eb => join [PathModel.slash] (fst eb)) F')) as [|s l] eqn:El.
  - exfalso. assert (Hi : In (es0, b0) F') by now apply (proj2 FA').
    assert (P : Permutation (map (fun eb => join [PathModel.slash] (fst eb)) F') []) by (rewrite <- El; apply isort_perm).
    apply (in_map (fun eb => join [PathModel.slash] (fst eb))) in Hi. apply (Permutation_in _ P) in Hi. destruct Hi.
  - cbn [nv_add_all] in *. destruct (nv_add H _ s s None (mk_nv (blank _ i) norm false dd None [])) as [nv1 [u|e]] eqn:Ea.
    + destruct u. pose proof (nv_add_blank H (fun p => fs_read w src p) s s (mk_nv i norm false dd None []) (`"v1") nv1 vb Hh Hs Hv Ea) as Ea'. rewrite Ea'. exact E.
    + discriminate.
Qed.

(** ** The next version *)

Lemma sound_next_directory alg spec n i : sound alg spec n i -> next_directory i None = Ok (version_fmt None (N.of_nat n + 1)).
Proof.
  intros So. unfold next_directory. rewrite (sound_directories _ _ _ _ So). cbn [ebind]. pose proof (so_range _ _ _ _ So) as [R1 R2].
  assert (Pn : forall v, In v (names None n) -> exists k, (k < n)%nat /\ v = version_fmt None (N.of_nat k + 1) /\ parse_version_directory v = Ok (N.of_nat k + 1)%N).
  { intros v Hv. apply In_names in Hv as (k & Hk & ->). exists k. split; [auto|]. split; [auto|]. apply number_parse, fmt_number; [lia|]. cbn [within]. lia. }
  assert (Em : exists ns, emap parse_version_directory (names None n) = Ok ns /\ (forall x, In x ns -> exists k, (k < n)%nat /\ x = (N.of_nat k + 1)%N) /\ (ns <> [] \/ names None n = [])).
  { clear -Pn. induction (names None n) as [|v l IH]; [exists []; split; [reflexivity|]; split; [intros ? []|auto]|].
    destruct IH as (ns & E & Hns & _); [intros v' Hv'; apply Pn; now right|]. destruct (Pn v (or_introl eq_refl)) as (k & Hk & _ & Ep).
    exists ((N.of_nat k + 1)%N :: ns). cbn [emap]. rewrite Ep, E. cbn [ebind]. split; [auto|]. split; [|left; discriminate]. intros x [<-|Hx]; [eauto|auto]. }
  destruct Em as (ns & E & Hns & Hne). rewrite E. cbn [ebind]. destruct n as [|n]; [lia|]. rewrite names_S.
  assert (Hm : (0 < fold_left N.max ns 0)%N).
  { destruct Hne as [Hne|Hne]; [|rewrite names_S in Hne; destruct (names None n); discriminate].
    assert (Mono : forall l a, (a <= fold_left N.max l a)%N). { induction l as [|y l IH]; intros a; cbn [fold_left]; [lia|]. specialize (IH (N.max a y)). lia. }
    destruct ns as [|x ns]; [congruence|]. cbn [fold_left]. destruct (Hns x (or_introl eq_refl)) as (k & _ & ->). specialize (Mono ns (N.max 0 (N.of_nat k + 1))). lia. }
  destruct (N.eqb_spec (fold_left N.max ns 0) 0); [lia|]. rewrite last_opt_app.
  replace (N.of_nat n + 1)%N with (N.of_nat (S n)) by lia. rewrite (next_fmt None); [f_equal; f_equal; lia|lia|exact I].
Qed.

Record next_facts (alg : str) (n : nat) (i : inventory) (st : block) (b : vblock) (i' : inventory) : Prop := {
  nf_sound : sound alg (`"1.1") (S n) i';
  nf_state : forall v d p, in_state i' v d p <-> in_state i v d p \/ (v = version_fmt None (N.of_nat (S n)) /\ block_has st d p);
  nf_manifest : i_manifest i' = i_manifest i;
  nf_id : i_id i' = i_id i;
  nf_cdir : i_cdir i' = i_cdir i;
  nf_fixity : i_fixity i' = i_fixity i;
  nf_blocks : forall vs vs' v x, i_versions i = Some vs -> i_versions i' = Some vs' -> (In (v, x) vs' <-> In (v, x) vs \/ (v = version_fmt None (N.of_nat (S n)) /\ x = with_state st b))
}.

Theorem next_start alg spec n i b norm fd dd carry old : sound alg spec n i -> (N.of_nat (S n) <= 99999)%N -> block_ok b ->
  exists i', next_version i (`"1.1") (Some b) norm fd dd carry old = Ok (mk_nv i' norm fd dd old []) /\
    next_facts alg n i (if carry then state i (version_fmt None (N.of_nat n)) else []) b i'.
Proof.
  intros So Hn Hb. set (st := if carry then state i (version_fmt None (N.of_nat n)) else []).
  set (h := version_fmt None (N.of_nat (S n))).
  assert (Es : spec_version i = Some spec).
  { unfold spec_version. rewrite (so_type _ _ _ _ So). cbn [or_empty]. destruct (so_spec _ _ _ _ So) as [<-|[<-|[]]]; vm_compute; reflexivity. }
  destruct (so_versions _ _ _ _ So) as (vs & Hv & P).
  set (i1 := mk_inventory (i_id i) (Some (`"https://ocfl.io/" ++ `"1.1" ++ `"/spec/#inventory")) (i_alg i) (i_head i) (i_cdir i) (i_manifest i) (i_versions i) (i_fixity i) (i_other i)).
  assert (E1 : (match spec_version i with
    | Some s => if str_eqb (`"1.1") s then Ok i else if str_ltb (`"1.1") s then Raise NewVersionException else Ok (set_spec_version (`"1.1") i)
    | None => Raise TypeError end) = Ok i1).
  { rewrite Es. destruct (so_spec _ _ _ _ So) as [<-|[E|[]]]; [reflexivity|]. rewrite <- E, str_eqb_refl. f_equal. unfold i1. rewrite E. rewrite <- (so_type _ _ _ _ So). destruct i; reflexivity. }
  assert (Nd : next_directory i1 None = Ok h).
  { replace (next_directory i1 None) with (next_directory i None) by reflexivity. rewrite (sound_next_directory _ _ _ _ So). unfold h. f_equal. f_equal. lia. }
  set (i2 := set_head h (set_versions (dset h (with_state st b) vs) i1)).
  assert (Hk : ~ In h (keys vs)).
  { intros Hi. apply (Permutation_in _ P) in Hi. apply In_names in Hi as (k & Hk & E). apply version_fmt_inj in E. lia. }
  assert (Nvs : NoDup (keys vs)) by (eapply Permutation_NoDup; [apply Permutation_sym, P|apply names_NoDup]).
  assert (Estate : st = [] \/ (exists b0, In (version_fmt None (N.of_nat n), b0) vs /\ vb_state b0 = Some st)).
  { unfold st. destruct carry; [right|now left]. destruct (sound_head_block _ _ _ _ So) as (vs0 & b0 & s0 & H1 & H2 & H3 & H4 & _).
    assert (vs0 = vs) by congruence. subst vs0. exists b0. split; [now apply dget_In|congruence]. }
  assert (Gst : state_good alg (manifest i) st).
  { destruct Estate as [->|(b0 & H1 & H2)].
    - constructor; [constructor|intros ? ? []|]. constructor; [intros ? []|constructor|intros ? ? []].
    - destruct (so_blocks _ _ _ _ So vs _ b0 Hv H1) as (_ & s0 & E0 & G0). assert (s0 = st) by congruence. now subst s0. }
  assert (Vb : forall v x, In (v, x) (dset h (with_state st b) vs) <-> In (v, x) vs \/ (v = h /\ x = with_state st b)).
  { intros v x. rewrite dset_new by auto. rewrite in_app_iff. cbn [In]. split; intros [H|H]; auto.
    - destruct H as [H|[]]. right. injection H as <- <-. auto.
    - right. left. destruct H as [-> ->]. reflexivity. }
  assert (Inst : forall v d p, in_state i2 v d p <-> in_state i v d p \/ (v = h /\ block_has st d p)).
  { intros v d p. split.
    - intros (vs0 & b0 & s0 & l & H1 & H2 & H3 & H4 & H5). apply Some_inv in H1. subst vs0. apply Vb in H2 as [H2|[-> ->]].
      + left. exists vs, b0, s0, l. auto.
      + right. split; [auto|]. apply Some_inv in H3. subst s0. exists l. auto.
    - intros [(vs0 & b0 & s0 & l & H1 & H2 & H3 & H4 & H5)|[-> (l & H1 & H2)]].
      + assert (vs0 = vs) by congruence. subst vs0. exists (dset h (with_state st b) vs), b0, s0, l. split; [reflexivity|]. split; [apply Vb; auto|auto].
      + exists (dset h (with_state st b) vs), (with_state st b), st, l. split; [reflexivity|]. split; [apply Vb; auto|auto]. }
  exists i2. split.
  - unfold next_version. rewrite E1. cbn [ebind].
    assert (Est : (if carry then match i_head i1 with Some h0 => state i1 h0 | None => [] end else []) = st).
    { unfold st. destruct carry; [|reflexivity]. unfold i1 at 1. cbn [i_head]. rewrite (so_head _ _ _ _ So). reflexivity. }
    rewrite Est. unfold add_version. rewrite Nd. unfold versions_block. replace (i_versions i1) with (Some vs) by (symmetry; exact Hv). reflexivity.
  - constructor; try reflexivity; [|exact Inst|].
    + constructor.
      * exact (so_id _ _ _ _ So).
      * reflexivity.
      * cbn. auto.
      * exact (so_alg _ _ _ _ So).
      * exact (so_algs _ _ _ _ So).
      * exact (so_cdir _ _ _ _ So).
      * pose proof (so_range _ _ _ _ So). lia.
      * reflexivity.
      * exact (so_other _ _ _ _ So).
      * eexists. split; [reflexivity|]. rewrite dset_new by auto. unfold keys. rewrite map_app. cbn [map fst]. rewrite names_S. apply Permutation_app; [exact P|].
        unfold h. replace (N.of_nat (S n)) with (N.of_nat n + 1)%N by lia. apply Permutation_refl.
      * intros vs0 v b0 E0 Hi. apply Some_inv in E0. subst vs0. apply Vb in Hi as [Hi|[-> ->]]; [exact (so_blocks _ _ _ _ So vs v b0 Hv Hi)|].
        split; [destruct Hb; constructor; auto|]. exists st. split; [reflexivity|exact Gst].
      * exact (so_manifest _ _ _ _ So).
      * exact (so_keys _ _ _ _ So).
      * exact (so_digests _ _ _ _ So).
      * exact (so_paths _ _ _ _ So).
      * intros p Hp. destruct (so_content _ _ _ _ So p Hp) as (v & r & H1 & H2). exists v, r. split; [|exact H2]. rewrite names_S. apply in_or_app. now left.
      * intros d c cs Hi. destruct (so_used _ _ _ _ So d c cs Hi) as (v & p & H1). exists v, p. apply Inst. now left.
      * exact (so_fixity _ _ _ _ So).
    + intros vs0 vs0' v x E0 E0'. apply Some_inv in E0'. subst vs0'. assert (vs0 = vs) by congruence. subst vs0. apply Vb.
Qed.
