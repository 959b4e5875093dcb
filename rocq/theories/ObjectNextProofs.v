(** The next version of an object (C35). *)
From Coq Require Import Permutation Sorted.
From Verif Require Import Base Unicode Regex Utf8 Json PyJson JsonTextModel JsonTextSpec JsonTextProofs JsonFileProofs Log DigestModel LayoutModel LayoutProofs
  ObjectUtilsModel ObjectUtilsProofs InventorySpec InventoryValidatorModel InventoryValidatorProofs InventoryRulesProofs
  InventoryModel InventoryOpsSpec InventoryOpsProofs NewVersionModel NewVersionProofs NewVersionOpsProofs VersionNumberProofs InventoryParseProofs ParseModel
  ContentPathProofs TextFile PathModel FsModel FsSpec FsProofs FswModel FswSpec FswProofs FswCopyProofs ValidatorSpec ValidatorBasicProofs ObjectModel ObjectSpec ObjectInvProofs ObjectRulesProofs
  ObjectParseProofs ObjectAddProofs ContentNameProofs ObjectGrowProofs ObjectStartProofs ObjectCopyProofs ObjectWriteProofs ObjectSourceProofs ObjectFactsProofs NamasteSpec ValidatorVersionProofs ObjectMadeProofs ObjectIntactProofs ObjectExtendProofs FsStepProofs NamasteModel NamasteProofs ObjectStoreProofs ObjectCreateProofs ValidatorModel ValidatorIntactProofs ObjectUpdateProofs.

Lemma growing_start H alg spec n i0 norm fd dd old : sound alg spec n i0 -> growing H alg spec n i0 norm fd dd old [] (mk_nv i0 norm fd dd old []).
Proof.
  intros So. constructor; cbn [nv_inv nv_norm nv_forward_delta nv_dedupe nv_old_alg nv_copy]; auto.
  - apply same_rest_refl. eapply sound_dicts; eauto.
  - reflexivity.
  - intros v d p. split; [auto|]. intros [?|(_ & es & b & [] & _)]; auto.
  - intros d c. split; [auto|]. intros [?|(es & b & [] & _)]; auto.
  - intros s c [].
  - constructor.
  - constructor.
  - intros _ es b c es' b' c' [].
  - intros _ _ es b [].
Qed.

(** The inventory that a new version is made from says about the versions there are what the
    root inventory says. *)
Record based (H : hashfn) (n : nat) (alg : nat -> str) (ivs : nat -> inventory) (C : list (place * bytes)) (a : str) (i1 : inventory) : Prop := {
  bs_id : i_id i1 = i_id (ivs n);
  bs_cdir : i_cdir i1 = i_cdir (ivs n);
  bs_paths : forall v p, in_version i1 v p <-> in_version (ivs n) v p;
  bs_resolves : forall v p c, resolves (ivs n) v p c -> resolves i1 v p c;
  bs_keys : forall k v d, (1 <= k <= n)%nat -> In v (names None k) -> alg k = a -> (state_key (ivs k) v d <-> state_key i1 v d);
  bs_listed : forall p, In p (paths_of (manifest i1)) <-> In p (paths_of (manifest (ivs n)));
  bs_digests : forall d c, stored i1 d c -> exists r b, In (r, b) C /\ c = J r /\ d = H a b;
  bs_fixity : forall x d c, fixed i1 x d c -> exists r b, In (r, b) C /\ c = J r /\ d = H x b
}.

Lemma listed_stored i p : In p (paths_of (manifest i)) <-> exists d, stored i d p.
Proof. rewrite In_paths_of. split; intros [d Hd]; exists d; now apply stored_iff. Qed.

Lemma not_next n v : In v (names None n) -> v <> version_fmt None (N.of_nat (S n)).
Proof. intros Hv ->. apply In_vn in Hv as (k & Hk & E). apply vn_inj in E. lia. Qed.

Lemma later_11 s : In s [`"1.0"; `"1.1"] -> no_later s (`"1.1").
Proof. intros [<-|[<-|[]]]; [right; auto|left; auto]. Qed.

Lemma next_continues H n alg spec ivs C a s i1 b i0 st : based H n alg ivs C a i1 -> sound a s n i1 -> In (spec n) [`"1.0"; `"1.1"] ->
  next_facts a n i1 st b i0 -> continues H n alg spec ivs C a (`"1.1") i0.
Proof.
  intros B So Hsp N. assert (Eman : manifest i0 = manifest i1) by (unfold manifest; now rewrite (nf_manifest _ _ _ _ _ _ N)).
  assert (St : forall d c, stored i0 d c <-> stored i1 d c) by (intros; unfold stored; now rewrite (nf_manifest _ _ _ _ _ _ N)).
  assert (Is : forall v d p, In v (names None n) -> (in_state i0 v d p <-> in_state i1 v d p)).
  { intros v d p Hv. rewrite (nf_state _ _ _ _ _ _ N). split; [|auto]. intros [?|[E _]]; [auto|]. now apply not_next in Hv. }
  destruct (so_versions _ _ _ _ So) as (vs & Hvs & _). destruct (so_versions _ _ _ _ (nf_sound _ _ _ _ _ _ N)) as (vs' & Hvs' & _).
  constructor.
  - rewrite (nf_id _ _ _ _ _ _ N). apply B.
  - rewrite (nf_cdir _ _ _ _ _ _ N). apply B.
  - intros v p Hv. rewrite <- (bs_paths _ _ _ _ _ _ _ B). unfold in_version. split; intros [d Hd]; exists d; now apply Is.
  - intros v p c Hv Hr. apply (bs_resolves _ _ _ _ _ _ _ B) in Hr as (d & Hd & Hc). exists d. split; [now apply Is|now apply St].
  - intros k v d Hk Hv Ea. rewrite (bs_keys _ _ _ _ _ _ _ B k v d Hk Hv Ea).
    assert (Hvn : v <> version_fmt None (N.of_nat (S n))) by (apply not_next; apply In_vn in Hv as (j & Hj & ->); apply In_vn; exists j; split; [lia|auto]).
    assert (Sb : forall x, state_block i0 v x <-> state_block i1 v x).
    { intros x. unfold state_block. rewrite Hvs, Hvs'. split; intros (vs0 & vb & E & Hi & Hx); apply Some_inv in E; subst vs0.
      - apply (nf_blocks _ _ _ _ _ _ N vs vs' v vb Hvs Hvs') in Hi as [Hi|[E _]]; [eauto|contradiction].
      - exists vs', vb. split; [auto|]. split; [|auto]. apply (nf_blocks _ _ _ _ _ _ N vs vs' v vb Hvs Hvs'). auto. }
    unfold state_key. split; intros (x & l & Hx & Hl); exists x, l; (split; [now apply Sb|auto]).
  - intros p. rewrite Eman. apply B.
  - intros d c Hs. apply St in Hs. now apply B.
  - intros x d c Hf. apply (bs_fixity _ _ _ _ _ _ _ B). unfold fixed in *. now rewrite <- (nf_fixity _ _ _ _ _ _ N).
  - now apply later_11.
Qed.

(** ** The same digest algorithm *)

(** What start_new_version makes of the inventory if the digest algorithm stays: types of
    fixity data may be dropped. *)
Definition kept (types : option (list str)) (i : inventory) : inventory :=
  match types with
  | None => i
  | Some l => match i_fixity i with None => i | Some fx => set_fixity (filter (fun kv => str_in (fst kv) l) fx) i end
  end.
Lemma set_manifest_same i : (exists m, i_manifest i = Some m) -> set_manifest (manifest i) i = i.
Proof. intros [m E]. destruct i. cbn in E. subst. reflexivity. Qed.
Lemma start_same H types w h i a da : i_alg i = Some a -> (da = None \/ da = Some a) -> (exists m, i_manifest i = Some m) ->
  start_inventory_change H da types w h i = Ok (kept types i, Some a).
Proof.
  intros Ea Hda [m Em]. unfold start_inventory_change. rewrite Ea.
  assert (E : (match da with Some a => a | None => a end) = a) by (destruct Hda as [-> | ->]; reflexivity). rewrite E.
  assert (Es : set_alg (Some a) i = i) by (destruct i; cbn in Ea; subst; reflexivity). rewrite Es. rewrite str_eqb_refl.
  assert (Ef : change_fixity a a types i = kept types i) by (unfold change_fixity, kept; destruct types; [reflexivity|]; rewrite str_eqb_refl; reflexivity).
  rewrite Ef. rewrite set_manifest_same; [reflexivity|]. unfold kept. destruct types as [l|]; [|eauto]. destruct (i_fixity i); eauto.
Qed.

Lemma kept_fields types i : i_id (kept types i) = i_id i /\ i_type (kept types i) = i_type i /\ i_alg (kept types i) = i_alg i /\ i_head (kept types i) = i_head i /\
  i_cdir (kept types i) = i_cdir i /\ i_manifest (kept types i) = i_manifest i /\ i_versions (kept types i) = i_versions i /\ i_other (kept types i) = i_other i.
Proof. unfold kept. destruct types as [l|]; [|auto 10]. destruct (i_fixity i); auto 10. Qed.
Lemma kept_fixity types i fx : i_fixity (kept types i) = Some fx -> exists fx0 f, i_fixity i = Some fx0 /\ fx = filter f fx0.
Proof.
  unfold kept. destruct types as [l|]; [|intros E; exists fx, (fun _ => true); split; [auto|]; clear; induction fx; cbn; congruence].
  destruct (i_fixity i) as [fx0|] eqn:E; [|congruence]. cbn [set_fixity i_fixity]. intros Ef. apply Some_inv in Ef. subst fx. eauto.
Qed.
Lemma NoDup_keys_filter {A} (f : str * A -> bool) d : NoDup (keys d) -> NoDup (keys (filter f d)).
Proof.
  unfold keys. induction d as [|x d IH]; intros Hn; [constructor|]. inversion Hn; subst. cbn [filter]. destruct (f x); [|auto]. cbn [map]. constructor; [|auto].
  intros Hi. apply H1. apply in_map_iff in Hi as (y & E & Hi). apply filter_In in Hi as [Hi _]. rewrite <- E. now apply in_map.
Qed.
Lemma sound_kept alg spec n types i : sound alg spec n i -> sound alg spec n (kept types i).
Proof.
  intros So. destruct (kept_fields types i) as (E1 & E2 & E3 & E4 & E5 & E6 & E7 & E8).
  assert (Em : manifest (kept types i) = manifest i) by (unfold manifest; now rewrite E6).
  assert (Ec : content_directory_to_use (kept types i) = content_directory_to_use i) by (unfold content_directory_to_use; now rewrite E5).
  constructor; rewrite ?E1, ?E2, ?E3, ?E4, ?E6, ?E7, ?E8, ?Em, ?Ec; try apply So.
  - intros d c cs Hd. destruct (so_used _ _ _ _ So d c cs Hd) as (v & p & Hs). exists v, p. unfold in_state in *. now rewrite E7.
  - intros fx Hf. apply kept_fixity in Hf as (fx0 & f & Hf & ->). destruct (so_fixity _ _ _ _ So fx0 Hf) as [F1 F2]. split; [now apply NoDup_keys_filter|].
    intros a b Hb. apply filter_In in Hb as [Hb _]. exact (F2 a b Hb).
Qed.
Lemma state_block_sorted i v s : state_block (sort_inv i) v s -> exists s0, state_block i v s0 /\ s = sort_block s0.
Proof.
  intros (vs & b & Hv & Hb & Hs). unfold sort_inv in Hv. cbn [i_versions] in Hv. destruct (i_versions i) as [vs0|] eqn:E; [|discriminate]. apply Some_inv in Hv. subst vs.
  apply In_sort_values in Hb as (b0 & Hb & ->). cbn [sort_vblock vb_state] in Hs. destruct (vb_state b0) as [s0|] eqn:Es; [|discriminate]. apply Some_inv in Hs. subst s.
  exists s0. split; [|auto]. exists vs0, b0. auto.
Qed.
Lemma sorted_state_block i v s : state_block i v s -> state_block (sort_inv i) v (sort_block s).
Proof.
  intros (vs & b & Hv & Hb & Hs). exists (sort_values sort_vblock vs), (sort_vblock b). split; [unfold sort_inv; cbn [i_versions]; now rewrite Hv|]. split.
  - apply In_sort_values. eauto.
  - cbn [sort_vblock vb_state]. now rewrite Hs.
Qed.
Lemma state_key_sorted i v d : state_key (sort_inv i) v d <-> state_key i v d.
Proof.
  split.
  - intros (s & l & Hs & Hd). apply state_block_sorted in Hs as (s0 & Hs & ->). apply (proj1 (In_sort_block _ _)) in Hd. exists s0, l. auto.
  - intros (s & l & Hs & Hd). exists (sort_block s), l. split; [now apply sorted_state_block|]. now apply (proj2 (In_sort_block _ _)).
Qed.
Lemma fixed_sorted i a d c : fixed (sort_inv i) a d c -> fixed i a d c.
Proof.
  intros (fx & b & Hf & Hb & l & Hl & Hc). unfold sort_inv in Hf. cbn [i_fixity] in Hf. destruct (i_fixity i) as [fx0|] eqn:E; [|discriminate]. apply Some_inv in Hf. subst fx.
  apply In_sort_values in Hb as (b0 & Hb & ->). apply (proj1 (In_sort_block _ _)) in Hl. exists fx0, b0. split; [auto|]. split; [auto|]. exists l. auto.
Qed.
Lemma fixed_kept types i a d c : fixed (kept types i) a d c -> fixed i a d c.
Proof.
  intros (fx & b & Hf & Hb & Hc). apply kept_fixity in Hf as (fx0 & f & Hf & ->). apply filter_In in Hb as [Hb _]. exists fx0, b. auto.
Qed.

Lemma kept_based H w h sd n alg spec ivs C types : made H w h sd n alg spec ivs C -> based H n alg ivs C (alg n) (kept types (sort_inv (ivs n))).
Proof.
  intros M. pose proof (md_some _ _ _ _ _ _ _ _ _ M) as Hn. destruct (kept_fields types (sort_inv (ivs n))) as (E1 & E2 & E3 & E4 & E5 & E6 & E7 & E8).
  assert (Is : forall v d p, in_state (kept types (sort_inv (ivs n))) v d p <-> in_state (ivs n) v d p).
  { intros v d p. rewrite <- (in_state_sorted (ivs n)). unfold in_state. now rewrite E7. }
  assert (St : forall d c, stored (kept types (sort_inv (ivs n))) d c <-> stored (ivs n) d c).
  { intros d c. rewrite <- (stored_sorted (ivs n)). unfold stored. now rewrite E6. }
  constructor.
  - rewrite E1. reflexivity.
  - rewrite E5. reflexivity.
  - intros v p. unfold in_version. split; intros [d Hd]; exists d; now apply Is.
  - intros v p c (d & Hd & Hc). exists d. split; [now apply Is|now apply St].
  - intros k v d Hk Hv Ea. rewrite (md_keys _ _ _ _ _ _ _ _ _ M k v d Hk Hv Ea). rewrite <- (state_key_sorted (ivs n)). unfold state_key, state_block. now rewrite E7.
  - intros p. rewrite !listed_stored. split; intros [d Hd]; exists d; now apply St.
  - intros d c Hs. apply St in Hs. apply (md_digests _ _ _ _ _ _ _ _ _ M n); [lia|auto].
  - intros x d c Hf. apply fixed_kept, fixed_sorted in Hf. apply (md_fixity _ _ _ _ _ _ _ _ _ M n) in Hf; [auto|lia].
Qed.

Lemma made_parse H w h sd n alg spec ivs C : made H w h sd n alg spec ivs C -> parse_inventory w h = Ok (sort_inv (ivs n), spec n).
Proof.
  intros M. pose proof (md_head _ _ _ _ _ _ _ _ _ M) as So. unfold parse_inventory.
  assert (Hr : fs_read w h INVENTORY_FILENAME = Ok (json_dumps (json_of_inventory (ivs n)))).
  { apply fs_read_look. assert (E : at_path h INVENTORY_FILENAME = h ++ [inv_name]) by exact (at_path_one h inv_name (md_names _ _ _ _ _ _ _ _ _ M) fname_inv). rewrite E. apply (files_there _ _ _ _ _ _ _ _ _ M). constructor. }
  rewrite Hr. cbn [ebind]. rewrite (proj2 (sound_bytes _ _ _ _ So)). cbn [ebind]. rewrite <- (sound_parse_json _ _ _ _ So). reflexivity.
Qed.

Lemma made_valid H w h sd n alg spec ivs C c e path : hash_ok H -> made H w h sd n alg spec ivs C -> no_url path -> h = at_path (base_of (e_cwd e) path) path ->
  vc_lax_digests c = false -> snd (validate_object H c w (e_cwd e) path 0) = Ok true.
Proof.
  intros HH M Hu -> Hl. pose proof (hl_dir _ _ _ (md_holds _ _ _ _ _ _ _ _ _ M)) as Hd.
  destruct (open_there (e_cwd e) path w Hu Hd) as [R1 _]. unfold validate_object. rewrite R1.
  apply (validate_opened_iff H c w _ 0 Hl (md_tree _ _ _ _ _ _ _ _ _ M) Hd). split; [auto|]. eexists _, _, _, _, _. exact (made_intact _ _ _ _ _ _ _ _ _ HH M _).
Qed.

(** The next version with the files of a source directory *)
Theorem next_made H c e w h sd n alg spec ivs C i1 s m src : hash_ok H ->
  made H w h sd n alg spec ivs C -> no_later (spec n) sd -> (N.of_nat (S n) <= 99999)%N ->
  based H n alg ivs C (o_alg c) i1 -> sound (o_alg c) s n i1 -> content_directory_to_use i1 <> side_name (o_alg c) ->
  meta_ok (e_now e) m -> In (o_norm c) [None; Some (`"uri"); Some (`"md5")] ->
  source_ok (o_norm c) w src -> (alg n = o_alg c \/ forall y, src ++ y <> h ++ [side_name (alg n)]) ->
  exists i0 F nv K,
    next_version i1 DEFAULT_SPEC_VERSION (Some (as_dict (e_now e) m)) (o_norm c) (o_forward_delta c) (o_dedupe c) false (Some (alg n)) = Ok (mk_nv i0 (o_norm c) (o_forward_delta c) (o_dedupe c) (Some (alg n)) []) /\
    next_facts (o_alg c) n i1 [] (as_dict (e_now e) m) i0 /\
    nv_from_srcdir H w src (mk_nv i0 (o_norm c) (o_forward_delta c) (o_dedupe c) (Some (alg n)) []) = Ok nv /\ files_at w src F /\
    growing H (o_alg c) (`"1.1") (S n) i0 (o_norm c) (o_forward_delta c) (o_dedupe c) (Some (alg n)) F nv /\
    copied (o_norm c) (vn (S n)) (content_directory_to_use i0) F (nv_copy nv) K /\
    let x := write_new_version H (o_alg c) h src nv in
    result x w = Ok (nv_inv nv) /\
    made H (after x w) h sd (S n) (upd alg (S n) (o_alg c)) (upd spec (S n) (`"1.1")) (upd ivs (S n) (nv_inv nv)) (C ++ map snd K).
Proof.
  intros HH M Hsd Hn B So A2 Mo Hnorm Sk Hout. pose proof (md_head _ _ _ _ _ _ _ _ _ M) as So0.
  destruct (next_start (o_alg c) s n i1 (as_dict (e_now e) m) (o_norm c) (o_forward_delta c) (o_dedupe c) false (Some (alg n)) So Hn (meta_block _ _ Mo)) as (i0 & E & Nf).
  cbv iota in Nf. pose proof (nf_sound _ _ _ _ _ _ Nf) as Si0.
  assert (Ec : content_directory_to_use i0 = content_directory_to_use i1) by (unfold content_directory_to_use; now rewrite (nf_cdir _ _ _ _ _ _ Nf)).
  assert (Ec0 : content_directory_to_use i1 = content_directory_to_use (ivs n)) by (unfold content_directory_to_use; now rewrite (bs_cdir _ _ _ _ _ _ _ B)).
  assert (Eman : manifest i0 = manifest i1) by (unfold manifest; now rewrite (nf_manifest _ _ _ _ _ _ Nf)).
  destruct (from_srcdir_grow H (o_alg c) (`"1.1") (S n) i0 (o_norm c) (o_forward_delta c) (o_dedupe c) (Some (alg n)) w src
    (mk_nv i0 (o_norm c) (o_forward_delta c) (o_dedupe c) (Some (alg n)) []) HH Hnorm) as (F & nv & E2 & Fa & G).
  - intros p Hp. rewrite Eman in Hp. destruct (so_content _ _ _ _ So p Hp) as (v & r & Hv & _ & Hf & _ & ->). exists v, r. rewrite Ec. replace (S n - 1)%nat with n by lia. auto.
  - intros d p Hs. apply (nf_state _ _ _ _ _ _ Nf) in Hs as [(vs & b & st & l & Hvs & Hb & _)|[_ (l & [] & _)]].
    destruct (so_versions _ _ _ _ So) as (vs' & Hvs' & P). assert (vs' = vs) by congruence. subst vs'.
    assert (Hi : In (version_fmt None (N.of_nat (S n))) (names None n)) by (apply (Permutation_in _ P); apply in_map_iff; eexists; split; [|exact Hb]; reflexivity).
    now apply not_next in Hi.
  - apply M.
  - exact Sk.
  - now apply growing_start.
  - destruct (copied_exists _ _ _ _ _ _ _ _ _ _ _ G) as [K Kc]. change (version_fmt None (N.of_nat (S n))) with (vn (S n)) in Kc.
    pose proof (files_names w src F (md_tree _ _ _ _ _ _ _ _ _ M) (sk_dir _ _ _ Sk) Fa) as Nm. pose proof (proj1 Fa) as Nd.
    assert (Fs : Forall fname src) by (apply (look_fnames w); [apply M|rewrite (sk_dir _ _ _ Sk); discriminate]).
    exists i0, F, nv, K. split; [exact E|]. split; [auto|]. split; [auto|]. split; [auto|]. split; [auto|]. split; [auto|]. intros x.
    assert (Hs : forall s r b, In (s, (r, b)) K -> look w (at_path src s) = Some (EFile b)).
    { intros s0 r b Hi. destruct (cp_each _ _ _ _ _ _ Kc _ _ _ Hi) as (es & r' & Hie & -> & _). destruct (Nm _ _ Hie) as [_ Fe]. rewrite at_path_join by auto. now apply (proj2 Fa). }
    assert (Ho : forall s r b, In (s, (r, b)) K -> alg n = o_alg c \/ at_path src s <> h ++ [side_name (alg n)]).
    { intros s0 r b Hi. destruct Hout as [?|Hout]; [auto|]. right. destruct (cp_each _ _ _ _ _ _ Kc _ _ _ Hi) as (es & r' & Hie & -> & _). destruct (Nm _ _ Hie) as [_ Fe]. rewrite at_path_join by auto. apply Hout. }
    assert (A1' : content_directory_to_use i0 <> inv_name) by (rewrite Ec, Ec0; apply M).
    assert (A2' : content_directory_to_use i0 <> side_name (o_alg c)) by (rewrite Ec; exact A2).
    destruct (write_new_version_ok H w h src sd n alg spec ivs C (o_alg c) (`"1.1") i0 (o_norm c) (o_forward_delta c) (o_dedupe c) F nv K HH M G Kc A1' A2' Hs Ho) as (R & Tw & Hl).
    fold x in R, Tw, Hl. split; [exact R|].
    apply (made_next H w (after x w) h sd n alg spec ivs C (o_alg c) (`"1.1") i0 (o_norm c) (o_forward_delta c) (o_dedupe c) (Some (alg n)) F nv K); auto.
    + eapply next_continues; eauto. apply So0.
    + rewrite <- Ec0. exact A2.
Qed.

(** ** What is different in the new version *)
Lemma sound_is_version alg spec n i v : sound alg spec n i -> (is_version i v <-> In v (names None n)).
Proof.
  intros So. destruct (so_versions _ _ _ _ So) as (vs & Hv & P). unfold is_version. rewrite Hv. split.
  - intros (vs' & b & E & Hi). apply Some_inv in E. subst vs'. apply (Permutation_in _ P). apply in_map_iff. exists (v, b). auto.
  - intros Hi. apply (Permutation_in _ (Permutation_sym P)) in Hi. apply in_map_iff in Hi as ([v' b] & E & Hi). cbn in E. subst v'. eauto.
Qed.
Lemma sound_number alg spec n i k : sound alg spec n i -> (1 <= k <= n)%nat -> number (vn k) (N.of_nat k).
Proof. intros So Hk. pose proof (so_range _ _ _ _ So). apply fmt_number; [lia|]. cbn [within]. lia. Qed.

Lemma sound_diff alg spec n nv : sound alg spec (S n) (nv_inv nv) -> (1 <= n)%nat ->
  exists r, diff_with_previous nv = Ok r /\ (r = [] <-> forall d p, in_state (nv_inv nv) (vn (S n)) d p <-> in_state (nv_inv nv) (vn n) d p).
Proof.
  intros So Hn. set (i := nv_inv nv) in *.
  assert (Num : forall v, is_version i v -> exists k, (1 <= k <= S n)%nat /\ v = vn k /\ number v (N.of_nat k)).
  { intros v Hv. apply (sound_is_version _ _ _ _ _ So) in Hv. apply In_vn in Hv as (k & Hk & ->). exists k. split; [auto|]. split; [auto|]. eapply sound_number; eauto. }
  assert (Hnum : numbered_versions i) by (intros v Hv; destruct (Num v Hv) as (k & _ & _ & ?); eauto).
  assert (Hd : distinct_numbers i).
  { intros v v' m Hv Hv' Hm Hm'. destruct (Num v Hv) as (k & _ & -> & Hk). destruct (Num v' Hv') as (k' & _ & -> & Hk').
    pose proof (number_unique _ _ _ Hm Hk). pose proof (number_unique _ _ _ Hm' Hk'). assert (k = k') by lia. now subst. }
  assert (Hver : is_version i (vn (S n))) by (apply (sound_is_version _ _ _ _ _ So), In_vn; exists (S n); split; [lia|auto]).
  assert (Hp : forall v, previous i (vn (S n)) v <-> v = vn n).
  { intros v. split.
    - intros (Hv & a & b & Ha & Hb & Hlt & Hmax). destruct (Num v Hv) as (k & Hk & -> & Hk'). pose proof (number_unique _ _ _ Hb Hk'). 
      pose proof (number_unique _ _ _ Ha (sound_number _ _ _ _ (S n) So ltac:(lia))). subst a b.
      assert (Hvn : is_version i (vn n)) by (apply (sound_is_version _ _ _ _ _ So), In_vn; exists n; split; [lia|auto]).
      pose proof (Hmax (vn n) (N.of_nat n) Hvn (sound_number _ _ _ _ n So ltac:(lia)) ltac:(lia)). assert (k = n) by lia. now subst.
    - intros ->. split; [apply (sound_is_version _ _ _ _ _ So), In_vn; exists n; split; [lia|auto]|]. exists (N.of_nat (S n)), (N.of_nat n).
      split; [apply (sound_number _ _ _ _ _ So); lia|]. split; [apply (sound_number _ _ _ _ _ So); lia|]. split; [lia|].
      intros v m Hv Hm Hlt. destruct (Num v Hv) as (k & Hk & -> & Hk'). pose proof (number_unique _ _ _ Hm Hk'). lia. }
  destruct (diff_correct nv (vn (S n))) as (r & Er & _); auto; [exact (so_head _ _ _ _ So)|eapply sound_dicts; eauto|]. exists r. split; [auto|].
  rewrite (diff_correct_empty nv (vn (S n)) r); auto; [|exact (so_head _ _ _ _ So)|eapply sound_dicts; eauto]. fold i.
  split; intros X d p.
  - rewrite (X d p). split; [intros (v & Hv & Hs); apply Hp in Hv; now subst|intros Hs; exists (vn n); split; [now apply Hp|auto]].
  - rewrite (X d p). split; [intros Hs; exists (vn n); split; [now apply Hp|auto]|intros (v & Hv & Hs); apply Hp in Hv; now subst].
Qed.
