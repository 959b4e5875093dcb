(** Reading sound inventories (C34-C36). *)
From Coq Require Import Permutation Sorted.
From Verif Require Import Base Unicode Regex Utf8 Json PyJson JsonTextModel JsonTextSpec JsonTextProofs JsonFileProofs Log DigestModel
  ObjectUtilsModel ObjectUtilsProofs InventorySpec InventoryValidatorModel InventoryValidatorProofs InventoryRulesProofs
  InventoryModel InventoryOpsSpec InventoryOpsProofs NewVersionModel NewVersionProofs VersionNumberProofs InventoryParseProofs ParseModel
  TextFile PathModel FsModel FsSpec FsProofs ValidatorBasicProofs ObjectModel ObjectSpec ObjectInvProofs ObjectRulesProofs.

Lemma normalize_same alg (b : block) : In alg [`"sha512"; `"sha256"] -> (forall d l, In (d, l) b -> Forall lower_hex d) -> normalize_block alg b = b.
Proof.
  intros Ha Hd. unfold normalize_block.
  assert (E : filter (fun digest => negb (str_eqb digest (normalized_digest digest alg))) (keys b) = []).
  { assert (N : forall d, normalized_digest d alg = lower d) by (intros d; unfold normalized_digest; destruct Ha as [<-|[<-|[]]]; reflexivity).
    assert (K : forall d, In d (keys b) -> Forall lower_hex d).
    { intros d Hk. apply in_map_iff in Hk as ([d' l] & <- & Hi). eauto. }
    induction (keys b) as [|d ks IH]; [reflexivity|]. cbn [filter]. rewrite N, (lower_id d) by (apply K; now left). rewrite str_eqb_refl. cbn [negb].
    apply IH. intros; apply K; now right. }
  rewrite E. reflexivity.
Qed.

Lemma dset_id {A} k (v : A) d : dget k d = Some v -> dset k v d = d.
Proof.
  induction d as [|[k' v'] d IH]; cbn [dget dset]; [discriminate|]. destruct (str_eqb k k') eqn:E; intros H.
  - apply str_eqb_eq in E. injection H as ->. now subst.
  - now rewrite IH.
Qed.
Lemma set_manifest_id m i : i_manifest i = Some m -> set_manifest m i = i.
Proof. destruct i. cbn. now intros ->. Qed.
Lemma set_state_id v s b vs i : i_versions i = Some vs -> dget v vs = Some b -> vb_state b = Some s -> set_state v s i = i.
Proof.
  intros Hv Hb Hs. unfold set_state, update_version, versions_block. rewrite Hv. cbn [or_empty]. rewrite Hb.
  assert (E : with_state s b = b) by (destruct b; cbn in *; unfold with_state; cbn; now rewrite Hs). rewrite E, dset_id by auto.
  destruct i; cbn in *. now rewrite Hv.
Qed.

Lemma sound_directories alg spec n i : sound alg spec n i -> version_directories i = Ok (names None n).
Proof.
  intros So. apply directories_perm; [|apply (so_range _ _ _ _ So)]. destruct (so_versions _ _ _ _ So) as (vs & Hv & P). unfold versions_block. now rewrite Hv.
Qed.

Lemma sound_normal alg spec n i : sound alg spec n i -> normalize_digests alg i = (i, Ok tt).
Proof.
  intros So. destruct (so_manifest _ _ _ _ So) as [m Hm]. unfold normalize_digests. rewrite Hm.
  assert (Em : manifest i = m) by (unfold manifest; now rewrite Hm).
  assert (Hl : forall d, lower_digest alg d -> Forall lower_hex d) by (intros d (k & _ & _ & Hf); exact Hf).
  rewrite normalize_same; [|apply (so_algs _ _ _ _ So)|].
  2:{ intros d l Hd. apply Hl. rewrite <- Em in Hd. exact (so_digests _ _ _ _ So d l Hd). }
  rewrite set_manifest_id by auto. rewrite (sound_directories _ _ _ _ So). f_equal.
  destruct (so_versions _ _ _ _ So) as (vs & Hv & P).
  assert (G : forall l, fold_left (fun i v => match vb_state (versiondata i v) with
                             | Some s => set_state v (normalize_block alg s) i
                             | None => i
                             end) l i = i); [|apply G].
  induction l as [|v l IH]; [reflexivity|]. cbn [fold_left].
  assert (E : match vb_state (versiondata i v) with Some s => set_state v (normalize_block alg s) i | None => i end = i); [|now rewrite E].
  unfold versiondata, versions_block. rewrite Hv. cbn [or_empty]. destruct (dget v vs) as [b|] eqn:Eb; [|reflexivity].
  pose proof (dget_In _ _ _ Eb) as Hb. destruct (so_blocks _ _ _ _ So vs v b Hv Hb) as (_ & st & Hs & G). rewrite Hs.
  rewrite normalize_same; [exact (set_state_id v st b vs i Hv Eb Hs)|apply (so_algs _ _ _ _ So)|].
  intros d l' Hd. apply Hl. exact (state_digest_lower _ _ _ _ So _ _ _ _ _ _ Hv Hb Hs Hd).
Qed.

Lemma sound_json_object alg spec n i : sound alg spec n i -> exists d, sort_json (json_of_inventory i) = JObj d.
Proof. intros So. destruct (sound_parts _ _ _ _ So) as (x & m & vs & _ & _ & _ & ->). cbn [sort_json]. eauto. Qed.

Lemma sound_parse_json alg spec n i : sound alg spec n i -> parse_inventory_json (sort_json (json_of_inventory i)) = Ok (sort_inv i, spec).
Proof.
  intros So. assert (Hw : json_wf (sort_json (json_of_inventory i))) by (apply writable_wf, writable_sort, (sound_writable _ _ _ _ So)).
  pose proof (sound_obeys _ _ _ _ So) as Ho. unfold parse_inventory_json.
  assert (Hh : head_rule (sort_json (json_of_inventory i)) (facts_of alg spec n i)) by apply Ho. destruct Hh as (h & before & Hm & Hb).
  assert (E : snd (iv_validate false DEFAULT_SPEC_VERSION None (sort_json (json_of_inventory i))) = Ok (accepted (facts_of alg spec n i) h, true)).
  { apply iv_validate_iff; [auto|]. exists (facts_of alg spec n i), h, before. split; [exact Ho|]. split; [exact I|]. auto. }
  rewrite E. cbn [ebind negb]. rewrite (read_back _ _ _ _ So). cbn [ebind]. cbn [accepted iv_digest_algorithm iv_spec_version f_alg f_spec facts_of].
  rewrite (sound_normal alg spec n); [reflexivity|]. now apply sound_sorted.
Qed.

Lemma sound_bytes alg spec n i : sound alg spec n i ->
  write_text (json_dumps (json_of_inventory i)) = Ok (json_dumps (json_of_inventory i)) /\
  json_load (json_dumps (json_of_inventory i)) = Ok (sort_json (json_of_inventory i)).
Proof. intros So. exact (json_file_ok _ (sound_writable _ _ _ _ So)). Qed.
