(** Adding a version with the files of a source directory to an object this library wrote:
    object.py:375-540. *)
From Coq Require Import Permutation Sorted.
From Verif Require Import Base Unicode Regex Utf8 Json PyJson JsonTextModel JsonTextSpec JsonTextProofs JsonFileProofs Log DigestModel LayoutModel LayoutProofs
  ObjectUtilsModel ObjectUtilsProofs InventorySpec InventoryValidatorModel InventoryValidatorProofs InventoryRulesProofs
  InventoryModel InventoryOpsSpec InventoryOpsProofs NewVersionModel NewVersionProofs NewVersionOpsProofs VersionNumberProofs InventoryParseProofs ParseModel
  ContentPathProofs TextFile PathModel FsModel FsSpec FsProofs FswModel FswSpec FswProofs FswCopyProofs ValidatorSpec ValidatorBasicProofs ObjectModel ObjectSpec ObjectInvProofs ObjectRulesProofs
  ObjectParseProofs ObjectAddProofs ContentNameProofs ObjectGrowProofs ObjectStartProofs ObjectCopyProofs ObjectWriteProofs ObjectSourceProofs ObjectFactsProofs NamasteSpec ValidatorVersionProofs ObjectMadeProofs ObjectIntactProofs ObjectExtendProofs FsStepProofs NamasteModel NamasteProofs ObjectStoreProofs ObjectCreateProofs ValidatorModel ValidatorIntactProofs ObjectUpdateProofs ObjectNextProofs ObjectDigestProofs.

(** Opening the object and the source directory and starting the next version: [i1] is the
    inventory after changes of the digest algorithm and the fixity block. *)
Lemma start_new_gen H c e w h sd n alg spec ivs C da types a i1 m carry sp path src : hash_ok H -> made H w h sd n alg spec ivs C ->
  start_inventory_change H da types w h (sort_inv (ivs n)) = Ok (i1, Some (alg n)) -> sound a (spec n) n i1 ->
  (N.of_nat (S n) <= 99999)%N -> o_lax c = false -> meta_ok (e_now e) m ->
  no_url path -> h = at_path (base_of (e_cwd e) path) path -> no_url sp -> src = at_path (base_of (e_cwd e) sp) sp -> look w src = Some EDir ->
  let x := start_new_version H c e (Some path) (Some sp) da types (Some m) carry in
  exists i0, next_facts a n i1 (if carry then state i1 (vn n) else []) (as_dict (e_now e) m) i0 /\
    next_version i1 DEFAULT_SPEC_VERSION (Some (as_dict (e_now e) m)) (o_norm c) (o_forward_delta c) (o_dedupe c) carry (Some (alg n)) = Ok (mk_nv i0 (o_norm c) (o_forward_delta c) (o_dedupe c) (Some (alg n)) []) /\
    result x w = Ok (h, src, mk_nv i0 (o_norm c) (o_forward_delta c) (o_dedupe c) (Some (alg n)) []) /\ after x w = w.
Proof.
  intros HH M St So Hn Hlax Mo Hu Eh Hu' Es Hd x.
  destruct (next_start a (spec n) n i1 (as_dict (e_now e) m) (o_norm c) (o_forward_delta c) (o_dedupe c) carry (Some (alg n)) So Hn (meta_block _ _ Mo)) as (i0 & E & Nf).
  exists i0. split; [exact Nf|]. split; [exact E|].
  pose proof (hl_dir _ _ _ (md_holds _ _ _ _ _ _ _ _ _ M)) as Hh. rewrite Eh in Hh.
  destruct (open_there (e_cwd e) path w Hu Hh) as [P1 P2]. rewrite <- Eh in P1.
  destruct (open_obj_catch e path false w) as (Q1 & Q2 & _). pose proof (Q2 _ P1) as Q3. rewrite P2 in Q1.
  unfold x, start_new_version. rewrite (result_seq _ _ w h Q3), (after_seq _ _ w h Q3), Q1.
  rewrite result_read, after_read. cbv beta. cbn [or_empty].
  assert (V : snd (validate_object H (mkVconf false (o_lax c) DEFAULT_SPEC_VERSION (e_sizes e)) w (e_cwd e) path 0) = Ok true) by (eapply made_valid; eauto).
  change (match Some path with Some d => d | None => [] end) with path. rewrite V. cbn [negb].
  rewrite result_read, after_read. cbv beta. rewrite (made_parse _ _ _ _ _ _ _ _ _ M). cbn [ebind fst].
  rewrite St. cbn [fst snd].
  pose proof Hd as Hd'. rewrite Es in Hd'. destruct (open_there (e_cwd e) sp w Hu' Hd') as [R1 R2]. rewrite <- Es in R1.
  unfold open_src_fs. rewrite (result_seq _ _ w src R1), (after_seq _ _ w src R1), R2. rewrite result_read, after_read. cbv beta.
  assert (En : next_version i1 DEFAULT_SPEC_VERSION (metadata_dict e (Some m)) (o_norm c) (o_forward_delta c) (o_dedupe c) carry (Some (alg n)) = Ok (mk_nv i0 (o_norm c) (o_forward_delta c) (o_dedupe c) (Some (alg n)) [])) by exact E.
  rewrite En. split; reflexivity.
Qed.

Lemma kept_state types i v d p : in_state (kept types (sort_inv i)) v d p <-> in_state i v d p.
Proof.
  destruct (kept_fields types (sort_inv i)) as (_ & _ & _ & _ & _ & _ & E7 & _). rewrite <- (in_state_sorted i). unfold in_state. now rewrite E7.
Qed.

(** A new version with the files of a source directory *)
Theorem add_version_gen H c e w h sd n alg spec ivs C m sp path src abort i1 : hash_ok H -> made H w h sd n alg spec ivs C -> no_later (spec n) sd ->
  (N.of_nat (S n) <= 99999)%N ->
  start_inventory_change H (Some (o_alg c)) (o_fixity c) w h (sort_inv (ivs n)) = Ok (i1, Some (alg n)) -> based H n alg ivs C (o_alg c) i1 -> sound (o_alg c) (spec n) n i1 ->
  content_directory_to_use (ivs n) <> side_name (o_alg c) -> (alg n = o_alg c \/ forall y, src ++ y <> h ++ [side_name (alg n)]) ->
  o_lax c = false -> meta_ok (e_now e) m -> In (o_norm c) [None; Some (`"uri"); Some (`"md5")] ->
  no_url path -> h = at_path (base_of (e_cwd e) path) path -> no_url sp -> src = at_path (base_of (e_cwd e) sp) sp -> source_ok (o_norm c) w src ->
  let x := add_version_with_content H c e (Some path) (Some sp) (Some m) abort in
  exists i0 F nv K, files_at w src F /\ next_facts (o_alg c) n i1 [] (as_dict (e_now e) m) i0 /\
    growing H (o_alg c) (`"1.1") (S n) i0 (o_norm c) (o_forward_delta c) (o_dedupe c) (Some (alg n)) F nv /\
    copied (o_norm c) (vn (S n)) (content_directory_to_use i0) F (nv_copy nv) K /\
    ((abort = true /\ same_files H i1 (o_alg c) (vn n) F /\ result x w = Ok None /\ after x w = w) \/
     (~ (abort = true /\ same_files H i1 (o_alg c) (vn n) F) /\ result x w = Ok (Some (nv_inv nv)) /\
      after x w = after (write_new_version H (o_alg c) h src nv) w /\
      made H (after x w) h sd (S n) (upd alg (S n) (o_alg c)) (upd spec (S n) (`"1.1")) (upd ivs (S n) (nv_inv nv)) (C ++ map snd K))).
Proof.
  intros HH M Hsd Hn St B So A1 Hout Hlax Mo Hnorm Hu Eh Hu' Es Sk x. pose proof (md_some _ _ _ _ _ _ _ _ _ M) as H1.
  destruct (start_new_gen H c e w h sd n alg spec ivs C (Some (o_alg c)) (o_fixity c) (o_alg c) i1 m false sp path src HH M St So Hn) as (i0 & Nf & E & R & A); auto.
  { apply (sk_dir _ _ _ Sk). }
  cbv iota in Nf.
  assert (Ec0 : content_directory_to_use i1 = content_directory_to_use (ivs n)) by (unfold content_directory_to_use; now rewrite (bs_cdir _ _ _ _ _ _ _ B)).
  assert (A2 : content_directory_to_use i1 <> side_name (o_alg c)) by (rewrite Ec0; auto).
  destruct (next_made H c e w h sd n alg spec ivs C i1 (spec n) m src HH M Hsd Hn B So A2 Mo Hnorm Sk Hout) as (i0' & F & nv & K & E' & _ & Ef & Fa & G & Kc & Rw & Mw).
  assert (i0' = i0) by congruence. subst i0'. exists i0, F, nv, K. split; [auto|]. split; [auto|]. split; [auto|]. split; [auto|].
  destruct (sound_diff _ _ _ nv (gw_sound _ _ _ _ _ _ _ _ _ _ _ G) H1) as (r & Er & Hr).
  assert (Same : same_files H i1 (o_alg c) (vn n) F <-> r = []).
  { rewrite Hr. assert (X : forall d p, in_state (nv_inv nv) (vn n) d p <-> in_state i1 (vn n) d p).
    { intros d p. rewrite (gw_state _ _ _ _ _ _ _ _ _ _ _ G), (nf_state _ _ _ _ _ _ Nf). split; [|auto].
      intros [[?|(Ev & _)]|(Ev & _)]; auto; apply vn_inj in Ev; lia. }
    assert (Y : forall d p, in_state (nv_inv nv) (vn (S n)) d p <-> exists es b, In (es, b) F /\ p = J es /\ d = H (o_alg c) b).
    { intros d p. rewrite (gw_state _ _ _ _ _ _ _ _ _ _ _ G), (nf_state _ _ _ _ _ _ Nf). split.
      - intros [[Hs|(_ & l & [] & _)]|(_ & ?)]; auto. exfalso. assert (V : is_version i1 (vn (S n))) by (destruct Hs as (vs & b & st & l & ? & ? & _); exists vs, b; auto).
        apply (sound_is_version _ _ _ _ _ So), In_vn in V as (k & Hk & Ek). apply vn_inj in Ek. lia.
      - intros ?. right. split; [reflexivity|auto]. }
    unfold same_files. split; intros S d p; [rewrite X, Y, S; reflexivity|rewrite <- X, <- Y, S; reflexivity]. }
  unfold x, add_version_with_content. rewrite (result_seq _ _ w _ R), (after_seq _ _ w _ R), A.
  rewrite result_read, after_read. cbv beta. rewrite Ef. rewrite result_read, after_read. cbv beta. rewrite Er. cbn [ebind].
  destruct abort; cbv iota.
  - destruct r as [|r0 r].
    + left. split; [auto|]. split; [now apply Same|]. split; reflexivity.
    + right. split; [intros [_ Hc]; apply Same in Hc; discriminate|]. rewrite (result_seq _ _ w _ Rw), (after_seq _ _ w _ Rw). split; [reflexivity|]. split; [reflexivity|]. exact Mw.
  - right. split; [intros [Hc _]; discriminate|]. rewrite (result_seq _ _ w _ Rw), (after_seq _ _ w _ Rw). split; [reflexivity|]. split; [reflexivity|]. exact Mw.
Qed.
