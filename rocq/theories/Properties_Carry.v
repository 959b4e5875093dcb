(** Property C89: updates without new content. *)
From Coq Require Import Permutation Sorted.
From Verif Require Import Properties_Names Properties_InventoryValidator Properties_Inventory.
From Verif Require Import Base Unicode Regex Utf8 Json PyJson JsonTextModel JsonTextSpec JsonTextProofs JsonFileProofs Log DigestModel LayoutModel LayoutProofs
  ObjectUtilsModel ObjectUtilsProofs InventorySpec InventoryValidatorModel InventoryValidatorProofs InventoryRulesProofs
  InventoryModel InventoryOpsSpec InventoryOpsProofs NewVersionModel NewVersionProofs NewVersionOpsProofs VersionNumberProofs InventoryParseProofs ParseModel
  ContentPathProofs TextFile PathModel FsModel FsSpec FsProofs FswModel FswSpec FswProofs FswCopyProofs ValidatorSpec ValidatorBasicProofs ObjectModel ObjectSpec ObjectInvProofs ObjectRulesProofs
  ObjectParseProofs ObjectAddProofs ContentNameProofs ObjectGrowProofs ObjectStartProofs ObjectCopyProofs ObjectWriteProofs ObjectSourceProofs ObjectFactsProofs NamasteSpec ValidatorVersionProofs ObjectMadeProofs ObjectIntactProofs ObjectExtendProofs FsStepProofs NamasteModel NamasteProofs ObjectStoreProofs ObjectCreateProofs ValidatorModel ValidatorIntactProofs ObjectUpdateProofs ObjectNextProofs ObjectDigestProofs ObjectVersionProofs ObjectExtractProofs ObjectHistoryProofs ObjectExamples UpdateSpec ParseProofs OpenProofs ChangeProofs FrameProofs UpdateProofs Properties_Update RecoverProofs
  Properties_Layout Properties_Object Properties_ObjectFindings Properties_Update.
Import ListNotations.

(** A version started with the content of the last one has exactly its logical paths, each with the
    same content files, and when it is written without any other operation, only the inventory and
    its sidecar are in its directory. Assumed: a new digest algorithm, if any, does not make
    different contents equal. *)
Theorem C89_carried_partial : forall H c e objdir srcdir da types metadata w h src nv i s v0,
  hash_ok H -> tree w -> Forall fname (e_cwd e) ->
  result (start_new_version H c e objdir srcdir da types metadata true) w = Ok (h, src, nv) ->
  parse_inventory w h = Ok (i, s) -> kept_if H da w h i -> i_head i = Some v0 ->
  exists v, i_head (nv_inv nv) = Some v /\ ~ is_version i v /\
    (forall p, (in_version (nv_inv nv) v p <-> in_version i v0 p) /\ forall k, resolves (nv_inv nv) v p k <-> resolves i v0 p k) /\
    (forall alg r, let y := write_new_version H alg h src nv in result y w = Ok r ->
       r = nv_inv nv /\ forall z b, look (after y w) (h ++ v :: z) = Some (EFile b) -> z = [inv_name] \/ z = [side_name alg]).
Proof.
  intros H c e objdir srcdir da types metadata w h src nv i s v0 HH Tw Fc St Pi Ka Hh.
  destruct (start_versions _ _ _ _ _ _ _ _ _ _ _ _ _ _ _ St Pi Ka) as (i3 & v & (S1 & S2 & S3) & Nx & Nv & _ & _ & _ & Eh & _).
  exists v. split; [apply (nx_head _ _ _ _ Nx)|]. split; [exact Nv|]. split.
  - assert (A : forall d p, in_state (nv_inv nv) v d p <-> in_state i3 v0 d p).
    { intros d p. rewrite (nx_added _ _ _ _ Nx), Eh, Hh. split; [intros (_ & x & E & Hs); apply Some_inv in E; subst x; exact Hs|intros Hs; split; [reflexivity|exists v0; split; [reflexivity|exact Hs]]]. }
    intros p. split.
    + rewrite <- S2. unfold in_version. split; intros [d Hd]; exists d; apply A; exact Hd.
    + intros k. rewrite <- S3. unfold resolves, stored. rewrite (nx_manifest _ _ _ _ Nx). split; intros (d & Hd & Hk); exists d; (split; [apply A; exact Hd|exact Hk]).
  - intros alg r y R.
    destruct (start_building _ _ _ _ _ _ _ _ _ _ _ _ _ Fc St) as (i' & s' & inv & i0 & f & v' & Pi' & O & Fh & Hd & (Fv & Vi & Vs) & Cd & Al & B). specialize (B (fs_read w src)).
    pose proof (bd_head _ _ _ _ _ B) as Hv. assert (v' = v) by (pose proof (nx_head _ _ _ _ Nx); congruence). subst v'.
    assert (Fo : forall o, nv_old_alg nv = Some o -> ~ In PathModel.slash o).
    { intros o Eo. rewrite (bd_old _ _ _ _ _ B) in Eo. apply Some_inv in Eo. subst o. now apply algs_no_slash. }
    pose proof (nx_copy _ _ _ _ Nx) as Nc.
    assert (C0 : forall (Q : str -> str -> Prop) s0 c0, In (s0, c0) (nv_copy nv) -> Q s0 c0) by (intros Q s0 c0 Hc; rewrite Nc in Hc; destruct Hc).
    destruct (ends_late H alg h src nv v w Hv r R) as (_ & _ & _ & _ & _ & _ & _ & Er). split; [exact Er|].
    destruct (write_done H alg h src nv v w Tw Fh Hd Fo Hv Fv Vi Vs (C0 _) (C0 _) (C0 _) r R) as (_ & _ & _ & W). intros z b L.
    destruct (W z b L) as [E|[E|(s0 & c0 & Hc & _)]]; auto. rewrite Nc in Hc. destruct Hc.
Qed.
Print Assumptions C89_carried_partial.

(** The object of the example: its three files again, and the object with the new version is valid *)
Example C89_carried_ex : exists nv r, result (ex_start None true) ex_created = Ok ([`"o"], [`"s2"], nv) /\
  logical_paths (nv_inv nv) (`"v2") = [`"a"; `"d/c"; `"d/b"] /\
  let y := write_new_version toy_hash (`"sha256") [`"o"] [`"s2"] nv in result y ex_created = Ok r /\ ex_valid (after y ex_created) = true.
Proof. eexists _, _. split; [vm_compute; reflexivity|]. split; [vm_compute; reflexivity|]. split; vm_compute; reflexivity. Qed.

(** But add_version_with_content never does this without a source directory, as its description
    says: it fails, whatever the object, with nothing written. *)
Theorem C89_no_source_refuted : forall H c e objdir metadata abort w, let x := add_version_with_content H c e objdir None metadata abort in
  (exists ex, result x w = Raise ex) /\ after x w = w.
Proof.
  intros H c e objdir metadata abort w x. pose proof (start_none H c e objdir None (Some (o_alg c)) (o_fixity c) metadata false w) as Es.
  destruct (start_new_version H c e objdir None (Some (o_alg c)) (o_fixity c) metadata false w) as [s0 [[[h src] nv0]|ex]] eqn:St; cbn [fst] in Es; subst s0.
  - assert (R : result (start_new_version H c e objdir None (Some (o_alg c)) (o_fixity c) metadata false) w = Ok (h, src, nv0)) by (unfold result; rewrite St; reflexivity).
    destruct (start_inv _ _ _ _ _ _ _ _ _ _ _ _ _ R) as (_ & _ & _ & _ & _ & F & _). discriminate F.
  - unfold x, result, after, add_version_with_content, ibind. rewrite St. split; [exists ex; reflexivity|reflexivity].
Qed.
Print Assumptions C89_no_source_refuted.
(** Also for an object that could be updated *)
Example C89_no_source_ex : ex_valid ex_created = true /\
  result (add_version_with_content toy_hash (ex_c (`"sha256")) ex_env (Some (`"o")) None (Some ex_meta) false) ex_created = Raise AttributeError.
Proof. split; vm_compute; reflexivity. Qed.

(** Nor does start_new_version use the object that is open if no directory is given. *)
Theorem C89_no_objdir_refuted : forall H c e srcdir da types metadata carry w,
  start_new_version H c e None srcdir da types metadata carry w = ([], Raise AttributeError).
Proof. reflexivity. Qed.
Print Assumptions C89_no_objdir_refuted.
