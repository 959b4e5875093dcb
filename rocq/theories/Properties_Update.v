(** Properties of new versions built with the API of Object and NewVersion: C37, C38, C40, C42. *)
From Coq Require Import Permutation Sorted.
From Verif Require Import Properties_Names Properties_InventoryValidator.
From Verif Require Import Base Unicode Regex Utf8 Json PyJson JsonTextModel JsonTextSpec JsonTextProofs JsonFileProofs Log DigestModel LayoutModel LayoutProofs
  ObjectUtilsModel ObjectUtilsProofs InventorySpec InventoryValidatorModel InventoryValidatorProofs InventoryRulesProofs
  InventoryModel InventoryOpsSpec InventoryOpsProofs NewVersionModel NewVersionProofs NewVersionOpsProofs VersionNumberProofs InventoryParseProofs ParseModel
  ContentPathProofs TextFile PathModel FsModel FsSpec FsProofs FswModel FswSpec FswProofs FswCopyProofs ValidatorSpec ValidatorBasicProofs ObjectModel ObjectSpec ObjectInvProofs ObjectRulesProofs
  ObjectParseProofs ObjectAddProofs ContentNameProofs ObjectGrowProofs ObjectStartProofs ObjectCopyProofs ObjectWriteProofs ObjectSourceProofs ObjectFactsProofs NamasteSpec ValidatorVersionProofs ObjectMadeProofs ObjectIntactProofs ObjectExtendProofs FsStepProofs NamasteModel NamasteProofs ObjectStoreProofs ObjectCreateProofs ValidatorModel ValidatorIntactProofs ObjectUpdateProofs ObjectNextProofs ObjectDigestProofs ObjectVersionProofs ObjectExtractProofs ObjectHistoryProofs ObjectExamples UpdateSpec ParseProofs OpenProofs ChangeProofs FrameProofs UpdateProofs.

From Verif Require Import Properties_Inventory Properties_Layout Properties_Object Properties_ObjectFindings.
From Verif Require Properties_Validator.

(** * C37 *)

(** write_new_version for a new version that was begun with start_new_version on any object and
    built with any operations (that may also have failed): at every moment of the writing, and at
    its end, only places in the directory of the new version -- which was not there before --,
    the root inventory and the sidecars have changed, and nothing below a directory that was there
    before. The paths given to add must not have ".." in them (else C37_dotdot_refuted). *)
Theorem C37_partial : forall H c e objdir srcdir da types metadata carry w h src nv0 ops alg w',
  hash_ok H -> tree w -> Forall fname (e_cwd e) ->
  result (start_new_version H c e objdir srcdir da types metadata carry) w = Ok (h, src, nv0) ->
  Forall plain_op ops -> let nv := nv_do H (fs_read w src) ops nv0 in
  crash (write_new_version H alg h src nv) w w' ->
  exists v i s old, i_head (nv_inv nv) = Some v /\ parse_inventory w h = Ok (i, s) /\ i_alg i = Some old /\
    (forall q, ~ (look w (h ++ [v]) = None /\ exists y, q = h ++ v :: y) -> q <> h ++ [inv_name] -> q <> h ++ [side_name alg] -> q <> h ++ [side_name old] -> look w' q = look w q) /\
    (forall x y, look w (h ++ [x]) = Some EDir -> y <> [] -> look w' (h ++ x :: y) = look w (h ++ x :: y)).
Proof.
  intros H c e objdir srcdir da types metadata carry w h src nv0 ops alg w' HH Tw Fc St Pl nv Cr.
  destruct (built H c e objdir srcdir da types metadata carry w h src nv0 ops alg HH Tw Fc St Pl) as (i & s & inv & i0 & f & v & Pi & O & Fh & Hd & Vv & Cd & Al & B & Ac).
  fold nv in B, Ac. exists v, i, s, (f_alg f). split; [apply (bd_head _ _ _ _ _ B)|]. split; [exact Pi|]. split; [apply (oa_alg _ _ _ _ _ _ _ O)|].
  assert (K : forall q, ~ (look w (h ++ [v]) = None /\ exists y, q = h ++ v :: y) -> q <> h ++ [inv_name] -> q <> h ++ [side_name alg] -> q <> h ++ [side_name (f_alg f)] -> look w' q = look w q).
  { intros q N1 N2 N3 N4. apply (crash_other _ _ _ _ _ Tw Ac Cr). intros [F|[F|[F|(o & Eo & _ & F)]]]; auto. rewrite (bd_old _ _ _ _ _ B) in Eo. apply Some_inv in Eo. subst o. auto. }
  split; [exact K|]. intros x y Hx Hy. apply K.
  - intros [N [z F]]. apply app_inv_head in F. injection F as -> _. congruence.
  - intros F. apply app_inv_head in F. injection F as _ F. auto.
  - intros F. apply app_inv_head in F. injection F as _ F. auto.
  - intros F. apply app_inv_head in F. injection F as _ F. auto.
Qed.
Print Assumptions C37_partial.

(** For add_version_with_content nothing has to be assumed: any object, any source directory. *)
Theorem C37_add_version : forall H c e objdir srcdir metadata abort w w',
  hash_ok H -> tree w -> Forall fname (e_cwd e) ->
  crash (add_version_with_content H c e objdir srcdir metadata abort) w w' ->
  (forall q, look w' q = look w q) \/
  exists h v i s old, result (open_obj_fs e objdir false) w = Ok h /\ parse_inventory w h = Ok (i, s) /\ i_alg i = Some old /\
    (forall q, ~ (look w (h ++ [v]) = None /\ exists y, q = h ++ v :: y) -> q <> h ++ [inv_name] -> q <> h ++ [side_name (o_alg c)] -> q <> h ++ [side_name old] -> look w' q = look w q) /\
    (forall x y, look w (h ++ [x]) = Some EDir -> y <> [] -> look w' (h ++ x :: y) = look w (h ++ x :: y)).
Proof.
  intros H c e objdir srcdir metadata abort w w' HH Tw Fc Cr. destruct (add_version_crash _ _ _ _ _ _ _ _ _ Tw Fc Cr) as [E|(h & src & nv0 & nv & l & St & Pl & Nl & Run & Cr')]; [left; exact E|right].
  rewrite (run_do _ _ _ _ _ Run) in Cr'.
  destruct (C37_partial _ _ _ _ _ _ _ _ _ _ _ _ _ _ _ _ HH Tw Fc St (adds_plain l Pl) Cr') as (v & i & s & old & _ & Pi & Ea & K1 & K2). exists h, v, i, s, old.
  destruct (start_inv _ _ _ _ _ _ _ _ _ _ _ _ _ St) as (_ & _ & _ & _ & Eo & _). auto.
Qed.
Print Assumptions C37_add_version.

(** The object of the example gets a version with operations of every kind. *)
Definition ex_start (da : option str) (carry : bool) : io (place * place * new_version) :=
  start_new_version toy_hash (ex_c (`"sha256")) ex_env (Some (`"o")) (Some (`"s2")) da None (Some ex_meta) carry.
Definition ex_ops : list nv_op :=
  [OAdd (`"a") (`"new") None; ODelete (`"d/b"); ORename (`"a") (`"z"); OAdd (`"d/b") (`"x") (Some (`"v2/content/q/r"))].
Definition ex_begun (da : option str) (carry : bool) : new_version :=
  match result (ex_start da carry) ex_created with Ok (_, _, nv) => nv | Raise _ => mk_nv empty_inventory None false false None [] end.
Definition ex_built (da : option str) (carry : bool) (ops : list nv_op) : new_version :=
  nv_do toy_hash (fs_read ex_created [`"s2"]) ops (ex_begun da carry).
Definition ex_write (da : option str) (carry : bool) (ops : list nv_op) : io inventory :=
  write_new_version toy_hash (`"sha256") [`"o"] [`"s2"] (ex_built da carry ops).

Lemma ex_created_tree : tree ex_created. Proof. apply tree_b_ok. vm_compute. reflexivity. Qed.
Lemma ex_start_ok : result (ex_start None true) ex_created = Ok ([`"o"], [`"s2"], ex_begun None true). Proof. vm_compute. reflexivity. Qed.
Lemma ex_plain p : forallb (fun e => negb (str_in e [[]; `"."; `".."])) (split_on 47%N p) = true -> plain_path p.
Proof.
  intros E. apply ContentPathProofs.plain_path_split. apply Forall_forall. intros e He. rewrite forallb_forall in E. specialize (E e He). destruct (str_in_spec e [[]; `"."; `".."]) as [Hi|Hi]; [discriminate|].
  split; [intros ->; apply Hi; now left|]. split; intros ->; apply Hi; cbn; auto.
Qed.
Lemma ex_ops_plain : Forall plain_op ex_ops.
Proof.
  unfold ex_ops. constructor; [split; [apply ex_plain; reflexivity|exact I]|]. constructor; [exact I|]. constructor; [exact I|]. constructor; [|constructor]. split; apply ex_plain; reflexivity.
Qed.
Example C37_ex :
  result (ex_write None true ex_ops) ex_created = Ok (nv_inv (ex_built None true ex_ops)) /\
  keys (nv_copy (ex_built None true ex_ops)) = [`"d/b"] /\ logical_paths (nv_inv (ex_built None true ex_ops)) (`"v2") = [`"d/c"; `"new"; `"z"; `"x"] /\
  crash (ex_write None true ex_ops) ex_created (after (ex_write None true ex_ops) ex_created) /\
  look (after (ex_write None true ex_ops) ex_created) [`"o"; `"v2"; `"content"; `"q"; `"r"] = Some (EFile (`"three")).
Proof. split; [vm_compute; reflexivity|]. split; [vm_compute; reflexivity|]. split; [vm_compute; reflexivity|]. split; [apply crash_done|vm_compute; reflexivity]. Qed.

(** A content path with ".." in it is accepted, and then a file of an earlier version is
    overwritten: the object is not valid any more. *)
Theorem C37_dotdot_refuted : let ops := [OAdd (`"d/b") (`"x") (Some (`"v2/content/../../v1/content/a"))] in let x := ex_write None true ops in
  result x ex_created = Ok (nv_inv (ex_built None true ops)) /\
  look ex_created [`"o"; `"v1"; `"content"; `"a"] = Some (EFile (`"one")) /\ look (after x ex_created) [`"o"; `"v1"; `"content"; `"a"] = Some (EFile (`"three")).
Proof. split; [vm_compute; reflexivity|]. split; vm_compute; reflexivity. Qed.
Print Assumptions C37_dotdot_refuted.

(** * C38 *)

(** Writing interrupted at any moment, also in the middle of a file: everything in the version
    directories that were there before is intact, and if the root inventory is not the old one any
    more (complete or not), then the inventory of the new version and its sidecar have been
    written completely, and every content file in the new version's directory that the new
    inventory mentions is there and has the digest of the inventory. Assumed, besides plain paths:
    the operations are those of C42_run_partial, a new digest algorithm does not make different
    contents equal, and the content directory of the object has a name (else
    C38_empty_content_directory_refuted). *)
Theorem C38_partial : forall H c e objdir srcdir da types metadata carry w h src nv0 ops nv alg w' i s v,
  hash_ok H -> tree w -> Forall fname (e_cwd e) -> ~ In 47%N alg ->
  result (start_new_version H c e objdir srcdir da types metadata carry) w = Ok (h, src, nv0) ->
  parse_inventory w h = Ok (i, s) -> kept_if H da w h i -> content_directory_to_use i <> [] ->
  Forall plain_op ops -> nv_run H (fs_read w src) ops nv0 = (nv, Ok tt) ->
  i_head (nv_inv nv0) = Some v -> harmless_run H (fs_read w src) v ops nv0 ->
  crash (write_new_version H alg h src nv) w w' ->
  (forall x y, look w (h ++ [x]) = Some EDir -> y <> [] -> look w' (h ++ x :: y) = look w (h ++ x :: y)) /\
  (look w' (h ++ [inv_name]) <> look w (h ++ [inv_name]) ->
     (exists b x t, write_text (json_dumps (json_of_inventory (nv_inv nv))) = Ok b /\ digest_of H alg b x /\ write_text (x ++ `" inventory.json" ++ [10%N]) = Ok t /\
        look w' (h ++ [v; inv_name]) = Some (EFile b) /\ look w' (h ++ [v; side_name alg]) = Some (EFile t)) /\
     (forall d k, stored (nv_inv nv) d k -> in_directory v k ->
        exists a b, i_alg (nv_inv nv) = Some a /\ look w' (at_path h k) = Some (EFile b) /\ digest_of H a b d)).
Proof.
  intros H c e objdir srcdir da types metadata carry w h src nv0 ops nv alg w' i s v HH Tw Fc Na St Pi Ka Cd Pl Rn Hv Hr Cr. split.
  - pose proof Cr as Cr'. rewrite (run_do _ _ _ _ _ Rn) in Cr'. destruct (C37_partial _ _ _ _ _ _ _ _ _ _ _ _ _ _ _ _ HH Tw Fc St Pl Cr') as (_ & _ & _ & _ & _ & _ & _ & _ & K). exact K.
  - intros Hne. exact (crashed _ _ _ _ _ _ _ _ _ _ _ _ _ _ _ HH Tw Fc St Pl _ _ _ _ Pi Ka Cd Rn Hv Hr _ Na Cr Hne).
Qed.
Print Assumptions C38_partial.

(** For add_version_with_content *)
Theorem C38_add_version_partial : forall H c e objdir srcdir metadata abort w w',
  hash_ok H -> tree w -> Forall fname (e_cwd e) -> ~ In 47%N (o_alg c) ->
  (forall h i s, result (open_obj_fs e objdir false) w = Ok h -> parse_inventory w h = Ok (i, s) -> kept_if H (Some (o_alg c)) w h i /\ content_directory_to_use i <> []) ->
  crash (add_version_with_content H c e objdir srcdir metadata abort) w w' ->
  (forall q, look w' q = look w q) \/
  exists h v i s j, parse_inventory w h = Ok (i, s) /\ ~ is_version i v /\ i_head j = Some v /\ i_alg j = Some (o_alg c) /\
    (forall x y, look w (h ++ [x]) = Some EDir -> y <> [] -> look w' (h ++ x :: y) = look w (h ++ x :: y)) /\
    (look w' (h ++ [inv_name]) <> look w (h ++ [inv_name]) ->
       (exists b x t, write_text (json_dumps (json_of_inventory j)) = Ok b /\ digest_of H (o_alg c) b x /\ write_text (x ++ `" inventory.json" ++ [10%N]) = Ok t /\
          look w' (h ++ [v; inv_name]) = Some (EFile b) /\ look w' (h ++ [v; side_name (o_alg c)]) = Some (EFile t)) /\
       (forall d k, stored j d k -> in_directory v k -> exists b, look w' (at_path h k) = Some (EFile b) /\ digest_of H (o_alg c) b d)).
Proof.
  intros H c e objdir srcdir metadata abort w w' HH Tw Fc Na Hi Cr. destruct (add_version_crash _ _ _ _ _ _ _ _ _ Tw Fc Cr) as [E|(h & src & nv0 & nv & l & St & Pl & Nl & Run & Cr')]; [left; exact E|right].
  destruct (start_inv _ _ _ _ _ _ _ _ _ _ _ _ _ St) as (i & s & i3 & o & Eo & _ & _ & Pi & Ch & _). destruct (Hi h i s Eo Pi) as [Ka Cd].
  destruct (start_versions _ _ _ _ _ _ _ _ _ _ _ _ _ _ _ St Pi Ka) as (i3' & v & Sv & Nx & Nv & Es & G & Ca & _ & _ & Ea3).
  assert (Hr : harmless_run H (fs_read w src) v (map (fun p => OAdd p p None) l) nv0).
  { apply (adds_harmless _ _ _ _ nv0 G Nl) with (nv' := nv); [|exact Run]. rewrite (nx_copy _ _ _ _ Nx). intros q []. }
  destruct (C38_partial _ _ _ _ _ _ _ _ _ _ _ _ _ _ _ _ _ _ _ _ HH Tw Fc Na St Pi Ka Cd (adds_plain l Pl) Run (nx_head _ _ _ _ Nx) Hr Cr') as [K1 K2].
  destruct (run_agree _ _ _ _ _ _ G (Ca (fs_read w src)) Hr Run) as [G1 _].
  exists h, v, i, s, (nv_inv nv). split; [exact Pi|]. split; [exact Nv|]. split; [apply (g_head _ _ G1)|].
  assert (Ea : i_alg (nv_inv nv) = Some (o_alg c)).
  { rewrite (run_alg _ _ _ _ _ _ G Run), (nx_alg _ _ _ _ Nx). exact Ea3. }
  split; [exact Ea|]. split; [exact K1|]. intros Hne. destruct (K2 Hne) as [K3 K4]. split; [exact K3|]. intros d k Hk Hd. destruct (K4 d k Hk Hd) as (a & b & Ea' & L & D). rewrite Ea in Ea'. apply Some_inv in Ea'. subst a. eauto.
Qed.
Print Assumptions C38_add_version_partial.

(** The object of the example meets this, and a torn root inventory is one of the cases. *)
Example C38_ex : exists i s, let x := ex_update (`"sha256") (`"s2") false in
  parse_inventory ex_created [`"o"] = Ok (i, s) /\ kept_if toy_hash (Some (`"sha256")) ex_created [`"o"] i /\ content_directory_to_use i <> [] /\
  look (after x ex_created) [`"o"; inv_name] <> look ex_created [`"o"; inv_name].
Proof.
  eexists _, _. cbv zeta. split; [vm_compute; reflexivity|]. split; [intros a E N; exfalso; apply N; apply Some_inv in E; subst a; reflexivity|]. split; [discriminate|vm_compute; discriminate].
Qed.

(** With an empty content directory -- which the validator accepts as long as there are no content
    files -- the source file inventory.json gets the place of the inventory of the version: the
    content the root inventory mentions is lost. *)
Definition ex_empty_inventory : str :=
  Properties_Validator.ex_inventory_with (`"1.1") (`"v1") [] (Properties_Validator.ex_version (`"v1") []) (`"," ++ Properties_Validator.q (`"contentDirectory") ++ `":" ++ Properties_Validator.q []).
Definition ex_empty_object : node :=
  let side := Properties_Validator.ex_sidecar ex_empty_inventory in
  Dir [(`"o", Dir [(decl_name (`"1.1"), File (decl_text (`"1.1"))); (`"inventory.json", File ex_empty_inventory); (`"inventory.json.sha256", File side);
                   (`"v1", Dir [(`"inventory.json", File ex_empty_inventory); (`"inventory.json.sha256", File side)])]);
       (`"s2", Dir [(`"inventory.json", File (`"two"))])].
Theorem C38_empty_content_directory_refuted : let x := ex_update (`"sha256") (`"s2") false in let w' := after x ex_empty_object in
  exists j d, tree ex_empty_object /\ ex_valid ex_empty_object = true /\ result x ex_empty_object = Ok (Some j) /\
    stored j d (`"v2/inventory.json") /\ look w' [`"o"; inv_name] <> look ex_empty_object [`"o"; inv_name] /\
    (exists b, write_text (json_dumps (json_of_inventory j)) = Ok b /\ look w' [`"o"; `"v2"; `"inventory.json"] = Some (EFile b) /\ b <> `"two") /\ ex_valid w' = false.
Proof.
  eexists _, _. cbv zeta. split; [apply tree_b_ok; vm_compute; reflexivity|]. split; [vm_compute; reflexivity|]. split; [vm_compute; reflexivity|].
  split; [apply stored_iff; eexists; split; [left; reflexivity|now left]|]. split; [vm_compute; discriminate|]. split; [|vm_compute; reflexivity].
  eexists. split; [vm_compute; reflexivity|]. split; [vm_compute; reflexivity|discriminate].
Qed.
Print Assumptions C38_empty_content_directory_refuted.

(** * C65 *)

(** Whenever an update is interrupted and the root inventory has not been touched yet, the object
    is opened as before, and all content it mentions is read as before. (Content paths of objects
    can have a newline, and then any text after it; those with ".." there are left out.) *)
Theorem C65_partial : forall H c e objdir srcdir metadata abort w w' h i s,
  hash_ok H -> tree w -> Forall fname (e_cwd e) -> crash (add_version_with_content H c e objdir srcdir metadata abort) w w' ->
  result (open_obj_fs e objdir false) w = Ok h -> parse_inventory w h = Ok (i, s) ->
  (look w' (h ++ [inv_name]) = look w (h ++ [inv_name]) -> parse_inventory w' h = Ok (i, s)) /\
  (forall d k b, stored i d k -> plain_path k -> fs_read w h k = Ok b -> fs_read w' h k = Ok b).
Proof.
  intros H c e objdir srcdir metadata abort w w' h i s HH Tw Fc Cr Eh Pi. destruct (open_obj_place _ _ _ _ Fc Eh) as [Fh Hd].
  assert (Same : forall k b, (forall q, q = at_path h k -> look w' q = look w q) -> fs_read w h k = Ok b -> fs_read w' h k = Ok b).
  { intros k b Hk Rb. apply fs_read_look. apply fs_read_look in Rb. rewrite Hk; auto. }
  assert (E : at_path h INVENTORY_FILENAME = h ++ [inv_name]) by (apply at_path_one; [auto|apply fname_inv]).
  split.
  - intros L. unfold parse_inventory in *. apply ebind_ok in Pi as [b [Rb Pi]]. rewrite (Same INVENTORY_FILENAME b); [exact Pi| |exact Rb]. intros q ->. now rewrite E.
  - intros d k b Hk Pk Rb. apply (Same k b); [|exact Rb]. intros q ->. destruct (C37_add_version _ _ _ _ _ _ _ _ _ HH Tw Fc Cr) as [A|(h' & v & i' & s' & old & Eh' & _ & _ & _ & K)]; [apply A|].
    assert (h' = h) by congruence. subst h'. destruct (plain_path_names k Pk) as (r & Nr & Fr & ->). rewrite (at_path_join h r Fh Fr) in *.
    destruct (parse_opened _ _ _ _ Pi) as (inv & i0 & f & O). destruct (open_content _ _ _ _ _ _ _ O d _ Hk) as (_ & x & rest & Hx & Ec & _).
    destruct r as [|x' [|y r]]; [now contradiction Nr| |].
    + exfalso. cbn [join] in Ec. apply Forall_inv in Fr. destruct Fr as (_ & _ & _ & F). apply F. rewrite Ec. apply in_or_app. right. now left.
    + apply K; [|discriminate]. apply fs_read_look in Rb. rewrite (at_path_join h (x' :: y :: r) Fh Fr) in Rb.
      apply (look_prefix_dir w (h ++ x' :: y :: r) (h ++ [x']) (y :: r)); [rewrite Rb; discriminate|rewrite <- app_assoc; reflexivity|discriminate].
Qed.
Print Assumptions C65_partial.

(** But it is not valid, and no other update of it is possible: already after the first step, the
    directory of the new version, and when only the sidecar with the old algorithm has been removed. *)
Definition ex_cut (alg : str) (n : nat) : node := apply_all (firstn n (fst (ex_update alg (`"s2") false ex_created))) ex_created.
Lemma ex_cut_crash alg n : crash (ex_update alg (`"s2") false) ex_created (ex_cut alg n).
Proof.
  exists (firstn n (fst (ex_update alg (`"s2") false ex_created))). split; [|reflexivity].
  rewrite <- (firstn_skipn n (fst (ex_update alg (`"s2") false ex_created))) at 2. constructor.
Qed.
Theorem C65_not_valid_refuted : forall alg, In alg [`"sha256"; `"sha512"] -> exists w', crash (ex_update alg (`"s2") false) ex_created w' /\
  ex_valid ex_created = true /\ ex_valid w' = false /\ result (ex_update alg (`"s2") false) w' = Raise ObjectException.
Proof. intros alg Ha. exists (ex_cut alg 1). split; [apply ex_cut_crash|]. destruct Ha as [<-|[<-|[]]]; (split; [vm_compute; reflexivity|]; split; vm_compute; reflexivity). Qed.
Print Assumptions C65_not_valid_refuted.

(** While the root inventory is written it cannot be read at all: neither the new version nor the
    earlier ones can be opened. *)
Theorem C65_torn_refuted : exists w', crash (ex_update (`"sha256") (`"s2") false) ex_created w' /\ parse_inventory w' [`"o"] = Raise JSONDecodeError /\
  result (extract ex_env (Some (`"o")) (`"v1") (`"new")) w' = Raise JSONDecodeError.
Proof. exists (ex_cut (`"sha256") 10). split; [apply ex_cut_crash|]. split; vm_compute; reflexivity. Qed.
Print Assumptions C65_torn_refuted.

(** * C40 *)

(** start_new_version, also with another digest algorithm: every earlier version has the same
    logical paths, and each of them the same content files. *)
Theorem C40_partial : forall H c e objdir srcdir da types metadata carry w h src nv i s,
  result (start_new_version H c e objdir srcdir da types metadata carry) w = Ok (h, src, nv) -> parse_inventory w h = Ok (i, s) -> kept_if H da w h i ->
  i_alg (nv_inv nv) = match da with Some a => Some a | None => i_alg i end /\
  (exists v, i_head (nv_inv nv) = Some v /\ ~ is_version i v /\ forall x, is_version (nv_inv nv) x <-> is_version i x \/ x = v) /\
  forall v, is_version i v -> forall p, (in_version (nv_inv nv) v p <-> in_version i v p) /\ forall k, resolves (nv_inv nv) v p k <-> resolves i v p k.
Proof.
  intros H c e objdir srcdir da types metadata carry w h src nv i s St Pi Ka. destruct (start_versions _ _ _ _ _ _ _ _ _ _ _ _ _ _ _ St Pi Ka) as (i3 & v & (S1 & S2 & S3) & Nx & Nv & Es & _ & _ & _ & _ & Ea).
  split; [rewrite (nx_alg _ _ _ _ Nx); exact Ea|]. split.
  - exists v. split; [apply (nx_head _ _ _ _ Nx)|]. split; [exact Nv|]. intros x. rewrite (nx_versions _ _ _ _ Nx), S1. reflexivity.
  - intros x Hx p. apply S1 in Hx as Hx3. split.
    + rewrite <- S2. unfold in_version. split; intros [d Hd]; exists d; now apply (nx_state _ _ _ _ Nx x d p Hx3).
    + intros k. rewrite <- S3. unfold resolves, stored. rewrite (nx_manifest _ _ _ _ Nx). split; intros (d & Hd & Hk); exists d; (split; [now apply (nx_state _ _ _ _ Nx x d p Hx3)|exact Hk]).
Qed.
Print Assumptions C40_partial.

(** The assumption, said of an object whose content files are intact: different contents have
    different digests under the new algorithm. *)
Theorem C40_intact : forall H a w h i old,
  i_alg i = Some old -> (forall d k, stored i d k -> exists b, fs_read w h k = Ok b /\ digest_of H old b d) ->
  (forall d k b d' k' b' x, stored i d k -> stored i d' k' -> fs_read w h k = Ok b -> fs_read w h k' = Ok b' -> digest_of H a b x -> digest_of H a b' x -> b = b') ->
  kept_if H (Some a) w h i.
Proof.
  intros H a w h i old _ Hi Hc a' E _. apply Some_inv in E. subst a'. intros d k b d' k' b' x Hk Hk' Rb Rb' Hx Hx'.
  pose proof (Hc d k b d' k' b' x Hk Hk' Rb Rb' Hx Hx'). subst b'. destruct (Hi d k Hk) as (b1 & R1 & D1). destruct (Hi d' k' Hk') as (b2 & R2 & D2).
  assert (b1 = b) by congruence. assert (b2 = b) by congruence. subst. apply file_digest_iff in D1, D2. congruence.
Qed.
Print Assumptions C40_intact.

(** The object of the example gets another algorithm: its contents stay apart. *)
Example C40_ex : exists i s nv, result (ex_start (Some (`"sha512")) true) ex_created = Ok ([`"o"], [`"s2"], nv) /\ parse_inventory ex_created [`"o"] = Ok (i, s) /\
  kept_if toy_hash (Some (`"sha512")) ex_created [`"o"] i /\ i_alg i = Some (`"sha256") /\ i_alg (nv_inv nv) = Some (`"sha512") /\
  is_version i (`"v1") /\ in_version i (`"v1") (`"d/c") /\ manifest (nv_inv nv) <> manifest i.
Proof.
  eexists _, _, _. split; [vm_compute; reflexivity|]. split; [vm_compute; reflexivity|]. split; [|split; [vm_compute; reflexivity|split; [vm_compute; reflexivity|split; [|split]]]].
  - intros a Ea _. apply Some_inv in Ea. subst a. intros d k b d' k' b' x Hk Hk' Rb Rb' Hx Hx'. apply stored_iff in Hk as (l & Hi & Hk). apply stored_iff in Hk' as (l' & Hi' & Hk').
    apply file_digest_iff in Hx, Hx'. cbn in Hi, Hi'.
    destruct Hi as [E|[E|[]]]; destruct Hi' as [E'|[E'|[]]]; injection E as <- <-; injection E' as <- <-; try reflexivity; exfalso;
      destruct Hk as [<-|[]]; destruct Hk' as [<-|[]]; vm_compute in Rb; vm_compute in Rb'; apply Ok_inv in Rb; apply Ok_inv in Rb'; subst b b';
      vm_compute in Hx; vm_compute in Hx'; rewrite <- Hx in Hx'; discriminate Hx'.
  - eexists _, _. split; [reflexivity|]. left. reflexivity.
  - eexists. eexists _, _, _, _. split; [reflexivity|]. split; [left; reflexivity|]. split; [reflexivity|]. split; [left; reflexivity|]. right. left. reflexivity.
  - vm_compute. discriminate.
Qed.

(** The digests of the content files are not checked. In an object with a file altered so that it
    has the content of another one, start_new_version with another algorithm loses logical paths
    of an earlier version, although no two different contents have the same digest. *)
Definition ex_damaged : node := apply_all [Create [`"o"; `"v1"; `"content"; `"d"; `"b"]; Append [`"o"; `"v1"; `"content"; `"d"; `"b"] (`"one")] ex_created.
Theorem C40_damaged_refuted : exists i s nv, parse_inventory ex_damaged [`"o"] = Ok (i, s) /\ result (ex_start (Some (`"sha512")) true) ex_damaged = Ok ([`"o"], [`"s2"], nv) /\
  logical_paths i (`"v1") = [`"a"; `"d/c"; `"d/b"] /\ logical_paths (nv_inv nv) (`"v1") = [`"d/b"] /\
  look ex_damaged [`"o"; `"v1"; `"content"; `"a"] = Some (EFile (`"one")) /\ look ex_damaged [`"o"; `"v1"; `"content"; `"d"; `"b"] = Some (EFile (`"one")).
Proof. eexists _, _, _. split; [vm_compute; reflexivity|]. split; [vm_compute; reflexivity|]. split; [vm_compute; reflexivity|]. split; [vm_compute; reflexivity|]. split; vm_compute; reflexivity. Qed.
Print Assumptions C40_damaged_refuted.

(** * C42 *)

(** After write_new_version every content file of the new version in the manifest is in the
    object, with that digest, and the files in the directory of the new version are these, the
    inventory and its sidecar. The same inventory is the root inventory. *)
Theorem C42_written_partial : forall H c e objdir srcdir da types metadata carry w h src nv0 ops nv alg i s v r,
  hash_ok H -> tree w -> Forall fname (e_cwd e) -> ~ In 47%N alg ->
  result (start_new_version H c e objdir srcdir da types metadata carry) w = Ok (h, src, nv0) ->
  parse_inventory w h = Ok (i, s) -> kept_if H da w h i -> content_directory_to_use i <> [] ->
  Forall plain_op ops -> nv_run H (fs_read w src) ops nv0 = (nv, Ok tt) ->
  i_head (nv_inv nv0) = Some v -> harmless_run H (fs_read w src) v ops nv0 ->
  result (write_new_version H alg h src nv) w = Ok r -> let w' := after (write_new_version H alg h src nv) w in
  (exists b x t, write_text (json_dumps (json_of_inventory (nv_inv nv))) = Ok b /\ digest_of H alg b x /\ write_text (x ++ `" inventory.json" ++ [10%N]) = Ok t /\
     look w' (h ++ [v; inv_name]) = Some (EFile b) /\ look w' (h ++ [v; side_name alg]) = Some (EFile t) /\
     look w' (h ++ [inv_name]) = Some (EFile b) /\ look w' (h ++ [side_name alg]) = Some (EFile t)) /\
  (forall d k, stored (nv_inv nv) d k -> in_directory v k ->
     exists a b, i_alg (nv_inv nv) = Some a /\ look w' (at_path h k) = Some (EFile b) /\ digest_of H a b d) /\
  (forall y b, look w' (h ++ v :: y) = Some (EFile b) -> y = [inv_name] \/ y = [side_name alg] \/
     exists d k, stored (nv_inv nv) d k /\ in_directory v k /\ at_path h k = h ++ v :: y).
Proof.
  intros H c e objdir srcdir da types metadata carry w h src nv0 ops nv alg i s v r HH Tw Fc Na St Pi Ka Cd Pl Rn Hv Hr R.
  exact (finished _ _ _ _ _ _ _ _ _ _ _ _ _ _ _ HH Tw Fc St Pl _ _ _ _ Pi Ka Cd Rn Hv Hr _ Na R).
Qed.
Print Assumptions C42_written_partial.
Example C42_written_ex : exists i s nv0 nv r, let ops := [OAdd (`"a") (`"new") None; OAdd (`"d/b") (`"x") (Some (`"v2/content/q/r"))] in
  result (ex_start None true) ex_created = Ok ([`"o"], [`"s2"], nv0) /\ parse_inventory ex_created [`"o"] = Ok (i, s) /\ kept_if toy_hash None ex_created [`"o"] i /\
  content_directory_to_use i <> [] /\ Forall plain_op ops /\ nv_run toy_hash (fs_read ex_created [`"s2"]) ops nv0 = (nv, Ok tt) /\ i_head (nv_inv nv0) = Some (`"v2") /\
  harmless_run toy_hash (fs_read ex_created [`"s2"]) (`"v2") ops nv0 /\ result (write_new_version toy_hash (`"sha256") [`"o"] [`"s2"] nv) ex_created = Ok r.
Proof.
  eexists _, _, (ex_begun None true), _, _. cbv zeta. split; [exact ex_start_ok|]. split; [vm_compute; reflexivity|]. split; [intros a Ea; discriminate Ea|]. split; [discriminate|].
  split; [constructor; [split; [apply ex_plain; reflexivity|exact I]|constructor; [split; apply ex_plain; reflexivity|constructor]]|].
  split; [vm_compute; reflexivity|]. split; [vm_compute; reflexivity|]. split; [|vm_compute; reflexivity]. split; [left; vm_compute; reflexivity|]. split; [left; vm_compute; reflexivity|exact I].
Qed.

(** * C29 *)

(** An inventory that is opened obeys the rules of the validator: parse_inventory raises for
    every other file. *)
Theorem C29_only_valid : forall w h i s, parse_inventory w h = Ok (i, s) ->
  exists b inv f, fs_read w h (`"inventory.json") = Ok b /\ json_load b = Ok inv /\ obeys as_coded inv f /\ f_spec f = s /\ i_alg i = Some (f_alg f).
Proof.
  intros w h i s E. destruct (parse_opened _ _ _ _ E) as (inv & i0 & f & O). destruct (oa_file _ _ _ _ _ _ _ O) as (b & Rb & Jb).
  exists b, inv, f. split; [exact Rb|]. split; [exact Jb|]. split; [apply (oa_obeys _ _ _ _ _ _ _ O)|]. split; [symmetry; apply (oa_spec _ _ _ _ _ _ _ O)|apply (oa_alg _ _ _ _ _ _ _ O)].
Qed.
Print Assumptions C29_only_valid.
