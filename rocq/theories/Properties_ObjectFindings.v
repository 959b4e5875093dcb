(** Cases in which C34, C35, C36, C41 and C46 do not hold. *)
From Coq Require Import Permutation Sorted.
From Verif Require Import Base Unicode Regex Utf8 Json PyJson JsonTextModel JsonTextSpec JsonTextProofs JsonFileProofs Log DigestModel LayoutModel LayoutProofs
  ObjectUtilsModel ObjectUtilsProofs InventorySpec InventoryValidatorModel InventoryValidatorProofs InventoryRulesProofs
  InventoryModel InventoryOpsSpec InventoryOpsProofs NewVersionModel NewVersionProofs NewVersionOpsProofs VersionNumberProofs InventoryParseProofs ParseModel
  ContentPathProofs TextFile PathModel FsModel FsSpec FsProofs FswModel FswSpec FswProofs FswCopyProofs ValidatorSpec ValidatorBasicProofs ObjectModel ObjectSpec ObjectInvProofs ObjectRulesProofs
  ObjectParseProofs ObjectAddProofs ContentNameProofs ObjectGrowProofs ObjectStartProofs ObjectCopyProofs ObjectWriteProofs ObjectSourceProofs ObjectFactsProofs NamasteSpec ValidatorVersionProofs ObjectMadeProofs ObjectIntactProofs ObjectExtendProofs FsStepProofs NamasteModel NamasteProofs ObjectStoreProofs ObjectCreateProofs ValidatorModel ValidatorIntactProofs ObjectUpdateProofs ObjectNextProofs ObjectDigestProofs ObjectVersionProofs ObjectExtractProofs ObjectHistoryProofs ObjectExamples.

From Verif Require Import Properties_Layout Properties_Object.
From Verif Require Properties_Validator.

Definition ex_validator : vconf := mkVconf true false (`"1.1") (fun _ => 0%N).
Definition ex_valid (w : node) : bool := match snd (validate_object toy_hash ex_validator w [] (`"o") 0) with Ok b => b | Raise _ => false end.
Definition ex_source (s : list (str * node)) : node := Dir [(`"s", Dir s)].
Definition ex_create (c : object) (m : vmeta) : io inventory := create toy_hash c ex_env (Some (`"s")) (Some m) (Some (`"o")).
Definition ex_one : list (str * node) := [(`"a", File (`"one"))].

(** * C34 *)

(** From an empty directory an object is made that is not valid: the version has no state. *)
Theorem C34_empty_source_refuted : exists w, tree w /\ source_ok None w [`"s"] /\
  let x := ex_create (ex_c (`"sha256")) ex_meta in
  (exists i, result x w = Ok i) /\ snd (validate_object toy_hash ex_validator (after x w) [] (`"o") 0) = Ok false.
Proof.
  exists (ex_source []). split; [apply tree_b_ok; reflexivity|]. split; [apply source_b_ok; [apply tree_b_ok; reflexivity|vm_compute; reflexivity]|].
  split; [eexists; vm_compute; reflexivity|vm_compute; reflexivity].
Qed.
Print Assumptions C34_empty_source_refuted.

(** Without filename normalization a file name that starts with a newline gives an object that
    is not valid. *)
Theorem C34_newline_refuted : exists w name, tree w /\ look w [`"s"; name] = Some (EFile (`"one")) /\ name = [10%N; 97%N] /\
  let x := ex_create (ex_c (`"sha256")) ex_meta in
  (exists i, result x w = Ok i) /\ snd (validate_object toy_hash ex_validator (after x w) [] (`"o") 0) = Ok false.
Proof.
  exists (ex_source [([10%N; 97%N], File (`"one"))]), [10%N; 97%N]. split; [apply tree_b_ok; reflexivity|]. split; [reflexivity|]. split; [reflexivity|].
  split; [eexists; vm_compute; reflexivity|vm_compute; reflexivity].
Qed.
Print Assumptions C34_newline_refuted.

(** With the name of the inventory file for the content directory, create stops with an error
    after it has written an object with an inventory but without content. *)
Theorem C34_content_directory_refuted : forall cd, In cd [`"inventory.json"; `"inventory.json.sha256"] ->
  let c := mk_object (Some (`"info:a")) (Some cd) (`"sha256") None (`"1.1") true true false None in
  let x := ex_create c ex_meta in let w := ex_source ex_one in
  first_ok (`"info:a") (o_alg c) (o_spec c) (o_cdir c) [] /\
  result x w = Raise OSError /\ look (after x w) [`"o"; inv_name] <> None /\
  snd (validate_object toy_hash ex_validator (after x w) [] (`"o") 0) = Ok false.
Proof.
  intros cd Hcd c x w. split; [apply first_b_ok; destruct Hcd as [<-|[<-|[]]]; vm_compute; reflexivity|].
  destruct Hcd as [<-|[<-|[]]]; (split; [vm_compute; reflexivity|]; split; [vm_compute; discriminate|vm_compute; reflexivity]).
Qed.
Print Assumptions C34_content_directory_refuted.

(** Metadata with an address but no name gives an object that is not valid. *)
Theorem C34_address_only_refuted :
  let m := mk_vmeta None None (Some (`"m")) None (Some (JStr (`"mailto:a@b.c"))) in
  let x := ex_create (ex_c (`"sha256")) m in let w := ex_source ex_one in
  (exists i, result x w = Ok i) /\ snd (validate_object toy_hash ex_validator (after x w) [] (`"o") 0) = Ok false.
Proof. split; [eexists; vm_compute; reflexivity|vm_compute; reflexivity]. Qed.
Print Assumptions C34_address_only_refuted.

(** The digest algorithms asked for with fixity leave no trace in an object that is created. *)
Theorem C34_fixity_not_recorded_refuted : exists i s,
  let c := mk_object (Some (`"info:a")) None (`"sha256") None (`"1.1") true true false (Some [`"md5"]) in
  parse_inventory (after (ex_create c ex_meta) (ex_source ex_one)) [`"o"] = Ok (i, s) /\ forall d p, ~ fixed i (`"md5") d p.
Proof.
  eexists _, _. cbv zeta. split; [vm_compute; reflexivity|]. intros d p (fx & b & E & Hb & l & Hd & _). cbn in E. try discriminate E. apply Some_inv in E. subst fx. destruct Hb as [Hb|[]]. injection Hb as <-. destruct Hd.
Qed.
Print Assumptions C34_fixity_not_recorded_refuted.

(** * C35 and C46 *)

(** An object made for version 1.0 of the specification is valid, and valid after one update;
    but then the inventory is for version 1.1, and the declaration for version 1.0. After a
    second update the object is not valid any more. *)
Definition ex_c10 : object := ex_settings (`"sha256") (`"1.0") None true true.
Definition ex_10 : node := after (create toy_hash ex_c10 ex_env (Some (`"s1")) (Some ex_meta) (Some (`"o"))) ex_sources.
Definition ex_update10 (sp : str) : io (option inventory) := add_version_with_content toy_hash ex_c10 ex_env (Some (`"o")) (Some sp) (Some ex_meta) false.
Definition ex_10b : node := after (ex_update10 (`"s2")) ex_10.
Definition ex_10c : node := after (ex_update10 (`"s3")) ex_10b.
Theorem C35_second_update_refuted :
  ex_valid ex_10 = true /\ (exists i, result (ex_update10 (`"s2")) ex_10 = Ok (Some i)) /\ ex_valid ex_10b = true /\
  (exists i, result (ex_update10 (`"s3")) ex_10b = Ok (Some i)) /\ snd (validate_object toy_hash ex_validator ex_10c [] (`"o") 0) = Ok false.
Proof.
  split; [vm_compute; reflexivity|]. split; [eexists; vm_compute; reflexivity|]. split; [vm_compute; reflexivity|]. split; [eexists; vm_compute; reflexivity|vm_compute; reflexivity].
Qed.
Print Assumptions C35_second_update_refuted.
Theorem C46_declaration_refuted : exists i,
  parse_inventory ex_10b [`"o"] = Ok (i, `"1.1") /\ look ex_10b [`"o"; decl_name (`"1.0")] <> None /\ look ex_10b [`"o"; decl_name (`"1.1")] = None.
Proof. eexists. split; [vm_compute; reflexivity|]. split; [vm_compute; discriminate|vm_compute; reflexivity]. Qed.
Print Assumptions C46_declaration_refuted.

(** * C36 *)

(** A version with a file whose name starts with a newline cannot be extracted at all. *)
Theorem C36_newline_refuted : exists w i, tree w /\ result (ex_create (ex_c (`"sha256")) ex_meta) w = Ok i /\
  result (extract ex_env (Some (`"o")) (`"v1") (`"new")) (after (ex_create (ex_c (`"sha256")) ex_meta) w) = Raise ObjectException.
Proof.
  exists (ex_source [([10%N; 97%N], File (`"one"))]). eexists. split; [apply tree_b_ok; reflexivity|]. split; [vm_compute; reflexivity|vm_compute; reflexivity].
Qed.
Print Assumptions C36_newline_refuted.

(** * C41 *)

(** start_new_version is given another digest algorithm than the one of the Object: then the
    sidecar has the name and the digest of the one of the Object. *)
Definition ex_other_digest : io inventory :=
  ibind (start_new_version toy_hash (ex_c (`"sha256")) ex_env (Some (`"o")) (Some (`"s2")) (Some (`"sha512")) None (Some ex_meta) true)
    (fun r => let '(h, src, nv) := r in write_new_version toy_hash (o_alg (ex_c (`"sha256"))) h src nv).
Theorem C41_other_digest_refuted : exists i i' s,
  let w := after ex_other_digest ex_created in
  result ex_other_digest ex_created = Ok i /\
  parse_inventory w [`"o"] = Ok (i', s) /\ i_alg i' = Some (`"sha512") /\ look w [`"o"; side_name (`"sha512")] = None /\ look w [`"o"; side_name (`"sha256")] <> None /\
  ex_valid ex_created = true /\ ex_valid w = false.
Proof.
  eexists _, _, _. cbv zeta. split; [vm_compute; reflexivity|]. split; [vm_compute; reflexivity|]. split; [vm_compute; reflexivity|].
  split; [vm_compute; reflexivity|]. split; [vm_compute; discriminate|]. split; vm_compute; reflexivity.
Qed.
Print Assumptions C41_other_digest_refuted.

(** The sidecar tool does not use the digest algorithm of the inventory but sha512. *)
Theorem C41_tool_refuted : exists i s,
  let x := create_sidecar toy_hash ex_env (`"o") None in let w := after x ex_created in
  result x ex_created = Ok tt /\ parse_inventory w [`"o"] = Ok (i, s) /\ i_alg i = Some (`"sha256") /\ look ex_created [`"o"; side_name (`"sha512")] = None /\ look w [`"o"; side_name (`"sha512")] <> None /\ ex_valid ex_created = true /\ ex_valid w = false.
Proof.
  eexists _, _. cbv zeta. split; [vm_compute; reflexivity|]. split; [vm_compute; reflexivity|]. split; [vm_compute; reflexivity|].
  split; [vm_compute; reflexivity|]. split; [vm_compute; discriminate|]. split; vm_compute; reflexivity.
Qed.
Print Assumptions C41_tool_refuted.

(** * C64 *)

(** A valid object, made by other software, with digests in upper case *)
Definition ex_upper (s : str) : str := map (fun c => if ((97 <=? c) && (c <=? 122))%N then (c - 32)%N else c) s.
Definition ex_upper_inventory : str :=
  let d := ex_upper (toy_hash (`"sha256") (`"one")) in
  Properties_Validator.ex_inventory_with (`"1.1") (`"v1") (Properties_Validator.ex_entry d (`"v1/content/a"))
    (Properties_Validator.ex_version (`"v1") (Properties_Validator.ex_entry d (`"a"))) [].
Definition ex_upper_object : node :=
  let side := Properties_Validator.ex_sidecar ex_upper_inventory in
  Dir [(`"o", Dir [(decl_name (`"1.1"), File (decl_text (`"1.1")));
                   (`"inventory.json", File ex_upper_inventory); (`"inventory.json.sha256", File side);
                   (`"v1", Dir [(`"inventory.json", File ex_upper_inventory); (`"inventory.json.sha256", File side);
                                (`"content", Dir [(`"a", File (`"one"))])])]); (`"s1", Dir [(`"b", File (`"two"))])].

(** An update of it succeeds, and then it is not valid: the new inventory has the digests of the
    first version in lower case, and the validator takes them to be others. *)
Theorem C64_upper_case_refuted : exists i,
  let x := ex_update (`"sha256") (`"s1") false in let w := after x ex_upper_object in
  tree ex_upper_object /\ ex_valid ex_upper_object = true /\ result x ex_upper_object = Ok (Some i) /\
  snd (validate_object toy_hash ex_validator w [] (`"o") 0) = Ok false.
Proof. eexists. cbv zeta. split; [apply tree_b_ok; vm_compute; reflexivity|]. split; [vm_compute; reflexivity|]. split; vm_compute; reflexivity. Qed.
Print Assumptions C64_upper_case_refuted.
