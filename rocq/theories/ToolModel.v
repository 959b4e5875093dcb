(** Model of the scripts ocfl-validate.py, ocfl-root.py (validate) and ocfl-object.py
    (validate, create, update, extract) after the command line has been parsed, and of
    Object.validate_inventory (ocfl/object.py).

    Of what is printed only the verdicts VALID and INVALID are modelled. The other
    commands of ocfl-root.py are in RootToolModel.v. Those of ocfl-object.py are put together in ObjectToolModel.v,
    with build and show, and --max_errors of ocfl-root.py is in MaxErrorsModel.v. *)
From Verif Require Import Base Json JsonTextModel Log DigestModel InventoryModel ParseModel PathModel FsModel FswModel NamasteModel ValidatorModel ObjectModel
  BaggerModel StorageRootModel.

(** The exit status of a script: 1 after sys.exit(1) and after an exception that is not caught. *)
Definition exit_status {A} (fine : A -> bool) (r : exc A) : N :=
  match r with Ok a => if fine a then 0%N else 1%N | Raise _ => 1%N end.

(** object.py:646-675 validate_inventory. fsw_openfs does not raise FswException for a missing
    directory, but FileNotFoundError. After ValidatorAbortException the errors logged count. *)
Definition object_validate_inventory (e : env) (lax : bool) (w : node) (path : str) : exc bool :=
  let '(inv_dir, inv_file) := path_split path in
  match result (fsw_openfs (e_cwd e) inv_dir false true) w with
  | Raise FswException => Ok false
  | Raise x => Raise x
  | Ok h =>
      match validate_inventory (mkVconf true lax DEFAULT_SPEC_VERSION (e_sizes e)) w h inv_file DEFAULT_SPEC_VERSION with
      | (_, Raise x) => Raise x
      | (log, Ok _) => Ok (Nat.eqb (num_errors log) 0)
      end
  end.

(** What a method returned; the methods called here only read. *)
Definition sresult {A} (x : list step * exc (sroot * exc A)) : exc A := match snd x with Ok (_, r) => r | Raise e => Raise e end.

(** ocfl-validate.py:20-40: the arguments that count; log_errors has no influence on the result *)
Record validate_args := mk_validate_args { a_quiet : bool; a_very_quiet : bool; a_lax : bool; a_no_check : bool }.

(** ocfl-validate.py:64-88, one path. [message] is the text of the exception in
    find_path_type. *)
Definition validate_path (H : hashfn) (e : env) (a : validate_args) (message : str -> str) (w : node) (path : str) : exc bool :=
  let* t := find_path_type (message path) w (e_cwd e) path in
  if str_eqb t (`"object") then
    snd (validate_object H (mkVconf (negb (a_no_check a)) (a_lax a) DEFAULT_SPEC_VERSION (e_sizes e)) w (e_cwd e) path 0)
  else if str_eqb t (`"root") then
    let* s := new_sroot (Some path) None (a_lax a) None in
    sresult (validate H e true (negb (a_no_check a)) (negb (a_quiet a) && negb (a_very_quiet a)) 100 s w)
  else if str_eqb t (`"file") then object_validate_inventory e (a_lax a) w path
  else Ok false.

(** ocfl-validate.py:43-92 do_validation; the counters are num and num_good *)
Definition do_validation (H : hashfn) (e : env) (a : validate_args) (message : str -> str) (w : node) (paths : list str) : exc bool :=
  let* n := efold (fun (n : nat * nat) path =>
                     let* ok := validate_path H e a message w path in
                     Ok (S (fst n), if (ok : bool) then S (snd n) else snd n)) paths (0%nat, 0%nat) in
  Ok (Nat.eqb (snd n) (fst n)).
(** ocfl-validate.py:95-99 *)
Definition ocfl_validate_status (H : hashfn) (e : env) (a : validate_args) (message : str -> str) (w : node) (paths : list str) : N :=
  exit_status (fun ok => ok) (do_validation H e a message w paths).

(** ocfl-root.py:102-130 validate: whether the last line says VALID. The counters of the instance
    are those of the validation, or 0 as in a new instance if it ended early. *)
Definition root_tool_validate (H : hashfn) (e : env) (quiet validate_objects check_digests : bool) (s : sroot) (w : node) : exc bool :=
  match snd (validate H e validate_objects check_digests (negb quiet) 100 s w) with
  | Raise x => Raise x
  | Ok (_, Raise x) => Raise x
  | Ok (s', Ok valid) =>
      Ok (if validate_objects then (if Nat.eqb (s_good_objects s') (s_num_objects s') then valid else false) else valid)
  end.
(** ocfl-root.py:147-151, 159-160 and 188-194: the command validate with --root, --layout and
    --lax-digests; the result is only printed *)
Definition ocfl_root_validate (H : hashfn) (e : env) (root : str) (layout_name : option str) (lax quiet validate_objects check_digests : bool) (w : node)
    : exc bool :=
  let* s := new_sroot (Some root) layout_name lax None in root_tool_validate H e quiet validate_objects check_digests s w.
Definition ocfl_root_validate_status (r : exc bool) : N := exit_status (fun _ => true) r.

(** ocfl-object.py:193-194 the command validate (validate_object of command_line_utils.py:108-133);
    the result is only printed *)
Definition ocfl_object_validate (H : hashfn) (e : env) (lax : bool) (objdir : str) (w : node) : exc bool :=
  snd (validate_object H (mkVconf true lax DEFAULT_SPEC_VERSION (e_sizes e)) w (e_cwd e) objdir 0).
Definition ocfl_object_validate_status (r : exc bool) : N := exit_status (fun _ => true) r.

(** ocfl-object.py:140-159 the command create: the settings [c] are those of the instance, with --id; [b] is
    what bagit.Bag gives for --srcbag. FatalError is OtherException. *)
Definition ocfl_object_create (H : hashfn) (c : object) (e : env) (srcdir srcbag : option str) (b : exc bag) (m : vmeta) (objdir : option str)
    : io inventory :=
  match srcbag with
  | Some sb =>
      do r <- iread (fun _ => create_from_bag (o_id c) m sb b) ;;
      let '(ident, m', src) := r in
      create H (mk_object ident (o_cdir c) (o_alg c) (o_norm c) (o_spec c) (o_forward_delta c) (o_dedupe c) (o_lax c) (o_fixity c))
        e (Some src) (Some m') objdir
  | None => match srcdir with
            | None => iraise OtherException
            | Some _ => create H c e srcdir (Some m) objdir
            end
  end.

(** ocfl-object.py:176-189 the command update *)
Definition ocfl_object_update (H : hashfn) (c : object) (e : env) (objdir : str) (srcdir srcbag : option str) (b : exc bag) (m : vmeta)
    : io (option inventory) :=
  match srcbag with
  | Some sb =>
      do r <- iread (fun _ => bag_as_source sb b m) ;;
      add_version_with_content H c e (Some objdir) (Some (snd r)) (Some (fst r)) false
  | None => match srcdir with
            | None => iraise OtherException
            | Some _ => add_version_with_content H c e (Some objdir) srcdir (Some m) false
            end
  end.

(** ocfl-object.py:205-215 the command extract without --logical-path. [make_bag] is
    bagit.make_bag: what it does to the directory with the files extracted. *)
Definition ocfl_object_extract (make_bag : str -> dict json -> io unit) (e : env) (objdir version : str) (dstdir dstbag : option str)
    (set_bagging_date : bool) : io vmeta :=
  let is_set (x : option str) := match x with Some (_ :: _) => true | _ => false end in
  let dstdir := if is_set dstdir && is_set dstbag then None else dstdir in
  match (if is_set dstdir then dstdir else dstbag) with
  | None => iraise TypeError
  | Some dst =>
      do m <- extract e (Some objdir) version dst ;;
      if is_set dstdir then iret m
      else do tags <- iread (fun _ => bag_tags m set_bagging_date) ;; make_bag dst tags ;; iret m
  end.
