(** Model of the commands of ocfl-root.py, after argparse has split the command line.

    Of what validate prints only the last line is modelled. Lines that list prints before an
    exception ends it are not modelled, and neither is what else is logged. *)
From Verif Require Import Base Unicode DigestModel LayoutModel PathModel FsModel FswModel ObjectModel StorageRootModel TreeModel ToolModel.

(** ocfl-root.py:14-93: what argparse gives for the options. Options that a command does not
    have are not used by it, see [parse_root_arguments] for the exception. *)
Record root_args := mk_root_args {
  ra_cmd : option str;
  ra_root : option str; ra_layout : option str; ra_lax : bool;
  ra_debug : bool; ra_verbose : bool; ra_quiet : bool;
  ra_spec : option str; ra_params : option str;                (* create *)
  ra_validate_objects : bool; ra_check_digests : bool;         (* validate *)
  ra_src : option str;                                         (* add *)
  ra_id : option str                                           (* show, path, validate-object *)
}.

(** What is shown: on the standard output, as a warning or as an error *)
Inductive shown := Printed (line : str) | Warned (message : str) | Failed (message : str).

(** ocfl-root.py:95-99 end of parse_arguments. The parser of validate-object has no option --debug, and
    no --root, so args.debug raises AttributeError (command_line_utils.py:101). *)
Definition parse_root_arguments (a : root_args) : exc str :=
  match ra_cmd a with
  | None => Raise (StorageRootException [])
  | Some c => if str_eqb c (`"validate-object") then Raise AttributeError else Ok c
  end.
(** command_line_utils.py:93-107 check_verbosity_args: whether warnings are shown *)
Definition shows_warnings (a : root_args) : bool := ra_debug a || ra_verbose a || negb (ra_quiet a).

(** a text that is given and not empty *)
Definition given (x : option str) : option str := match x with Some [] => None | _ => x end.

(** ocfl-root.py:133-144 get_storage_root; SystemExit is OtherException. [env_root] is $OCFL_ROOT. *)
Definition get_storage_root (env_root : option str) (a : root_args) : exc str :=
  match given (ra_root a), env_root with
  | Some r, _ => Ok r
  | None, Some r => Ok r
  | None, None => Raise OtherException
  end.

(** A method called, its result and the instance after it *)
Definition call {A} (x : st A) (s : sroot) : io (sroot * A) :=
  do r <- x s ;; match snd r with Ok a => iret (fst r, a) | Raise y => iraise y end.

(** ocfl-root.py:147-185 do_store_operation *)
Definition do_store_operation (H : hashfn) (id_encode : str -> str) (e : env) (env_root : option str) (a : root_args) (cmd : str) : io (list shown) :=
  do root <- iread (fun _ => get_storage_root env_root a) ;;
  do store <- iread (fun _ => new_sroot (Some root) (ra_layout a) (ra_lax a) None) ;;
  if str_eqb cmd (`"create") then
    call (initialize H e (ra_spec a) (ra_params a)) store ;;
    iret [Printed (`"Created OCFL storage root " ++ root)]
  else if str_eqb cmd (`"list") then
    do r <- call (list_objects H e) store ;;
    iret (map (fun x => Printed (fst x ++ `" -- id=" ++ snd x)) (snd r) ++
          [Printed (`"Found " ++ str_of_N (N.of_nat (s_num_objects (fst r))) ++ `" OCFL Objects under root " ++ root)])
  else if str_eqb cmd (`"validate") then
    do valid <- iread (fun w => root_tool_validate H e (ra_quiet a) (ra_validate_objects a) (ra_check_digests a) store w) ;;
    iret [Printed (`"Storage root " ++ root ++ (if (valid : bool) then `" is VALID" else `" is INVALID"))]
  else if str_eqb cmd (`"add") then
    match given (ra_src a) with
    | None => iraise (StorageRootException [])
    | Some src =>
        do r <- call (add H id_encode e src) store ;;
        iret [Printed (`"Added object " ++ fst (snd r) ++ `" at path " ++ snd (snd r))]
    end
  else if str_eqb cmd (`"purge") then iret [Failed (`"purge not implemented")]
  else if str_in cmd [`"show"; `"path"; `"validate_object"] then
    match given (ra_id a) with
    | None => iraise (StorageRootException [])
    | Some id =>
        do r <- call (object_path H id_encode e id) store ;;
        let objdir := snd r in
        if str_eqb cmd (`"path") then
          iret [Printed (if ra_quiet a then path_join root objdir
                         else `"Path to " ++ id ++ `" inside root " ++ root ++ `" is " ++ objdir)]
        else if str_eqb cmd (`"show") then
          do t <- iread (fun w => object_tree H false e objdir w) ;;
          iret (if shows_warnings a then [Warned (`"Object tree" ++ [10]%N ++ t)] else [])
        else iret [Failed (`"validate not implemented")]
    end
  else iret [Failed (`"Unrecognized command!")].

(** ocfl-root.py:188-194. Each exception, caught or not, gives the exit status 1. *)
Definition ocfl_root (H : hashfn) (id_encode : str -> str) (e : env) (env_root : option str) (a : root_args) : io (list shown) :=
  do cmd <- iread (fun _ => parse_root_arguments a) ;;
  do_store_operation H id_encode e env_root a cmd.
Definition ocfl_root_status (r : exc (list shown)) : N := exit_status (fun _ => true) r.
