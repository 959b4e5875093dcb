(** Model of --max_errors of ocfl-root.py (validate). Python compares len(errors) with the
    value given: that of the option is a text if the option is given, as argparse is not told a
    type (ocfl-root.py:61-62), and the number 100 if not. *)
From Verif Require Import Base Log DigestModel InventoryModel ParseModel FsModel FswModel ValidatorModel ObjectModel StorageRootModel ToolModel.

(** The value of args.max_errors *)
Inductive limit := LNumber (n : nat) | LText (s : str).

(** len(errors) < max_errors, storage_root.py:411 *)
Definition below (l : limit) (n : nat) : exc bool :=
  match l with LNumber m => Ok (Nat.ltb n m) | LText _ => Raise TypeError end.

(** storage_root.py:379-417 validate_hierarchy, for any limit *)
Definition validate_hierarchy_max (H : hashfn) (e : env) (validate_objects check_digests log_warnings : bool) (max_errors : limit)
    : st (nat * nat * list (str * list entry)) :=
  for_objects (0%nat, 0%nat, []) (fun a p =>
    if negb validate_objects then sret a
    else
      let '(n, good, errors) := a in
      use h <- root_fs ;;
      use s <- sget ;;
      use r <- sread (fun w => match validate_opened H (root_vconf e (s_lax s) check_digests) w (fsw_opendir_as_fs h p) 0 with
                               | (log, Ok b) => Ok (log, b)
                               | (_, Raise x) => Raise x
                               end) ;;
      let '(log, ok) := r in
      use more <- slift (below max_errors (List.length errors)) ;;
      let messages := filter (fun x => is_error x || log_warnings) log in
      sret (S n, (if ok : bool then S good else good),
            if more : bool then match messages with [] => errors | _ => errors ++ [(p, messages)] end else errors)).

(** storage_root.py:419-458 validate, for any limit *)
Definition validate_max (H : hashfn) (e : env) (validate_objects check_digests log_warnings : bool) (max_errors : limit) : st bool :=
  use _ <- smodify (set_log (Some [])) ;;
  use _ <- open_root_fs e ;;
  scatch_root (check_root_structure H) (fun _ =>
    use r <- validate_hierarchy_max H e validate_objects check_digests log_warnings max_errors ;;
    use _ <- smodify (set_counts (fst (fst r)) (snd (fst r)) (snd r)) ;;
    use s <- sget ;;
    sret (negb (Nat.ltb 0 (s_num_traversal_errors s)))).

(** ocfl-root.py:102-130 validate: whether the last line says VALID; [option] is what was given
    with --max_errors *)
Definition root_tool_validate_max (H : hashfn) (e : env) (quiet validate_objects check_digests : bool) (option : option str) (s : sroot) (w : node)
    : exc bool :=
  let l := match option with Some t => LText t | None => LNumber 100 end in
  match snd (validate_max H e validate_objects check_digests (negb quiet) l s w) with
  | Raise x => Raise x
  | Ok (_, Raise x) => Raise x
  | Ok (s', Ok valid) =>
      Ok (if validate_objects then (if Nat.eqb (s_good_objects s') (s_num_objects s') then valid else false) else valid)
  end.
