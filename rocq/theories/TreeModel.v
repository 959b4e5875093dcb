(** Model of Object.tree (ocfl/object.py). *)
From Verif Require Import Base Unicode Regex Json Log DigestModel InventoryValidatorModel PathModel FsModel FswModel NamasteModel ValidatorModel ObjectModel.

(** object.py:550-559 _show_indent: [tree_next], [tree_last], [tree_pass] and [tree_indent] *)
Definition tree_next : str := [9500; 9472; 9472; 32]%N.
Definition tree_last : str := [9492; 9472; 9472; 32]%N.
Definition tree_pass : str := [9474; 32; 32; 32]%N.
Definition tree_indent : str := `"    ".
Definition show_indent (level : nat) (last last_v : bool) : str :=
  match level with
  | O => if last then tree_last else tree_next
  | _ => (if last then tree_indent else tree_pass) ++ (if last_v then tree_last else tree_next)
  end.

(** fs.walk of fsspec, as it is used in object.py:596-597: the number of files that are listed. For a
    name of something that is not a directory there is one, that itself. *)
Fixpoint count_files (n : node) : nat :=
  match n with
  | Dir d => (fix all (d : list (str * node)) : nat := match d with [] => O | (_, m) :: r => (count_files m + all r)%nat end) d
  | _ => 1
  end.

(** object.py:566-567 and validator.py:87-98,131-169: the version of the specification and the
    content directory that the validator has in the end. *)
Definition noted (c : vconf) (w : node) (h : place) : str * str :=
  match find_namastes w h (`"0") [] 10 with
  | Raise _ => (vc_default_spec c, `"content")
  | Ok namastes =>
      match check_declarations c w h namastes with
      | (_, Raise _) => (vc_default_spec c, `"content")
      | (_, Ok spec) =>
          (spec, if negb (fs_exists w h INVENTORY_FILENAME) then `"content"
                 else match validate_inventory c w h INVENTORY_FILENAME spec with
                      | (_, Ok (Some (_, st))) => iv_content_directory st
                      | _ => `"content"
                      end)
      end
  end.

(** object.py:584  v\d+$ *)
Definition re_tree_version : re := RSeq (rlit (`"v")) (RSeq (rplus rdigit) RDollar).
Definition mark_unknown : str := `"<--- ???".
Definition mark_multiple : str := `"<--- multiple inventory digests?".

(** object.py:587-601, one entry of a version directory; the flag is seen_v_sidecar *)
Definition version_note (w : node) (h : place) (cdir entry : str) (seen : bool) (v_entry : str) : bool * str :=
  let v_note := v_entry ++ `" " in
  if str_eqb v_entry INVENTORY_FILENAME then (seen, v_note)
  else if startswith (INVENTORY_FILENAME ++ `".") v_entry then (if seen then (true, v_note ++ mark_multiple) else (seen, v_note))
  else if str_eqb v_entry cdir then
    (seen, v_note ++ `"(" ++ str_of_N (N.of_nat (match get w (at_path h (path_join entry v_entry)) with Ok n => count_files n | Raise _ => 0%nat end)) ++ `" files)")
  else (seen, v_note ++ mark_unknown).
Fixpoint version_notes (w : node) (h : place) (cdir entry : str) (seen : bool) (l : list str) : list str :=
  match l with
  | [] => []
  | v :: r => let '(seen, note) := version_note w h cdir entry seen v in note :: version_notes w h cdir entry seen r
  end.

(** object.py:610-614: the lines of the entries of a version directory *)
Fixpoint version_lines (last : bool) (v_notes : list str) : str :=
  match v_notes with
  | [] => []
  | note :: r => show_indent 1 last (match r with [] => true | _ => false end) ++ note ++ [10]%N ++ version_lines last r
  end.

(** object.py:580-614, the entries that are left; the flag is seen_sidecar *)
Fixpoint tree_lines (w : node) (h : place) (spec cdir : str) (seen : bool) (entries : list str) : exc str :=
  match entries with
  | [] => Ok []
  | entry :: r =>
      let note := entry ++ `" " in
      let last := match r with [] => true | _ => false end in
      let* (seen, note, v_notes) :=
        match re_match re_tree_version entry with
        | Some _ =>
            let* l := fsw_listdir_names w h entry in
            Ok (seen, note, version_notes w h cdir entry false (sorted_strs l))
        | None =>
            if str_in entry [filename (mkNamaste (`"0") (`"ocfl_object_" ++ spec) None); INVENTORY_FILENAME] then Ok (seen, note, [])
            else if startswith (INVENTORY_FILENAME ++ `".") entry then Ok (true, if seen then note ++ mark_multiple else note, [])
            else Ok (seen, note ++ mark_unknown, [])
        end in
      let* rest := tree_lines w h spec cdir seen r in
      Ok (show_indent 0 last false ++ note ++ [10]%N ++ version_lines last v_notes ++ rest)
  end.

(** object.py:542-615 tree. Not modelled: what is logged. *)
Definition tree_conf (e : env) (lax : bool) : vconf := mkVconf false lax (`"1.1") (e_sizes e).
Definition object_tree (H : hashfn) (lax : bool) (e : env) (objdir : str) (w : node) : exc str :=
  let c := tree_conf e lax in
  let* _ := snd (validate_object H c w (e_cwd e) objdir 0) in
  let* h := result (open_obj_fs e (Some objdir) false) w in
  let '(spec, cdir) := noted c w h in
  let* l := fsw_listdir_names w h [] in
  let* lines := tree_lines w h spec cdir false (sorted_strs l) in
  Ok (`"[" ++ objdir ++ `"]" ++ [10]%N ++ lines).
