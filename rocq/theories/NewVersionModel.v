(** Model of ocfl/new_version.py.

    The source directory is a function from paths to file contents (the file system model
    supplies it); opening it (srcdir, src_fs) is not modelled here. *)
From Verif Require Import Base Unicode Regex Utf8 Json PathModel DigestModel LayoutModel ObjectUtilsModel InventoryValidatorModel
  InventoryModel.

(** new_version.py:39-49 attributes. forward_delta and dedupe are None in NewVersion() and
    used as truth values, so None is false here. *)
Record new_version := mk_nv {
  nv_inv : inventory;
  nv_norm : option str;          (* content_path_normalization *)
  nv_forward_delta : bool;
  nv_dedupe : bool;
  nv_old_alg : option str;       (* old_digest_algorithm *)
  nv_copy : dict str             (* files_to_copy: src_path -> content_path *)
}.
Definition set_inv (i : inventory) (nv : new_version) : new_version :=
  mk_nv i (nv_norm nv) (nv_forward_delta nv) (nv_dedupe nv) (nv_old_alg nv) (nv_copy nv).

(** ocfl/constants.py DEFAULT_DIGEST_ALGORITHM *)
Definition DEFAULT_DIGEST_ALGORITHM : str := `"sha512".

(** new_version.py:51-151 first_version; metadata is the version block from as_dict *)
Definition first_version (identifier spec : str) (digest_algorithm content_directory : option str)
  (metadata : option vblock) (dedupe : bool) (fixity : list str) (norm : option str) : exc new_version :=
  let i1 := init_manifest_and_versions (set_alg digest_algorithm (set_spec_version spec (set_id identifier empty_inventory))) in
  let i2 := fold_left (fun i t => add_fixity_type t None i) fixity i1 in
  match add_version None metadata None None i2 with
  | (_, Raise e) => Raise e
  | (i3, Ok _) =>
      let i4 := set_alg (Some (match digest_algorithm with Some a => a | None => DEFAULT_DIGEST_ALGORITHM end)) i3 in
      let i5 := match content_directory with
                | Some c => if str_eqb c DEFAULT_CONTENT_DIRECTORY then i4 else set_cdir c i4
                | None => i4
                end in
      Ok (mk_nv i5 norm false dedupe None [])
  end.

(** a < b for strings *)
Definition str_ltb (a b : str) : bool := negb (str_leb b a).

(** head of the inventory where the code concatenates it: TypeError if None *)
Definition head_of (i : inventory) : exc str := match i_head i with Some h => Ok h | None => Raise TypeError end.

(** new_version.py:153-242 next_version *)
Definition next_version (i : inventory) (spec : str) (metadata : option vblock) (norm : option str)
  (forward_delta dedupe carry_content_forward : bool) (old_digest_algorithm : option str) : exc new_version :=
  let* i1 :=
    match spec_version i with
    | Some s => if str_eqb spec s then Ok i
                else if str_ltb spec s then Raise NewVersionException else Ok (set_spec_version spec i)
    | None => Raise TypeError
    end in
  let st := if carry_content_forward
            then match i_head i1 with Some h => state i1 h | None => [] end
            else [] in
  match add_version None metadata (Some st) None i1 with
  | (_, Raise e) => Raise e
  | (i2, Ok _) => Ok (mk_nv i2 norm forward_delta dedupe old_digest_algorithm [])
  end.

(** urllib.parse.quote(s) with the default safe='/' *)
Definition uri_safe (b : N) : bool := quote_safe b || (b =? 47)%N.
Definition urlquote (s : str) : exc str :=
  let* bs := utf8_encode s in
  Ok (flat_map (fun b => if uri_safe b then [b] else percent :: hex_upper b) bs).

(** new_version.py:265-277 the normalisation of _map_filepath *)
Definition normalize_filepath (H : hashfn) (norm : option str) (filepath : str) : exc str :=
  match norm with
  | None => Ok filepath
  | Some n =>
      if str_eqb n (`"uri") then
        let* q := urlquote filepath in
        match q with
        | [] => Raise IndexError
        | c :: r => Ok (if (c =? 46)%N then `"%2E" ++ r else q)
        end
      else if str_eqb n (`"md5") then
        let* bs := utf8_encode filepath in Ok (firstn 16 (H (`"md5") bs))
      else Raise NewVersionException
  end.

(** new_version.py:249-284 _map_filepath *)
Definition map_filepath (H : hashfn) (nv : new_version) (filepath : str) : exc str :=
  let* f := normalize_filepath H (nv_norm nv) filepath in
  let* head := head_of (nv_inv nv) in
  let vfilepath := path_join_list [head; content_directory_to_use (nv_inv nv); f] in
  let used := content_paths (nv_inv nv) in
  if str_in vfilepath used then make_unused_filepath vfilepath used default_separator else Ok vfilepath.

(** new_version.py:286-346 add; [src] gives the content of the files of the source
    directory *)
Definition nv_add (H : hashfn) (src : str -> exc bytes) (src_path logical_path : str) (content_path : option str)
  (nv : new_version) : new_version * exc unit :=
  let i := nv_inv nv in
  match head_of i with
  | Raise e => (nv, Raise e)
  | Ok head =>
  let prefix := head ++ `"/" ++ content_directory_to_use i ++ `"/" in
  match (match content_path with
         | None => map_filepath H nv src_path
         | Some c => if negb (startswith prefix c) then Raise NewVersionException
                     else if str_in c (content_paths i) then Raise NewVersionException else Ok c
         end) with
  | Raise e => (nv, Raise e)
  | Ok cpath =>
  if str_in logical_path (logical_paths i head) then (nv, Raise NewVersionException)
  else
  match (let* c := src src_path in
         match i_alg i with Some a => file_digest H a c | None => Raise ValueError end) with
  | Raise e => (nv, Raise e)
  | Ok digest =>
  match dget head (versions_block i) with
  | None => (nv, Raise KeyError) (* inventory.py:633 *)
  | Some _ =>
  let i1 := set_state head (append_to digest logical_path (state i head)) i in
  let existing_paths := content_paths_for_digest i1 digest in
  let in_current_version := existsb (startswith (head ++ `"/")) existing_paths in
  let in_previous_version := existsb (fun p => negb (startswith (head ++ `"/") p)) existing_paths in
  if (negb in_previous_version && negb in_current_version)
     || (negb in_current_version && negb (nv_forward_delta nv))
     || (in_current_version && negb (nv_dedupe nv))
  then
    let copy := dset src_path cpath (nv_copy nv) in
    let '(i2, r) := add_file_to_manifest digest cpath i1 in
    (mk_nv i2 (nv_norm nv) (nv_forward_delta nv) (nv_dedupe nv) (nv_old_alg nv) copy, r)
  else (set_inv i1 nv, Ok tt)
  end
  end
  end
  end.

(** new_version.py:348-366 delete. current_version is Version(inv, head); without a head
    there is no state (300) and the path is not found. *)
Definition current (i : inventory) : str := or_empty (i_head i).
Definition nv_delete (logical_path : str) (nv : new_version) : new_version * exc unit :=
  match delete_logical_path (current (nv_inv nv)) logical_path (nv_inv nv) with
  | (i, Ok _) => (set_inv i nv, Ok tt)
  | (i, Raise InventoryException) => (set_inv i nv, Raise NewVersionException)
  | (i, Raise e) => (set_inv i nv, Raise e)
  end.

(** new_version.py:368-389 rename *)
Definition nv_rename (old_logical_path new_logical_path : str) (nv : new_version) : new_version * exc unit :=
  let i := nv_inv nv in
  let head := current i in
  if str_in new_logical_path (logical_paths i head) then (nv, Raise NewVersionException)
  else
    match delete_logical_path head old_logical_path i with
    | (i1, Ok digest) => (set_inv (set_state head (append_to digest new_logical_path (state i1 head)) i1) nv, Ok tt)
    | (i1, Raise InventoryException) => (set_inv i1 nv, Raise NewVersionException)
    | (i1, Raise e) => (set_inv i1 nv, Raise e)
    end.

(** new_version.py:391-394 add_from_srcdir; [files] is what fsw_walk_files returns *)
Fixpoint nv_add_all (H : hashfn) (src : str -> exc bytes) (paths : list str) (nv : new_version) : new_version * exc unit :=
  match paths with
  | [] => (nv, Ok tt)
  | p :: r => match nv_add H src p p None nv with
              | (nv1, Ok _) => nv_add_all H src r nv1
              | (nv1, Raise e) => (nv1, Raise e)
              end
  end.
Definition add_from_srcdir (H : hashfn) (src : str -> exc bytes) (files : list str) (nv : new_version) : new_version * exc unit :=
  nv_add_all H src (sorted_strs files) nv.

(** (digest, logical path) pairs of a state, new_version.py:462-471 *)
Definition pairs_of (b : block) : list (str * str) := flat_map (fun kv => map (fun p => (fst kv, p)) (snd kv)) b.
Definition pair_in (x : str * str) (l : list (str * str)) : bool :=
  existsb (fun y => str_eqb (fst x) (fst y) && str_eqb (snd x) (snd y)) l.

Inductive diff_op := DAdd (digest logical_path : str) | DDel (digest logical_path : str).

(** The last element before [head], new_version.py:450-454 *)
Fixpoint before_head (head : str) (prev : option str) (vdirs : list str) : option str :=
  match vdirs with
  | [] => prev
  | v :: r => if str_eqb v head then prev else before_head head (Some v) r
  end.

(** new_version.py:436-482 diff_with_previous. The order within the sets of Python is not
    specified; here it is the order of the blocks, and repeated pairs are kept. *)
Definition diff_with_previous (nv : new_version) : exc (list diff_op) :=
  let i := nv_inv nv in
  let cur := pairs_of (state i (current i)) in
  let* vdirs := version_directories i in
  match before_head (current i) None vdirs with
  | Some ((_ :: _) as prev_vdir) =>
      let prev := pairs_of (state i prev_vdir) in
      Ok (map (fun x => DAdd (fst x) (snd x)) (filter (fun x => negb (pair_in x prev)) cur) ++
          map (fun x => DDel (fst x) (snd x)) (filter (fun x => negb (pair_in x cur)) prev))
  | _ => Ok (map (fun x => DAdd (fst x) (snd x)) cur)
  end.
