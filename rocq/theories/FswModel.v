(** Model of ocfl/fsw.py for local file systems: a file system object is the place [h] it is
    rooted at (DirFileSystem over LocalFileSystem), [w] is the whole file system. Not
    modelled: file systems given as objects of other kinds, "temp", S3 and zip. *)
From Verif Require Import Base Utf8 PathModel FsModel.

(** ocfl/fsw.py:71-103 _fsw_relpath *)
Definition fsw_relpath (path start : str) : exc str :=
  let path := lstrip_slash path in
  let start := lstrip_slash start in
  match start with
  | [] => Ok path
  | _ =>
      let path_parts := split_on slash path in
      let start_parts := split_on slash start in
      let n := List.length start_parts in
      if Nat.ltb (List.length path_parts) n then Raise ValueError
      else if list_eq_dec (list_eq_dec N.eq_dec) start_parts (firstn n path_parts)
           then Ok (join [slash] (skipn n path_parts))
           else Raise ValueError
  end.

(** str.split("://", 1): the two parts, or None if there is only one *)
Fixpoint split_url (s : str) : option (str * str) :=
  if startswith (`"://") s then Some ([], skipn 3 s)
  else match s with
       | [] => None
       | c :: r => match split_url r with Some (a, b) => Some (c :: a, b) | None => None end
       end.

(** ocfl/fsw.py:106-196 fsw_openfs of a string, for the methods "file" and those not known
    (the latter raise). [cwd] is the current working directory. The DirFileSystem of lines
    183-185 is the same as the one of line 159. *)
Definition fsw_openfs (cwd : place) (fs_url : str) (create exists_ok : bool) : io place :=
  let '(method, path) := match split_url fs_url with None => (`"file", fs_url) | Some mp => mp end in
  let '(path, create_dir) := if create then path_split path else (path, []) in
  if str_eqb method (`"file") then
    let base := if startswith [slash] path then [] else cwd in
    let h := at_path base path in
    do _ <- iread (fun w => if fs_isdir w base path then Ok tt else Raise FileNotFoundError) ;;
    if create then
      do e <- iread (fun w => Ok (fs_exists w h create_dir)) ;;
      (if e : bool then if exists_ok then iret tt else iraise FswException
       else fs_makedir h create_dir) ;;
      iret (at_path h create_dir)
    else iret h
  else iraise OtherException.

(** ocfl/fsw.py:199-209 fsw_opendir_as_fs *)
Definition fsw_opendir_as_fs (h : place) (path : str) : place := at_path h path.

(** ocfl/fsw.py:231-243, the directories and other files of one directory *)
Fixpoint walk_entries (dirpath : str) (l : list (str * ftype)) : exc (list str * list str) :=
  match l with
  | [] => Ok ([], [])
  | (n, t) :: r =>
      let* name := fsw_relpath n dirpath in
      let* df := walk_entries dirpath r in
      Ok (if str_in name [`".."; `"."; []] then df
          else match t with TDir => (name :: fst df, snd df) | _ => (fst df, name :: snd df) end)
  end.

(** What fsw_walk yields for each directory, and how it ends. *)
Definition yield : Type := str * (list str * list str).

(** ocfl/fsw.py:229-248. The consumer may take names out of dirs: [keep] says which it
    leaves there. The stack is a list with its top first. *)
Definition keeper : Type := str -> list str -> list str -> str -> bool.
Fixpoint walk_loop (keep : keeper) (fuel : nat) (w : node) (h : place) (stack : list str)
    : list yield * exc unit :=
  match fuel with
  | O => ([], Raise OutOfFuel)
  | S f =>
      match stack with
      | [] => ([], Ok tt)
      | dirpath :: stack' =>
          match (let* l := fs_ls w h (lstrip_slash dirpath) in walk_entries dirpath l) with
          | Raise e => ([], Raise e)
          | Ok (dirs, files) =>
              let dirs' := filter (keep dirpath dirs files) dirs in
              let '(ys, r) := walk_loop keep f w h (map (path_join dirpath) dirs' ++ stack') in
              ((dirpath, (dirs, files)) :: ys, r)
          end
      end
  end.

(** The number of files and directories: enough fuel. *)
Fixpoint size (n : node) : nat :=
  S (match n with
     | Dir d => (fix all (d : list (str * node)) : nat := match d with [] => O | (_, m) :: r => (size m + all r)%nat end) d
     | _ => O
     end).

(** ocfl/fsw.py:212-248 fsw_walk *)
Definition fsw_walk (keep : keeper) (w : node) (h : place) (dir : str) : list yield * exc unit :=
  walk_loop keep (S (size w)) w h [if startswith [slash] dir then dir else slash :: dir].

(** a consumer that does not change dirs *)
Definition keep_all : keeper := fun _ _ _ _ => true.

(** ocfl/fsw.py:251-268 fsw_walk_files *)
Definition walk_file_paths (dir : str) (y : yield) : exc (list str) :=
  let '(dirpath, (_, files)) := y in
  let* reldir := fsw_relpath dirpath dir in
  let reldir := if str_eqb reldir (`".") then [] else reldir in
  Ok (map (path_join reldir) files).
Definition fsw_walk_files (w : node) (h : place) (dir : str) : exc (list str) :=
  let '(ys, r) := fsw_walk keep_all w h dir in
  let* ll := emap (walk_file_paths dir) ys in
  let* _ := r in
  Ok (concat ll).

(** ocfl/fsw.py:271-291 fsw_listdir_names *)
Definition fsw_listdir_names (w : node) (h : place) (path : str) : exc (list str) :=
  let path := lstrip_slash path in
  let* l := fs_ls w h path in
  let* names := emap (fun e => fsw_relpath (fst e) path) l in
  Ok (filter (fun n => negb (str_eqb n [])) names).

(** ocfl/fsw.py:32 BUFLEN *)
Definition BUFLEN : nat := N.to_nat 262144.

(** fs.info(path): size and type; the size of something that is not a file is arbitrary *)
Definition fs_info (sizes : place -> N) (w : node) (h : place) (path : str) : exc (N * ftype) :=
  let* n := get w (at_path h path) in
  Ok (match n with File b => N.of_nat (List.length b) | _ => sizes (at_path h path) end, type_of n).
Definition ftype_eqb (a b : ftype) : bool :=
  match a, b with TFile, TFile | TDir, TDir | TOther, TOther => true | _, _ => false end.

(** ocfl/fsw.py:353-359, one unit of fuel for each pair of blocks *)
Fixpoint compare_blocks (buflen fuel : nat) (b1 b2 : bytes) : exc bool :=
  match fuel with
  | O => Raise OutOfFuel
  | S f =>
      let c1 := firstn buflen b1 in
      let c2 := firstn buflen b2 in
      if negb (str_eqb c1 c2) then Ok false
      else match c1 with
           | [] => Ok true
           | _ => compare_blocks buflen f (skipn buflen b1) (skipn buflen b2)
           end
  end.

Definition same_content (b1 b2 : bytes) : exc bool := compare_blocks BUFLEN (S (List.length b1)) b1 b2.

(** ocfl/fsw.py:327-360 fsw_files_identical *)
Definition fsw_files_identical (sizes : place -> N) (w : node) (h : place) (file1 file2 : str) : exc bool :=
  let* info1 := fs_info sizes w h file1 in
  let* info2 := fs_info sizes w h file2 in
  if negb (N.eqb (fst info1) (fst info2)) || negb (ftype_eqb (snd info1) (snd info2)) then Ok false
  else if str_eqb file1 file2 then Ok true
  else
    let* b1 := fs_read w h file1 in
    let* b2 := fs_read w h file2 in
    same_content b1 b2.

(** The blocks that reading a file gives; one unit of fuel for each. *)
Fixpoint blocks (buflen fuel : nat) (b : bytes) : list bytes :=
  match fuel with
  | O => []
  | S f =>
      match firstn buflen b with
      | [] => []
      | buf => buf :: blocks buflen f (skipn buflen b)
      end
  end.

(** ocfl/fsw.py:363-378 fsw_copyfile. What is read is what is in the file once the
    destination has been opened (and emptied). *)
Definition fsw_copyfile (src_h : place) (src_path : str) (dst_h : place) (dst_path : str) : io unit :=
  do _ <- iread (fun w => fs_read w src_h src_path) ;;
  fs_create dst_h dst_path ;;
  do b <- iread (fun w => fs_read w src_h src_path) ;;
  iter (fs_append dst_h dst_path) (blocks BUFLEN (S (List.length b)) b).

(** ocfl/fsw.py:405-411 *)
Definition copy_one (src_h : place) (src_path : str) (dst_h : place) (dst_path filepath : str) : io unit :=
  let src_filepath := path_join src_path filepath in
  let dst_filepath := path_join dst_path filepath in
  let dst_filedir := path_dirname dst_filepath in
  do e <- iread (fun w => Ok (fs_exists w dst_h dst_filedir)) ;;
  (if negb (str_eqb dst_filedir dst_path) && negb (e : bool) then fs_makedirs dst_h dst_filedir false else iret tt) ;;
  fsw_copyfile src_h src_filepath dst_h dst_filepath.
(** ocfl/fsw.py:381-411 fsw_copydir. The list of files is complete before the first is
    copied. *)
Definition fsw_copydir (src_h : place) (src_path : str) (dst_h : place) (dst_path : str) : io unit :=
  do _ <- iread (fun w => if fs_isdir w src_h src_path then Ok tt else Raise FswException) ;;
  do _ <- iread (fun w => if fs_exists w dst_h dst_path then Raise FswException else Ok tt) ;;
  fs_makedirs dst_h dst_path false ;;
  do files <- iread (fun w => fsw_walk_files w src_h src_path) ;;
  iter (copy_one src_h src_path dst_h dst_path) files.
