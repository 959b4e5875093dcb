(** Model of small functions that deal with paths and are not used by the other models:
    Layout.strip_root, remove_first_directory and get_namaste. *)
From Verif Require Import Base PathModel FsModel FsSpec NamasteModel ValidatorModel.

(** os.path.abspath: the place of a path. [cwd] is the current directory. *)
Definition os_abspath (cwd : place) (path : str) : place := at_path (base_of cwd path) path.

(** ocfl/layout.py:84-100 Layout.strip_root. os.path.commonprefix compares letters: it is [root] if
    [path] starts with these letters. os.path.relpath(path, start=root) raises ValueError for the
    path "", and else compares os.path.abspath of both. *)
Definition strip_root (cwd : place) (path root : str) : exc str :=
  let root := rstrip_slash root in
  if startswith root path then
    match path with
    | [] => Raise ValueError
    | _ => Ok (match os_rel (os_abspath cwd path) (os_abspath cwd root) with [] => `"." | l => join [slash] l end)
    end
  else Raise LayoutException.

(** ocfl/object_utils.py:69-89 remove_first_directory. The loop; None is more rounds than [fuel]. *)
Fixpoint rfd_loop (fuel : nat) (path rpath : str) : option str :=
  match fuel with
  | O => None
  | S fuel =>
      let '(head, tail) := path_split path in
      if str_eqb path head || str_eqb path tail then Some rpath
      else rfd_loop fuel head (match rpath with [] => tail | _ => path_join tail rpath end)
  end.
Definition remove_first_directory (path : str) : option str := rfd_loop (S (List.length path)) path [].

(** os.listdir. Simplification: "x/.." is taken to be the directory of x. *)
Definition os_listdir (w : node) (cwd : place) (dir : str) : exc (list str) :=
  match dir with
  | [] => Raise FileNotFoundError
  | _ => let* n := get w (os_abspath cwd dir) in match n with Dir d => Ok (keys d) | _ => Raise OSError end
  end.

(** ocfl/namaste.py:55-64 get_namaste, with find_namastes (namaste.py:25-52) without fsw and with limit=1 *)
Definition get_namaste (w : node) (cwd : place) (d dir : str) : exc namaste :=
  let prefix := d ++ `"=" in
  let* filenames := os_listdir w cwd dir in
  let filenames := filter (startswith prefix) filenames in
  if Nat.ltb 1 (List.length filenames) then Raise NamasteException
  else
    match map (fun f => mkNamaste d [] (Some (skipn (List.length prefix) f))) (sorted_strs filenames) with
    | [n] => Ok n
    | _ => Raise NamasteException
    end.
