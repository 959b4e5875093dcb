(** A local file system and the fsspec operations /repo uses on it.

    Models fsspec's DirFileSystem over LocalFileSystem (the operations named in the comments
    below) and the operating system, not functions of /repo. Simplifications: no links,
    permissions, I/O errors, time stamps or other processes; ".." is taken lexically, as if
    the element before it were an existing directory; all errors of the operating system
    other than FileNotFoundError are OSError. A listing is in the order of the tree, which
    is arbitrary because all statements are about all trees. *)
From Verif Require Import Base Utf8 PathModel TextFile.

(** [Other] is any special file. *)
Inductive node := File (b : bytes) | Dir (d : list (str * node)) | Other.

(** ** Paths

    A place is a list of names, from the root of the file system. *)
Definition place := list str.

Definition resolve_step (acc : place) (c : str) : place :=
  if str_eqb c [] || str_eqb c (`".") then acc
  else if str_eqb c (`"..") then tl acc
  else c :: acc.
Definition resolve (l : list str) : place := rev (fold_left resolve_step l []).

(** DirFileSystem._join: the place of [path] for a file system opened at [h] *)
Definition at_path (h : place) (path : str) : place := resolve (h ++ split_on slash path).

(** ** Reading *)

Fixpoint get (n : node) (p : place) : exc node :=
  match p with
  | [] => Ok n
  | c :: r =>
      match n with
      | Dir d => match dget c d with Some m => get m r | None => Raise FileNotFoundError end
      | _ => Raise OSError
      end
  end.

(** info(path)["type"] *)
Inductive ftype := TFile | TDir | TOther.
Definition type_of (n : node) : ftype := match n with File _ => TFile | Dir _ => TDir | Other => TOther end.

(** exists, isdir and isfile: False whenever info fails *)
Definition fs_exists (w : node) (h : place) (path : str) : bool :=
  match get w (at_path h path) with Ok _ => true | Raise _ => false end.
Definition fs_isdir (w : node) (h : place) (path : str) : bool :=
  match get w (at_path h path) with Ok (Dir _) => true | _ => false end.

(** listdir(path) = ls(path): names relative to the root of the file system opened; a file
    is listed as itself *)
Definition entry_name (path name : str) : str :=
  match rstrip_slash path with [] => name | p => p ++ slash :: name end.
Definition fs_ls (w : node) (h : place) (path : str) : exc (list (str * ftype)) :=
  let* n := get w (at_path h path) in
  match n with
  | Dir d => Ok (map (fun kv => (entry_name path (fst kv), type_of (snd kv))) d)
  | _ => Ok [(rstrip_slash path, type_of n)]
  end.

(** open(path, "rb").read() *)
Definition fs_read (w : node) (h : place) (path : str) : exc bytes :=
  let* n := get w (at_path h path) in
  match n with File b => Ok b | _ => Raise OSError end.
(** open(path, "r").read() *)
Definition fs_read_text (w : node) (h : place) (path : str) : exc str :=
  let* b := fs_read w h path in read_text b.

(** ** Writing

    An operation is a list of steps on the file system and a result. If the process stops,
    the file system is in the state after some of the steps. *)

Inductive step :=
| Mkdir (p : place)
| Create (p : place)               (* open for writing: a new or an emptied file *)
| Append (p : place) (b : bytes)
| Unlink (p : place).

Fixpoint put (p : place) (new n : node) : node :=
  match p with
  | [] => new
  | c :: r =>
      match n with
      | Dir d =>
          match dget c d with
          | Some m => Dir (dset c (put r new m) d)
          | None => match r with [] => Dir (dset c new d) | _ => n end
          end
      | _ => n
      end
  end.
Fixpoint remove (p : place) (n : node) : node :=
  match p with
  | [] => n
  | c :: r =>
      match n with
      | Dir d =>
          match dget c d with
          | Some m => match r with [] => Dir (ddel c d) | _ => Dir (dset c (remove r m) d) end
          | None => n
          end
      | _ => n
      end
  end.

Definition apply (s : step) (w : node) : node :=
  match s with
  | Mkdir p => put p (Dir []) w
  | Create p => put p (File []) w
  | Append p b => match get w p with Ok (File c) => put p (File (c ++ b)) w | _ => w end
  | Unlink p => remove p w
  end.
Definition apply_all (l : list step) (w : node) : node := fold_left (fun w s => apply s w) l w.

(** A crash: a prefix of the steps, where of the last write only a part may have been
    done. *)
Inductive cut : list step -> list step -> Prop :=
| cut_prefix a b : cut a (a ++ b)
| cut_write a p x y b : cut (a ++ [Append p x]) (a ++ Append p (x ++ y) :: b).

Definition io (A : Type) : Type := node -> list step * exc A.
Definition iret {A} (a : A) : io A := fun _ => ([], Ok a).
Definition iraise {A} (e : exn) : io A := fun _ => ([], Raise e).
Definition iread {A} (f : node -> exc A) : io A := fun w => ([], f w).
Definition ibind {A B} (x : io A) (f : A -> io B) : io B := fun w =>
  let '(s, r) := x w in
  match r with
  | Raise e => (s, Raise e)
  | Ok a => let '(s', r') := f a (apply_all s w) in (s ++ s', r')
  end.
Notation "'do' x <- a ;; b" := (ibind a (fun x => b))
  (at level 200, x pattern, a at level 100, b at level 200, right associativity).
Notation "a ;; b" := (ibind a (fun _ => b)) (at level 199, right associativity).
Fixpoint iter {A} (f : A -> io unit) (l : list A) : io unit :=
  match l with [] => iret tt | a :: r => f a ;; iter f r end.

(** What the file system is after the operation. *)
Definition after {A} (x : io A) (w : node) : node := apply_all (fst (x w)) w.
Definition result {A} (x : io A) (w : node) : exc A := snd (x w).

(** open(path, "wb") on a file or a new name in a directory *)
Definition fs_create (h : place) (path : str) : io unit := fun w =>
  let p := at_path h path in
  match get w p with
  | Ok (File _) => ([Create p], Ok tt)
  | Ok _ => ([], Raise OSError)
  | Raise FileNotFoundError =>
      match get w (removelast p) with
      | Ok (Dir _) => ([Create p], Ok tt)
      | _ => ([], Raise FileNotFoundError)
      end
  | Raise e => ([], Raise e)
  end.
(** fh.write(b) *)
Definition fs_append (h : place) (path : str) (b : bytes) : io unit := fun _ => ([Append (at_path h path) b], Ok tt).
(** with open(path, "w") as fh: fh.write(s). The file is empty if s cannot be encoded. *)
Definition fs_write_text (h : place) (path s : str) : io unit :=
  fs_create h path ;;
  do b <- iread (fun _ => write_text s) ;;
  fs_append h path b.

(** os.makedirs: the directories that are missing on the way, from the outermost *)
Fixpoint prefixes (done : place) (p : place) : list place :=
  match p with [] => [] | c :: r => (done ++ [c]) :: prefixes (done ++ [c]) r end.
Fixpoint missing (n : node) (done p : place) : exc (list place) :=
  match p with
  | [] => match n with Dir _ => Ok [] | _ => Raise OSError end
  | c :: r =>
      match n with
      | Dir d => match dget c d with Some m => missing m (done ++ [c]) r | None => Ok (prefixes done p) end
      | _ => Raise OSError
      end
  end.
(** makedirs(path, exist_ok) *)
Definition fs_makedirs (h : place) (path : str) (exist_ok : bool) : io unit := fun w =>
  let p := at_path h path in
  match missing w [] p with
  | Raise e => ([], Raise e)
  | Ok [] => ([], if exist_ok then Ok tt else Raise OSError)
  | Ok l => (map Mkdir l, Ok tt)
  end.
(** makedir(path), with create_parents as the default is *)
Definition fs_makedir (h : place) (path : str) : io unit := fun w =>
  if fs_exists w h path then ([], Raise OSError) else fs_makedirs h path true w.

(** rm(path) *)
Definition fs_rm (h : place) (path : str) : io unit := fun w =>
  let p := at_path h path in
  match get w p with
  | Ok (Dir _) => ([], Raise ValueError)
  | Ok _ => ([Unlink p], Ok tt)
  | Raise e => ([], Raise e)
  end.
