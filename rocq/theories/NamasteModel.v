(** Model of ocfl/namaste.py with a file system given, and of object_utils.find_path_type. *)
From Verif Require Import Base Unicode Regex Utf8 TextFile PathModel FsModel FswModel.
Open Scope N_scope.

(** str.strip() *)
Fixpoint lstrip (s : str) : str :=
  match s with [] => [] | c :: r => if is_space c then lstrip r else s end.
Definition strip_spaces (s : str) : str := rev (lstrip (rev (lstrip s))).

(** [\w\.\-:] *)
Definition tvalue_char (c : N) : bool := is_word c || char_in c (`".-:").

(** ocfl/namaste.py:14-22 content_to_tvalue *)
Definition content_to_tvalue (content : str) : str :=
  let content := strip_spaces content in
  map (fun c => if tvalue_char c then c else 95) (firstn 40 content).

(** ocfl/namaste.py:69-98 Namaste, with the default tr_func. [n_d] is str(d). *)
Record namaste := mkNamaste { n_d : str; n_content : str; n_tvalue : option str }.
Definition tvalue (n : namaste) : str :=
  match n_tvalue n with Some t => t | None => content_to_tvalue (n_content n) end.
Definition filename (n : namaste) : str := n_d n ++ `"=" ++ tvalue n.

(** ocfl/namaste.py:25-51 find_namastes, with fsw *)
Definition find_namastes (w : node) (h : place) (d : str) (dir : str) (limit : nat) : exc (list namaste) :=
  let prefix := d ++ `"=" in
  let* filenames := fsw_listdir_names w h dir in
  let filenames := filter (startswith prefix) filenames in
  if Nat.ltb limit (List.length filenames) then Raise NamasteException
  else Ok (map (fun f => mkNamaste d [] (Some (skipn (List.length prefix) f))) (sorted_strs filenames)).

(** ocfl/namaste.py:100-116 Namaste.write, with fsw *)
Definition namaste_write (n : namaste) (h : place) (dir : str) : io unit :=
  fs_write_text h (path_join dir (filename n)) (n_content n ++ [10]).

(** ocfl/namaste.py:118-133 Namaste.check_content, with fsw *)
Definition check_content (n : namaste) (w : node) (h : place) (dir : str) : exc unit :=
  let filepath := path_join dir (filename n) in
  if str_eqb (tvalue n) [] then Raise NamasteException
  else
    let* content :=
      match fs_read_text w h filepath with
      | Raise FileNotFoundError => Raise NamasteException
      | r => r
      end in
    if negb (str_eqb (tvalue n) (content_to_tvalue content)) then Raise NamasteException else Ok tt.

(** ocfl/namaste.py:135-141 Namaste.content_ok *)
Definition content_ok (n : namaste) (w : node) (h : place) (dir : str) : exc bool :=
  match check_content n w h dir with
  | Ok _ => Ok true
  | Raise NamasteException => Ok false
  | Raise e => Raise e
  end.

(** ocfl/object_utils.py:151 *)
Definition ocfl_tvalue_re : re :=
  RSeq (rlit (`"ocfl")) (RSeq (ropt (RGroup 1 (rlit (`"_object"))))
    (RSeq (rlit (`"_")) (RSeq (RGroup 2 (RSeq (rplus rdigit) (RSeq (rchar 46) (rplus rdigit)))) RDollar))).

(** ocfl/object_utils.py:150-153 *)
Fixpoint first_ocfl (l : list namaste) : option str :=
  match l with
  | [] => None
  | n :: r =>
      match re_match ocfl_tvalue_re (tvalue n) with
      | Some c => Some (match group 1 c with None => `"root" | Some _ => `"object" end)
      | None => first_ocfl r
      end
  end.

(** ocfl/object_utils.py:114-156 find_path_type. [message] is the text of the
    FileNotFoundError of line 137. *)
Definition find_path_type (message : str) (w : node) (cwd : place) (path : str) : exc str :=
  match result (fsw_openfs cwd path false false) w with
  | Raise FileNotFoundError =>
      let '(parent, filename) := path_split path in
      let parent := if str_eqb parent [] then `"." else parent in
      match result (fsw_openfs cwd parent false false) w with
      | Raise FileNotFoundError => Ok (`"path cannot be opened, and nor can parent (" ++ message ++ `")")
      | Raise e => Raise e
      | Ok h =>
          if negb (fs_exists w h filename) then Ok (`"path does not exist")
          else if fs_isdir w h filename then
            Ok (`"directory that could not be opened as a filesystem, this should not happen")
          else Ok (`"file")
      end
  | Raise e => Raise e
  | Ok h =>
      let* namastes := find_namastes w h (`"0") [] 10 in
      match namastes with
      | [] => Ok (`"no 0= declaration file")
      | first :: _ =>
          match first_ocfl namastes with
          | Some t => Ok t
          | None => Ok (`"unrecognized 0= declaration file or files (first is " ++ tvalue first ++ `")")
          end
      end
  end.
