(** Specifications for ocfl/storage_root.py. *)
From Verif Require Import Base Unicode Json JsonTextModel DigestModel LayoutModel TextFile PathModel FsModel FsSpec FswSpec NamasteSpec ValidatorSpec.

(** Files (or anything else that is not a directory) in a directory *)
Definition has_files (w : node) (p : place) : Prop := exists f, leaf w (p ++ [f]).

(** The names of files that declare an object, of a version of the specification that is
    supported. Other text may follow, if it does not start with a digit. *)
Definition declares_object (name : str) : Prop :=
  exists v r, In v [`"1.0"; `"1.1"] /\ name = `"0=ocfl_object_" ++ v ++ r /\ match r with c :: _ => is_digit c = false | [] => True end.
(** One file only has a name that starts with "0=", and it declares_object an object. *)
Definition single_declaration (w : node) (p : place) : Prop :=
  exists d, declares_object d /\ leaf w (p ++ [d]) /\ forall t, leaf w (p ++ [`"0=" ++ t]) -> `"0=" ++ t = d.

(** The directories below the root [h] of a storage root where objects are looked for: not
    in extensions/, and not below directories with files (other than the root). *)
Definition visited (w : node) (h rel : place) : Prop :=
  rel <> [] /\ hd [] rel <> `"extensions" /\ look w (h ++ rel) = Some EDir /\
  forall q c r, rel = q ++ c :: r -> q <> [] -> ~ has_files w (h ++ q).
(** The objects of a storage root *)
Definition object_root (w : node) (h rel : place) : Prop := visited w h rel /\ single_declaration w (h ++ rel).
(** Directories that are neither objects nor on the way to objects: empty directories, and
    directories with files that are not objects *)
Definition misplaced (w : node) (h rel : place) : Prop :=
  visited w h rel /\ ((forall k, look w (h ++ rel ++ [k]) = None) \/ has_files w (h ++ rel) /\ ~ single_declaration w (h ++ rel)).
(** No such directories, and no files in extensions/. *)
Definition tidy (w : node) (h : place) : Prop :=
  (forall rel, ~ misplaced w h rel) /\ ~ (look w (h ++ [`"extensions"]) = Some EDir /\ has_files w (h ++ [`"extensions"])).

(** Only known extensions *)
Definition known_extensions (w : node) (h : place) : Prop :=
  forall k, look w (h ++ [`"extensions"; k]) = Some EDir -> In k [`"0002-flat-direct-storage-layout"; `"0003-hash-and-id-n-tuple-storage-layout"].

(** There is one declaration of a storage root, with the right content. *)
Definition root_declared (w : node) (h : place) (v : str) : Prop :=
  In v [`"1.0"; `"1.1"] /\
  (forall name, tagged w h (`"0") name <-> name = `"0=ocfl_" ++ v) /\
  exists b text, look w (h ++ [`"0=ocfl_" ++ v]) = Some (EFile b) /\ read_text b = Ok text /\ declares text (`"ocfl_" ++ v).

(** The layout that a storage root says it has, if it does: that of the extension, with the
    parameters of its configuration file if there is one. (For which parameters are accepted
    see the theorems about C09.) *)
Definition layout_described (H : hashfn) (w : node) (h : place) (lay : option layout) : Prop :=
  match lay with
  | None => look w (h ++ [`"ocfl_layout.json"]) = None
  | Some l => exists b d name t l0,
      look w (h ++ [`"ocfl_layout.json"]) = Some (EFile b) /\ json_load_binary b = Ok (JObj d) /\
      dget (`"extension") d = Some (JStr name) /\ dget (`"description") d = Some (JStr t) /\ get_layout name = Ok l0 /\
      let config := h ++ [`"extensions"; LayoutModel.layout_name l0; `"config.json"] in
      (look w config = None /\ l = l0 \/
       exists c cfg, look w config = Some (EFile c) /\ json_load_binary c = Ok (JObj cfg) /\ check_and_set_layout_params H l0 cfg true = Ok l)
  end.
