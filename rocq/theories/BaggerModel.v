(** * ocfl/bagger.py: metadata of a version taken from and written to a BagIt bag

    The library bagit is not part of /repo. What it does is a parameter here: [bagit.Bag] and
    [Bag.is_valid] give a [bag], [bagit.make_bag] is a function from the tags to the bag that is
    there afterwards. Properties_Bagger.v says which behaviour of it each theorem needs. *)
From Coq Require Import List NArith Bool Lia.
From Verif Require Import Base Json PathModel InventoryModel.
Import ListNotations.
Open Scope N_scope.

(** bagger.py:49-50: a bag that bagit.Bag could open: the answer of is_valid() and the dict
    bag.info. Simplification: bagit gives a list of strings for a tag that occurs more than once
    in bag-info.txt; only tags with one value are modelled. *)
Record bag := mk_bag { bag_valid : bool; bag_info : dict str }.

Definition t_id := `"External-Identifier".
Definition t_date := `"Bagging-Date".
Definition t_message := `"External-Description".
Definition t_name := `"Contact-Name".
Definition t_email := `"Contact-Email".
Definition mailto := `"mailto:".

(** The values that count as true: not None and not "". *)
Definition str_set (x : option str) : bool := match x with Some (_ :: _) => true | _ => false end.
(** The same for a value of an inventory, which can be any JSON value: None, "", 0, false, [] and
    {} are not true. Simplification: 0.0 and -0.0 count as true. *)
Definition json_set (x : option json) : bool :=
  match x with
  | None | Some JNull | Some (JBool false) | Some (JStr []) | Some (JArr []) | Some (JObj []) => false
  | Some (JInt n) => negb (BinInt.Z.eqb n 0)
  | Some _ => true
  end.

(** bagger.py:27-63 bag_as_source. [b] is what bagit.Bag(srcbag) gives or raises. The object
    [metadata] that is changed is returned together with the path. *)
Definition bag_as_source (srcbag : str) (b : exc bag) (m : vmeta) : exc (vmeta * str) :=
  let* b := b in
  if negb (bag_valid b) then Raise BaggerException else
  let info := bag_info b in
  let id := if str_set (vm_id m) then vm_id m else or_else (dget t_id info) (vm_id m) in
  let created :=
    if str_set (vm_created m) then vm_created m
    else match dget t_date info with Some d => Some (d ++ `"T00:00:00Z") | None => vm_created m end in
  let message := if str_set (vm_message m) then vm_message m else or_else (dget t_message info) (vm_message m) in
  let name :=
    if json_set (vm_name m) then vm_name m
    else match dget t_name info with Some s => Some (JStr s) | None => vm_name m end in
  let address :=
    if json_set (vm_address m) then vm_address m
    else match dget t_email info with Some s => Some (JStr (mailto ++ s)) | None => vm_address m end in
  Ok (mk_vmeta id created message name address, path_join srcbag (`"data")).

(** bagger.py:79-90: the dict given to make_bag. A value that is not a string has no startswith:
    AttributeError; so has None no split. *)
Definition bag_tags (m : vmeta) (set_bagging_date : bool) : exc (dict json) :=
  let tags := match vm_id m with Some ((_ :: _) as i) => [(t_id, JStr i)] | _ => [] end in
  let tags := match vm_message m with Some ((_ :: _) as s) => tags ++ [(t_message, JStr s)] | _ => tags end in
  let tags := match vm_name m with
              | Some n => if json_set (Some n) then tags ++ [(t_name, n)] else tags
              | None => tags
              end in
  let* tags :=
    match vm_address m with
    | Some a =>
        if json_set (Some a) then
          match a with
          | JStr s => if startswith mailto s then Ok (tags ++ [(t_email, JStr (skipn 7 s))]) else Ok tags
          | _ => Raise AttributeError
          end
        else Ok tags
    | None => Ok tags
    end in
  if set_bagging_date then
    match vm_created m with
    | Some c => Ok (tags ++ [(t_date, JStr (hd [] (split_on 84 c)))])
    | None => Raise AttributeError
    end
  else Ok tags.

(** bagger.py:66-93 bag_extracted_version *)
Definition bag_extracted_version (make_bag : dict json -> exc bag) (m : vmeta) (set_bagging_date : bool) : exc bag :=
  let* tags := bag_tags m set_bagging_date in make_bag tags.

(** ocfl-object.py:141-153: the metadata, the source directory and the identifier with which the
    command create works when --srcbag is given. [ident] is the argument --id. FatalError is
    OtherException. *)
Definition create_from_bag (ident : option str) (m : vmeta) (srcbag : str) (b : exc bag) : exc (option str * vmeta * str) :=
  let* r := bag_as_source srcbag b m in
  match vm_id (fst r), ident with
  | None, _ => Ok (ident, fst r, snd r)
  | Some i, None => Ok (Some i, fst r, snd r)
  | Some i, Some j => if str_eqb j i then Ok (ident, fst r, snd r) else Raise OtherException
  end.
