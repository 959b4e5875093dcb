(** Model of ocfl-sidecar.py, after argparse has split the command line.

    The text of the exception that is part of the warning is not modelled, and nothing of what
    is shown when an exception ends the program is. *)
From Verif Require Import Base Unicode Json DigestModel ObjectUtilsModel InventoryModel NewVersionModel TextFile PathModel FsModel FswModel ValidatorModel ObjectModel RootToolModel.

(** ocfl-sidecar.py:47-51 the warning, if the inventory is read and object.py:parse_inventory
    raises ObjectException *)
Definition sidecar_warning (e : env) (directory : str) (digest : option str) (w : node) : list shown :=
  let h := at_path (if startswith [slash] directory then [] else e_cwd e) directory in
  match digest, parse_inventory w h with
  | None, Raise ObjectException => [Warned (`"Failed to read inventory in directory " ++ directory)]
  | _, _ => []
  end.

(** ocfl-sidecar.py:38-53 create_sidecar with what it shows. The steps are those of
    [create_sidecar] of ObjectModel.v. *)
Definition create_sidecar_shown (H : hashfn) (e : env) (directory : str) (digest : option str) : io (list shown) :=
  let inventory_path := path_join directory INVENTORY_FILENAME in
  let base := if startswith [slash] inventory_path then [] else e_cwd e in
  do f <- iread (fun w => Ok (match get w (at_path base inventory_path) with Ok (File _) => true | _ => false end)) ;;
  do warning <- iread (fun w => Ok (sidecar_warning e directory digest w)) ;;
  create_sidecar H e directory digest ;;
  let alg := match digest with Some a => a | None => DEFAULT_DIGEST_ALGORITHM end in
  iret (if f : bool then warning ++ [Printed (`"Written sidecar file " ++ path_join directory (INVENTORY_FILENAME ++ `"." ++ alg))]
        else [Failed (`"Ignoring path " ++ directory ++ `" because there is no inventory file " ++ inventory_path ++ `".")]).

(** ocfl-sidecar.py:60-69 one path *)
Definition sidecar_path (H : hashfn) (e : env) (digest : option str) (path : str) : io (list shown) :=
  do d <- iread (fun w => Ok (fs_isdir w (if startswith [slash] path then [] else e_cwd e) path)) ;;
  if d : bool then create_sidecar_shown H e path digest
  else
    let '(directory, filename) := path_split path in
    if str_eqb filename INVENTORY_FILENAME then create_sidecar_shown H e directory digest
    else iret [Failed (`"Ignoring path " ++ filename ++ `" with filename that is not inventory.json")].

(** ocfl-sidecar.py:56-69 main *)
Fixpoint sidecar_paths (H : hashfn) (e : env) (digest : option str) (paths : list str) : io (list shown) :=
  match paths with
  | [] => iret []
  | path :: r =>
      do a <- sidecar_path H e digest path ;;
      do b <- sidecar_paths H e digest r ;;
      iret (a ++ b)
  end.
Definition ocfl_sidecar (H : hashfn) (e : env) (digest : option str) (paths : list str) : io (list shown) :=
  sidecar_paths H e digest (match paths with [] => [`"."] | _ => paths end).
