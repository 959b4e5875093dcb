(** Model of more of ocfl/inventory.py: the methods that add empty blocks. *)
From Verif Require Import Base Json InventoryModel.

(** inventory.py:212-221 manifest_add_if_not_present; the block that is returned is that of the
    inventory *)
Definition manifest_add_if_not_present (i : inventory) : inventory * block :=
  match i_manifest i with Some m => (i, m) | None => (set_manifest [] i, []) end.

(** inventory.py:621-633 Version.state_add_if_not_present. Without a version block the empty one
    goes to a temporary dict, and the second look for it raises KeyError. *)
Definition state_add_if_not_present (vdir : str) (i : inventory) : inventory * exc block :=
  match dget vdir (versions_block i) with
  | None => (i, Raise KeyError)
  | Some b => match vb_state b with Some s => (i, Ok s) | None => (set_state vdir [] i, Ok []) end
  end.

(** inventory.py:640-644 Version.user_add_if_not_present *)
Definition user_add_if_not_present (vdir : str) (i : inventory) : inventory * exc (dict json) :=
  match dget vdir (versions_block i) with
  | None => (i, Raise KeyError)
  | Some b =>
      match vb_user b with
      | Some u => (i, Ok u)
      | None => (update_version (fun b => mk_vblock (vb_created b) (vb_message b) (Some []) (vb_state b) (vb_other b)) vdir i, Ok [])
      end
  end.

(** Version.created, 587-590; message, 597-600; user_address, 646-652; user_name, 659-665 *)
Definition created (i : inventory) (vdir : str) : option str := vb_created (versiondata i vdir).
Definition message (i : inventory) (vdir : str) : option str := vb_message (versiondata i vdir).
Definition user_address (i : inventory) (vdir : str) : option json := dget (`"address") (or_empty (vb_user (versiondata i vdir))).
Definition user_name (i : inventory) (vdir : str) : option json := dget (`"name") (or_empty (vb_user (versiondata i vdir))).
