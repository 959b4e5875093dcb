(** Model of Object.parse_inventory, ocfl/object.py:787-806, from the parsed JSON on. *)
From Verif Require Import Base Unicode Json Log DigestModel InventoryValidatorModel InventoryModel.

(** ocfl/constants.py:9 *)
Definition DEFAULT_SPEC_VERSION : str := `"1.1".

(** object.py:797-806. Reading the file and json.load (797-798) are in ObjectModel. Returns the
    inventory and the specification version (803). The code only reaches 805 with an
    inventory the validator accepts, so the two last cases cannot happen. *)
Definition parse_inventory_json (inv : json) : exc (inventory * str) :=
  let* r := snd (iv_validate false DEFAULT_SPEC_VERSION None inv) in
  let '(st, ok) := r in
  if negb ok then Raise ObjectException
  else
    let* i := inventory_of_json inv in
    match iv_digest_algorithm st with
    | JStr alg => match normalize_digests alg i with
                  | (i', Ok tt) => Ok (i', iv_spec_version st)
                  | (_, Raise e) => Raise e
                  end
    | _ => Raise TypeError
    end.
