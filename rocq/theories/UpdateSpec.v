(** What the statements about new versions built with the API (C37, C38, C40, C42) are about. *)
From Verif Require Import Base Utf8 DigestModel InventoryModel InventoryOpsSpec InventorySpec NewVersionModel NewVersionProofs NewVersionOpsProofs ContentPathProofs PathModel FsModel FsSpec FsProofs ValidatorSpec ObjectSpec FsStepProofs.

(** w' is what can be left of the tree w when x is cut short at any moment, also in the middle
    of writing a file, or when it is finished. *)
Definition crash {A} (x : io A) (w w' : node) : Prop := exists c, cut c (fst (x w)) /\ w' = apply_all c w.

(** Two content files of the object at h that are different for the inventory i also have
    different digests under the algorithm a. *)
Definition kept_apart (H : hashfn) (a : str) (w : node) (h : place) (i : inventory) : Prop :=
  forall d c b d' c' b' x, stored i d c -> stored i d' c' -> fs_read w h c = Ok b -> fs_read w h c' = Ok b' ->
    digest_of H a b x -> digest_of H a b' x -> d = d'.

(** The algorithm is not changed, or contents are still told apart by the new one. *)
Definition kept_if (H : hashfn) (da : option str) (w : node) (h : place) (i : inventory) : Prop :=
  forall a, da = Some a -> i_alg i <> Some a -> kept_apart H a w h i.

(** The source path, and the content path if there is one, have no "..", "." or empty parts. *)
Definition plain_op (op : nv_op) : Prop :=
  match op with
  | OAdd s _ c => plain_path s /\ match c with Some c => plain_path c | None => True end
  | ODelete _ | ORename _ _ => True
  end.

(** The new version after a series of operations, also if some of them raise an exception *)
Definition nv_do (H : hashfn) (src : str -> exc bytes) (ops : list nv_op) (nv : new_version) : new_version :=
  fold_left (fun nv op => fst (nv_step H src op nv)) ops nv.
