(** What the warnings of the validator are about (C78, C80). *)
From Verif Require Import Base Unicode Json InventorySpec PathModel FsModel FsSpec FswSpec ValidatorSpec.

(** ** Equal values *)

Inductive number : json -> Z -> Prop :=
| n_int z : number (JInt z) z
| n_bool b : number (JBool b) (if b then 1 else 0)%Z.

(** Equal as Python values: True is 1, objects have the same members in any order. *)
Inductive same_value : json -> json -> Prop :=
| sv_null : same_value JNull JNull
| sv_number a b z : number a z -> number b z -> same_value a b
| sv_float t : same_value (JFloat t) (JFloat t)
| sv_str s : same_value (JStr s) (JStr s)
| sv_arr l m : Forall2 same_value l m -> same_value (JArr l) (JArr m)
| sv_obj d e : (forall k, In k (keys d) <-> In k (keys e)) ->
    (forall k x y, In (k, x) d -> In (k, y) e -> same_value x y) -> same_value (JObj d) (JObj e).

(** ** Inventories *)

(** The block of a version. *)
Definition block_of (inv : json) (v : str) (b : json) : Prop := exists vs, member inv (`"versions") (JObj vs) /\ In (v, b) vs.

(** What a version records under a key; null if it has no such key. *)
Definition records_under (inv : json) (v key : str) (x : json) : Prop :=
  exists b, block_of inv v b /\ (member b key x \/ lacks b key /\ x = JNull).

Definition metadata_keys : list str := [`"created"; `"message"; `"user"].
(** The inventories have different metadata for a version. *)
Definition metadata_differs (root prior : json) (v : str) : Prop :=
  exists key x y, In key metadata_keys /\ records_under root v key x /\ records_under prior v key y /\ ~ same_value y x.

(** A scheme, a colon and something on the same line. Besides the ASCII letters there are
    the four characters that are one of them when the case is ignored (I with and without
    dot, long s, Kelvin). Digits and word characters are those of Unicode. *)
Definition uri_letter (c : N) : Prop := (65 <= c <= 90 \/ 97 <= c <= 122)%N \/ In c [304; 305; 383; 8490]%N.
Definition scheme_char (c : N) : Prop := uri_letter c \/ is_digit c = true \/ In c [43; 45; 46]%N.
Definition uri_like (s : str) : Prop :=
  exists a m c r, s = a :: m ++ 58%N :: c :: r /\ uri_letter a /\ Forall scheme_char m /\ c <> 10%N.
(** Three to six word characters and a colon. *)
Definition address_like (s : str) : Prop :=
  exists m r, s = m ++ 58%N :: r /\ Forall (fun c => is_word c = true) m /\ (3 <= List.length m <= 6)%nat.

(** The inventory deserves this warning. *)
Inductive inventory_reason (j : json) : str -> Prop :=
| ir_padded vs : member j (`"versions") (JObj vs) -> ~ In (`"v1") (keys vs) -> inventory_reason j (`"W001")
| ir_sha256 : member j (`"digestAlgorithm") (JStr (`"sha256")) -> inventory_reason j (`"W004")
| ir_id s : member j (`"id") (JStr s) -> ~ uri_like s -> inventory_reason j (`"W005")
| ir_message v b : block_of j v b -> lacks b (`"message") -> inventory_reason j (`"W007a")
| ir_user v b : block_of j v b -> lacks b (`"user") -> inventory_reason j (`"W007b")
| ir_no_address v b u : block_of j v b -> member b (`"user") u -> lacks u (`"address") -> inventory_reason j (`"W008")
| ir_address v b u a : block_of j v b -> member b (`"user") u -> member u (`"address") (JStr a) -> ~ address_like a ->
    inventory_reason j (`"W009").

(** ** Objects *)

Section Object.
  Variable w : node.
  Variable h : place.

  (** The name of the content directory. *)
  Definition content_name (root : json) (k : str) : Prop :=
    member root (`"contentDirectory") (JStr k) \/ lacks root (`"contentDirectory") /\ k = `"content".

  Definition is_inventory (dir : place) (j : json) : Prop := exists b, inventory_at w h dir b j.

  Inductive reason : str -> Prop :=
  | r_root j c : is_inventory [] j -> inventory_reason j c -> reason c
  | r_version root v b j c : is_inventory [] root -> block_of root v b -> is_inventory [v] j -> inventory_reason j c -> reason c
  | r_missing root v b : is_inventory [] root -> block_of root v b -> look w (h ++ [v; `"inventory.json"]) = None ->
      reason (`"W010")
  | r_metadata root v b j u : is_inventory [] root -> block_of root v b -> is_inventory [v] j -> metadata_differs root j u -> reason (`"W011")
  | r_directory root v b c k : is_inventory [] root -> block_of root v b -> content_name root c ->
      k <> c -> look w (h ++ [v; k]) = Some EDir -> reason (`"W002")
  | r_empty root v b c : is_inventory [] root -> block_of root v b -> content_name root c ->
      look w (h ++ [v; c]) <> None -> (forall r, r <> [] -> ~ leaf w (h ++ v :: c :: r)) -> reason (`"W003")
  | r_extension k : look w (h ++ [`"extensions"; k]) = Some EDir -> reason (`"W013").
End Object.
