(** What lax_digests may change (C81). *)
From Verif Require Import Base Json Log InventorySpec WarningSpec FsModel FsSpec ValidatorSpec.

(** The entries of a log but the warnings about sha256. *)
Definition others (l : list Log.entry) : list Log.entry :=
  filter (fun e => negb match e with LWarning c => str_eqb c (`"W004") | LError _ => false end) l.
(** The same result, and the same log but for the warnings about sha256. *)
Definition alike {A} (x y : wexc A) : Prop := others (fst x) = others (fst y) /\ snd x = snd y.

(** The inventory uses the algorithms of the specification only. *)
Definition standard_algorithms (j : json) : Prop :=
  (forall a, member j (`"digestAlgorithm") a -> a = JStr (`"sha512") \/ a = JStr (`"sha256")) /\
  (forall fx alg x, member j (`"fixity") (JObj fx) -> In (alg, x) fx ->
     (exists n, digest_size alg n) \/ In alg [`"sha512-spec-ex"; `"sha256-spec-ex"]).

(** So do all inventories of the object. *)
Definition standard_object (w : node) (h : place) : Prop :=
  forall root, is_inventory w h [] root -> standard_algorithms root /\
    forall v b j, block_of root v b -> is_inventory w h [v] j -> standard_algorithms j.
