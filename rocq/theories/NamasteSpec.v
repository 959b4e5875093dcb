(** What the properties about declaration files mean. *)
From Verif Require Import Base Unicode PathModel FsModel FsSpec.

(** There is something in directory [p] whose name is the tag, "=" and any text. *)
Definition tagged (w : node) (p : place) (d name : str) : Prop :=
  look w (p ++ [name]) <> None /\ exists t, name = d ++ `"=" ++ t.

(** No more than [k] names have the property. *)
Definition at_most (k : nat) (P : str -> Prop) : Prop :=
  forall l, NoDup l -> Forall P l -> (List.length l <= k)%nat.

(** [a] is before [b] in the order of names. *)
Definition before_name (a b : str) : Prop := str_leb a b = true /\ a <> b.

(** A declaration of an object or a storage root: digits are those of \d, and there may be
    a newline at the end. *)
Definition digits (s : str) : Prop := s <> [] /\ Forall (fun c => is_digit c = true) s.
Definition ocfl_declaration (object : bool) (name : str) : Prop :=
  exists a b nl, digits a /\ digits b /\ (nl = [] \/ nl = [10%N]) /\
    name = `"0=ocfl" ++ (if object then `"_object" else []) ++ `"_" ++ a ++ `"." ++ b ++ nl.

(** The first declaration is of this kind. *)
Definition first_declaration (w : node) (p : place) (object : bool) : Prop :=
  exists name, look w (p ++ [name]) <> None /\ ocfl_declaration object name /\
    forall other o, look w (p ++ [other]) <> None -> ocfl_declaration o other -> other = name \/ before_name name other.

Definition no_crlf (s : str) : Prop := forall a b, s <> a ++ 13%N :: 10%N :: b.
