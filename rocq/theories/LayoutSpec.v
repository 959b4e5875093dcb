(** Specification vocabulary for the layout properties (C04-C09). *)
From Verif Require Import Base Unicode Utf8 Json DigestModel.

(** One directory name that stays where it is put: not empty, not '.', not '..',
    and without a path separator. *)
Definition safe_component (c : str) : Prop :=
  c <> [] /\ c <> `"." /\ c <> `".." /\ ~ In 47%N c.

(** Path [p] made of components [l]. *)
Definition path_of (l : list str) (p : str) : Prop := p = join [47%N] l.

(** Path q lies strictly inside the directory p. *)
Definition inside (p q : str) : Prop := exists rest, q = p ++ 47%N :: rest.

(** The configurations of extension 0003 allowed by its specification, for a digest
    of n hex characters; sha512, sha256, sha1 and md5 are the digests supported. *)
Definition config_0003_ok (a : str) (ts nt : Z) (n : nat) : Prop :=
  hash_len a = Some n /\ In a [`"sha512"; `"sha256"; `"sha1"; `"md5"] /\
  (0 <= ts <= 32)%Z /\ (0 <= nt <= 32)%Z /\ (ts = 0 <-> nt = 0)%Z /\ (ts * nt <= Z.of_nat n)%Z.

(** Characters of an encapsulation directory: [A-Za-z0-9-_] or '%'. *)
Definition encapsulation_char (c : N) : Prop :=
  (48 <= c <= 57)%N \/ (65 <= c <= 90)%N \/ (97 <= c <= 122)%N \/ c = 45%N \/ c = 95%N \/ c = 37%N.

(** Lower-case UUID digits: 0-9 (of any script, as Python's \d) and a-f. *)
Definition uuid_char (c : N) : Prop := is_digit c = true \/ (97 <= c <= 102)%N.
Definition uuid_quad (s : str) : Prop := length s = 4%nat /\ Forall uuid_char s.

(** The text of a UUID from its eight groups of four characters. *)
Definition uuid_of (q : list str) (s : str) : Prop :=
  exists a b c d e f g h, q = [a; b; c; d; e; f; g; h] /\ Forall uuid_quad q /\
    s = a ++ b ++ `"-" ++ c ++ `"-" ++ d ++ `"-" ++ e ++ `"-" ++ f ++ g ++ h.
