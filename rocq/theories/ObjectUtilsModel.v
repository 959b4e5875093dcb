(** Model of ocfl/object_utils.py: version directory names and unused file names. *)
From Verif Require Import Base Unicode Regex.

(** int(s) for a string of decimal digits of any script (CPython's int() accepts
    all Nd characters). Simplification: CPython >= 3.11 raises ValueError above
    4300 digits; that limit is not modelled. *)
Definition digit_or_0 (c : N) : N := match digit_value c with Some d => d | None => 0%N end.
Definition int_of_digits (s : str) : N :=
  fold_left (fun a c => (a * 10 + digit_or_0 c)%N) s 0%N.

(** ocfl/object_utils.py:18-37 first_version_directory *)
Definition first_version_directory (zero_padded_width : option Z) : exc str :=
  match zero_padded_width with
  | None => Ok (`"v1")
  | Some w =>
      if (w <? 2)%Z || (5 <? w)%Z then Raise ObjectException
      else Ok (`"v" ++ repeat 48%N (Z.to_nat (w - 1)) ++ `"1")
  end.

(** The regex v((\d)\d* )$ of ocfl/object_utils.py:54 *)
Definition re_next_version : re :=
  RSeq (rlit (`"v")) (RSeq (RGroup 1 (RSeq (RGroup 2 rdigit) (RStar rdigit))) RDollar).

Definition group_or_nil (n : nat) (c : caps) : str :=
  match group n c with Some s => s | None => [] end.

(** ocfl/object_utils.py:40-66 next_version_directory *)
Definition next_version_directory (vdir : str) : exc str :=
  match re_match re_next_version vdir with
  | None => Raise ObjectException
  | Some m =>
      let next_n := (int_of_digits (group_or_nil 1 m) + 1)%N in
      if str_eqb (group_or_nil 2 m) (`"0") then
        let next_v := `"v0" ++ zero_pad (List.length vdir - 2) (str_of_N next_n) in
        if Nat.eqb (List.length next_v) (List.length vdir) then Ok next_v
        else Raise ObjectException
      else Ok (`"v" ++ str_of_N next_n)
  end.

(** The regex v(\d{1,5})$ of ocfl/object_utils.py:167 *)
Definition re_version_dir : re :=
  RSeq (rlit (`"v")) (RSeq (RGroup 1 (rrange 1 5 rdigit)) RDollar).

(** ocfl/object_utils.py:159-173 parse_version_directory *)
Definition parse_version_directory (dirname : str) : exc N :=
  match re_match re_version_dir dirname with
  | None => Raise ObjectException
  | Some m =>
      let v := int_of_digits (group_or_nil 1 m) in
      if N.eqb v 0 then Raise ObjectException else Ok v
  end.

(** ocfl/object_utils.py:91-111 make_unused_filepath; [used] is a dict or set, only
    membership is used. The while loop runs with fuel; [make_unused_filepath]
    provides one unit per used name plus one, which is proved sufficient. *)
Fixpoint unused_loop (fuel : nat) (filepath sep : str) (used : list str) (n : N) (f : str) : exc str :=
  match fuel with
  | O => Raise OutOfFuel
  | S k =>
      if str_in f used
      then unused_loop k filepath sep used (n + 1) (filepath ++ sep ++ str_of_N (n + 1))
      else Ok f
  end.
Definition make_unused_filepath (filepath : str) (used : list str) (sep : str) : exc str :=
  unused_loop (S (List.length used)) filepath sep used 1 filepath.

(** The default separator "__" of ocfl/object_utils.py:91 *)
Definition default_separator : str := `"__".
