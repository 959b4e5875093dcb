(** Model of compactify_spec_examples.py, which shortens example inventories for the
    specification. *)
From Verif Require Import Base Unicode Regex ObjectUtilsModel.
Open Scope N_scope.

(** re.sub for patterns that match no empty text, which is so for all of this file. The text
    [s] has at most [fuel] characters. *)
Fixpoint re_sub_in (fuel : nat) (r : re) (repl : caps -> str) (s : str) : str :=
  match fuel with
  | O => []
  | S f =>
      match rmatch r s [] (fun s' c' => Some (s', c')) with
      | Some (rest, c) => repl c ++ re_sub_in f r repl rest
      | None => match s with [] => [] | x :: s' => x :: re_sub_in f r repl s' end
      end
  end.
Definition re_sub (r : re) (repl : caps -> str) (s : str) : str := re_sub_in (S (List.length s)) r repl s.

(** compactify_spec_examples.py:20  "([\da-f]{6})([\da-f]{119})([\da-f]{3})" *)
Definition is_hexish (c : N) : bool := is_digit c || ((97 <=? c) && (c <=? 102)).
Definition re_long_digest : re :=
  RSeq (rchar 34) (RSeq (RGroup 1 (rrep 6 (RChr is_hexish))) (RSeq (RGroup 2 (rrep 119 (RChr is_hexish))) (RSeq (RGroup 3 (rrep 3 (RChr is_hexish))) (rchar 34)))).
(** compactify_spec_examples.py:21, \s+\[\s+ and a quotation mark *)
Definition re_open : re := RSeq (rplus rspace) (RSeq (rchar 91) (RSeq (rplus rspace) (rchar 34))).
(** compactify_spec_examples.py:22, a quotation mark and \s+\](\s+)}(,)? *)
Definition re_close : re :=
  RSeq (rchar 34) (RSeq (rplus rspace) (RSeq (rchar 93) (RSeq (RGroup 1 (rplus rspace)) (RSeq (rchar 125) (ropt (RGroup 2 (rchar 44))))))).
(** compactify_spec_examples.py:23  \s+], *)
Definition re_end : re := RSeq (rplus rspace) (RSeq (rchar 93) (rchar 44)).
(** compactify_spec_examples.py:24  (\[[^\n,\]]+,)\s+ *)
Definition is_entry_char (c : N) : bool := negb ((c =? 10) || (c =? 44) || (c =? 93)).
Definition re_entry : re := RSeq (RGroup 1 (RSeq (rchar 91) (RSeq (rplus (RChr is_entry_char)) (rchar 44)))) (rplus rspace).

(** compactify_spec_examples.py:15-26 compactify: what is written for the text read. The flag
    re.MULTILINE has no influence on patterns without ^ and $. A group that has not taken part
    counts as empty. *)
Definition compactify (txt : str) : str :=
  let txt := re_sub (rlit (`"sha512-spec-ex")) (fun _ => `"sha512") txt in
  let txt := re_sub re_long_digest (fun c => [34] ++ group_or_nil 1 c ++ `"..." ++ group_or_nil 3 c ++ [34]) txt in
  let txt := re_sub re_open (fun _ => [32; 91; 32; 34]) txt in
  let txt := re_sub re_close (fun c => [34; 32; 93] ++ group_or_nil 1 c ++ [125] ++ group_or_nil 2 c) txt in
  let txt := re_sub re_end (fun _ => [32; 93; 44]) txt in
  let txt := re_sub re_entry (fun c => group_or_nil 1 c ++ [32]) txt in
  txt ++ [10].
