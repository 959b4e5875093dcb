(** What a JSON text says, without the parser: the grammar of RFC 8259 and of ECMA-404, and
    what Python adds to it (NaN, Infinity, -Infinity, single surrogates, a limit on the
    length of integers; of equal keys the last one counts, at the place of the first). *)
From Verif Require Import Base Json.
Open Scope N_scope.

(** ** White space *)
Definition blank (w : str) : Prop := Forall (fun c => c = 32 \/ c = 9 \/ c = 10 \/ c = 13) w.

(** ** Strings: the text between the quotes, and the characters it stands for *)
Definition hex_digit (c x : N) : Prop := 48 <= c <= 57 /\ x = c - 48 \/ 97 <= c <= 102 /\ x = c - 87 \/ 65 <= c <= 70 /\ x = c - 55.
Definition four_hex (h : str) (n : N) : Prop := exists a b c d x y z w, h = [a; b; c; d] /\
  hex_digit a x /\ hex_digit b y /\ hex_digit c z /\ hex_digit d w /\ n = x * 4096 + y * 256 + z * 16 + w.
Definition high (n : N) : Prop := 55296 <= n <= 56319.
Definition low (n : N) : Prop := 56320 <= n <= 57343.
Definition starts_low (b : str) : Prop := exists h n q, b = 92 :: 117 :: h ++ q /\ four_hex h n /\ low n.
Inductive string_body : str -> str -> Prop :=
| b_end : string_body [] []
| b_char c b s : c <> 34 -> c <> 92 -> 32 <= c -> string_body b s -> string_body (c :: b) (c :: s)
| b_escape e c b s : In (e, c) [(34, 34); (92, 92); (47, 47); (98, 8); (102, 12); (110, 10); (114, 13); (116, 9)] ->
    string_body b s -> string_body (92 :: e :: b) (c :: s)
| b_unicode h n b s : four_hex h n -> (high n -> ~ starts_low b) -> string_body b s -> string_body (92 :: 117 :: h ++ b) (n :: s)
| b_pair h n h' n' b s : four_hex h n -> four_hex h' n' -> high n -> low n' -> string_body b s ->
    string_body (92 :: 117 :: h ++ 92 :: 117 :: h' ++ b) (65536 + (n - 55296) * 1024 + (n' - 56320) :: s).

(** ** Numbers *)
Definition all_digits (s : str) : Prop := Forall (fun c => 48 <= c <= 57) s.
Fixpoint decimal (s : str) : N := match s with [] => 0 | c :: r => (c - 48) * 10 ^ N.of_nat (List.length r) + decimal r end.
(** no leading zeros *)
Definition whole (s : str) : Prop := s = [48] \/ exists c r, s = c :: r /\ 49 <= c <= 57 /\ all_digits r.
Definition int_text (t : str) (z : Z) : Prop := exists s, whole s /\ N.of_nat (List.length s) <= 4300 /\
  (t = s /\ z = Z.of_N (decimal s) \/ t = 45 :: s /\ z = (- Z.of_N (decimal s))%Z).
Definition fraction (t : str) : Prop := exists d, t = 46 :: d /\ d <> [] /\ all_digits d.
Definition exponent (t : str) : Prop := exists e sg d, t = e :: sg ++ d /\ (e = 101 \/ e = 69) /\ (sg = [] \/ sg = [43] \/ sg = [45]) /\ d <> [] /\ all_digits d.
Definition real_text (t : str) : Prop := exists sg s fr ex, t = sg ++ s ++ fr ++ ex /\ (sg = [] \/ sg = [45]) /\ whole s /\
  (fraction fr /\ (ex = [] \/ exponent ex) \/ fr = [] /\ exponent ex).

(** ** Objects *)
Inductive put_member (k : str) (v : json) : dict json -> dict json -> Prop :=
| put_new d : ~ In k (map fst d) -> put_member k v d (d ++ [(k, v)])
| put_old a u b : ~ In k (map fst a) -> put_member k v (a ++ (k, u) :: b) (a ++ (k, v) :: b).
Inductive gathered : dict json -> list (str * json) -> dict json -> Prop :=
| g_end d : gathered d [] d
| g_put k v d d' l d'' : put_member k v d d' -> gathered d' l d'' -> gathered d ((k, v) :: l) d''.

(** ** Values *)
Inductive value_text : str -> json -> Prop :=
| v_null : value_text (`"null") JNull
| v_true : value_text (`"true") (JBool true)
| v_false : value_text (`"false") (JBool false)
| v_python t : In t [`"NaN"; `"Infinity"; `"-Infinity"] -> value_text t (JFloat t)
| v_int t z : int_text t z -> value_text t (JInt z)
| v_real t : real_text t -> value_text t (JFloat t)
| v_string b s : string_body b s -> value_text (34 :: b ++ [34]) (JStr s)
| v_array0 w : blank w -> value_text (91 :: w ++ [93]) (JArr [])
| v_array w t l : blank w -> elements_text t l -> value_text (91 :: w ++ t ++ [93]) (JArr l)
| v_object0 w : blank w -> value_text (123 :: w ++ [125]) (JObj [])
| v_object w t l d : blank w -> members_text t l -> gathered [] l d -> value_text (123 :: w ++ t ++ [125]) (JObj d)
with elements_text : str -> list json -> Prop :=
| e_one t j w : value_text t j -> blank w -> elements_text (t ++ w) [j]
| e_more t j w w' ts l : value_text t j -> blank w -> blank w' -> elements_text ts l -> elements_text (t ++ w ++ 44 :: w' ++ ts) (j :: l)
with members_text : str -> list (str * json) -> Prop :=
| m_one b k w w' t j u : string_body b k -> blank w -> blank w' -> value_text t j -> blank u ->
    members_text (34 :: b ++ 34 :: w ++ 58 :: w' ++ t ++ u) [(k, j)]
| m_more b k w w' t j u u' ts l : string_body b k -> blank w -> blank w' -> value_text t j -> blank u -> blank u' -> members_text ts l ->
    members_text (34 :: b ++ 34 :: w ++ 58 :: w' ++ t ++ u ++ 44 :: u' ++ ts) ((k, j) :: l).
Definition document (s : str) (j : json) : Prop := exists w t w', s = w ++ t ++ w' /\ blank w /\ value_text t j /\ blank w'.

(** ** Files: the bytes of UTF-8 (RFC 3629), and line ends in text mode *)
Inductive char_bytes : N -> list N -> Prop :=
| one_byte c : c < 128 -> char_bytes c [c]
| two_bytes x y : y < 64 -> 128 <= x * 64 + y < 2048 -> char_bytes (x * 64 + y) [192 + x; 128 + y]
| three_bytes x y z : y < 64 -> z < 64 -> 2048 <= x * 4096 + y * 64 + z < 65536 -> ~ (55296 <= x * 4096 + y * 64 + z <= 57343) ->
    char_bytes (x * 4096 + y * 64 + z) [224 + x; 128 + y; 128 + z]
| four_bytes x y z w : y < 64 -> z < 64 -> w < 64 -> 65536 <= x * 262144 + y * 4096 + z * 64 + w < 1114112 ->
    char_bytes (x * 262144 + y * 4096 + z * 64 + w) [240 + x; 128 + y; 128 + z; 128 + w].
Inductive text_bytes : str -> list N -> Prop :=
| tb_end : text_bytes [] []
| tb_char c bs s b : char_bytes c bs -> text_bytes s b -> text_bytes (c :: s) (bs ++ b).
Inductive line_ends : str -> str -> Prop :=
| le_end : line_ends [] []
| le_crlf s t : line_ends s t -> line_ends (13 :: 10 :: s) (10 :: t)
| le_cr s t : (forall s', s <> 10 :: s') -> line_ends s t -> line_ends (13 :: s) (10 :: t)
| le_other c s t : c <> 13 -> line_ends s t -> line_ends (c :: s) (c :: t).
