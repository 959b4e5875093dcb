(** Specification for C52/C53: instants, by counting days, and the W3C text forms. *)
From Verif Require Import Base Unicode.
Local Open Scope Z_scope.

(** A civil date. *)
Definition date := (Z * Z * Z)%type.

Definition is_leap_year (y : Z) : Prop := (y mod 4 = 0 /\ y mod 100 <> 0) \/ y mod 400 = 0.

(** Length of a month, by the usual rhyme. *)
Inductive month_length (y : Z) : Z -> Z -> Prop :=
| ML30 m : In m [4; 6; 9; 11] -> month_length y m 30
| ML31 m : In m [1; 3; 5; 7; 8; 10; 12] -> month_length y m 31
| ML28 : ~ is_leap_year y -> month_length y 2 28
| ML29 : is_leap_year y -> month_length y 2 29.

(** The day after. *)
Inductive day_after : date -> date -> Prop :=
| DA_same y m d n : month_length y m n -> 1 <= d < n -> day_after (y, m, d) (y, m, d + 1)
| DA_month y m n : month_length y m n -> 1 <= m < 12 -> day_after (y, m, n) (y, m + 1, 1)
| DA_year y : day_after (y, 12, 31) (y + 1, 1, 1).

(** [days_from a n b]: b is n days after a. *)
Inductive days_from (a : date) : Z -> date -> Prop :=
| DF0 : days_from a 0 a
| DFS n b c : days_from a n b -> day_after b c -> days_from a (n + 1) c.

(** Day number of a date relative to 1970-01-01. *)
Definition epoch : date := (1970, 1, 1).
Definition day_number (x : date) (n : Z) : Prop :=
  (0 <= n /\ days_from epoch n x) \/ (n < 0 /\ days_from x (- n) epoch).

Definition valid_date (x : date) : Prop :=
  let '(y, m, d) := x in 1 <= y <= 9999 /\ exists n, month_length y m n /\ 1 <= d <= n.

Definition valid_time (hh mm ss : Z) : Prop := 0 <= hh <= 23 /\ 0 <= mm <= 59 /\ 0 <= ss <= 59.

(** Decimal fields; digits of any script as in Python. *)
Definition dig (x : Z) (c : N) : Prop := exists v, digit_value c = Some v /\ x = Z.of_N v.
Definition num2 (n : Z) (s : str) : Prop :=
  exists a b x y, s = [a; b] /\ dig x a /\ dig y b /\ n = 10 * x + y.
Definition num4 (n : Z) (s : str) : Prop :=
  exists a b c d w x y z, s = [a; b; c; d] /\ dig w a /\ dig x b /\ dig y c /\ dig z d /\
    n = 1000 * w + 100 * x + 10 * y + z.
Definition all_digits (s : str) : Prop := s <> [] /\ forall c, In c s -> exists x, dig x c.

(** Time zone designators and their offset east of UTC, in seconds. *)
Inductive tz_text : Z -> str -> Prop :=
| TZ_none : tz_text 0 []          (* "extended to make timezone optional" *)
| TZ_Z : tz_text 0 (`"Z")
| TZ_east hh mm a b : num2 hh a -> num2 mm b -> hh <= 23 -> mm <= 59 ->
    tz_text (hh * 3600 + mm * 60) (`"+" ++ a ++ `":" ++ b)
| TZ_west hh mm a b : num2 hh a -> num2 mm b -> hh <= 23 -> mm <= 59 ->
    tz_text (- (hh * 3600 + mm * 60)) (`"-" ++ a ++ `":" ++ b).

(** Text of a date and a time of day. *)
Definition date_text (x : date) (s : str) : Prop :=
  let '(y, m, d) := x in
  exists sy sm sd, num4 y sy /\ num2 m sm /\ num2 d sd /\ s = sy ++ `"-" ++ sm ++ `"-" ++ sd.

(** [w3c_text s x hh mm ss frac off nl]: s writes the date x, the time hh:mm:ss with
    fraction digits frac, at offset off; nl is what follows the W3C form proper. *)
Inductive w3c_text : str -> date -> Z -> Z -> Z -> str -> Z -> str -> Prop :=
| W_year y sy : num4 y sy -> w3c_text sy (y, 1, 1) 0 0 0 [] 0 []
| W_month y m sy sm : num4 y sy -> num2 m sm ->
    w3c_text (sy ++ `"-" ++ sm) (y, m, 1) 0 0 0 [] 0 []
| W_date x sx : date_text x sx -> w3c_text sx x 0 0 0 [] 0 []
| W_minutes x sx hh mm sh sm off tz nl : date_text x sx -> num2 hh sh -> num2 mm sm -> tz_text off tz ->
    (nl = [] \/ nl = [10%N]) ->
    w3c_text (sx ++ `"T" ++ sh ++ `":" ++ sm ++ tz ++ nl) x hh mm 0 [] off nl
| W_seconds x sx hh mm ss sh sm s2 off tz nl : date_text x sx -> num2 hh sh -> num2 mm sm -> num2 ss s2 ->
    tz_text off tz -> (nl = [] \/ nl = [10%N]) ->
    w3c_text (sx ++ `"T" ++ sh ++ `":" ++ sm ++ `":" ++ s2 ++ tz ++ nl) x hh mm ss [] off nl
| W_fraction x sx hh mm ss sh sm s2 frac off tz nl :
    date_text x sx -> num2 hh sh -> num2 mm sm -> num2 ss s2 ->
    all_digits frac -> tz_text off tz ->
    (nl = [] \/ nl = [10%N] \/ tz = [] /\ nl = [10%N; 10%N]) ->
    w3c_text (sx ++ `"T" ++ sh ++ `":" ++ sm ++ `":" ++ s2 ++ `"." ++ frac ++ tz ++ nl) x hh mm ss frac off nl.

(** The instant (integer part of POSIX seconds) of a local time at an offset: RFC 3339. *)
Definition instant (x : date) (hh mm ss off t : Z) : Prop :=
  exists n, day_number x n /\ t = n * 86400 + hh * 3600 + mm * 60 + ss - off.
