(** Model of ocfl/w3c_datetime.py. *)
From Verif Require Import Base Unicode Regex ObjectUtilsModel.
Local Open Scope Z_scope.

(** * Calendar arithmetic of the Python standard library (proleptic Gregorian) *)

(** calendar.isleap *)
Definition leap (y : Z) : bool :=
  (y mod 4 =? 0) && (negb (y mod 100 =? 0) || (y mod 400 =? 0)).

Definition days_in_month (y m : Z) : Z :=
  if m =? 2 then (if leap y then 29 else 28)
  else if (m =? 4) || (m =? 6) || (m =? 9) || (m =? 11) then 30 else 31.

(** datetime._days_before_year, _days_before_month *)
Definition days_before_year (y : Z) : Z :=
  let p := y - 1 in p * 365 + p / 4 - p / 100 + p / 400.
Definition dbm_table : list Z := [0; 0; 31; 59; 90; 120; 151; 181; 212; 243; 273; 304; 334].
Definition days_before_month (lp : bool) (m : Z) : Z :=
  nth (Z.to_nat m) dbm_table 0 + (if (2 <? m) && lp then 1 else 0).

(** date.toordinal *)
Definition toordinal (y m d : Z) : Z := days_before_year y + days_before_month (leap y) m + d.
Definition EPOCH_ORD : Z := 719163.

(** calendar.timegm (y, m, d, hh, mm, ss) *)
Definition timegm (y m d hh mm ss : Z) : Z :=
  let days := toordinal y m 1 - EPOCH_ORD + d - 1 in
  ((days * 24 + hh) * 60 + mm) * 60 + ss.

(** datetime._ord2ymd: the month and day part, for day n (from 0) of a year *)
Definition month_day (lp : bool) (n : Z) : Z * Z :=
  let month := (n + 50) / 32 in
  let preceding := days_before_month lp month in
  if n <? preceding then
    let month' := month - 1 in
    let preceding' := preceding - (if month' =? 2 then (if lp then 29 else 28)
                                   else if (month' =? 4) || (month' =? 6) || (month' =? 9) || (month' =? 11)
                                        then 30 else 31) in
    (month', n - preceding' + 1)
  else (month, n - preceding + 1).

Definition ord2ymd (ordinal : Z) : Z * Z * Z :=
  let n := ordinal - 1 in
  let n400 := n / 146097 in let n := n mod 146097 in
  let n100 := n / 36524 in let n := n mod 36524 in
  let n4 := n / 1461 in let n := n mod 1461 in
  let n1 := n / 365 in let n := n mod 365 in
  let year := n400 * 400 + 1 + n100 * 100 + n4 * 4 + n1 in
  if (n1 =? 4) || (n100 =? 4) then (year - 1, 12, 31)
  else
    let leapyear := (n1 =? 3) && (negb (n4 =? 24) || (n100 =? 3)) in
    let '(m, d) := month_day leapyear n in (year, m, d).

(** '%0wd' for a non-negative number *)
Definition fmt_d (w : nat) (n : Z) : str := zero_pad w (str_of_N (Z.to_N n)).

(** ocfl/w3c_datetime.py:15-36 datetime_to_str with no_fractions=True for an integer
    time dt. Python supports the years 1 to 9999 only (ValueError otherwise).
    Not modelled: dt None or 'now', and fractions of seconds (floating point). *)
Definition datetime_to_str (dt : Z) : exc str :=
  let days := dt / 86400 in
  let secs := dt mod 86400 in
  let ordinal := days + EPOCH_ORD in
  if (ordinal <? 1) || (3652059 <? ordinal) then Raise ValueError
  else
    let '(y, m, d) := ord2ymd ordinal in
    Ok (fmt_d 4 y ++ `"-" ++ fmt_d 2 m ++ `"-" ++ fmt_d 2 d ++ `"T" ++
        fmt_d 2 (secs / 3600) ++ `":" ++ fmt_d 2 ((secs / 60) mod 60) ++ `":" ++
        fmt_d 2 (secs mod 60) ++ `"Z").

(** * Parsing *)

Definition rdd : re := rrep 2 rdigit.

(** w3c_datetime.py:81  \d\d\d\d(\-\d\d(\-\d\d)?)?$ *)
Definition re_date : re :=
  RSeq (rrep 4 rdigit)
   (RSeq (ropt (RGroup 1 (RSeq (rlit (`"-")) (RSeq rdd
      (ropt (RGroup 2 (RSeq (rlit (`"-")) rdd)))))))
    RDollar).

(** w3c_datetime.py:89  ( .* \d{2}:\d{2}:\d{2} ) ( \.\d+ ) ( [^\d].* )?$  (blanks added) *)
Definition re_frac : re :=
  RSeq (RGroup 1 (RSeq (RStar rdot) (RSeq rdd (RSeq (rlit (`":")) (RSeq rdd (RSeq (rlit (`":")) rdd))))))
   (RSeq (RGroup 2 (RSeq (rlit (`".")) (rplus rdigit)))
    (RSeq (ropt (RGroup 3 (RSeq (RChr (fun c => negb (is_digit c))) (RStar rdot))))
     RDollar)).

(** w3c_datetime.py:104  (\d\d\d\d\-\d\d\-\d\dT\d\d:\d\d(:\d\d)?)(Z|([+-])(\d\d):(\d\d))?$ *)
Definition re_dt_base : re :=
  RSeq (rrep 4 rdigit) (RSeq (rlit (`"-")) (RSeq rdd (RSeq (rlit (`"-")) (RSeq rdd
    (RSeq (rlit (`"T")) (RSeq rdd (RSeq (rlit (`":")) (RSeq rdd
      (ropt (RGroup 2 (RSeq (rlit (`":")) rdd))))))))))).
Definition re_tz : re :=
  RAlt (rlit (`"Z"))
    (RSeq (RGroup 4 (RChr (fun c => (c =? 43)%N || (c =? 45)%N)))
      (RSeq (RGroup 5 rdd) (RSeq (rlit (`":")) (RGroup 6 rdd)))).
Definition re_datetime : re :=
  RSeq (RGroup 1 re_dt_base) (RSeq (ropt (RGroup 3 re_tz)) RDollar).

Definition zint (s : str) : Z := Z.of_N (int_of_digits s).
Definition substr (i n : nat) (s : str) : str := firstn n (skipn i s).

(** dateutil.parser.parse(g + 'Z') for a text g of the form captured by group 1 of
    [re_datetime], then timegm of its fields. dateutil is an external library: it is
    modelled as reading the digits of the fields and raising ValueError unless they
    form a valid date (year 1-9999) and time. *)
Definition dateutil_timegm (g : str) : exc Z :=
  let y := zint (substr 0 4 g) in
  let mo := zint (substr 5 2 g) in
  let d := zint (substr 8 2 g) in
  let hh := zint (substr 11 2 g) in
  let mi := zint (substr 14 2 g) in
  let ss := zint (substr 17 2 g) in
  if (1 <=? y) && (1 <=? mo) && (mo <=? 12) && (1 <=? d) && (d <=? days_in_month y mo)
     && (hh <=? 23) && (mi <=? 59) && (ss <=? 59)
  then Ok (timegm y mo d hh mi ss) else Raise ValueError.

(** ocfl/w3c_datetime.py:104-120: the text without fraction, as integer seconds *)
Definition datetime_no_fraction (s : str) : exc Z :=
  match re_match re_datetime s with
  | None => Raise ValueError
  | Some m =>
      let* t := dateutil_timegm (group_or_nil 1 m) in
      let* off :=
        match group 3 m with
        | None => Ok 0
        | Some tz =>
            if str_eqb tz (`"Z") then Ok 0
            else
              let hh := zint (group_or_nil 5 m) in
              let mm := zint (group_or_nil 6 m) in
              if (23 <? hh) || (59 <? mm) then Raise ValueError
              else
                let o := hh * 3600 + mm * 60 in
                Ok (if str_eqb (group_or_nil 4 m) (`"-") then - o else o)
        end in
      Ok (t + off)
  end.

(** ocfl/w3c_datetime.py:80-87: make a date into a full datetime *)
Definition complete_date (s : str) : str :=
  match re_match re_date s with
  | Some m =>
      (match group 1 m with
       | None => s ++ `"-01-01"
       | Some _ => match group 2 m with None => s ++ `"-01" | Some _ => s end
       end) ++ `"T00:00:00Z"
  | None => s
  end.

(** ocfl/w3c_datetime.py:89-96: chop out the fraction of a second *)
Definition chop_fraction (s : str) : str * str :=
  match re_match re_frac s with
  | Some m => (group_or_nil 1 m ++ group_or_nil 3 m, tl (group_or_nil 2 m))
  | None => (s, [])
  end.

(** ocfl/w3c_datetime.py:39-120 str_to_datetime for a string. The result is the pair of
    the integer part and the digits of the fraction of a second ([] if there is none):
    the Python result is the float sum of the two, so its rounding is not modelled. *)
Definition str_to_datetime (s : str) : exc (Z * str) :=
  match s with
  | [] => Raise ValueError
  | _ =>
      let '(s2, frac) := chop_fraction (complete_date s) in
      let* t := datetime_no_fraction s2 in
      Ok (t, frac)
  end.

Example str_to_datetime_ex : str_to_datetime (`"1997-07-16T19:20:30.45+01:00") = Ok (869080830 + 3600, `"45").
Proof. vm_compute. reflexivity. Qed.
Example datetime_to_str_ex : datetime_to_str 951782399 = Ok (`"2000-02-28T23:59:59Z") /\
  datetime_to_str 951782400 = Ok (`"2000-02-29T00:00:00Z").
Proof. vm_compute. split; reflexivity. Qed.
