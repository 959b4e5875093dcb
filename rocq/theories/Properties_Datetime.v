(** Theorems for C52 and C53: date and time strings. *)
From Verif Require Import Base Unicode Regex ObjectUtilsModel DatetimeModel DatetimeSpec ObjectUtilsProofs LayoutProofs DatetimeProofs.
Local Open Scope Z_scope.

Lemma valid_timegm x hh mm ss off t : valid_date x ->
  (instant x hh mm ss off t <-> t = tgm x hh mm ss - off).
Proof.
  intros H. apply valid_date_vdate in H as [H _]. destruct x as [[y m] d]. now apply timegm_instant.
Qed.

(** ** C52 *)

(** Exactly the W3C forms with valid values are accepted (a final newline too), and the
    value is the instant of the same text with the opposite offset. Missing from the
    full claim: the sign of the offset, which is wrong (see [C52_refuted]). *)
Theorem C52_accepts_exactly_partial : forall s t frac,
  str_to_datetime s = Ok (t, frac) <->
  exists x hh mm ss off nl, w3c_text s x hh mm ss frac off nl /\ valid_date x /\ valid_time hh mm ss /\
    instant x hh mm ss (- off) t.
Proof.
  intros s t frac. rewrite str_to_datetime_iff. split.
  - intros [x [hh [mm [ss [off [nl [HW [Hd [Hv ->]]]]]]]]].
    exists x, hh, mm, ss, off, nl. split; [exact HW|]. split; [exact Hd|]. split; [exact Hv|].
    apply valid_timegm; [exact Hd|]. unfold Z.sub. now rewrite Z.opp_involutive.
  - intros [x [hh [mm [ss [off [nl [HW [Hd [Hv Hi]]]]]]]]].
    exists x, hh, mm, ss, off, nl. split; [exact HW|]. split; [exact Hd|]. split; [exact Hv|].
    apply valid_timegm in Hi; [|exact Hd]. unfold Z.sub in Hi. now rewrite Z.opp_involutive in Hi.
Qed.

(** Without an offset (Z, none, or +00:00) the value is right. *)
Theorem C52_utc_value : forall s x hh mm ss frac nl,
  w3c_text s x hh mm ss frac 0 nl -> valid_date x -> valid_time hh mm ss ->
  exists t, instant x hh mm ss 0 t /\ str_to_datetime s = Ok (t, frac).
Proof.
  intros s x hh mm ss frac nl HW Hd Hv. exists (tgm x hh mm ss).
  split; [apply valid_timegm; [exact Hd|symmetry; apply Z.sub_0_r]|].
  apply str_to_datetime_iff. exists x, hh, mm, ss, 0, nl.
  split; [exact HW|]. split; [exact Hd|]. split; [exact Hv|]. symmetry. apply Z.add_0_r.
Qed.

(** Anything else is refused with ValueError. *)
Theorem C52_only_ValueError : forall s e, str_to_datetime s = Raise e -> e = ValueError.
Proof.
  intros s e. unfold str_to_datetime. destruct s as [|c s]; [congruence|].
  destruct (chop_fraction _) as [s2 fr]. unfold datetime_no_fraction.
  destruct (re_match re_datetime s2) as [m|]; [|cbn; congruence].
  unfold dateutil_timegm. destruct (_ && _); [|cbn; congruence]. cbn [ebind].
  destruct (group 3 m); [|cbn; congruence].
  destruct (str_eqb _ _); [cbn; congruence|]. destruct (_ || _); cbn; congruence.
Qed.

Lemma num2_ex (a b : N) (n : Z) : zint [a; b] = n -> is_digit a = true -> is_digit b = true -> num2 n [a; b].
Proof. intros <- Ha Hb. apply num2_zint. split; [|reflexivity]. split; [reflexivity|repeat constructor; auto]. Qed.
Lemma ex_date : date_text (1997, 7, 16) (`"1997-07-16").
Proof.
  exists (`"1997"), (`"07"), (`"16").
  split; [apply num4_zint; split; [split; [reflexivity|repeat constructor]|reflexivity]|].
  split; [apply num2_ex; reflexivity|]. split; [apply num2_ex; reflexivity|reflexivity].
Qed.
Lemma ex_valid : valid_date (1997, 7, 16).
Proof. split; [lia|]. exists 31. split; [constructor; cbn; auto|lia]. Qed.

(** 19:20:30+01:00 and 18:20:30Z are the same instant, but the code gives them values
    two hours apart, and the first one is wrong. *)
Theorem C52_refuted : exists s1 s2 x h1 h2 off t,
  w3c_text s1 x h1 20 30 [] off [] /\ w3c_text s2 x h2 20 30 [] 0 [] /\ valid_date x /\
  valid_time h1 20 30 /\ valid_time h2 20 30 /\
  instant x h1 20 30 off t /\ instant x h2 20 30 0 t /\
  str_to_datetime s2 = Ok (t, []) /\ str_to_datetime s1 = Ok (t + 7200, []).
Proof.
  exists (`"1997-07-16T19:20:30+01:00"), (`"1997-07-16T18:20:30Z"), (1997, 7, 16), 19, 18, 3600, 869077230.
  split; [apply (W_seconds (1997, 7, 16) (`"1997-07-16") 19 20 30 (`"19") (`"20") (`"30") 3600 (`"+01:00") [])|].
  1: apply ex_date. 1-3: apply num2_ex; reflexivity.
  1: apply (TZ_east 1 0 (`"01") (`"00")); [apply num2_ex; reflexivity..|lia|lia].
  1: now left.
  split; [apply (W_seconds (1997, 7, 16) (`"1997-07-16") 18 20 30 (`"18") (`"20") (`"30") 0 (`"Z") [])|].
  1: apply ex_date. 1-3: apply num2_ex; reflexivity. 1: constructor. 1: now left.
  split; [apply ex_valid|]. split; [unfold valid_time; lia|]. split; [unfold valid_time; lia|].
  split; [apply valid_timegm; [apply ex_valid|vm_compute; reflexivity]|].
  split; [apply valid_timegm; [apply ex_valid|vm_compute; reflexivity]|].
  split; vm_compute; reflexivity.
Qed.

Example C52_ex : exists t, instant (1997, 7, 16) 19 20 30 0 t /\
  str_to_datetime (`"1997-07-16T19:20:30.45Z") = Ok (t, `"45").
Proof.
  apply (C52_utc_value (`"1997-07-16T19:20:30.45Z") (1997, 7, 16) 19 20 30 (`"45") []).
  - apply (W_fraction (1997, 7, 16) (`"1997-07-16") 19 20 30 (`"19") (`"20") (`"30") (`"45") 0 (`"Z") []).
    + apply ex_date.
    + apply num2_ex; reflexivity.
    + apply num2_ex; reflexivity.
    + apply num2_ex; reflexivity.
    + split; [discriminate|]. intros c [<-|[<-|[]]]; apply dig_is_digit; reflexivity.
    + constructor.
    + now left.
  - apply ex_valid.
  - unfold valid_time; lia.
Qed.
Example C52_refuses : str_to_datetime (`"1900-02-29") = Raise ValueError /\
  str_to_datetime (`"2000-02-29T24:00Z") = Raise ValueError.
Proof. split; vm_compute; reflexivity. Qed.

(** ** C53 *)

(** For every integer time in the years 1 to 9999 (-62135596800 is 0001-01-01T00:00:00Z,
    253402300800 is 10000-01-01T00:00:00Z). *)
Theorem C53_roundtrip : forall t, -62135596800 <= t < 253402300800 ->
  exists s, datetime_to_str t = Ok s /\ str_to_datetime s = Ok (t, []).
Proof.
  intros t H. destruct (datetime_to_str_total t H) as [s Hs]. exists s. split; [exact Hs|].
  apply datetime_to_str_text in Hs as [x [hh [mm [ss [HW [Hd [Hv ->]]]]]]].
  apply str_to_datetime_iff. exists x, hh, mm, ss, 0, [].
  split; [exact HW|]. split; [exact Hd|]. split; [exact Hv|]. symmetry. apply Z.add_0_r.
Qed.

(** The text written is the W3C form of that very instant, in UTC. *)
Theorem C53_text : forall t s, datetime_to_str t = Ok s ->
  exists x hh mm ss, w3c_text s x hh mm ss [] 0 [] /\ valid_date x /\ valid_time hh mm ss /\ instant x hh mm ss 0 t.
Proof.
  intros t s H. apply datetime_to_str_text in H as [x [hh [mm [ss [HW [Hd [Hv ->]]]]]]].
  exists x, hh, mm, ss. split; [exact HW|]. split; [exact Hd|]. split; [exact Hv|].
  apply valid_timegm; [exact Hd|]. symmetry. apply Z.sub_0_r.
Qed.

Example C53_ex : datetime_to_str (-1) = Ok (`"1969-12-31T23:59:59Z") /\
  str_to_datetime (`"1969-12-31T23:59:59Z") = Ok (-1, []).
Proof. split; vm_compute; reflexivity. Qed.

Print Assumptions C52_accepts_exactly_partial.
Print Assumptions C52_utc_value.
Print Assumptions C52_only_ValueError.
Print Assumptions C52_refuted.
Print Assumptions C53_roundtrip.
Print Assumptions C53_text.
