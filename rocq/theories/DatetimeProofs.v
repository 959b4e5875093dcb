(** Proofs about DatetimeModel. *)
From Verif Require Import Base Unicode Regex ObjectUtilsModel ObjectUtilsProofs DatetimeModel DatetimeSpec.
From Verif Require Import LayoutProofs.
Local Open Scope Z_scope.

(** * Calendar *)

Lemma leap_spec y : leap y = true <-> is_leap_year y.
Proof.
  unfold leap, is_leap_year. rewrite andb_true_iff, orb_true_iff, negb_true_iff, !Z.eqb_eq, Z.eqb_neq.
  split; [tauto|]. intros [H|H]; [tauto|]. split; [lia|auto].
Qed.

Lemma leap_false y : leap y = false <-> ~ is_leap_year y.
Proof. rewrite <- leap_spec. destruct (leap y); split; congruence. Qed.

Lemma month_length_spec y m n : 1 <= m <= 12 -> month_length y m n <-> n = days_in_month y m.
Proof.
  intros Hm. unfold days_in_month. split.
  - intros H. inversion H; subst.
    + repeat destruct H0 as [<-|H0]; try reflexivity; contradiction.
    + repeat destruct H0 as [<-|H0]; try reflexivity; contradiction.
    + apply leap_false in H0. now rewrite H0.
    + apply leap_spec in H0. now rewrite H0.
  - intros ->. assert (E : m = 1 \/ m = 2 \/ m = 3 \/ m = 4 \/ m = 5 \/ m = 6 \/ m = 7 \/ m = 8 \/
      m = 9 \/ m = 10 \/ m = 11 \/ m = 12) by lia.
    destruct E as [->|[->|[->|[->|[->|[->|[->|[->|[->|[->|[->| ->]]]]]]]]]]];
      simpl; try (apply ML31; simpl; tauto); try (apply ML30; simpl; tauto).
    destruct (leap y) eqn:E; [apply ML29; now apply leap_spec|apply ML28; now apply leap_false].
Qed.

Lemma month_length_range y m n : month_length y m n -> 1 <= m <= 12 /\ 28 <= n <= 31.
Proof.
  intros H; inversion H; subst; simpl in *; lia.
Qed.

(** Valid in any year >= 1. *)
Definition vdate (x : date) : Prop :=
  let '(y, m, d) := x in 1 <= y /\ 1 <= m <= 12 /\ 1 <= d <= days_in_month y m.

Definition ord (x : date) : Z := let '(y, m, d) := x in toordinal y m d.

Lemma dim_range y m : 28 <= days_in_month y m <= 31.
Proof. unfold days_in_month. destruct (m =? 2), (leap y); try lia; destruct (_ || (m =? 11)); lia. Qed.

Lemma days_before_year_S y : days_before_year (y + 1) = days_before_year y + (if leap y then 366 else 365).
Proof.
  unfold days_before_year. destruct (leap y) eqn:E.
  - apply leap_spec in E. unfold is_leap_year in E. replace (y + 1 - 1) with y by lia. lia.
  - apply leap_false in E. unfold is_leap_year in E. replace (y + 1 - 1) with y by lia. lia.
Qed.

Ltac twelve m H :=
  let E := fresh "E" in
  assert (E : m = 1 \/ m = 2 \/ m = 3 \/ m = 4 \/ m = 5 \/ m = 6 \/ m = 7 \/ m = 8 \/
      m = 9 \/ m = 10 \/ m = 11 \/ m = 12) by (clear -H; lia);
  destruct E as [->|[->|[->|[->|[->|[->|[->|[->|[->|[->|[->| ->]]]]]]]]]]].

Lemma days_before_month_S y m : 1 <= m < 12 ->
  days_before_month (leap y) (m + 1) = days_before_month (leap y) m + days_in_month y m.
Proof.
  intros Hm. assert (Hm' : 1 <= m <= 12) by lia. unfold days_before_month, days_in_month.
  twelve m Hm'; try lia; destruct (leap y); reflexivity.
Qed.

Lemma dbm_12 y : days_before_month (leap y) 12 + 31 = if leap y then 366 else 365.
Proof. unfold days_before_month. destruct (leap y); reflexivity. Qed.

Lemma dbm_1 lp : days_before_month lp 1 = 0.
Proof. destruct lp; reflexivity. Qed.

Lemma day_after_ord a b : vdate a -> day_after a b -> vdate b /\ ord b = ord a + 1.
Proof.
  intros Ha H. inversion H; subst; unfold vdate, ord, toordinal in *.
  - apply month_length_range in H0 as Hr. apply month_length_spec in H0; [|lia]. subst. split; [|lia]. lia.
  - apply month_length_spec in H0; [|lia]. subst. pose proof (dim_range y (m + 1)).
    rewrite days_before_month_S by lia. split; lia.
  - pose proof (dim_range (y + 1) 1). rewrite days_before_year_S, dbm_1.
    pose proof (dbm_12 y). split; [lia|]. destruct (leap y); lia.
Qed.

(** Month and day from the day of the year, by checking all 366 days of both kinds of year. *)
Definition dimb (lp : bool) (m : Z) : Z := days_in_month (if lp then 4 else 1) m.
Definition md_ok (lp : bool) (n : nat) : bool :=
  let '(m, d) := month_day lp (Z.of_nat n) in
  (1 <=? m) && (m <=? 12) && (1 <=? d) && (d <=? dimb lp m) &&
  (days_before_month lp m + d - 1 =? Z.of_nat n).

Lemma md_all : forallb (md_ok false) (seq 0 365) = true /\ forallb (md_ok true) (seq 0 366) = true.
Proof. vm_compute. auto. Qed.

Lemma month_day_ok (lp : bool) n : 0 <= n < (if lp then 366 else 365) -> forall m d, month_day lp n = (m, d) ->
  1 <= m <= 12 /\ 1 <= d <= dimb lp m /\ days_before_month lp m + d - 1 = n.
Proof.
  intros Hn m d E. assert (G : md_ok lp (Z.to_nat n) = true).
  { destruct md_all as [M1 M2]. rewrite forallb_forall in M1, M2.
    destruct lp; [apply M2|apply M1]; apply in_seq; lia. }
  unfold md_ok in G. rewrite Z2Nat.id in G by lia. rewrite E in G.
  rewrite !andb_true_iff, !Z.leb_le, Z.eqb_eq in G. lia.
Qed.

Lemma dimb_leap y m : dimb (leap y) m = days_in_month y m.
Proof. unfold dimb, days_in_month. destruct (m =? 2); [|reflexivity]. destruct (leap y); reflexivity. Qed.

Lemma ord2ymd_ok n : 1 <= n -> vdate (ord2ymd n) /\ ord (ord2ymd n) = n.
Proof.
  intros Hn. unfold ord2ymd.
  set (a := (n - 1) / 146097). set (r1 := (n - 1) mod 146097).
  set (b := r1 / 36524). set (r2 := r1 mod 36524).
  set (c := r2 / 1461). set (r3 := r2 mod 1461).
  set (e := r3 / 365). set (r4 := r3 mod 365).
  assert (H1 : n - 1 = 146097 * a + r1 /\ 0 <= r1 < 146097) by (unfold a, r1; clear; lia).
  assert (H2 : r1 = 36524 * b + r2 /\ 0 <= r2 < 36524) by (unfold b, r2; clear; lia).
  assert (H3 : r2 = 1461 * c + r3 /\ 0 <= r3 < 1461) by (unfold c, r3; clear; lia).
  assert (H4 : r3 = 365 * e + r4 /\ 0 <= r4 < 365) by (unfold e, r4; clear; lia).
  clearbody a r1 b r2 c r3 e r4.
  assert (Ra : 0 <= a) by lia. assert (Rb : 0 <= b <= 4) by lia.
  assert (Rc : 0 <= c <= 24) by lia. assert (Re : 0 <= e <= 4) by lia.
  destruct (e =? 4) eqn:E4; [|destruct (b =? 4) eqn:E5]; cbn [orb].
  - (* last day of a leap year *)
    apply Z.eqb_eq in E4. subst e. assert (r4 = 0) by lia. subst r4.
    assert (Hb : b <= 3) by lia.
    assert (HL : leap (a * 400 + 1 + b * 100 + c * 4 + 4 - 1) = true).
    { apply leap_spec. unfold is_leap_year. lia. }
    unfold vdate, ord, toordinal. rewrite HL. split.
    + pose proof (dim_range (a * 400 + 1 + b * 100 + c * 4 + 4 - 1) 12).
      unfold days_in_month. simpl. lia.
    + change (days_before_month true 12) with 335. unfold days_before_year. lia.
  - apply Z.eqb_eq in E5. subst b. assert (r2 = 0) by lia. subst r2. assert (c = 0) by lia.
    assert (r3 = 0) by lia. subst c r3. assert (e = 0) by lia. subst e.
    assert (HL : leap (a * 400 + 1 + 4 * 100 + 0 * 4 + 0 - 1) = true).
    { apply leap_spec. unfold is_leap_year. lia. }
    unfold vdate, ord, toordinal. rewrite HL. split.
    + unfold days_in_month. simpl. lia.
    + change (days_before_month true 12) with 335. unfold days_before_year. lia.
  - apply Z.eqb_neq in E4, E5.
    set (y := a * 400 + 1 + b * 100 + c * 4 + e).
    assert (HL : (e =? 3) && (negb (c =? 24) || (b =? 3)) = leap y).
    { apply eq_true_iff_eq. rewrite leap_spec. unfold is_leap_year.
      rewrite andb_true_iff, orb_true_iff, negb_true_iff, !Z.eqb_eq, Z.eqb_neq. unfold y. lia. }
    rewrite HL. destruct (month_day (leap y) r4) as [m d] eqn:E.
    destruct (month_day_ok (leap y) r4 ltac:(destruct (leap y); lia) m d E) as [Hm [Hd Hn4]].
    rewrite dimb_leap in Hd. unfold vdate, ord, toordinal. split; [unfold y in *; lia|].
    unfold days_before_year. unfold y in *. lia.
Qed.

Lemma dbm_mono lp m1 m2 : 1 <= m1 -> m1 < m2 -> m2 <= 12 ->
  days_before_month lp m1 + dimb lp m1 <= days_before_month lp m2.
Proof.
  intros H1 H2 H3.
  assert (E : forallb (fun i => forallb (fun j => (j <=? i)%nat || 
     (days_before_month lp (Z.of_nat i) + dimb lp (Z.of_nat i) <=? days_before_month lp (Z.of_nat j)))
     (seq 1 12)) (seq 1 12) = true) by (destruct lp; vm_compute; reflexivity).
  rewrite forallb_forall in E. specialize (E (Z.to_nat m1) ltac:(apply in_seq; lia)).
  rewrite forallb_forall in E. specialize (E (Z.to_nat m2) ltac:(apply in_seq; lia)).
  rewrite orb_true_iff, Z.leb_le, !Z2Nat.id in E by lia. rewrite Nat.leb_le in E. lia.
Qed.

Lemma dbm_bound (lp : bool) m : 1 <= m <= 12 -> days_before_month lp m + dimb lp m <= (if lp then 366 else 365) /\
  0 <= days_before_month lp m.
Proof.
  intros Hm. assert (E : forallb (fun i => (days_before_month lp (Z.of_nat i) + dimb lp (Z.of_nat i)
     <=? (if lp then 366 else 365)) && (0 <=? days_before_month lp (Z.of_nat i))) (seq 1 12) = true)
     by (destruct lp; vm_compute; reflexivity).
  rewrite forallb_forall in E. specialize (E (Z.to_nat m) ltac:(apply in_seq; lia)).
  rewrite andb_true_iff, !Z.leb_le, Z2Nat.id in E by lia. exact E.
Qed.

Lemma dby_mono y1 y2 : y1 < y2 -> days_before_year (y1 + 1) <= days_before_year y2.
Proof. intros H. unfold days_before_year. lia. Qed.

Lemma ord_year y m d : vdate (y, m, d) -> days_before_year y < ord (y, m, d) <= days_before_year (y + 1).
Proof.
  intros [H1 [H2 H3]]. unfold ord, toordinal. rewrite days_before_year_S.
  pose proof (dbm_bound (leap y) m H2) as B. rewrite dimb_leap in B. destruct (leap y); lia.
Qed.

Lemma ord_inj a b : vdate a -> vdate b -> ord a = ord b -> a = b.
Proof.
  destruct a as [[y1 m1] d1], b as [[y2 m2] d2]. intros Ha Hb E.
  pose proof (ord_year _ _ _ Ha) as Ya. pose proof (ord_year _ _ _ Hb) as Yb.
  assert (y1 = y2).
  { destruct (Z.lt_trichotomy y1 y2) as [L|[L|L]]; auto; apply dby_mono in L; lia. }
  subst y2. unfold ord, toordinal in E. destruct Ha as [_ [Ma Da]], Hb as [_ [Mb Db]].
  rewrite <- dimb_leap in Da, Db.
  assert (m1 = m2).
  { destruct (Z.lt_trichotomy m1 m2) as [L|[L|L]]; auto.
    - pose proof (dbm_mono (leap y1) m1 m2 ltac:(lia) L ltac:(lia)). lia.
    - pose proof (dbm_mono (leap y1) m2 m1 ltac:(lia) L ltac:(lia)). lia. }
  subst m2. f_equal. lia.
Qed.

Lemma day_after_total a : vdate a -> exists b, day_after a b.
Proof.
  destruct a as [[y m] d]. intros [H1 [H2 H3]].
  destruct (Z.eq_dec d (days_in_month y m)) as [->|Hd].
  - destruct (Z.eq_dec m 12) as [->|Hm].
    + change (days_in_month y 12) with 31. eexists. apply DA_year.
    + eexists. apply DA_month; [|lia]. apply month_length_spec; auto.
  - eexists. eapply DA_same with (n := days_in_month y m); [|lia]. apply month_length_spec; auto.
Qed.

Lemma days_from_ord a n b : vdate a -> days_from a n b -> vdate b /\ ord b = ord a + n /\ 0 <= n.
Proof.
  intros Ha H. induction H as [|n b c H IH D]; [repeat split; auto; lia|].
  destruct IH as [Vb [Eb Hn]]. apply (day_after_ord b c Vb) in D as [Vc Ec]. split; [auto|lia].
Qed.

Lemma days_from_exists a (k : nat) : vdate a -> exists b, days_from a (Z.of_nat k) b.
Proof.
  intros Ha. induction k as [|k [b IH]]; [eexists; constructor|].
  destruct (days_from_ord _ _ _ Ha IH) as [Vb _]. destruct (day_after_total b Vb) as [c D].
  exists c. rewrite Nat2Z.inj_succ. unfold Z.succ. econstructor; eauto.
Qed.

Lemma days_from_complete a b : vdate a -> vdate b -> ord a <= ord b -> days_from a (ord b - ord a) b.
Proof.
  intros Ha Hb Hle. destruct (days_from_exists a (Z.to_nat (ord b - ord a)) Ha) as [c Hc].
  destruct (days_from_ord _ _ _ Ha Hc) as [Vc [Ec _]]. rewrite Z2Nat.id in * by lia.
  assert (c = b) by (apply ord_inj; auto; lia). now subst c.
Qed.

Lemma vdate_epoch : vdate epoch.
Proof. unfold vdate, epoch. vm_compute. repeat split; discriminate. Qed.

(** The model's ordinals count days. *)
Lemma day_number_ord x n : vdate x -> (day_number x n <-> n = ord x - EPOCH_ORD).
Proof.
  intros Hx. assert (E : ord epoch = EPOCH_ORD) by reflexivity. split.
  - intros [[Hn H]|[Hn H]].
    + apply days_from_ord in H as [_ [H _]]; [lia|apply vdate_epoch].
    + apply days_from_ord in H as [_ [H _]]; [lia|auto].
  - intros ->. destruct (Z.le_gt_cases EPOCH_ORD (ord x)).
    + left. split; [lia|]. rewrite <- E. apply days_from_complete; [apply vdate_epoch|exact Hx|lia].
    + right. split; [lia|]. replace (- (ord x - EPOCH_ORD)) with (ord epoch - ord x) by lia.
      apply days_from_complete; [exact Hx|apply vdate_epoch|lia].
Qed.

Lemma valid_date_vdate x : valid_date x <-> vdate x /\ fst (fst x) <= 9999.
Proof.
  destruct x as [[y m] d]. unfold valid_date, vdate. cbn [fst]. split.
  - intros [Hy [n [H Hd]]]. apply month_length_range in H as Hr. apply month_length_spec in H; [|lia]. lia.
  - intros [[Hy [Hm Hd]] Hy2]. split; [lia|]. exists (days_in_month y m).
    split; [now apply month_length_spec|auto].
Qed.

Lemma timegm_instant y m d hh mm ss off t : vdate (y, m, d) ->
  (instant (y, m, d) hh mm ss off t <-> t = timegm y m d hh mm ss - off).
Proof.
  intros Hv. unfold instant, timegm. split.
  - intros [n [Hn ->]]. apply day_number_ord in Hn; auto. subst n. unfold ord, toordinal. lia.
  - intros ->. exists (ord (y, m, d) - EPOCH_ORD). split; [now apply day_number_ord|].
    unfold ord, toordinal. lia.
Qed.

(** * Text *)

Definition D (n : nat) (s : str) : Prop := length s = n /\ Forall (fun c => is_digit c = true) s.

Lemma dig_is_digit c : is_digit c = true <-> exists x, dig x c.
Proof.
  unfold is_digit, dig. destruct (digit_value c) as [v|]; split; intros H; try discriminate; try reflexivity.
  - exists (Z.of_N v), v. auto.
  - destruct H as [x [v [H _]]]. discriminate.
Qed.

Lemma dig_or_0 x c : dig x c -> digit_or_0 c = Z.to_N x /\ 0 <= x.
Proof. intros [v [H ->]]. unfold digit_or_0. rewrite H. lia. Qed.

Lemma num2_zint n s : num2 n s <-> D 2 s /\ n = zint s.
Proof.
  split.
  - intros [a [b [x [y [-> [Ha [Hb ->]]]]]]]. split.
    + split; [reflexivity|]. repeat constructor; apply dig_is_digit; eauto.
    + unfold zint, int_of_digits. cbn [fold_left].
      apply dig_or_0 in Ha as [-> ?]. apply dig_or_0 in Hb as [-> ?]. lia.
  - intros [[Hl Hf] ->]. destruct s as [|a [|b [|]]]; try discriminate.
    inversion Hf as [|? ? Ha Hf2]; subst. inversion Hf2 as [|? ? Hb _]; subst.
    apply dig_is_digit in Ha as [x Ha]. apply dig_is_digit in Hb as [y Hb].
    exists a, b, x, y. repeat split; auto. unfold zint, int_of_digits. cbn [fold_left].
    apply dig_or_0 in Ha as [-> ?]. apply dig_or_0 in Hb as [-> ?]. lia.
Qed.

Lemma num4_zint n s : num4 n s <-> D 4 s /\ n = zint s.
Proof.
  split.
  - intros [a [b [c [d [w [x [y [z [-> [Ha [Hb [Hc [Hd ->]]]]]]]]]]]]]. split.
    + split; [reflexivity|]. repeat constructor; apply dig_is_digit; eauto.
    + unfold zint, int_of_digits. cbn [fold_left].
      apply dig_or_0 in Ha as [-> ?]. apply dig_or_0 in Hb as [-> ?].
      apply dig_or_0 in Hc as [-> ?]. apply dig_or_0 in Hd as [-> ?]. lia.
  - intros [[Hl Hf] ->]. destruct s as [|a [|b [|c [|d [|]]]]]; try discriminate.
    pose proof (Forall_inv Hf) as Ha. apply Forall_inv_tail in Hf.
    pose proof (Forall_inv Hf) as Hb. apply Forall_inv_tail in Hf.
    pose proof (Forall_inv Hf) as Hc. apply Forall_inv_tail in Hf.
    pose proof (Forall_inv Hf) as Hd.
    apply dig_is_digit in Ha as [w Ha]. apply dig_is_digit in Hb as [x Hb].
    apply dig_is_digit in Hc as [y Hc]. apply dig_is_digit in Hd as [z Hd].
    exists a, b, c, d, w, x, y, z. repeat split; auto. unfold zint, int_of_digits. cbn [fold_left].
    apply dig_or_0 in Ha as [-> ?]. apply dig_or_0 in Hb as [-> ?].
    apply dig_or_0 in Hc as [-> ?]. apply dig_or_0 in Hd as [-> ?]. lia.
Qed.

Lemma zint_nonneg s : 0 <= zint s.
Proof. unfold zint. lia. Qed.

Ltac den :=
  repeat match goal with
  | H : Den (rlit _) _ _ _ _ |- _ => apply Den_lit in H as [-> ->]
  | H : Den (rrep _ rdigit) _ _ _ _ |- _ =>
      let L := fresh "L" in let F := fresh "F" in apply Den_rep_chr in H as [L [F ->]]
  | H : Den rdd _ _ _ _ |- _ =>
      let L := fresh "L" in let F := fresh "F" in apply Den_rep_chr in H as [L [F ->]]
  | H : Den (RSeq _ _) _ _ _ _ |- _ =>
      let x := fresh "x" in let y := fresh "y" in let k := fresh "k" in
      let E := fresh "E" in let H1 := fresh "H" in let H2 := fresh "H" in
      apply Den_seq in H as [x [y [k [E [H1 H2]]]]]; subst
  | H : Den (RGroup _ _) _ _ _ _ |- _ =>
      let k := fresh "k" in let H1 := fresh "H" in apply Den_grp in H as [k [-> H1]]
  | H : Den RDollar _ _ _ _ |- _ => let N := fresh "NL" in apply Den_dol in H as [-> [-> N]]
  | H : Den REmpty _ _ _ _ |- _ => apply Den_emp in H as [-> ->]
  end.

(** Text without fraction. *)
Definition T_text (s : str) (x : date) (hh mm ss off : Z) (nl : str) : Prop :=
  exists sx sh sm sec tz, date_text x sx /\ num2 hh sh /\ num2 mm sm /\
    (sec = [] /\ ss = 0 \/ exists s2, num2 ss s2 /\ sec = `":" ++ s2) /\
    tz_text off tz /\ opt_newline nl /\
    s = sx ++ `"T" ++ sh ++ `":" ++ sm ++ sec ++ tz ++ nl.

(** All digits of a string of known length, as separate variables. *)
Ltac expl :=
  repeat match goal with
  | L : length ?s = _ , F : Forall (fun c => is_digit c = true) ?s |- _ =>
      is_var s;
      let a := fresh "a" in
      destruct s as [|a s]; [try discriminate L; clear L F|try discriminate L];
      [ .. | apply eq_add_S in L;
             let A := fresh "A" in pose proof (Forall_inv F) as A; cbv beta in A; apply Forall_inv_tail in F ]
  end.

Lemma date_fields x sx : date_text x sx ->
  exists sy sm sd, D 4 sy /\ D 2 sm /\ D 2 sd /\ x = (zint sy, zint sm, zint sd) /\
    sx = sy ++ `"-" ++ sm ++ `"-" ++ sd.
Proof.
  destruct x as [[y m] d]. intros [sy [sm [sd [H1 [H2 [H3 ->]]]]]].
  apply num4_zint in H1 as [H1 ->]. apply num2_zint in H2 as [H2 ->]. apply num2_zint in H3 as [H3 ->].
  exists sy, sm, sd. auto.
Qed.

Lemma fields_date sy sm sd : D 4 sy -> D 2 sm -> D 2 sd ->
  date_text (zint sy, zint sm, zint sd) (sy ++ `"-" ++ sm ++ `"-" ++ sd).
Proof.
  intros H1 H2 H3. exists sy, sm, sd. split; [now apply num4_zint|].
  split; [now apply num2_zint|]. split; [now apply num2_zint|reflexivity].
Qed.

Definition base_text (sy sm sd sh si sec : str) : str :=
  sy ++ `"-" ++ sm ++ `"-" ++ sd ++ `"T" ++ sh ++ `":" ++ si ++ sec.

Definition sec_val (sec : str) : Z := zint (skipn 1 sec).
Definition sec_ok (sec : str) : Prop := sec = [] \/ exists s2, D 2 s2 /\ sec = `":" ++ s2.

Lemma D4_expl s : D 4 s -> exists a b c d, s = [a; b; c; d] /\ is_digit a = true /\ is_digit b = true /\
  is_digit c = true /\ is_digit d = true.
Proof.
  intros [L F]. destruct s as [|a [|b [|c [|d [|]]]]]; try discriminate.
  exists a, b, c, d. rewrite !Forall_cons_iff in F. intuition.
Qed.
Lemma D2_expl s : D 2 s -> exists a b, s = [a; b] /\ is_digit a = true /\ is_digit b = true.
Proof.
  intros [L F]. destruct s as [|a [|b [|]]]; try discriminate.
  exists a, b. rewrite !Forall_cons_iff in F. intuition.
Qed.

Lemma dig_bound x c : dig x c -> 0 <= x <= 9.
Proof.
  intros [v [H ->]]. unfold digit_value in H.
  destruct (find _ nd_zeros) as [z|] eqn:E; [|discriminate]. injection H as <-.
  apply find_some in E as [_ E]. apply andb_true_iff in E as [E1 E2].
  apply N.leb_le in E1. apply N.ltb_lt in E2. lia.
Qed.

Lemma D4_bound s : D 4 s -> 0 <= zint s <= 9999.
Proof.
  intros H. assert (G : num4 (zint s) s) by (now apply num4_zint).
  destruct G as [a [b [c [d [w [x [y [z [_ [Ha [Hb [Hc [Hd ->]]]]]]]]]]]]].
  apply dig_bound in Ha, Hb, Hc, Hd. lia.
Qed.

Lemma substr_base sy sm sd sh si sec :
  D 4 sy -> D 2 sm -> D 2 sd -> D 2 sh -> D 2 si -> sec_ok sec ->
  let g := base_text sy sm sd sh si sec in
  substr 0 4 g = sy /\ substr 5 2 g = sm /\ substr 8 2 g = sd /\ substr 11 2 g = sh /\
  substr 14 2 g = si /\ substr 17 2 g = skipn 1 sec.
Proof.
  intros H1 H2 H3 H4 H5 H6.
  apply D4_expl in H1 as [? [? [? [? [-> _]]]]]. apply D2_expl in H2 as [? [? [-> _]]].
  apply D2_expl in H3 as [? [? [-> _]]]. apply D2_expl in H4 as [? [? [-> _]]].
  apply D2_expl in H5 as [? [? [-> _]]].
  destruct H6 as [->|[s2 [H6 ->]]]; [|apply D2_expl in H6 as [? [? [-> _]]]]; repeat split.
Qed.

Lemma dateutil_base sy sm sd sh si sec t :
  D 4 sy -> D 2 sm -> D 2 sd -> D 2 sh -> D 2 si -> sec_ok sec ->
  (dateutil_timegm (base_text sy sm sd sh si sec) = Ok t <->
   valid_date (zint sy, zint sm, zint sd) /\ valid_time (zint sh) (zint si) (sec_val sec) /\
   t = timegm (zint sy) (zint sm) (zint sd) (zint sh) (zint si) (sec_val sec)).
Proof.
  intros H1 H2 H3 H4 H5 H6.
  destruct (substr_base sy sm sd sh si sec H1 H2 H3 H4 H5 H6) as [E1 [E2 [E3 [E4 [E5 E6]]]]].
  unfold dateutil_timegm. rewrite E1, E2, E3, E4, E5, E6.
  fold (sec_val sec). pose proof (D4_bound sy H1) as By.
  rewrite valid_date_vdate. unfold vdate, valid_time. cbn [fst].
  pose proof (zint_nonneg sh). pose proof (zint_nonneg si). pose proof (zint_nonneg (skipn 1 sec)) as Hs.
  fold (sec_val sec) in Hs.
  match goal with |- (if ?b then _ else _) = _ <-> _ => destruct b eqn:Eb end.
  - rewrite !andb_true_iff, !Z.leb_le in Eb. split.
    + intros HH. apply Ok_inv in HH. repeat split; try lia.
    + intros [_ [_ ->]]. reflexivity.
  - split; [discriminate|]. intros [[[A [B C]] _] [[E [F G]] _]]. exfalso.
    apply not_true_iff_false in Eb. apply Eb. rewrite !andb_true_iff, !Z.leb_le. lia.
Qed.

(** How the time zone was captured. *)
Definition tz_captured (tz : str) (m : caps) : Prop :=
  (tz = [] /\ group 3 m = None) \/
  (tz = `"Z" /\ group 3 m = Some (`"Z")) \/
  exists sg h2 m2, (sg = 43 \/ sg = 45)%N /\ D 2 h2 /\ D 2 m2 /\ tz = sg :: h2 ++ `":" ++ m2 /\
    group 3 m = Some tz /\ group_or_nil 4 m = [sg] /\ group_or_nil 5 m = h2 /\ group_or_nil 6 m = m2.

Definition tz_shape (tz : str) : Prop :=
  tz = [] \/ tz = `"Z" \/
  exists sg h2 m2, (sg = 43 \/ sg = 45)%N /\ D 2 h2 /\ D 2 m2 /\ tz = sg :: h2 ++ `":" ++ m2.

Lemma Den_base x rest c c' : Den re_dt_base x rest c c' ->
  exists sy sm sd sh si sec, D 4 sy /\ D 2 sm /\ D 2 sd /\ D 2 sh /\ D 2 si /\ sec_ok sec /\
    x = base_text sy sm sd sh si sec /\ (c' = c \/ exists z, c' = (2%nat, z) :: c).
Proof.
  intros H. unfold re_dt_base, ropt in H. den.
  match goal with H : Den (RAlt _ _) _ _ _ _ |- _ => apply Den_alt in H as [H|H]; den end.
  - exists x0, x, x1, x2, x3, (`":" ++ y0). unfold D.
    repeat (split; [split; eassumption|]). split; [right; exists y0; split; [split; assumption|reflexivity]|].
    split; [reflexivity|]. right. eauto.
  - exists x0, x, x1, x2, x3, []. unfold D.
    repeat (split; [split; eassumption|]). split; [left; reflexivity|].
    split; [reflexivity|]. auto.
Qed.

Lemma re_datetime_some s m : re_match re_datetime s = Some m ->
  exists sy sm sd sh si sec tz nl, D 4 sy /\ D 2 sm /\ D 2 sd /\ D 2 sh /\ D 2 si /\ sec_ok sec /\
    opt_newline nl /\ s = base_text sy sm sd sh si sec ++ tz ++ nl /\
    group_or_nil 1 m = base_text sy sm sd sh si sec /\ tz_captured tz m.
Proof.
  intros H. apply re_match_sound in H as [x [rest [-> HD]]]. unfold re_datetime, ropt in HD.
  apply Den_seq in HD as [b [y [k1 [-> [HB HD]]]]]. apply Den_seq in HD as [tz [z [k2 [-> [HT HD]]]]].
  apply Den_dol in HD as [-> [-> NL]].
  apply Den_grp in HB as [k3 [-> HB]].
  apply Den_base in HB as [sy [sm [sd [sh [si [sec [H1 [H2 [H3 [H4 [H5 [H6 [-> HC]]]]]]]]]]]]].
  exists sy, sm, sd, sh, si, sec, tz, rest. do 7 (split; [assumption|]).
  split; [now rewrite app_nil_r, <- app_assoc|].
  apply Den_alt in HT as [HT|HT].
  - apply Den_grp in HT as [k4 [-> HT]]. unfold re_tz in HT. apply Den_alt in HT as [HT|HT].
    + den. split; [destruct HC as [->|[z ->]]; reflexivity|]. right. left. auto.
    + den. apply Den_chr in H0 as [sg [-> [Hsg ->]]].
      split; [destruct HC as [->|[z ->]]; reflexivity|]. right. right.
      exists sg, x0, y. split; [rewrite orb_true_iff, !N.eqb_eq in Hsg; auto|].
      split; [split; auto|]. split; [split; auto|]. split; [reflexivity|]. repeat split.
  - den. split; [destruct HC as [->|[z ->]]; reflexivity|]. left. split; [reflexivity|].
    destruct HC as [->|[z ->]]; reflexivity.
Qed.

Lemma re_datetime_complete sy sm sd sh si sec tz nl :
  D 4 sy -> D 2 sm -> D 2 sd -> D 2 sh -> D 2 si -> sec_ok sec -> opt_newline nl -> tz_shape tz ->
  exists m, re_match re_datetime (base_text sy sm sd sh si sec ++ tz ++ nl) = Some m /\
    group_or_nil 1 m = base_text sy sm sd sh si sec /\ tz_captured tz m.
Proof.
  intros H1 H2 H3 H4 H5 H6 H7 H8.
  apply D4_expl in H1 as [? [? [? [? [-> [? [? [? ?]]]]]]]]. apply D2_expl in H2 as [? [? [-> [? ?]]]].
  apply D2_expl in H3 as [? [? [-> [? ?]]]]. apply D2_expl in H4 as [? [? [-> [? ?]]]].
  apply D2_expl in H5 as [? [? [-> [? ?]]]].
  assert (G : forall (s : str) (m : caps), re_match re_datetime s = Some m -> forall s', s = s' -> re_match re_datetime s' = Some m) by (intros; now subst).
  destruct H6 as [->|[s2 [H6 ->]]]; [|apply D2_expl in H6 as [? [? [-> [? ?]]]]];
  destruct H7 as [->| ->];
  destruct H8 as [->|[->|[sg [h2 [m2 [[->| ->] [Hh [Hm ->]]]]]]]];
  try (apply D2_expl in Hh as [? [? [-> [? ?]]]]; apply D2_expl in Hm as [? [? [-> [? ?]]]]);
  (eexists; split;
    [cbv -[is_digit]; repeat match goal with H : is_digit _ = true |- _ => rewrite H; clear H end;
     reflexivity
    |split; [reflexivity|]]);
  first [ left; split; reflexivity | right; left; split; reflexivity
        | right; right; do 3 eexists; split; [|split; [|split; [|split; [reflexivity|repeat split]]]];
          [auto|split; [reflexivity|repeat constructor; assumption]..] ].
Qed.

Lemma tz_text_shape off tz : tz_text off tz -> tz_shape tz.
Proof.
  intros H. inversion H; subst; [left; auto|right; left; auto| |].
  - right. right. exists 43%N, a, b. apply num2_zint in H0 as [? _]. apply num2_zint in H1 as [? _].
    repeat (split; auto).
  - right. right. exists 45%N, a, b. apply num2_zint in H0 as [? _]. apply num2_zint in H1 as [? _].
    repeat (split; auto).
Qed.

(** The offset the code computes from the captured time zone. *)
Definition tz_offset (m : caps) : exc Z :=
  match group 3 m with
  | None => Ok 0
  | Some tz =>
      if str_eqb tz (`"Z") then Ok 0
      else
        let hh := zint (group_or_nil 5 m) in
        let mm := zint (group_or_nil 6 m) in
        if (23 <? hh) || (59 <? mm) then Raise ValueError
        else
          let o := hh * 3600 + mm * 60 in
          Ok (if str_eqb (group_or_nil 4 m) (`"-") then - o else o)
  end.

Lemma tz_text_signed off tz sg h2 m2 : tz_text off tz -> tz = sg :: h2 ++ `":" ++ m2 ->
  (sg = 43 \/ sg = 45)%N -> D 2 h2 -> D 2 m2 ->
  zint h2 <= 23 /\ zint m2 <= 59 /\
  off = (if (sg =? 45)%N then - (zint h2 * 3600 + zint m2 * 60) else zint h2 * 3600 + zint m2 * 60).
Proof.
  intros H Et Hs Hh Hm.
  assert (G : forall c a b hh mm, num2 hh a -> num2 mm b -> [c] ++ a ++ `":" ++ b = sg :: h2 ++ `":" ++ m2 ->
     c = sg /\ hh = zint h2 /\ mm = zint m2).
  { intros c a b hh mm N1 N2 E. apply num2_zint in N1 as [N1 ->]. apply num2_zint in N2 as [N2 ->].
    apply D2_expl in N1 as [? [? [-> _]]]. apply D2_expl in N2 as [? [? [-> _]]].
    apply D2_expl in Hh as [? [? [-> _]]]. apply D2_expl in Hm as [? [? [-> _]]].
    injection E as -> -> -> -> ->. auto. }
  destruct H as [| |hh mm a b N1 N2 L1 L2|hh mm a b N1 N2 L1 L2].
  - discriminate.
  - injection Et as <- _. destruct Hs; discriminate.
  - destruct (G 43%N a b hh mm N1 N2 Et) as [<- [-> ->]]. auto.
  - destruct (G 45%N a b hh mm N1 N2 Et) as [<- [-> ->]]. auto.
Qed.

Lemma tz_offset_iff tz m off : tz_captured tz m -> (tz_offset m = Ok off <-> tz_text off tz).
Proof.
  unfold tz_offset. intros [[-> ->]|[[-> ->]|[sg [h2 [m2 [Hs [Hh [Hm [-> [-> [-> [-> ->]]]]]]]]]]]].
  - split; [intros HH; apply Ok_inv in HH; subst; constructor|].
    intros H. inversion H; subst; auto.
  - rewrite str_eqb_refl. split; [intros HH; apply Ok_inv in HH; subst; constructor|].
    intros H. inversion H; subst; auto.
  - assert (E : str_eqb (sg :: h2 ++ `":" ++ m2) (`"Z") = false).
    { apply str_eqb_neq. intros E. injection E as -> _. destruct Hs; discriminate. }
    rewrite E. clear E. destruct ((23 <? zint h2) || (59 <? zint m2)) eqn:Eb.
    + split; [discriminate|]. intros H. exfalso.
      apply orb_true_iff in Eb. rewrite !Z.ltb_lt in Eb.
      apply tz_text_signed with (sg := sg) (h2 := h2) (m2 := m2) in H; auto. lia.
    + apply orb_false_iff in Eb. rewrite !Z.ltb_ge in Eb.
      assert (N1 : num2 (zint h2) h2) by (now apply num2_zint).
      assert (N2 : num2 (zint m2) m2) by (now apply num2_zint).
      assert (Es : str_eqb [sg] (`"-") = (sg =? 45)%N) by (destruct Hs as [->| ->]; reflexivity).
      rewrite Es. split.
      * intros HH. apply Ok_inv in HH. subst off. destruct Hs as [-> | ->].
        -- change (43 =? 45)%N with false. cbv iota. apply (TZ_east (zint h2) (zint m2) h2 m2); tauto.
        -- change (45 =? 45)%N with true. cbv iota. apply (TZ_west (zint h2) (zint m2) h2 m2); tauto.
      * intros H. f_equal.
        apply tz_text_signed with (sg := sg) (h2 := h2) (m2 := m2) in H; auto. destruct H as [_ [_ ->]].
        destruct (sg =? 45)%N; reflexivity.
Qed.

Definition tgm (x : date) (hh mm ss : Z) : Z := let '(y, m, d) := x in timegm y m d hh mm ss.

Lemma base_text_date sy sm sd sh si sec r :
  base_text sy sm sd sh si sec ++ r = (sy ++ `"-" ++ sm ++ `"-" ++ sd) ++ `"T" ++ sh ++ `":" ++ si ++ sec ++ r.
Proof. unfold base_text. now rewrite <- !app_assoc. Qed.

Lemma dnf_iff s t : datetime_no_fraction s = Ok t <->
  exists x hh mm ss off nl, T_text s x hh mm ss off nl /\ valid_date x /\ valid_time hh mm ss /\
    t = tgm x hh mm ss + off.
Proof.
  unfold datetime_no_fraction. split.
  - destruct (re_match re_datetime s) as [m|] eqn:Em; [|discriminate].
    intros H. apply ebind_ok in H as [t0 [Ht H]]. apply ebind_ok in H as [off [Ho H]].
    apply Ok_inv in H. subst t.
    apply re_datetime_some in Em
      as [sy [sm [sd [sh [si [sec [tz [nl [H1 [H2 [H3 [H4 [H5 [H6 [Hnl [-> [Hg Htz]]]]]]]]]]]]]]]]].
    rewrite Hg in Ht. apply dateutil_base in Ht as [Hd [Hv ->]]; auto.
    apply (tz_offset_iff tz m off Htz) in Ho.
    exists (zint sy, zint sm, zint sd), (zint sh), (zint si), (sec_val sec), off, nl.
    split; [|split; [exact Hd|split; [exact Hv|unfold tgm; reflexivity]]].
    exists (sy ++ `"-" ++ sm ++ `"-" ++ sd), sh, si, sec, tz.
    split; [now apply fields_date|]. split; [now apply num2_zint|]. split; [now apply num2_zint|].
    split.
    { destruct H6 as [->|[s2 [H6 ->]]]; [left; auto|right]. exists s2. split; [now apply num2_zint|auto]. }
    split; [auto|]. split; [auto|]. apply base_text_date.
  - intros [x [hh [mm [ss [off [nl [HT [Hd [Hv ->]]]]]]]]].
    destruct HT as [sx [sh [si [sec [tz [Hx [Hh [Hm [Hs [Htz [Hnl ->]]]]]]]]]]].
    apply date_fields in Hx as [sy [sm [sd [H1 [H2 [H3 [-> ->]]]]]]].
    apply num2_zint in Hh as [H4 ->]. apply num2_zint in Hm as [H5 ->].
    assert (H6 : sec_ok sec /\ ss = sec_val sec).
    { destruct Hs as [[-> ->]|[s2 [Hs ->]]]; [split; [left; auto|reflexivity]|].
      apply num2_zint in Hs as [Hs ->]. split; [right; eauto|reflexivity]. }
    destruct H6 as [H6 ->].
    rewrite <- base_text_date.
    destruct (re_datetime_complete sy sm sd sh si sec tz nl H1 H2 H3 H4 H5 H6 Hnl (tz_text_shape _ _ Htz))
      as [m [Em [Hg Hc]]].
    rewrite Em, Hg.
    assert (Ht : dateutil_timegm (base_text sy sm sd sh si sec) =
      Ok (timegm (zint sy) (zint sm) (zint sd) (zint sh) (zint si) (sec_val sec))).
    { apply dateutil_base; auto. }
    rewrite Ht. cbn [ebind]. unfold tgm. change ((let* off0 := tz_offset m in Ok (timegm (zint sy) (zint sm) (zint sd) (zint sh) (zint si) (sec_val sec) + off0)) = Ok (timegm (zint sy) (zint sm) (zint sd) (zint sh) (zint si) (sec_val sec) + off)).
    apply (tz_offset_iff tz m off Hc) in Htz. rewrite Htz. reflexivity.
Qed.

(** * Dates only *)
Lemma Den_date_some s m : re_match re_date s = Some m ->
  exists sy nl, D 4 sy /\ opt_newline nl /\
   ((s = sy ++ nl /\ group 1 m = None) \/
    (exists sm z, D 2 sm /\ s = sy ++ `"-" ++ sm ++ nl /\ group 1 m = Some z /\ group 2 m = None) \/
    (exists sm sd z z', D 2 sm /\ D 2 sd /\ s = sy ++ `"-" ++ sm ++ `"-" ++ sd ++ nl /\
       group 1 m = Some z /\ group 2 m = Some z')).
Proof.
  intros H. apply re_match_sound in H as [x [rest [-> HD]]]. unfold re_date, ropt in HD.
  den. match goal with H : Den (RAlt _ _) _ _ _ _ |- _ => apply Den_alt in H as [H|H]; den end.
  - match goal with H : Den (RAlt _ _) _ _ _ _ |- _ => apply Den_alt in H as [H|H]; den end.
    + exists x0, rest. split; [split; auto|]. split; [auto|]. right. right.
      do 4 eexists. split; [split; [exact L0|exact F0]|]. split; [split; [exact L1|exact F1]|].
      split; [rewrite app_nil_r; now rewrite <- !app_assoc|]. split; reflexivity.
    + exists x0, rest. split; [split; auto|]. split; [auto|]. right. left.
      do 2 eexists. split; [split; [exact L0|exact F0]|].
      split; [rewrite !app_nil_r; now rewrite <- !app_assoc|]. split; reflexivity.
  - exists x0, rest. split; [split; auto|]. split; [auto|]. left. rewrite !app_nil_r. auto.
Qed.

Lemma re_date_year sy : D 4 sy -> exists m, re_match re_date sy = Some m /\ group 1 m = None.
Proof.
  intros H. apply D4_expl in H as [? [? [? [? [-> [? [? [? ?]]]]]]]].
  eexists; split; [cbv -[is_digit]; repeat match goal with H : is_digit _ = true |- _ => rewrite H; clear H end; reflexivity|reflexivity].
Qed.
Lemma re_date_month sy sm : D 4 sy -> D 2 sm ->
  exists m z, re_match re_date (sy ++ `"-" ++ sm) = Some m /\ group 1 m = Some z /\ group 2 m = None.
Proof.
  intros H H2. apply D4_expl in H as [? [? [? [? [-> [? [? [? ?]]]]]]]]. apply D2_expl in H2 as [? [? [-> [? ?]]]].
  do 2 eexists; split; [cbv -[is_digit]; repeat match goal with H : is_digit _ = true |- _ => rewrite H; clear H end; reflexivity|split; reflexivity].
Qed.
Lemma re_date_day sy sm sd : D 4 sy -> D 2 sm -> D 2 sd ->
  exists m z z', re_match re_date (sy ++ `"-" ++ sm ++ `"-" ++ sd) = Some m /\ group 1 m = Some z /\ group 2 m = Some z'.
Proof.
  intros H H2 H3. apply D4_expl in H as [? [? [? [? [-> [? [? [? ?]]]]]]]]. apply D2_expl in H2 as [? [? [-> [? ?]]]].
  apply D2_expl in H3 as [? [? [-> [? ?]]]].
  do 3 eexists; split; [cbv -[is_digit]; repeat match goal with H : is_digit _ = true |- _ => rewrite H; clear H end; reflexivity|split; reflexivity].
Qed.

(** A text with a 'T' is not a date only. *)
Lemma re_date_T s : In 84%N s -> re_match re_date s = None.
Proof.
  intros Hi. destruct (re_match re_date s) as [m|] eqn:E; [|reflexivity]. exfalso.
  assert (G : forall n d, D n d -> In 84%N d -> False).
  { intros n d [_ F] Hd. rewrite Forall_forall in F. apply F in Hd. vm_compute in Hd. discriminate. }
  assert (G2 : forall nl, opt_newline nl -> In 84%N nl -> False).
  { intros nl [->| ->] Hd; [destruct Hd|]. destruct Hd as [Hd|[]]. discriminate. }
  apply Den_date_some in E as [sy [nl [H1 [Hnl [[-> _]|[[sm [z [H2 [-> _]]]]|[sm [sd [z [z' [H2 [H3 [-> _]]]]]]]]]]]]].
  - rewrite in_app_iff in Hi. destruct Hi; eauto.
  - rewrite !in_app_iff in Hi. destruct Hi as [Hi|[Hi|[Hi|Hi]]]; eauto. destruct Hi as [Hi|[]]; discriminate.
  - rewrite !in_app_iff in Hi. destruct Hi as [Hi|[Hi|[Hi|[Hi|[Hi|Hi]]]]]; eauto;
      destruct Hi as [Hi|[]]; discriminate.
Qed.

(** * Fractions *)
Lemma re_frac_some s m : re_match re_frac s = Some m ->
  exists p hh mm ss frac g3 rest,
    s = (p ++ hh ++ `":" ++ mm ++ `":" ++ ss) ++ `"." ++ frac ++ g3 ++ rest /\
    Forall (fun c => is_dot c = true) p /\ D 2 hh /\ D 2 mm /\ D 2 ss /\
    frac <> [] /\ Forall (fun c => is_digit c = true) frac /\
    (g3 = [] \/ exists c r, g3 = c :: r /\ is_digit c = false /\ Forall (fun c => is_dot c = true) r) /\
    opt_newline rest /\
    group_or_nil 1 m = p ++ hh ++ `":" ++ mm ++ `":" ++ ss /\ group_or_nil 2 m = `"." ++ frac /\ group_or_nil 3 m = g3.
Proof.
  intros H. apply re_match_sound in H as [x [rest [-> HD]]]. unfold re_frac, ropt in HD.
  apply Den_seq in HD as [g1 [y [k1 [-> [H1 HD]]]]]. apply Den_seq in HD as [g2 [y2 [k2 [-> [H2 HD]]]]].
  apply Den_seq in HD as [g3 [y3 [k3 [-> [H3 HD]]]]]. apply Den_dol in HD as [-> [-> NL]].
  apply Den_grp in H1 as [k4 [-> H1]]. apply Den_seq in H1 as [p [y [k5 [-> [HS H1]]]]].
  apply Den_star_chr in HS as [HS ->]. den.
  apply Den_plus_chr in H1 as [Hne [Hf ->]].
  exists p, x, x0, y, y0, g3, rest.
  split; [rewrite <- !app_assoc; reflexivity|].
  split; [exact HS|]. split; [split; auto|]. split; [split; auto|]. split; [split; auto|].
  split; [auto|]. split; [auto|].
  apply Den_alt in H3 as [H3|H3].
  - apply Den_grp in H3 as [k6 [-> H3]]. apply Den_seq in H3 as [a [b [k7 [-> [Ha Hb]]]]].
    apply Den_chr in Ha as [c [-> [Hc ->]]]. apply Den_star_chr in Hb as [Hr ->].
    split; [right; exists c, b; split; [reflexivity|]; split; [now apply negb_true_iff|exact Hr]|].
    split; [exact NL|]. repeat split.
  - apply Den_emp in H3 as [-> ->]. split; [left; reflexivity|]. split; [exact NL|]. repeat split.
Qed.

Lemma re_frac_exists sy sm sd sh si s2 frac tz nl :
  D 4 sy -> D 2 sm -> D 2 sd -> D 2 sh -> D 2 si -> D 2 s2 ->
  frac <> [] -> Forall (fun c => is_digit c = true) frac -> tz_shape tz ->
  (nl = [] \/ nl = [10%N] \/ tz = [] /\ nl = [10%N; 10%N]) ->
  exists m, re_match re_frac (base_text sy sm sd sh si (`":" ++ s2) ++ `"." ++ frac ++ tz ++ nl) = Some m.
Proof.
  intros H1 H2 H3 H4 H5 H6 Hn Hf Ht Hnl.
  assert (Hd : forall n d, D n d -> Forall (fun c => is_dot c = true) d).
  { intros n d [_ F]. eapply Forall_impl; [|exact F]. intros c Hc. unfold is_dot.
    destruct (N.eqb_spec c 10) as [->|]; [discriminate|reflexivity]. }
  assert (G : forall g3 rest, g3 ++ rest = tz ++ nl ->
    (g3 = [] \/ exists c r, g3 = c :: r /\ is_digit c = false /\ Forall (fun c => is_dot c = true) r) ->
    (rest = [] \/ rest = [10%N]) ->
    exists m, re_match re_frac (base_text sy sm sd sh si (`":" ++ s2) ++ `"." ++ frac ++ tz ++ nl) = Some m).
  { intros g3 rest <- Hg Hr.
    set (p := sy ++ `"-" ++ sm ++ `"-" ++ sd ++ `"T").
    assert (E : base_text sy sm sd sh si (`":" ++ s2) = p ++ sh ++ `":" ++ si ++ `":" ++ s2)
      by (unfold base_text, p; now rewrite <- !app_assoc).
    rewrite E.
    assert (Ex : exists k, Den re_frac ((p ++ sh ++ `":" ++ si ++ `":" ++ s2) ++ (`"." ++ frac) ++ g3 ++ []) rest [] k).
    { unfold re_frac, ropt.
      assert (X1 : Den (RGroup 1 (RSeq (RStar rdot) (RSeq rdd (RSeq (rlit (`":")) (RSeq rdd (RSeq (rlit (`":")) rdd))))))
         (p ++ sh ++ `":" ++ si ++ `":" ++ s2) (((`"." ++ frac) ++ g3 ++ []) ++ rest) []
         [(1%nat, p ++ sh ++ `":" ++ si ++ `":" ++ s2)]).
      { apply Den_grp. exists []. split; [reflexivity|].
        eapply Den_seq_intro; [apply Den_star_chr; split; [|reflexivity]|].
        { unfold p. repeat (apply Forall_app; split); try (eapply Hd; eassumption); repeat constructor. }
        eapply Den_seq_intro; [apply Den_rep_chr; destruct H4; split; [|split]; auto|].
        eapply Den_seq_intro; [apply Den_lit_intro|].
        eapply Den_seq_intro; [apply Den_rep_chr; destruct H5; split; [|split]; auto|].
        eapply Den_seq_intro; [apply Den_lit_intro|].
        apply Den_rep_chr; destruct H6; split; [|split]; auto. }
      assert (X2 : forall r c, Den (RGroup 2 (RSeq (rlit (`".")) (rplus rdigit))) (`"." ++ frac) r c ((2%nat, `"." ++ frac) :: c)).
      { intros r c. apply Den_grp. exists c. split; [reflexivity|].
        eapply Den_seq_intro; [apply Den_lit_intro|]. apply Den_plus_chr. auto. }
      assert (X3 : forall c, exists c', Den (RAlt (RGroup 3 (RSeq (RChr (fun c => negb (is_digit c))) (RStar rdot))) REmpty)
                 g3 ([] ++ rest) c c').
      { intros c. destruct Hg as [->|[a [r [-> [Ha Hg]]]]].
        - exists c. apply Den_alt. right. now apply Den_emp.
        - eexists. apply Den_alt. left. apply Den_grp. eexists. split; [reflexivity|].
          change (a :: r) with ([a] ++ r).
          eapply Den_seq_intro; [apply Den_chr; exists a; split; [reflexivity|split; [now rewrite Ha|reflexivity]]|].
          apply Den_star_chr. auto. }
      destruct (X3 [(2%nat, `"." ++ frac); (1%nat, p ++ sh ++ `":" ++ si ++ `":" ++ s2)]) as [c' X3'].
      exists c'. eapply Den_seq_intro; [exact X1|]. eapply Den_seq_intro; [apply X2|].
      eapply Den_seq_intro; [exact X3'|]. apply Den_dol. auto. }
    destruct Ex as [k HD].
    destruct (re_match re_frac ((p ++ sh ++ `":" ++ si ++ `":" ++ s2) ++ `"." ++ frac ++ g3 ++ rest)) as [m|] eqn:Em;
      [eauto|exfalso].
    revert Em. eapply re_match_complete; [|exact HD]. rewrite <- !app_assoc. reflexivity. }
  assert (T : tz = [] \/ exists c r, tz = c :: r /\ is_digit c = false /\ Forall (fun c => is_dot c = true) r).
  { destruct Ht as [->|[->|[sg [h2 [m2 [Hs [Hh [Hm ->]]]]]]]]; [left; reflexivity| |]; right.
    - do 2 eexists. split; [reflexivity|]. split; [reflexivity|constructor].
    - exists sg, (h2 ++ `":" ++ m2). split; [reflexivity|]. split; [destruct Hs as [->| ->]; reflexivity|].
      repeat (apply Forall_app; split); try (eapply Hd; eassumption); repeat constructor. }
  destruct Hnl as [->|[->|[-> ->]]].
  - apply (G tz []); auto.
  - apply (G tz [10%N]); auto.
  - apply (G [10%N] [10%N]); [reflexivity| |auto]. right. exists 10%N, [].
    split; [reflexivity|]. split; [reflexivity|constructor].
Qed.

(** No '.' in a text of digits, dashes, colons, T, Z and signs. *)
Definition nodot (s : str) : Prop := ~ In 46%N s.
Lemma nodot_digits s : Forall (fun c => is_digit c = true) s -> nodot s.
Proof. intros F H. rewrite Forall_forall in F. apply F in H. discriminate. Qed.
Lemma nodot_app a b : nodot a -> nodot b -> nodot (a ++ b).
Proof. unfold nodot. rewrite in_app_iff. tauto. Qed.
Lemma D_nodot n s : D n s -> nodot s.
Proof. intros [_ F]. now apply nodot_digits. Qed.

Lemma base_nodot sy sm sd sh si sec : D 4 sy -> D 2 sm -> D 2 sd -> D 2 sh -> D 2 si -> sec_ok sec ->
  nodot (base_text sy sm sd sh si sec).
Proof.
  intros H1 H2 H3 H4 H5 H6. unfold base_text.
  assert (L : forall c, c <> 46%N -> nodot [c]) by (intros c Hc [H|[]]; congruence).
  assert (Hs : nodot sec).
  { destruct H6 as [->|[s2 [H6 ->]]]; [intros []|]. apply nodot_app; [apply (L 58%N); discriminate|eapply D_nodot; eauto]. }
  repeat (apply nodot_app; [first [eapply D_nodot; eassumption|apply (L 45%N); discriminate|apply (L 84%N); discriminate|apply (L 58%N); discriminate]|]).
  exact Hs.
Qed.

Lemma tz_nodot tz : tz_shape tz -> nodot tz.
Proof.
  intros [->|[->|[sg [h2 [m2 [Hs [Hh [Hm ->]]]]]]]].
  - intros [].
  - intros [H|[]]; discriminate.
  - apply D_nodot in Hh, Hm. intros [H|H]; [destruct Hs; congruence|].
    apply in_app_iff in H as [H|H]; [auto|]. destruct H as [H|H]; [discriminate|auto].
Qed.

Lemma split_at_dot (a b a' b' : str) : nodot a -> nodot a' -> a ++ 46%N :: b = a' ++ 46%N :: b' -> a = a' /\ b = b'.
Proof.
  revert a'. induction a as [|c a IH]; intros [|c' a'] Ha Ha' E; cbn [app] in E.
  - injection E as ->. auto.
  - injection E as <- E. exfalso. apply Ha'. now left.
  - injection E as -> E. exfalso. apply Ha. now left.
  - injection E as -> E. destruct (IH a') as [-> ->]; auto; intros H; [apply Ha|apply Ha']; now right.
Qed.

Lemma split_digits (a b a' b' : str) : Forall (fun c => is_digit c = true) a -> Forall (fun c => is_digit c = true) a' ->
  (b = [] \/ exists c r, b = c :: r /\ is_digit c = false) ->
  (b' = [] \/ exists c r, b' = c :: r /\ is_digit c = false) ->
  a ++ b = a' ++ b' -> a = a' /\ b = b'.
Proof.
  revert a'. induction a as [|c a IH]; intros [|c' a'] Ha Ha' Hb Hb' E; cbn [app] in E.
  - auto.
  - exfalso. subst b. apply Forall_inv in Ha'. destruct Hb as [?|[x [r [E Hx]]]]; [discriminate|].
    injection E as -> _. congruence.
  - exfalso. subst b'. apply Forall_inv in Ha. destruct Hb' as [?|[x [r [E Hx]]]]; [discriminate|].
    injection E as -> _. congruence.
  - injection E as -> E. apply Forall_inv_tail in Ha, Ha'.
    destruct (IH a') as [-> ->]; auto.
Qed.

Definition frac_nl (tz nl : str) : Prop := nl = [] \/ nl = [10%N] \/ tz = [] /\ nl = [10%N; 10%N].

Lemma tznl_nondigit tz nl : tz_shape tz -> frac_nl tz nl ->
  (tz ++ nl = [] \/ exists c r, tz ++ nl = c :: r /\ is_digit c = false).
Proof.
  intros Ht Hn.
  assert (N : nl = [] \/ exists r, nl = 10%N :: r) by (destruct Hn as [->|[->|[-> ->]]]; eauto).
  destruct Ht as [->|[->|[sg [h2 [m2 [Hs [Hh [Hm ->]]]]]]]].
  - destruct N as [->|[r ->]]; [left; reflexivity|right]. exists 10%N, r. split; reflexivity.
  - right. do 2 eexists. split; reflexivity.
  - right. do 2 eexists. split; [reflexivity|]. destruct Hs as [->| ->]; reflexivity.
Qed.

Lemma chop_fraction_complete sy sm sd sh si s2 frac tz nl :
  D 4 sy -> D 2 sm -> D 2 sd -> D 2 sh -> D 2 si -> D 2 s2 ->
  frac <> [] -> Forall (fun c => is_digit c = true) frac -> tz_shape tz -> frac_nl tz nl ->
  exists nl', opt_newline nl' /\
   chop_fraction (base_text sy sm sd sh si (`":" ++ s2) ++ `"." ++ frac ++ tz ++ nl) =
     (base_text sy sm sd sh si (`":" ++ s2) ++ tz ++ nl', frac).
Proof.
  intros H1 H2 H3 H4 H5 H6 Hn Hf Ht Hnl.
  destruct (re_frac_exists sy sm sd sh si s2 frac tz nl) as [m Em]; auto.
  unfold chop_fraction. rewrite Em.
  apply re_frac_some in Em as [p [hh [mm [ss [fr [g3 [rest [E [Hp [Dh [Dm [Ds [Hfr [Ffr [Hg [Hr [-> [-> ->]]]]]]]]]]]]]]]]]].
  assert (Nb : nodot (base_text sy sm sd sh si (`":" ++ s2))).
  { apply base_nodot; auto. right. eauto. }
  assert (Nall : nodot (frac ++ tz ++ nl)).
  { apply nodot_app; [now apply nodot_digits|]. apply nodot_app; [now apply tz_nodot|].
    destruct Hnl as [->|[->|[_ ->]]]; cbn [In]; intros HH; cbn in HH; intuition discriminate. }
  change (`"." ++ fr ++ g3 ++ rest) with (46%N :: fr ++ g3 ++ rest) in E.
  change (`"." ++ frac ++ tz ++ nl) with (46%N :: frac ++ tz ++ nl) in E.
  assert (Np : nodot (p ++ hh ++ `":" ++ mm ++ `":" ++ ss)).
  { intros Hi. apply in_split in Hi as [l1 [l2 El]]. rewrite El in E.
    rewrite <- app_assoc in E. cbn [app] in E.
    assert (M : forall (a b : str), nodot a -> nodot b -> forall (x y z : str), a ++ 46%N :: b = x ++ 46%N :: y ++ 46%N :: z -> False).
    { clear. intros a b Ha Hb x. revert a Ha. induction x as [|c x IH]; intros [|d a] Ha y z E; cbn [app] in E.
      - injection E as ->. apply Hb, in_app_iff. right. now left.
      - injection E as -> _. apply Ha. now left.
      - injection E as <- E. apply Hb. rewrite E. rewrite !in_app_iff. cbn [In]. auto.
      - injection E as -> E. eapply IH; [|exact E]. intros H. apply Ha. now right. }
    exact (M _ _ Nb Nall _ _ _ E). }
  apply split_at_dot in E as [E1 E2]; auto.
  rewrite <- E1.
  assert (Hg3 : g3 ++ rest = [] \/ exists c r, g3 ++ rest = c :: r /\ is_digit c = false).
  { destruct Hg as [->|[c [r [-> [Hc _]]]]].
    - destruct Hr as [->| ->]; [left; reflexivity|right]. do 2 eexists. split; reflexivity.
    - right. do 2 eexists. split; [reflexivity|exact Hc]. }
  apply split_digits in E2 as [<- E3]; auto; [|now apply tznl_nondigit].
  assert (X : exists nl', opt_newline nl' /\ g3 = tz ++ nl').
  { destruct Hnl as [->|[->|[-> ->]]].
    - rewrite app_nil_r in E3. destruct Hr as [->| ->].
      + exists []. rewrite app_nil_r in *. split; [now left|auto].
      + exfalso. assert (In 10%N tz) by (rewrite E3; apply in_app_iff; right; now left).
        clear - Ht H. destruct Ht as [->|[->|[sg [h2 [m2 [Hs [[_ Hh] [[_ Hm] ->]]]]]]]].
        * destruct H.
        * destruct H as [H|[]]; discriminate.
        * rewrite Forall_forall in Hh, Hm. destruct H as [H|H]; [destruct Hs as [Hs|Hs]; rewrite Hs in H; discriminate H|].
          apply in_app_iff in H as [H|[H|H]]; [apply Hh in H|exfalso|apply Hm in H]; vm_compute in H; discriminate.
    - destruct Hr as [->| ->].
      + rewrite app_nil_r in E3. exists [10%N]. split; [now right|auto].
      + apply app_inj_tail in E3 as [-> _]. exists []. rewrite app_nil_r. split; [now left|auto].
    - cbn [app] in E3. destruct Hr as [->| ->].
      + rewrite app_nil_r in E3. exfalso. subst g3. destruct Hg as [?|[c [r [E [_ F]]]]]; [discriminate|].
        injection E as <- <-. apply Forall_inv in F. vm_compute in F. discriminate.
      + change [10%N; 10%N] with ([10%N] ++ [10%N]) in E3. apply app_inj_tail in E3 as [<- _].
        exists [10%N]. split; [now right|reflexivity]. }
  destruct X as [nl' [Hnl' ->]]. exists nl'. split; [exact Hnl'|]. reflexivity.
Qed.

Lemma chop_fraction_nodot s : nodot s -> chop_fraction s = (s, []).
Proof.
  intros H. unfold chop_fraction. destruct (re_match re_frac s) as [m|] eqn:E; [exfalso|reflexivity].
  apply re_frac_some in E as [p [hh [mm [ss [fr [g3 [rest [-> _]]]]]]]].
  apply H. apply in_app_iff. right. now left.
Qed.

Lemma nl_nodot nl : opt_newline nl -> nodot nl.
Proof. intros [->| ->] H; [destruct H|destruct H as [H|[]]; discriminate]. Qed.

(** The colons of a time of day are at one place only. *)
Definition cls (c : N) : nat := if is_digit c then 0%nat else if (c =? 58)%N then 1%nat else 2%nat.
Definition cpat : list nat := [0; 0; 1; 0; 0; 1; 0; 0]%nat.
Definition only_11 (L : list nat) : bool :=
  forallb (fun k => if list_eq_dec Nat.eq_dec (firstn 8 (skipn k L)) cpat then Nat.eqb k 11 else true) (seq 0 (S (length L))).
Lemma only_11_ok L p q : only_11 L = true -> p ++ cpat ++ q = L -> length p = 11%nat.
Proof.
  intros H <-. unfold only_11 in H. rewrite forallb_forall in H.
  assert (Hi : In (length p) (seq 0 (S (length (p ++ cpat ++ q))))).
  { apply in_seq. rewrite app_length. lia. }
  apply H in Hi. rewrite skipn_app, skipn_all, Nat.sub_diag in Hi. cbn [app skipn] in Hi.
  change (firstn 8 (cpat ++ q)) with cpat in Hi.
  destruct (list_eq_dec Nat.eq_dec cpat cpat); [now apply Nat.eqb_eq|congruence].
Qed.
Definition no_pat (L : list nat) : bool :=
  forallb (fun k => if list_eq_dec Nat.eq_dec (firstn 8 (skipn k L)) cpat then false else true) (seq 0 (S (length L))).
Lemma no_pat_ok L p q : no_pat L = true -> p ++ cpat ++ q = L -> False.
Proof.
  intros H <-. unfold no_pat in H. rewrite forallb_forall in H.
  assert (Hi : In (length p) (seq 0 (S (length (p ++ cpat ++ q))))).
  { apply in_seq. rewrite app_length. lia. }
  apply H in Hi. rewrite skipn_app, skipn_all, Nat.sub_diag in Hi. cbn [app skipn] in Hi.
  change (firstn 8 (cpat ++ q)) with cpat in Hi.
  destruct (list_eq_dec Nat.eq_dec cpat cpat); [discriminate|congruence].
Qed.

Lemma cls_digit c : is_digit c = true -> cls c = 0%nat.
Proof. unfold cls. now intros ->. Qed.
Lemma cls_D2 s : D 2 s -> map cls s = [0; 0]%nat.
Proof. intros H. apply D2_expl in H as [a [b [-> [Ha Hb]]]]. cbn [map]. now rewrite !cls_digit. Qed.
Lemma cls_D4 s : D 4 s -> map cls s = [0; 0; 0; 0]%nat.
Proof. intros H. apply D4_expl in H as [a [b [c [d [-> [Ha [Hb [Hc Hd]]]]]]]]. cbn [map]. now rewrite !cls_digit. Qed.

Lemma app_inj_len {A} (a b a' b' : list A) : length a = length a' -> a ++ b = a' ++ b' -> a = a' /\ b = b'.
Proof.
  revert a'. induction a as [|x a IH]; intros [|y a'] L E; try discriminate; [auto|].
  cbn [app] in E. injection E as -> E. apply eq_add_S in L. destruct (IH a' L E) as [-> ->]. auto.
Qed.

Lemma colons sy sm sd sh si sec tz nl p hh mm ss g3 :
  D 4 sy -> D 2 sm -> D 2 sd -> D 2 sh -> D 2 si -> sec_ok sec -> tz_shape tz -> opt_newline nl ->
  D 2 hh -> D 2 mm -> D 2 ss ->
  (p ++ hh ++ `":" ++ mm ++ `":" ++ ss) ++ g3 = base_text sy sm sd sh si sec ++ tz ++ nl ->
  p ++ hh ++ `":" ++ mm ++ `":" ++ ss = base_text sy sm sd sh si sec /\ sec <> [] /\ g3 = tz ++ nl.
Proof.
  intros H1 H2 H3 H4 H5 H6 Ht Hnl K1 K2 K3 E.
  assert (X : map cls p ++ cpat ++ map cls g3 = map cls (base_text sy sm sd sh si sec) ++ map cls (tz ++ nl)).
  { rewrite <- map_app, <- E, !map_app, (cls_D2 hh), (cls_D2 mm), (cls_D2 ss) by auto.
    rewrite <- !app_assoc. reflexivity. }
  assert (T : exists n, (n < 3)%nat /\ map cls (tz ++ nl) =
    nth n [[]; [2]; [2; 0; 0; 1; 0; 0]]%nat [] ++ map cls nl).
  { rewrite map_app. destruct Ht as [->|[->|[sg [h2 [m2 [Hs [Hh [Hm ->]]]]]]]].
    - exists 0%nat. split; [lia|reflexivity].
    - exists 1%nat. split; [lia|reflexivity].
    - exists 2%nat. split; [lia|]. cbn [map]. rewrite !map_app, (cls_D2 h2), (cls_D2 m2) by auto.
      destruct Hs as [->| ->]; reflexivity. }
  destruct T as [n [Hn T]]. rewrite T in X.
  assert (Hsec : sec <> [] -> length p = 11%nat).
  { intros Hne. destruct H6 as [->|[s2 [H6 ->]]]; [congruence|].
    unfold base_text in X. rewrite !map_app, (cls_D4 sy), (cls_D2 sm), (cls_D2 sd), (cls_D2 sh), (cls_D2 si), (cls_D2 s2) in X by auto.
    apply only_11_ok in X; [now rewrite map_length in X|].
    destruct Hnl as [->| ->]; destruct n as [|[|[|]]]; try lia; vm_compute; reflexivity. }
  assert (Hsec2 : sec <> []).
  { intros ->. unfold base_text in X. rewrite !map_app, (cls_D4 sy), (cls_D2 sm), (cls_D2 sd), (cls_D2 sh), (cls_D2 si) in X by auto.
    apply no_pat_ok in X; [exact X|].
    destruct Hnl as [->| ->]; destruct n as [|[|[|]]]; try lia; vm_compute; reflexivity. }
  apply app_inj_len in E as [E1 E2]; [auto|].
  destruct H6 as [->|[s2 [H6 ->]]]; [congruence|].
  unfold base_text. rewrite !app_length, (Hsec Hsec2).
  destruct H1 as [-> _], H2 as [-> _], H3 as [-> _], H4 as [-> _], H5 as [-> _], H6 as [-> _], K1 as [-> _], K2 as [-> _], K3 as [-> _].
  reflexivity.
Qed.

(** * The whole *)
Lemma T_completed sy sm sd x hh mm ss off nl : D 4 sy -> D 2 sm -> D 2 sd ->
  T_text (base_text sy sm sd (`"00") (`"00") (`":00") ++ `"Z") x hh mm ss off nl ->
  x = (zint sy, zint sm, zint sd) /\ hh = 0 /\ mm = 0 /\ ss = 0 /\ off = 0.
Proof.
  intros H1 H2 H3 [sx [sh [si [sec [tz [Hx [Hh [Hm [Hs [Htz [Hnl E]]]]]]]]]]].
  apply date_fields in Hx as [sy' [sm' [sd' [K1 [K2 [K3 [-> ->]]]]]]].
  rewrite <- base_text_date in E.
  apply num2_zint in Hh as [K4 ->]. apply num2_zint in Hm as [K5 ->].
  assert (LB : forall s1 s2 s3 s4 s5 s6, D 4 s1 -> D 2 s2 -> D 2 s3 -> D 2 s4 -> D 2 s5 ->
    base_text s1 s2 s3 s4 s5 s6 = (s1 ++ [45%N]) ++ (s2 ++ [45%N]) ++ (s3 ++ [84%N]) ++ (s4 ++ [58%N]) ++ s5 ++ s6).
  { intros. unfold base_text. rewrite <- !app_assoc. reflexivity. }
  rewrite !LB in E; auto; try (split; [reflexivity|repeat constructor]).
  rewrite <- !app_assoc in E.
  assert (L1 : length sy = length sy') by (destruct H1 as [-> _], K1 as [-> _]; reflexivity).
  assert (L2 : length sm = length sm') by (destruct H2 as [-> _], K2 as [-> _]; reflexivity).
  assert (L3 : length sd = length sd') by (destruct H3 as [-> _], K3 as [-> _]; reflexivity).
  apply app_inj_len in E as [<- E]; [|exact L1]. apply (app_inj_len [_] _ [_]) in E as [_ E]; [|reflexivity].
  apply app_inj_len in E as [<- E]; [|exact L2]. apply (app_inj_len [_] _ [_]) in E as [_ E]; [|reflexivity].
  apply app_inj_len in E as [<- E]; [|exact L3]. apply (app_inj_len [_] _ [_]) in E as [_ E]; [|reflexivity].
  apply app_inj_len in E as [<- E]; [|destruct K4 as [-> _]; reflexivity].
  apply (app_inj_len [_] _ [_]) in E as [_ E]; [|reflexivity].
  apply app_inj_len in E as [<- E]; [|destruct K5 as [-> _]; reflexivity].
  split; [reflexivity|]. split; [reflexivity|]. split; [reflexivity|].
  change (`":00" ++ `"Z") with [58; 48; 48; 90]%N in E.
  destruct Hs as [[-> ->]|[s2 [Hs ->]]].
  - exfalso. cbn [app] in E. destruct Htz as [| |? ? a b _ _ _ _|? ? a b _ _ _ _];
      [destruct Hnl as [->| ->]; discriminate E|discriminate E..].
  - apply num2_zint in Hs as [K6 ->].
    change ([58; 48; 48; 90]%N) with (`":" ++ [48; 48]%N ++ [90]%N) in E. rewrite <- app_assoc in E.
    apply (app_inj_len (`":") _ (`":")) in E as [_ E]; [|reflexivity].
    apply app_inj_len in E as [<- E]; [|destruct K6 as [-> _]; reflexivity].
    split; [reflexivity|].
    destruct Htz as [| |? ? a b _ _ _ _|? ? a b _ _ _ _]; [reflexivity|reflexivity|discriminate E..].
Qed.

Lemma T_text_nodot s x hh mm ss off nl : T_text s x hh mm ss off nl -> nodot s.
Proof.
  intros [sx [sh [si [sec [tz [Hx [Hh [Hm [Hs [Htz [Hnl ->]]]]]]]]]]].
  apply date_fields in Hx as [sy' [sm' [sd' [K1 [K2 [K3 [-> ->]]]]]]].
  rewrite <- base_text_date. apply num2_zint in Hh as [K4 ->]. apply num2_zint in Hm as [K5 ->].
  apply nodot_app; [|apply nodot_app; [apply tz_nodot; eapply tz_text_shape; eauto|now apply nl_nodot]].
  apply base_nodot; auto. destruct Hs as [[-> ->]|[s2 [Hs ->]]]; [now left|].
  apply num2_zint in Hs as [K6 _]. right. eauto.
Qed.

(** A completed date. *)
Lemma completed_ok sy sm sd t : D 4 sy -> D 2 sm -> D 2 sd ->
  let '(s2, frac) := chop_fraction (base_text sy sm sd (`"00") (`"00") (`":00") ++ `"Z") in
  frac = [] /\
  (datetime_no_fraction s2 = Ok t <->
   valid_date (zint sy, zint sm, zint sd) /\ t = tgm (zint sy, zint sm, zint sd) 0 0 0).
Proof.
  intros H1 H2 H3.
  assert (S00 : num2 0 (`"00")) by (apply num2_zint; split; [split; [reflexivity|repeat constructor]|reflexivity]).
  assert (T0 : T_text (base_text sy sm sd (`"00") (`"00") (`":00") ++ `"Z") (zint sy, zint sm, zint sd) 0 0 0 0 []).
  { exists (sy ++ `"-" ++ sm ++ `"-" ++ sd), (`"00"), (`"00"), (`":00"), (`"Z").
    split; [now apply fields_date|]. split; [exact S00|]. split; [exact S00|].
    split; [right; exists (`"00"); split; [exact S00|reflexivity]|]. split; [constructor|]. split; [now left|].
    rewrite app_nil_r. apply base_text_date. }
  rewrite chop_fraction_nodot by (eapply T_text_nodot; exact T0).
  split; [reflexivity|]. rewrite dnf_iff. split.
  - intros [x [hh [mm [ss [off [nl [HT [Hd [Hv ->]]]]]]]]].
    apply T_completed in HT as [-> [-> [-> [-> ->]]]]; auto. split; [exact Hd|]. apply Z.add_0_r.
  - intros [Hd ->]. exists (zint sy, zint sm, zint sd), 0, 0, 0, 0, [].
    split; [exact T0|]. split; [exact Hd|]. split; [unfold valid_time; lia|]. symmetry. apply Z.add_0_r.
Qed.

(** A date followed by a newline is refused once completed. *)
Lemma newline_inside (a b : str) sy sm sd n t :
  D 4 sy -> D 2 sm -> D 2 sd ->
  n = 4%nat \/ n = 7%nat \/ n = 10%nat -> length a = n ->
  datetime_no_fraction (a ++ 10%N :: b) = Ok t -> False.
Proof.
  intros _ _ _ Hn La H. apply dnf_iff in H as [x [hh [mm [ss [off [nl [HT _]]]]]]].
  destruct HT as [sx [sh [si [sec [tz [Hx [_ [_ [_ [_ [_ E]]]]]]]]]]].
  apply date_fields in Hx as [sy' [sm' [sd' [K1 [K2 [K3 [-> ->]]]]]]].
  apply D4_expl in K1 as [? [? [? [? [-> _]]]]]. apply D2_expl in K2 as [? [? [-> _]]].
  apply D2_expl in K3 as [? [? [-> _]]].
  assert (X : nth_error (a ++ 10%N :: b) n = Some 10%N).
  { rewrite nth_error_app2 by lia. rewrite La, Nat.sub_diag. reflexivity. }
  rewrite E in X. destruct Hn as [->|[->| ->]]; discriminate X.
Qed.

Lemma D_digit48 : is_digit 48%N = true /\ is_digit 49%N = true.
Proof. split; reflexivity. Qed.
Lemma D_01 : D 2 (`"01").
Proof. split; [reflexivity|repeat constructor]. Qed.
Lemma z01 : zint (`"01") = 1.
Proof. reflexivity. Qed.

Lemma T_text_T s x hh mm ss off nl : T_text s x hh mm ss off nl -> In 84%N s.
Proof.
  intros [sx [sh [si [sec [tz [Hx [Hh [Hm [Hs [Htz [Hnl ->]]]]]]]]]]].
  apply in_app_iff. right. now left.
Qed.

Lemma T_text_w3c s x hh mm ss off nl : T_text s x hh mm ss off nl <->
  exists sx sh sm tz, date_text x sx /\ num2 hh sh /\ num2 mm sm /\ tz_text off tz /\ opt_newline nl /\
   ((ss = 0 /\ s = sx ++ `"T" ++ sh ++ `":" ++ sm ++ tz ++ nl) \/
    (exists s2, num2 ss s2 /\ s = sx ++ `"T" ++ sh ++ `":" ++ sm ++ `":" ++ s2 ++ tz ++ nl)).
Proof.
  split.
  - intros [sx [sh [si [sec [tz [Hx [Hh [Hm [Hs [Htz [Hnl ->]]]]]]]]]]].
    exists sx, sh, si, tz. do 5 (split; [assumption|]).
    destruct Hs as [[-> ->]|[s2 [Hs ->]]]; [left; auto|right]. exists s2. auto.
  - intros [sx [sh [si [tz [Hx [Hh [Hm [Htz [Hnl [[-> ->]|[s2 [Hs ->]]]]]]]]]]]].
    + exists sx, sh, si, [], tz. do 3 (split; [assumption|]). split; [left; auto|]. auto.
    + exists sx, sh, si, (`":" ++ s2), tz. do 3 (split; [assumption|]).
      split; [right; eauto|]. split; [assumption|]. split; [assumption|]. rewrite <- !app_assoc. reflexivity.
Qed.

Lemma str_to_datetime_iff s t frac : str_to_datetime s = Ok (t, frac) <->
  exists x hh mm ss off nl, w3c_text s x hh mm ss frac off nl /\ valid_date x /\ valid_time hh mm ss /\
    t = tgm x hh mm ss + off.
Proof.
  split.
  - intros H. destruct s as [|c0 s0]; [discriminate|]. unfold str_to_datetime in H.
    remember (c0 :: s0) as s eqn:Es. clear Es c0 s0.
    unfold complete_date in H. destruct (re_match re_date s) as [m|] eqn:Em.
    + apply Den_date_some in Em as [sy [nl [H1 [Hnl Hc]]]].
      assert (Y : forall a b : str, length a = 4%nat \/ length a = 7%nat \/ length a = 10%nat -> nodot a -> nodot b ->
         (let '(s2, fr) := chop_fraction (a ++ 10%N :: b) in
          let* t := datetime_no_fraction s2 in Ok (t, fr)) = Ok (t, frac) -> False).
      { intros a b L Na Nb K.
        rewrite chop_fraction_nodot in K.
        2:{ apply nodot_app; [exact Na|]. intros [Q|Q]; [discriminate|auto]. }
        apply ebind_ok in K as [t' [K _]].
        eapply (newline_inside a b sy _ _ (length a)); [exact H1|apply D_01|apply D_01|exact L|reflexivity|exact K]. }
      assert (Z0 : forall (l : str), forallb (fun c => negb (c =? 46)%N) l = true -> nodot l).
      { intros l Hl Hi. rewrite forallb_forall in Hl. apply Hl in Hi. discriminate. }
      destruct Hc as [[-> E1]|[[sm [z [H2 [-> [E1 E2]]]]]|[sm [sd [z [z' [H2 [H3 [-> [E1 E2]]]]]]]]]].
      * rewrite E1 in H. destruct Hnl as [->| ->].
        -- rewrite app_nil_r in *. pose proof (completed_ok sy (`"01") (`"01") t H1 D_01 D_01) as C.
           replace (base_text sy (`"01") (`"01") (`"00") (`"00") (`":00") ++ `"Z")
             with ((sy ++ `"-01-01") ++ `"T00:00:00Z") in C by (unfold base_text; rewrite <- !app_assoc; reflexivity).
           destruct (chop_fraction _) as [s2 fr]. destruct C as [-> C].
           apply ebind_ok in H as [t' [K H]]. apply Ok_inv in H. injection H as -> <-.
           apply C in K as [Hd ->].
           exists (zint sy, 1, 1), 0, 0, 0, 0, []. split; [apply W_year; now apply num4_zint|].
           split; [exact Hd|]. split; [unfold valid_time; lia|]. symmetry. apply Z.add_0_r.
        -- exfalso. revert H. rewrite <- !app_assoc. apply Y; [left; apply H1|eapply D_nodot; eauto|].
           apply Z0. reflexivity.
      * rewrite E1, E2 in H. destruct Hnl as [->| ->].
        -- rewrite app_nil_r in *. pose proof (completed_ok sy sm (`"01") t H1 H2 D_01) as C.
           replace (base_text sy sm (`"01") (`"00") (`"00") (`":00") ++ `"Z")
             with (((sy ++ `"-" ++ sm) ++ `"-01") ++ `"T00:00:00Z") in C by (unfold base_text; rewrite <- !app_assoc; reflexivity).
           destruct (chop_fraction _) as [s2 fr]. destruct C as [-> C].
           apply ebind_ok in H as [t' [K H]]. apply Ok_inv in H. injection H as -> <-.
           apply C in K as [Hd ->].
           exists (zint sy, zint sm, 1), 0, 0, 0, 0, []. split; [apply W_month; [now apply num4_zint|now apply num2_zint]|].
           split; [exact Hd|]. split; [unfold valid_time; lia|]. symmetry. apply Z.add_0_r.
        -- exfalso. revert H. replace (((sy ++ `"-" ++ sm ++ [10%N]) ++ `"-01") ++ `"T00:00:00Z")
             with ((sy ++ `"-" ++ sm) ++ 10%N :: `"-01T00:00:00Z") by (rewrite <- !app_assoc; reflexivity).
           apply Y.
           ++ right. left. rewrite !app_length. destruct H1 as [-> _], H2 as [-> _]. reflexivity.
           ++ apply nodot_app; [eapply D_nodot; eauto|]. apply nodot_app; [now apply Z0|eapply D_nodot; eauto].
           ++ now apply Z0.
      * rewrite E1, E2 in H. destruct Hnl as [->| ->].
        -- rewrite app_nil_r in *. pose proof (completed_ok sy sm sd t H1 H2 H3) as C.
           replace (base_text sy sm sd (`"00") (`"00") (`":00") ++ `"Z")
             with ((sy ++ `"-" ++ sm ++ `"-" ++ sd) ++ `"T00:00:00Z") in C by (unfold base_text; rewrite <- !app_assoc; reflexivity).
           destruct (chop_fraction _) as [s2 fr]. destruct C as [-> C].
           apply ebind_ok in H as [t' [K H]]. apply Ok_inv in H. injection H as -> <-.
           apply C in K as [Hd ->].
           exists (zint sy, zint sm, zint sd), 0, 0, 0, 0, []. split; [apply W_date; now apply fields_date|].
           split; [exact Hd|]. split; [unfold valid_time; lia|]. symmetry. apply Z.add_0_r.
        -- exfalso. revert H. replace ((sy ++ `"-" ++ sm ++ `"-" ++ sd ++ [10%N]) ++ `"T00:00:00Z")
             with ((sy ++ `"-" ++ sm ++ `"-" ++ sd) ++ 10%N :: `"T00:00:00Z") by (rewrite <- !app_assoc; reflexivity).
           apply Y.
           ++ right. right. rewrite !app_length. destruct H1 as [-> _], H2 as [-> _], H3 as [-> _]. reflexivity.
           ++ repeat (apply nodot_app; [first [eapply D_nodot; eassumption|now apply Z0]|]). eapply D_nodot; eauto.
           ++ now apply Z0.
    + unfold chop_fraction in H. destruct (re_match re_frac s) as [m|] eqn:Ef.
      * apply re_frac_some in Ef as [p [hh [mm [ss [fr [g3 [rest [-> [Hp [Dh [Dm [Ds [Hfr [Ffr [Hg [Hr [E1 [E2 E3]]]]]]]]]]]]]]]]]].
        rewrite E1, E2, E3 in H. apply ebind_ok in H as [t' [K H]]. apply Ok_inv in H.
        change (tl (`"." ++ fr)) with fr in H. injection H as -> <-.
        apply dnf_iff in K as [x [h' [m' [s' [off [nl [HT [Hd [Hv ->]]]]]]]]].
        destruct HT as [sx [sh [si [sec [tz [Hx [Hh [Hm [Hs [Htz [Hnl E]]]]]]]]]]].
        apply date_fields in Hx as Hx'. destruct Hx' as [sy [sm [sd [K1 [K2 [K3 [-> ->]]]]]]].
        rewrite <- base_text_date in E.
        assert (K6 : sec_ok sec).
        { destruct Hs as [[-> ->]|[s2 [Hs ->]]]; [now left|]. apply num2_zint in Hs as [K6 _]. right. eauto. }
        apply num2_zint in Hh as Hh'. destruct Hh' as [K4 _]. apply num2_zint in Hm as Hm'. destruct Hm' as [K5 _].
        apply colons in E as [Eb [Hne ->]]; auto; [|eapply tz_text_shape; eauto].
        destruct Hs as [[-> _]|[s2 [Hs ->]]]; [congruence|].
        rewrite Eb.
        exists (zint sy, zint sm, zint sd), h', m', s', off, (nl ++ rest).
        split; [|split; [exact Hd|split; [exact Hv|reflexivity]]].
        replace (base_text sy sm sd sh si (`":" ++ s2) ++ `"." ++ fr ++ (tz ++ nl) ++ rest) with
          ((sy ++ `"-" ++ sm ++ `"-" ++ sd) ++ `"T" ++ sh ++ `":" ++ si ++ `":" ++ s2 ++ `"." ++ fr ++ tz ++ nl ++ rest)
          by (unfold base_text; rewrite <- !app_assoc; reflexivity).
        apply W_fraction; auto.
        -- split; [exact Hfr|]. intros c Hc. rewrite Forall_forall in Ffr. apply dig_is_digit, Ffr, Hc.
        -- assert (N : nl = [10%N] -> tz <> [] -> False).
           { intros -> Htn. destruct Hg as [Hg|[c [r [Hg [_ Fr]]]]].
             - destruct tz; [congruence|discriminate].
             - destruct tz as [|c' tz']; [congruence|]. cbn [app] in Hg. injection Hg as <- <-.
               rewrite Forall_app in Fr. destruct Fr as [_ Fr]. apply Forall_inv in Fr. vm_compute in Fr. discriminate. }
           destruct Hnl as [->| ->]; [destruct Hr as [->| ->]; auto|].
           destruct tz as [|c tz]; [|exfalso; apply N; [reflexivity|discriminate]].
           destruct Hr as [->| ->]; auto.
      * apply ebind_ok in H as [t' [K H]]. apply Ok_inv in H. injection H as -> <-.
        apply dnf_iff in K as [x [h' [m' [s' [off [nl [HT [Hd [Hv ->]]]]]]]]].
        exists x, h', m', s', off, nl. split; [|split; [exact Hd|split; [exact Hv|reflexivity]]].
        apply T_text_w3c in HT as [sx [sh [si [tz [Hx [Hh [Hm [Htz [Hnl [[-> ->]|[s2 [Hs ->]]]]]]]]]]]].
        -- apply W_minutes; auto.
        -- apply W_seconds; auto.
  - intros [x [hh [mm [ss [off [nl [HW [Hd [Hv ->]]]]]]]]].
    assert (Tcase : forall s, T_text s x hh mm ss off nl -> str_to_datetime s = Ok (tgm x hh mm ss + off, [])).
    { intros u HT. assert (K : datetime_no_fraction u = Ok (tgm x hh mm ss + off)).
      { apply dnf_iff. exists x, hh, mm, ss, off, nl. auto. }
      pose proof (T_text_T _ _ _ _ _ _ _ HT) as HTT. unfold str_to_datetime.
      destruct u as [|c u]; [destruct HTT|]. remember (c :: u) as v. clear Heqv c u.
      unfold complete_date. rewrite (re_date_T v HTT). rewrite chop_fraction_nodot by (eapply T_text_nodot; eauto).
      rewrite K. reflexivity. }
    destruct HW as [y sy N1|y m sy sm N1 N2|x sx Hx|x sx hh mm sh sm off tz nl Hx Hh Hm Ht Hnl
      |x sx hh mm ss sh sm s2 off tz nl Hx Hh Hm Hs Ht Hnl|x sx hh mm ss sh sm s2 frac off tz nl Hx Hh Hm Hs Hf Ht Hnl].
    + apply num4_zint in N1 as [H1 ->]. destruct (re_date_year sy H1) as [m [Em E1]].
      pose proof (completed_ok sy (`"01") (`"01") (tgm (zint sy, 1, 1) 0 0 0) H1 D_01 D_01) as C.
      unfold str_to_datetime, complete_date. rewrite Em, E1.
      replace (base_text sy (`"01") (`"01") (`"00") (`"00") (`":00") ++ `"Z")
        with ((sy ++ `"-01-01") ++ `"T00:00:00Z") in C by (unfold base_text; rewrite <- !app_assoc; reflexivity).
      destruct (chop_fraction _) as [u fr]. destruct C as [-> C].
      replace (datetime_no_fraction u) with (Ok (tgm (zint sy, 1, 1) 0 0 0)) by (symmetry; apply C; auto).
      destruct sy; [destruct H1; discriminate|]. cbn [ebind]. rewrite Z.add_0_r. reflexivity.
    + apply num4_zint in N1 as [H1 ->]. apply num2_zint in N2 as [H2 ->].
      destruct (re_date_month sy sm H1 H2) as [m [z [Em [E1 E2]]]].
      pose proof (completed_ok sy sm (`"01") (tgm (zint sy, zint sm, 1) 0 0 0) H1 H2 D_01) as C.
      unfold str_to_datetime, complete_date. rewrite Em, E1, E2.
      replace (base_text sy sm (`"01") (`"00") (`"00") (`":00") ++ `"Z")
        with (((sy ++ `"-" ++ sm) ++ `"-01") ++ `"T00:00:00Z") in C by (unfold base_text; rewrite <- !app_assoc; reflexivity).
      destruct (chop_fraction _) as [u fr]. destruct C as [-> C].
      replace (datetime_no_fraction u) with (Ok (tgm (zint sy, zint sm, 1) 0 0 0)) by (symmetry; apply C; auto).
      destruct sy; [destruct H1; discriminate|]. cbn [ebind app]. rewrite Z.add_0_r. reflexivity.
    + apply date_fields in Hx as [sy [sm [sd [H1 [H2 [H3 [-> ->]]]]]]].
      destruct (re_date_day sy sm sd H1 H2 H3) as [m [z [z' [Em [E1 E2]]]]].
      pose proof (completed_ok sy sm sd (tgm (zint sy, zint sm, zint sd) 0 0 0) H1 H2 H3) as C.
      unfold str_to_datetime, complete_date. rewrite Em, E1, E2.
      replace (base_text sy sm sd (`"00") (`"00") (`":00") ++ `"Z")
        with ((sy ++ `"-" ++ sm ++ `"-" ++ sd) ++ `"T00:00:00Z") in C by (unfold base_text; rewrite <- !app_assoc; reflexivity).
      destruct (chop_fraction _) as [u fr]. destruct C as [-> C].
      replace (datetime_no_fraction u) with (Ok (tgm (zint sy, zint sm, zint sd) 0 0 0)) by (symmetry; apply C; auto).
      destruct sy; [destruct H1; discriminate|]. cbn [ebind app]. rewrite Z.add_0_r. reflexivity.
    + apply Tcase. apply T_text_w3c. exists sx, sh, sm, tz. do 5 (split; [assumption|]). left. auto.
    + apply Tcase. apply T_text_w3c. exists sx, sh, sm, tz. do 5 (split; [assumption|]). right. eauto.
    + clear Tcase. apply date_fields in Hx as Hx'. destruct Hx' as [sy [so [sd [H1 [H2 [H3 [-> ->]]]]]]].
      apply num2_zint in Hh as [H4 ->]. apply num2_zint in Hm as [H5 ->]. apply num2_zint in Hs as [H6 ->].
      destruct Hf as [Hfn Hf].
      destruct (chop_fraction_complete sy so sd sh sm s2 frac tz nl) as [nl' [Hnl' Ec]]; auto.
      { apply Forall_forall. intros c Hc. apply dig_is_digit. auto. }
      { eapply tz_text_shape; eauto. }
      replace ((sy ++ `"-" ++ so ++ `"-" ++ sd) ++ `"T" ++ sh ++ `":" ++ sm ++ `":" ++ s2 ++ `"." ++ frac ++ tz ++ nl) with
        (base_text sy so sd sh sm (`":" ++ s2) ++ `"." ++ frac ++ tz ++ nl)
        by (unfold base_text; rewrite <- !app_assoc; reflexivity).
      unfold str_to_datetime.
      destruct (base_text sy so sd sh sm (`":" ++ s2) ++ `"." ++ frac ++ tz ++ nl) as [|c0 u0] eqn:Eu.
      { unfold base_text in Eu. destruct sy; [destruct H1; discriminate|discriminate]. }
      unfold complete_date. rewrite re_date_T.
      2:{ rewrite <- Eu. unfold base_text. rewrite <- !app_assoc. rewrite !in_app_iff. do 5 right. left. now left. }
      rewrite Ec.
      assert (K : datetime_no_fraction (base_text sy so sd sh sm (`":" ++ s2) ++ tz ++ nl') =
        Ok (tgm (zint sy, zint so, zint sd) (zint sh) (zint sm) (zint s2) + off)).
      { apply dnf_iff. exists (zint sy, zint so, zint sd), (zint sh), (zint sm), (zint s2), off, nl'.
        split; [|split; [exact Hd|split; [exact Hv|reflexivity]]].
        exists (sy ++ `"-" ++ so ++ `"-" ++ sd), sh, sm, (`":" ++ s2), tz.
        split; [now apply fields_date|]. split; [now apply num2_zint|]. split; [now apply num2_zint|].
        split; [right; exists s2; split; [now apply num2_zint|reflexivity]|]. split; [exact Ht|]. split; [exact Hnl'|].
        apply base_text_date. }
      rewrite K. reflexivity.
Qed.

(** * Writing *)
Lemma fmt_d_D w n : (1 <= w)%nat -> 0 <= n -> n < 10 ^ Z.of_nat w -> D w (fmt_d w n) /\ zint (fmt_d w n) = n.
Proof.
  intros Hw Hn Hlt. unfold fmt_d.
  assert (L : (length (str_of_N (Z.to_N n)) <= w)%nat).
  { apply str_of_N_length; [lia|].
    rewrite <- (Z2N.id n) in Hlt by lia. change 10 with (Z.of_N 10) in Hlt.
    rewrite <- nat_N_Z, <- N2Z.inj_pow in Hlt. lia. }
  assert (F : Forall (fun c => is_ascii_digit c = true) (zero_pad w (str_of_N (Z.to_N n)))).
  { unfold zero_pad. apply Forall_app. split; [|apply str_of_N_digits].
    apply Forall_forall. intros c Hc. apply repeat_spec in Hc. subst c. reflexivity. }
  split; [split|].
  - rewrite zero_pad_length. lia.
  - eapply Forall_impl; [|exact F]. intros c Hc. now apply ascii_is_digit.
  - unfold zint. rewrite int_of_digits_ascii by exact F. rewrite digits_val_zero_pad. lia.
Qed.

Lemma datetime_to_str_text t s : datetime_to_str t = Ok s ->
  exists x hh mm ss, w3c_text s x hh mm ss [] 0 [] /\ valid_date x /\ valid_time hh mm ss /\ t = tgm x hh mm ss.
Proof.
  unfold datetime_to_str. pose proof (ord2ymd_ok (t / 86400 + EPOCH_ORD)) as K.
  destruct (_ || _) eqn:Eb; [discriminate|].
  apply orb_false_iff in Eb. rewrite !Z.ltb_ge in Eb.
  destruct (ord2ymd (t / 86400 + EPOCH_ORD)) as [[y m] d].
  intros H. apply Ok_inv in H. subst s.
  destruct K as [Hv Ho]; [lia|].
  assert (Hy : y <= 9999).
  { pose proof (ord_year y m d Hv) as Hy. rewrite Ho in Hy.
    destruct (Z.le_gt_cases y 9999); [auto|exfalso].
    assert (G : days_before_year 10000 = 3652059) by reflexivity.
    destruct (Z.eq_dec y 10000) as [->|]; [lia|].
    pose proof (dby_mono 10000 y ltac:(lia)) as M. pose proof (days_before_year_S 10000) as S0. rewrite G in S0.
    destruct (leap 10000); lia. }
  assert (Hvd : valid_date (y, m, d)) by (apply valid_date_vdate; auto).
  set (secs := t mod 86400). assert (0 <= secs < 86400) by (unfold secs; lia).
  destruct Hv as [Hy1 [Hm Hd]]. pose proof (dim_range y m).
  destruct (fmt_d_D 4 y) as [D1 Z1]; [lia..|]. destruct (fmt_d_D 2 m) as [D2 Z2]; [lia..|].
  destruct (fmt_d_D 2 d) as [D3 Z3]; [lia..|]. destruct (fmt_d_D 2 (secs / 3600)) as [D4 Z4]; [lia..|].
  destruct (fmt_d_D 2 ((secs / 60) mod 60)) as [D5 Z5]; [lia..|].
  destruct (fmt_d_D 2 (secs mod 60)) as [D6 Z6]; [lia..|].
  exists (y, m, d), (secs / 3600), ((secs / 60) mod 60), (secs mod 60).
  split; [|split; [exact Hvd|split; [unfold valid_time; lia|]]].
  - pose proof (W_seconds (y, m, d) (fmt_d 4 y ++ `"-" ++ fmt_d 2 m ++ `"-" ++ fmt_d 2 d)
      (secs / 3600) ((secs / 60) mod 60) (secs mod 60)
      (fmt_d 2 (secs / 3600)) (fmt_d 2 ((secs / 60) mod 60)) (fmt_d 2 (secs mod 60)) 0 (`"Z") []) as W.
    rewrite <- !app_assoc in W. rewrite app_nil_r in W. apply W.
    + rewrite <- Z1 at 1. rewrite <- Z2 at 1. rewrite <- Z3 at 1. now apply fields_date.
    + apply num2_zint. auto.
    + apply num2_zint. auto.
    + apply num2_zint. auto.
    + constructor.
    + now left.
  - unfold tgm, timegm. unfold ord in Ho. unfold toordinal in *.
    assert (t = t / 86400 * 86400 + secs) by (unfold secs; lia).
    assert (secs = secs / 3600 * 3600 + (secs / 60) mod 60 * 60 + secs mod 60) by lia. lia.
Qed.

Lemma datetime_to_str_total t : -62135596800 <= t < 253402300800 -> exists s, datetime_to_str t = Ok s.
Proof.
  intros H. unfold datetime_to_str, EPOCH_ORD.
  destruct (_ || _) eqn:Eb.
  - apply orb_true_iff in Eb. rewrite !Z.ltb_lt in Eb. lia.
  - destruct (ord2ymd _) as [[y m] d]. eauto.
Qed.
