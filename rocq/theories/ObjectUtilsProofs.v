(** Proofs about ObjectUtilsModel. *)
From Verif Require Import Base Unicode Regex ObjectUtilsModel.

(** A non-empty string of decimal digits. *)
Definition digit_string (ds : str) : Prop := ds <> [] /\ Forall (fun c => is_digit c = true) ds.
Definition opt_newline (nl : str) : Prop := nl = [] \/ nl = [10%N].

Lemma digit_value_ascii c : is_ascii_digit c = true -> digit_value c = Some (c - 48)%N.
Proof.
  unfold is_ascii_digit, digit_value. intros H. apply andb_true_iff in H as [H1 H2].
  apply N.leb_le in H1, H2. unfold nd_zeros. simpl find.
  destruct (N.leb_spec 48 c); [|lia]. destruct (N.ltb_spec c (48 + 10)); [|lia]. reflexivity.
Qed.

Lemma ascii_is_digit c : is_ascii_digit c = true -> is_digit c = true.
Proof. intros H. unfold is_digit. now rewrite digit_value_ascii. Qed.

Lemma ascii_digit_or_0 c : is_ascii_digit c = true -> digit_or_0 c = (c - 48)%N.
Proof. intros H. unfold digit_or_0. now rewrite digit_value_ascii. Qed.

Lemma int_of_digits_ascii s :
  Forall (fun c => is_ascii_digit c = true) s -> int_of_digits s = digits_val s.
Proof.
  unfold int_of_digits, digits_val. generalize 0%N.
  induction s as [|c s IH]; simpl; intros a H; [reflexivity|].
  inversion H; subst. rewrite ascii_digit_or_0 by auto. auto.
Qed.

Lemma newline_not_digit : is_digit 10 = false.
Proof. reflexivity. Qed.

Lemma digits_nl_unique d1 n1 d2 n2 :
  Forall (fun c => is_digit c = true) d1 -> Forall (fun c => is_digit c = true) d2 ->
  opt_newline n1 -> opt_newline n2 -> d1 ++ n1 = d2 ++ n2 -> d1 = d2 /\ n1 = n2.
Proof.
  intros F1 F2 O1 O2. revert d2 F2.
  induction F1 as [|c d1 Hc F1 IH]; intros d2 F2 E; simpl in E.
  - destruct d2 as [|c2 d2]; [auto|]. pose proof (Forall_inv F2) as Hc2.
    destruct O1 as [-> | ->]; simpl in E; [discriminate|]. inversion E; subst.
    rewrite newline_not_digit in Hc2; discriminate.
  - destruct d2 as [|c2 d2].
    + simpl in E. destruct O2 as [-> | ->]; [discriminate|]. inversion E; subst.
      rewrite newline_not_digit in Hc; discriminate.
    + inversion E; subst. inversion F2; subst. destruct (IH d2) as [-> ->]; auto.
Qed.

Lemma re_next_version_some v m :
  re_match re_next_version v = Some m ->
  exists c ds nl, v = `"v" ++ (c :: ds) ++ nl /\ digit_string (c :: ds) /\ opt_newline nl /\
    group_or_nil 1 m = c :: ds /\ group_or_nil 2 m = [c].
Proof.
  intros H. apply re_match_sound in H as [x [rest [-> HD]]].
  unfold re_next_version in HD. apply Den_seq in HD as [p [y [c1 [-> [H1 H2]]]]].
  apply Den_lit in H1 as [-> ->].
  apply Den_seq in H2 as [q [z [c2 [-> [H2 H3]]]]].
  apply Den_dol in H3 as [-> [-> Hnl]].
  apply Den_grp in H2 as [c3 [-> H2]].
  apply Den_seq in H2 as [g [t [c4 [-> [H2 H3]]]]].
  apply Den_grp in H2 as [c5 [-> H2]]. apply Den_chr in H2 as [a [-> [Ha ->]]].
  apply Den_star_chr in H3 as [Hf ->].
  exists a, t, rest. repeat split; auto.
  - rewrite app_nil_r. now rewrite <- !app_assoc.
  - discriminate.
Qed.

Lemma re_next_version_none v :
  re_match re_next_version v = None ->
  ~ exists ds nl, v = `"v" ++ ds ++ nl /\ digit_string ds /\ opt_newline nl.
Proof.
  intros H [ds [nl [-> [[Hn Hf] Ho]]]].
  destruct ds as [|c ds]; [congruence|]. inversion Hf; subst.
  revert H. eapply re_match_complete with (x := `"v" ++ (c :: ds)) (rest := nl).
  - now rewrite <- app_assoc.
  - apply Den_seq. exists (`"v"), (c :: ds), []. split; [reflexivity|]. split; [apply Den_lit; auto|].
    apply Den_seq. exists (c :: ds), [], [(1%nat, c :: ds); (2%nat, [c])].
    split; [now rewrite app_nil_r|]. split.
    + apply Den_grp. eexists; split; [reflexivity|].
      apply Den_seq. exists [c], ds, [(2%nat, [c])]. split; [reflexivity|]. split.
      * apply Den_grp. eexists; split; [reflexivity|]. apply Den_chr; eauto.
      * apply Den_star_chr; auto.
    + apply Den_dol; auto.
Qed.

(** Specification of next_version_directory, by result. *)
Definition next_spec (v : str) (r : exc str) : Prop :=
  match r with
  | Ok w =>
      exists c ds nl, v = `"v" ++ (c :: ds) ++ nl /\ digit_string (c :: ds) /\ opt_newline nl /\
        if N.eqb c 48
        then exists ds', w = `"v0" ++ ds' /\ Forall (fun c => is_ascii_digit c = true) ds' /\
               List.length w = List.length v /\ digits_val ds' = (int_of_digits (c :: ds) + 1)%N
        else w = `"v" ++ str_of_N (int_of_digits (c :: ds) + 1)
  | Raise e =>
      e = ObjectException /\
      ((~ exists ds nl, v = `"v" ++ ds ++ nl /\ digit_string ds /\ opt_newline nl) \/
       exists ds nl, v = `"v0" ++ ds ++ nl /\ Forall (fun c => is_digit c = true) ds /\
         opt_newline nl /\
         (10 ^ N.of_nat (List.length v - 2) <= int_of_digits ds + 1)%N)
  end.

Lemma repeat_ascii k : Forall (fun c => is_ascii_digit c = true) (repeat 48%N k).
Proof. induction k; simpl; constructor; auto. Qed.

Lemma zero_pad_ascii w n : Forall (fun c => is_ascii_digit c = true) (zero_pad w (str_of_N n)).
Proof. unfold zero_pad. apply Forall_app; split; [apply repeat_ascii|apply str_of_N_digits]. Qed.

Lemma next_version_directory_correct v : next_spec v (next_version_directory v).
Proof.
  unfold next_version_directory.
  destruct (re_match re_next_version v) as [m|] eqn:E.
  - apply re_next_version_some in E as [c [ds [nl [Ev [Hd [Ho [-> ->]]]]]]].
    simpl str_eqb. rewrite andb_true_r.
    destruct (N.eqb_spec c 48) as [->|Hc].
    + set (n := (int_of_digits (48%N :: ds) + 1)%N).
      destruct (Nat.eqb_spec (List.length (`"v0" ++ zero_pad (List.length v - 2) (str_of_N n))) (List.length v)) as [Hl|Hl].
      * simpl. exists 48%N, ds, nl. repeat split; auto; try apply Hd. simpl.
        exists (zero_pad (List.length v - 2) (str_of_N n)). repeat split; auto.
        -- apply zero_pad_ascii.
        -- apply digits_val_zero_pad.
      * simpl. split; auto. right. exists ds, nl. repeat split; auto.
        -- destruct Hd as [_ Hd]. inversion Hd; auto.
        -- rewrite app_length, zero_pad_length in Hl. change (List.length (`"v0")) with 2%nat in Hl.
           assert (Hlv : (2 <= List.length v)%nat).
           { rewrite Ev. simpl. lia. }
           assert (Hn : n = (int_of_digits ds + 1)%N) by reflexivity.
           destruct (N.le_gt_cases (10 ^ N.of_nat (List.length v - 2)) (int_of_digits ds + 1)) as [Hle|Hgt]; auto.
           exfalso. apply Hl.
           destruct (Nat.eq_dec (List.length v - 2) 0) as [Hz|Hz].
           { rewrite Hz in Hgt. change (10 ^ N.of_nat 0)%N with 1%N in Hgt. lia. }
           rewrite <- Hn in Hgt. apply str_of_N_length in Hgt; lia.
    + simpl. exists c, ds, nl. repeat split; auto; try apply Hd.
      destruct (N.eqb_spec c 48); [congruence|reflexivity].
  - simpl. split; auto. left. now apply re_next_version_none.
Qed.

(** parse_version_directory *)
Definition parse_spec (v : str) (r : exc N) : Prop :=
  match r with
  | Ok n => exists ds nl, v = `"v" ++ ds ++ nl /\ digit_string ds /\ opt_newline nl /\
              (List.length ds <= 5)%nat /\ n = int_of_digits ds /\ n <> 0%N
  | Raise e => e = ObjectException /\
      ~ exists ds nl, v = `"v" ++ ds ++ nl /\ digit_string ds /\ opt_newline nl /\
              (List.length ds <= 5)%nat /\ int_of_digits ds <> 0%N
  end.

Lemma re_version_dir_some v m :
  re_match re_version_dir v = Some m ->
  exists ds nl, v = `"v" ++ ds ++ nl /\ digit_string ds /\ opt_newline nl /\
    (List.length ds <= 5)%nat /\ group_or_nil 1 m = ds.
Proof.
  intros H. apply re_match_sound in H as [x [rest [-> HD]]].
  unfold re_version_dir in HD. apply Den_seq in HD as [p [y [c1 [-> [H1 H2]]]]].
  apply Den_lit in H1 as [-> ->].
  apply Den_seq in H2 as [q [z [c2 [-> [H2 H3]]]]].
  apply Den_dol in H3 as [-> [-> Hnl]].
  apply Den_grp in H2 as [c3 [-> H2]]. apply Den_range_chr in H2 as [Hl [Hf ->]]; [|lia].
  exists q, rest. repeat split; auto; try lia.
  - rewrite app_nil_r. now rewrite <- !app_assoc.
  - intros ->. simpl in Hl; lia.
Qed.

Lemma re_version_dir_none v :
  re_match re_version_dir v = None ->
  ~ exists ds nl, v = `"v" ++ ds ++ nl /\ digit_string ds /\ opt_newline nl /\ (List.length ds <= 5)%nat.
Proof.
  intros H [ds [nl [-> [[Hn Hf] [Ho Hl]]]]].
  revert H. eapply re_match_complete with (x := `"v" ++ ds) (rest := nl).
  - now rewrite <- app_assoc.
  - apply Den_seq. exists (`"v"), ds, []. split; [reflexivity|]. split; [apply Den_lit; auto|].
    apply Den_seq. exists ds, [], [(1%nat, ds)].
    split; [now rewrite app_nil_r|]. split.
    + apply Den_grp. eexists; split; [reflexivity|].
      apply Den_range_chr; [lia|]. repeat split; auto.
      destruct ds; [congruence|simpl; lia].
    + apply Den_dol; auto.
Qed.

Lemma parse_version_directory_correct v : parse_spec v (parse_version_directory v).
Proof.
  unfold parse_version_directory.
  destruct (re_match re_version_dir v) as [m|] eqn:E.
  - apply re_version_dir_some in E as [ds [nl [Ev [Hd [Ho [Hl ->]]]]]].
    destruct (N.eqb_spec (int_of_digits ds) 0) as [Hz|Hz].
    + simpl. split; auto. intros [ds' [nl' [Ev' [Hd' [Ho' [Hl' Hn']]]]]].
      rewrite Ev in Ev'. simpl in Ev'. injection Ev' as Ev'.
      apply digits_nl_unique in Ev' as [-> _]; auto; [apply Hd|apply Hd'].
    + simpl. exists ds, nl; repeat split; auto; apply Hd.
  - simpl. split; auto. intros [ds [nl [Ev [Hd [Ho [Hl _]]]]]].
    apply (re_version_dir_none v E). exists ds, nl. auto.
Qed.

(** Convenience: parsing a version directory made of ASCII digits. *)
Lemma parse_version_ascii ds :
  ds <> [] -> Forall (fun c => is_ascii_digit c = true) ds -> (List.length ds <= 5)%nat ->
  digits_val ds <> 0%N ->
  parse_version_directory (`"v" ++ ds) = Ok (digits_val ds).
Proof.
  intros Hn Hf Hl Hz. pose proof (parse_version_directory_correct (`"v" ++ ds)) as H.
  assert (Hfd : Forall (fun c => is_digit c = true) ds).
  { eapply Forall_impl; [|eauto]. apply ascii_is_digit. }
  destruct (parse_version_directory (`"v" ++ ds)) as [n|e]; simpl in H.
  - destruct H as [ds' [nl [Ev [Hd [Ho [Hl' [-> _]]]]]]].
    injection Ev as Ev'. rewrite <- (app_nil_r ds) in Ev'.
    apply digits_nl_unique in Ev' as [<- _]; auto; [|apply Hd|left; auto].
    f_equal. now apply int_of_digits_ascii.
  - exfalso. apply H. exists ds, []. rewrite app_nil_r. repeat split; auto; [left; auto|].
    rewrite int_of_digits_ascii; auto.
Qed.

(** make_unused_filepath *)
Definition candidate (filepath sep : str) (n : N) : str :=
  if N.eqb n 1 then filepath else filepath ++ sep ++ str_of_N n.

Lemma candidate_inj filepath sep a b :
  (2 <= a)%N -> (2 <= b)%N ->
  candidate filepath sep a = candidate filepath sep b -> a = b.
Proof.
  unfold candidate. intros Ha Hb.
  destruct (N.eqb_spec a 1), (N.eqb_spec b 1); try lia.
  intros H. apply app_inv_head in H. apply app_inv_head in H. now apply str_of_N_inj.
Qed.

Lemma unused_loop_ok filepath sep used : forall fuel n r,
  (1 <= n)%N ->
  unused_loop fuel filepath sep used n (candidate filepath sep n) = Ok r ->
  exists k, (n <= k)%N /\ r = candidate filepath sep k /\ ~ In r used /\
    forall j, (n <= j)%N -> (j < k)%N -> In (candidate filepath sep j) used.
Proof.
  induction fuel as [|fuel IH]; intros n r Hn; simpl; [discriminate|].
  destruct (str_in_spec (candidate filepath sep n) used) as [Hi|Hi].
  - intros H.
    assert (Ec : filepath ++ sep ++ str_of_N (n + 1) = candidate filepath sep (n + 1)).
    { unfold candidate. destruct (N.eqb_spec (n + 1) 1); [lia|reflexivity]. }
    rewrite Ec in H. apply IH in H as [k [Hk [-> [Hni Hj]]]]; [|lia].
    exists k. repeat split; auto; [lia|].
    intros j Hj1 Hj2. destruct (N.eq_dec j n) as [->|]; auto. apply Hj; lia.
  - intros [= <-]. exists n. repeat split; auto; [lia|]. intros j H1 H2; lia.
Qed.

Lemma unused_loop_exn filepath sep used : forall fuel n e,
  (1 <= n)%N ->
  unused_loop fuel filepath sep used n (candidate filepath sep n) = Raise e ->
  forall j, (n <= j)%N -> (j < n + N.of_nat fuel)%N -> In (candidate filepath sep j) used.
Proof.
  induction fuel as [|fuel IH]; intros n e Hn; simpl.
  - intros _ j H1 H2. lia.
  - destruct (str_in_spec (candidate filepath sep n) used) as [Hi|Hi]; [|discriminate].
    intros H j H1 H2.
    assert (Ec : filepath ++ sep ++ str_of_N (n + 1) = candidate filepath sep (n + 1)).
    { unfold candidate. destruct (N.eqb_spec (n + 1) 1); [lia|reflexivity]. }
    rewrite Ec in H. destruct (N.eq_dec j n) as [->|]; auto.
    eapply IH in H; [exact H|lia|lia|lia].
Qed.

(** If candidate 1 (the plain name) equals a later one there is no loss: the plain
    name never equals filepath ++ sep ++ number because the number is non-empty. *)
Lemma candidate_inj1 filepath sep a b :
  (1 <= a)%N -> (1 <= b)%N ->
  candidate filepath sep a = candidate filepath sep b -> a = b.
Proof.
  intros Ha Hb H. destruct (N.eq_dec a 1) as [->|Ha1], (N.eq_dec b 1) as [->|Hb1]; auto.
  - unfold candidate in H. destruct (N.eqb_spec b 1); [lia|]. simpl in H.
    assert (E : filepath ++ [] = filepath ++ sep ++ str_of_N b) by now rewrite app_nil_r.
    apply app_inv_head in E. pose proof (str_of_N_nonnil b).
    destruct sep; simpl in E; [congruence|discriminate].
  - unfold candidate in H. destruct (N.eqb_spec a 1); [lia|]. simpl in H.
    assert (E : filepath ++ [] = filepath ++ sep ++ str_of_N a) by now rewrite app_nil_r.
    apply app_inv_head in E. pose proof (str_of_N_nonnil a).
    destruct sep; simpl in E; [congruence|discriminate].
  - apply candidate_inj in H; lia.
Qed.

Lemma make_unused_filepath_total filepath used sep :
  exists r, make_unused_filepath filepath used sep = Ok r.
Proof.
  unfold make_unused_filepath.
  destruct (unused_loop _ _ _ _ _ _) as [r|e] eqn:E; [eauto|]. exfalso.
  change filepath with (candidate filepath sep 1) in E at 2.
  pose proof (unused_loop_exn _ _ _ _ 1 _ ltac:(lia) E) as H.
  set (k := S (List.length used)) in *.
  set (l := map (fun i => candidate filepath sep (N.of_nat i + 1)) (seq 0 k)).
  assert (Hnd : NoDup l).
  { unfold l. apply FinFun.Injective_map_NoDup; [|apply seq_NoDup].
    intros a b Hab. apply candidate_inj1 in Hab; lia. }
  assert (Hincl : incl l used).
  { intros x Hx. unfold l in Hx. apply in_map_iff in Hx as [i [<- Hi]].
    apply in_seq in Hi. apply H; lia. }
  pose proof (NoDup_incl_length Hnd Hincl) as Hlen.
  unfold l in Hlen. rewrite map_length, seq_length in Hlen. unfold k in Hlen. lia.
Qed.

Lemma make_unused_filepath_spec filepath used sep r :
  make_unused_filepath filepath used sep = Ok r ->
  ~ In r used /\
  exists k, (1 <= k)%N /\ r = candidate filepath sep k /\
    forall j, (1 <= j)%N -> (j < k)%N -> In (candidate filepath sep j) used.
Proof.
  unfold make_unused_filepath. change filepath with (candidate filepath sep 1) at 2.
  intros H. apply unused_loop_ok in H as [k [Hk [-> [Hni Hj]]]]; [|lia].
  split; auto. exists k. auto.
Qed.
