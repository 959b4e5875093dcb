(** Properties C01 and C03: version directory names and unused file names. *)
From Verif Require Import Base Unicode Regex ObjectUtilsModel ObjectUtilsProofs.

Definition ascii_digits (ds : str) : Prop := Forall (fun c => is_ascii_digit c = true) ds.

(** ** C01 *)

(** An unpadded name v<n> is followed by v<n+1>. *)
Theorem C01_next_unpadded : forall c ds,
  is_ascii_digit c = true -> c <> 48%N -> ascii_digits ds ->
  next_version_directory (`"v" ++ c :: ds) = Ok (`"v" ++ str_of_N (digits_val (c :: ds) + 1)).
Proof.
  intros c ds Hc Hz Hf.
  pose proof (next_version_directory_correct (`"v" ++ c :: ds)) as H.
  assert (Hfd : Forall (fun c => is_digit c = true) (c :: ds)).
  { constructor; [now apply ascii_is_digit|]. eapply Forall_impl; [|eauto]. apply ascii_is_digit. }
  destruct (next_version_directory _) as [w|e]; simpl in H.
  - destruct H as [c' [ds' [nl [Ev [Hd [Ho H]]]]]].
    injection Ev as -> Ev'.
    assert (E2 : (c' :: ds) ++ [] = (c' :: ds') ++ nl) by (simpl; rewrite app_nil_r; congruence).
    apply digits_nl_unique in E2 as [E2 _]; auto; [|apply Hd|left; auto]. injection E2 as <-.
    destruct (N.eqb_spec c' 48); [congruence|]. rewrite H. do 3 f_equal.
    rewrite int_of_digits_ascii; auto.
  - destruct H as [_ [H|[ds' [nl [Ev _]]]]].
    + exfalso. apply H. exists (c :: ds), []. simpl. rewrite app_nil_r. repeat split; auto; [discriminate|left; auto].
    + injection Ev as -> _. congruence.
Qed.

(** A zero-padded name keeps its length and its leading zero, the number is one
    more, and the call fails exactly if n+1 does not fit. *)
Theorem C01_next_padded : forall ds,
  ascii_digits ds ->
  (exists ds', next_version_directory (`"v0" ++ ds) = Ok (`"v0" ++ ds') /\ ascii_digits ds' /\
     List.length ds' = List.length ds /\ digits_val ds' = (digits_val ds + 1)%N) \/
  (next_version_directory (`"v0" ++ ds) = Raise ObjectException /\
   (10 ^ N.of_nat (List.length ds) <= digits_val ds + 1)%N).
Proof.
  intros ds Hf.
  pose proof (next_version_directory_correct (`"v0" ++ ds)) as H.
  assert (Hfd : Forall (fun c => is_digit c = true) ds).
  { eapply Forall_impl; [|eauto]. apply ascii_is_digit. }
  destruct (next_version_directory _) as [w|e]; simpl in H.
  - left. destruct H as [c' [ds' [nl [Ev [Hd [Ho H]]]]]].
    injection Ev as <- Ev'.
    assert (E2 : ds ++ [] = ds' ++ nl) by (rewrite app_nil_r; congruence).
    assert (Hd' : Forall (fun c => is_digit c = true) ds') by (destruct Hd as [_ Hd]; inversion Hd; auto).
    apply digits_nl_unique in E2 as [<- _]; auto; [|left; auto].
    simpl in H. destruct H as [ds'' [-> [Ha [Hl Hv]]]].
    exists ds''. repeat split; auto.
    + simpl in Hl. lia.
    + rewrite Hv. rewrite int_of_digits_ascii; auto.
  - right. destruct H as [-> [H|[ds' [nl [Ev [Hd [Ho H]]]]]]].
    + exfalso. apply H. exists (48%N :: ds), []. simpl. rewrite app_nil_r.
      repeat split; auto; [discriminate|left; auto].
    + injection Ev as Ev'. assert (E2 : ds ++ [] = ds' ++ nl) by (rewrite app_nil_r; congruence).
      apply digits_nl_unique in E2 as [<- _]; auto; [|left; auto].
      split; auto. rewrite Nat.sub_0_r in H. now rewrite int_of_digits_ascii in H.
Qed.

(** For every string whatsoever: what each outcome means. In particular the only
    exception is ObjectException, raised for names that are not v<digits> (with
    Python's [$], one final newline is tolerated) and for padded overflow. *)
Theorem C01_next_all_strings : forall v, next_spec v (next_version_directory v).
Proof. exact next_version_directory_correct. Qed.

(** Reading the number back gives one more, as long as both names have at most
    five digits, which is all parse_version_directory understands. *)
Theorem C01_parse_next : forall v w n,
  next_version_directory v = Ok w -> parse_version_directory v = Ok n -> (List.length w <= 6)%nat ->
  parse_version_directory w = Ok (n + 1)%N.
Proof.
  intros v w n Hn Hp Hl.
  pose proof (next_version_directory_correct v) as H1. rewrite Hn in H1. simpl in H1.
  pose proof (parse_version_directory_correct v) as H2. rewrite Hp in H2. simpl in H2.
  destruct H1 as [c [ds [nl [Ev [Hd [Ho H1]]]]]].
  destruct H2 as [ds2 [nl2 [Ev2 [Hd2 [Ho2 [Hl2 [-> Hz]]]]]]].
  rewrite Ev in Ev2. simpl in Ev2. injection Ev2 as Ev2.
  change (c :: ds ++ nl) with ((c :: ds) ++ nl) in Ev2.
  apply digits_nl_unique in Ev2 as [<- _]; auto; [|apply Hd|apply Hd2].
  destruct (N.eqb c 48).
  - destruct H1 as [ds' [-> [Ha [_ Hv]]]].
    change (`"v0" ++ ds') with (`"v" ++ 48%N :: ds').
    assert (Hv' : digits_val (48%N :: ds') = digits_val ds') by reflexivity.
    rewrite <- Hv, <- Hv'. apply parse_version_ascii.
    + discriminate.
    + constructor; auto.
    + simpl in *. lia.
    + lia.
  - subst w. rewrite <- (digits_val_str_of_N (int_of_digits (c :: ds) + 1)) at 2.
    apply parse_version_ascii.
    + apply str_of_N_nonnil.
    + apply str_of_N_digits.
    + simpl in Hl. lia.
    + rewrite digits_val_str_of_N. lia.
Qed.

Theorem C01_parse_all_strings : forall v, parse_spec v (parse_version_directory v).
Proof. exact parse_version_directory_correct. Qed.

(** first_version_directory succeeds exactly for no width and the widths 2 to 5; the
    name has the number 1 and, if padded, that many digits with a leading zero. *)
Theorem C01_first : forall w,
  match w with None => True | Some z => (2 <= z <= 5)%Z end ->
  exists ds, first_version_directory w = Ok (`"v" ++ ds) /\ ascii_digits ds /\
    parse_version_directory (`"v" ++ ds) = Ok 1%N /\
    match w with
    | None => ds = `"1"
    | Some z => Z.of_nat (List.length ds) = z /\ exists ds', ds = 48%N :: ds'
    end.
Proof.
  intros [z|] Hz.
  - assert (C : z = 2%Z \/ z = 3%Z \/ z = 4%Z \/ z = 5%Z) by lia.
    destruct C as [-> | [-> | [-> | ->]]];
      [exists (`"01")|exists (`"001")|exists (`"0001")|exists (`"00001")];
      (split; [reflexivity|split; [repeat constructor|split; [vm_compute; reflexivity|
        split; [reflexivity|eexists; reflexivity]]]]).
  - exists (`"1"). split; [reflexivity|split; [repeat constructor|split; [vm_compute; reflexivity|reflexivity]]].
Qed.

Theorem C01_first_out_of_range : forall z,
  ~ (2 <= z <= 5)%Z -> first_version_directory (Some z) = Raise ObjectException.
Proof.
  intros z Hz. unfold first_version_directory.
  destruct (Z.ltb_spec z 2); [reflexivity|]. destruct (Z.ltb_spec 5 z); [reflexivity|lia].
Qed.

Example C01_ex : next_version_directory (`"v0999") = Raise ObjectException
  /\ next_version_directory (`"v0998") = Ok (`"v0999")
  /\ next_version_directory (`"v999") = Ok (`"v1000")
  /\ parse_version_directory (`"v0998") = Ok 998%N
  /\ next_version_directory (`"va") = Raise ObjectException.
Proof. repeat split; vm_compute; reflexivity. Qed.

(** ** C03 *)

Theorem C03_make_unused_filepath : forall filepath used sep,
  exists r, make_unused_filepath filepath used sep = Ok r /\ ~ In r used /\
    ((r = filepath) \/
     (In filepath used /\
      exists n, (2 <= n)%N /\ r = filepath ++ sep ++ str_of_N n /\
        forall j, (2 <= j)%N -> (j < n)%N -> In (filepath ++ sep ++ str_of_N j) used)).
Proof.
  intros filepath used sep.
  destruct (make_unused_filepath_total filepath used sep) as [r Hr].
  exists r. split; auto. apply make_unused_filepath_spec in Hr as [Hni [k [Hk [-> Hj]]]].
  split; auto. destruct (N.eq_dec k 1) as [->|Hk1]; [left; reflexivity|right].
  split; [apply (Hj 1%N); lia|]. exists k. repeat split; [lia| |].
  - unfold candidate. destruct (N.eqb_spec k 1); [lia|reflexivity].
  - intros j H1 H2. specialize (Hj j ltac:(lia) H2). unfold candidate in Hj.
    destruct (N.eqb_spec j 1); [lia|auto].
Qed.

Example C03_ex :
  make_unused_filepath (`"a") [`"a__2"; `"a"; `"b"] default_separator = Ok (`"a__3").
Proof. vm_compute. reflexivity. Qed.

Print Assumptions C01_next_unpadded.
Print Assumptions C01_next_padded.
Print Assumptions C01_next_all_strings.
Print Assumptions C01_parse_next.
Print Assumptions C01_parse_all_strings.
Print Assumptions C01_first.
Print Assumptions C01_first_out_of_range.
Print Assumptions C03_make_unused_filepath.
