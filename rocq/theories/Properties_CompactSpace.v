(** C93, more: exactly which white space compactify_spec_examples.py changes. *)
From Verif Require Import Base Unicode Regex Json JsonTextModel ObjectUtilsModel CompactModel Properties_Compact.
Open Scope N_scope.

(** * What is meant

    [rewritten P s t]: as [replaced], but whether a is replaced may depend on the text after it. *)
Inductive rewritten (P : str -> str -> str -> Prop) : str -> str -> Prop :=
| rw_end : rewritten P [] []
| rw_here a b s t : P a b s -> rewritten P s t -> rewritten P (a ++ s) (b ++ t)
| rw_not x s t : (forall a b r, x :: s = a ++ r -> ~ P a b r) -> rewritten P s t -> rewritten P (x :: s) (x :: t).

Definition white (s : str) : Prop := s <> [] /\ Forall (fun c => is_space c = true) s.
(** An opening bracket in white space, before a quotation mark: one space each. *)
Definition opening (a b r : str) : Prop := exists s s', white s /\ white s' /\ a = s ++ [91] ++ s' ++ [34] /\ b = [32; 91; 32; 34].
(** A closing bracket after a quotation mark and before a closing brace: one space before it. *)
Definition closing (a b r : str) : Prop := exists s s', white s /\ white s' /\ a = [34] ++ s ++ [93] ++ s' ++ [125] /\ b = [34; 32; 93] ++ s' ++ [125].
(** White space before a closing bracket with a comma: one space. *)
Definition ending (a b r : str) : Prop := exists s, white s /\ a = s ++ [93; 44] /\ b = [32; 93; 44].
(** All white space after the first comma that follows an opening bracket, with no line end, comma
    or closing bracket between them: one space. *)
Definition first_entry (a b r : str) : Prop := exists e s, e <> [] /\ Forall (fun c => c <> 10 /\ c <> 44 /\ c <> 93) e /\ white s /\
  (forall c q, r = c :: q -> is_space c = false) /\ a = [91] ++ e ++ [44] ++ s /\ b = [91] ++ e ++ [44; 32].

(** * There is only one such text *)
Section Fun.
  Variable P : str -> str -> str -> Prop.
  Hypothesis fits : forall a b a' b' r r', P a b r -> P a' b' r' -> a ++ r = a' ++ r' -> a = a' /\ b = b'.
  Hypothesis nonempty : forall b r, ~ P [] b r.
  Lemma rewritten_fun s t t' : rewritten P s t -> rewritten P s t' -> t = t'.
  Proof using fits nonempty.
    intro R. revert t'. induction R as [|a b s t Pa R IH|x s t Nx R IH]; intros t' R'.
    - inversion R' as [|a b s t Pa R E|]; subst; [reflexivity|]. apply app_eq_nil in E as [-> _]. now destruct (nonempty b s).
    - inversion R' as [E1 E2|a' b' s' u Pa' R2 E|x s' u Nx R2 E].
      + symmetry in E1. apply app_eq_nil in E1 as [-> _]. now destruct (nonempty b s).
      + destruct (fits _ _ _ _ _ _ Pa' Pa E) as [-> ->]. apply app_inv_head in E. subst s'. now rewrite (IH u R2).
      + now destruct (Nx a b s E).
    - inversion R' as [|a' b' s' u Pa' R2 E|x' s' u Nx' R2]; subst.
      + now destruct (Nx a' b' s' (eq_sym E)).
      + now rewrite (IH u R2).
  Qed.
End Fun.

Lemma run_same (f : N -> bool) s s' r r' : Forall (fun c => f c = true) s -> Forall (fun c => f c = true) s' ->
  (forall c q, r = c :: q -> f c = false) -> (forall c q, r' = c :: q -> f c = false) -> s ++ r = s' ++ r' -> s = s' /\ r = r'.
Proof.
  intro F. revert s'. induction F as [|x s Hx F IH]; intros [|y s'] F' Hr Hr' E.
  - now split.
  - inversion F'; subst. cbn in E. rewrite (Hr _ _ E) in *. discriminate.
  - cbn in E. symmetry in E. rewrite (Hr' _ _ E) in Hx. discriminate.
  - inversion F'; subst. cbn in E. injection E as -> E. destruct (IH s' ltac:(assumption) Hr Hr' E) as [-> ->]. now split.
Qed.
Ltac not_white := let c := fresh in let q := fresh in let E := fresh in intros c q E; injection E as <- _; reflexivity.

Lemma opening_fits a b a' b' r r' : opening a b r -> opening a' b' r' -> a ++ r = a' ++ r' -> a = a' /\ b = b'.
Proof.
  intros (s & t & [_ Fs] & [_ Ft] & -> & ->) (s' & t' & [_ Fs'] & [_ Ft'] & -> & ->) E. rewrite <- !app_assoc in E. cbn [app] in E.
  apply (run_same is_space) in E as [-> E]; [|assumption|assumption|not_white|not_white]. injection E as E.
  apply (run_same is_space) in E as [-> E]; [|assumption|assumption|not_white|not_white]. now split.
Qed.
Lemma closing_fits a b a' b' r r' : closing a b r -> closing a' b' r' -> a ++ r = a' ++ r' -> a = a' /\ b = b'.
Proof.
  intros (s & t & [_ Fs] & [_ Ft] & -> & ->) (s' & t' & [_ Fs'] & [_ Ft'] & -> & ->) E. cbn [app] in E. injection E as E. rewrite <- !app_assoc in E. cbn [app] in E.
  apply (run_same is_space) in E as [-> E]; [|assumption|assumption|not_white|not_white]. injection E as E. rewrite <- !app_assoc in E. cbn [app] in E.
  apply (run_same is_space) in E as [-> E]; [|assumption|assumption|not_white|not_white]. now split.
Qed.
Lemma ending_fits a b a' b' r r' : ending a b r -> ending a' b' r' -> a ++ r = a' ++ r' -> a = a' /\ b = b'.
Proof.
  intros (s & [_ Fs] & -> & ->) (s' & [_ Fs'] & -> & ->) E. rewrite <- !app_assoc in E. cbn [app] in E.
  apply (run_same is_space) in E as [-> E]; [|assumption|assumption|not_white|not_white]. now split.
Qed.
Lemma entry_char c : is_entry_char c = true <-> c <> 10 /\ c <> 44 /\ c <> 93.
Proof. unfold is_entry_char. rewrite negb_true_iff, !orb_false_iff, !N.eqb_neq. tauto. Qed.
Lemma entry_chars e : Forall (fun c => is_entry_char c = true) e <-> Forall (fun c => c <> 10 /\ c <> 44 /\ c <> 93) e.
Proof. split; intro F; (eapply Forall_impl; [|exact F]); intro a; apply entry_char. Qed.
Lemma first_entry_fits a b a' b' r r' : first_entry a b r -> first_entry a' b' r' -> a ++ r = a' ++ r' -> a = a' /\ b = b'.
Proof.
  intros (e & s & _ & Fe & [_ Fs] & Nr & -> & ->) (e' & s' & _ & Fe' & [_ Fs'] & Nr' & -> & ->) E. cbn [app] in E. injection E as E. rewrite <- !app_assoc in E. cbn [app] in E.
  apply entry_chars in Fe, Fe'. apply (run_same is_entry_char) in E as [-> E]; [|assumption|assumption|not_white|not_white]. injection E as E.
  apply (run_same is_space) in E as [-> E]; [|assumption|assumption|assumption|assumption]. now split.
Qed.

(** * re.sub *)
Section Sub.
  Variables (r : re) (repl : caps -> str) (P : str -> str -> str -> Prop).
  Hypothesis sound : forall s rest c, rmatch r s [] (fun s' c' => Some (s', c')) = Some (rest, c) ->
    (List.length rest < List.length s)%nat /\ forall t, rewritten P rest t -> rewritten P s (repl c ++ t).
  Hypothesis complete : forall a b rest, P a b rest -> exists x rest' c, a ++ rest = x ++ rest' /\ Den r x rest' [] c.
  Lemma sub_rewritten s : rewritten P s (re_sub r repl s).
  Proof using sound complete.
    unfold re_sub. assert (L : (List.length s < S (List.length s))%nat) by lia. revert L. generalize (S (List.length s)) as f. intro f. revert s.
    induction f as [|f IH]; intros s L; [lia|]. cbn [re_sub_in]. destruct (rmatch r s [] _) as [[rest c]|] eqn:E.
    - destruct (sound _ _ _ E) as [K R]. apply R, IH. lia.
    - destruct s as [|x s]; [constructor|]. apply rw_not; [|apply IH; cbn in L; lia]. intros a b t Es Pa. destruct (complete a b t Pa) as (y & rest' & c & Ey & D).
      rewrite Es, Ey in E. revert E. eapply rmatch_complete; [exact D|discriminate].
  Qed.
End Sub.

(** \s+ takes all of the white space. *)
Lemma star_greedy p s c rest c' : rmatch (RStar (RChr p)) s c (fun s' c' => Some (s', c')) = Some (rest, c') -> forall x q, rest = x :: q -> p x = false.
Proof.
  cbn [rmatch]. generalize (le_n (List.length s)). generalize (List.length s) at 2 3 as f. intro f. revert s c.
  induction f as [|f IH]; intros s c L; cbn [mstar].
  - destruct s; [|cbn in L; lia]. intros [= <- <-] x q E. discriminate E.
  - destruct s as [|a s]; [intros [= <- <-] x q E; discriminate E|]. cbn [rmatch]. destruct (p a) eqn:Pa.
    + replace (List.length s <? List.length (a :: s))%nat with true by (symmetry; apply Nat.ltb_lt; cbn; lia).
      cbn in L. assert (L' : (List.length s <= f)%nat) by lia. pose proof (IH s c L') as K.
      destruct (mstar _ f s c _) as [v|] eqn:M; [intros [= ->]; now apply K|].
      exfalso. revert M. clear. revert s c. induction f as [|f IH]; intros s c; cbn [mstar]; [discriminate|]. destruct s as [|a s]; [discriminate|]. destruct (p a); [|discriminate]. match goal with |- match ?X with _ => _ end = None -> False => destruct X; discriminate end.
    + intros [= <- <-] x q E. injection E as <- _. exact Pa.
Qed.
Lemma plus_greedy p s c rest c' : rmatch (rplus (RChr p)) s c (fun s' c' => Some (s', c')) = Some (rest, c') -> forall x q, rest = x :: q -> p x = false.
Proof.
  unfold rplus. cbn [rmatch]. destruct s as [|a s]; [discriminate|]. destruct (p a); [|discriminate]. apply star_greedy.
Qed.

Lemma rw_one (P : str -> str -> str -> Prop) a b s : P a b s -> a <> [] -> (List.length s < List.length (a ++ s))%nat /\ forall t, rewritten P s t -> rewritten P (a ++ s) (b ++ t).
Proof.
  intros Pa Na. split; [rewrite app_length; destruct a; [congruence|cbn; lia]|]. intros t R. now apply rw_here.
Qed.

Lemma sub_opening s : rewritten opening s (re_sub re_open (fun _ => [32; 91; 32; 34]) s).
Proof.
  apply sub_rewritten.
  - intros u rest c E. apply rmatch_sound in E as (x & rest' & c' & -> & D & [= -> ->]). unfold re_open in D.
    apply Den_seq in D as (a & y1 & c1 & -> & D1 & D). apply Den_plus_chr in D1 as (Na & Fa & ->).
    apply Den_seq in D as (b & y2 & c2 & -> & D2 & D). apply Den_char in D2 as [-> ->].
    apply Den_seq in D as (d & y3 & c3 & -> & D3 & D). apply Den_plus_chr in D3 as (Nd & Fd & ->). apply Den_char in D as [-> ->].
    apply rw_one; [|destruct a; [congruence|discriminate]]. exists a, d. repeat (split; [first [now split|reflexivity]|]). reflexivity.
  - intros a b rest (x & y & [Nx Fx] & [Ny Fy] & -> & _). exists (x ++ [91] ++ y ++ [34]), rest, []. split; [reflexivity|]. unfold re_open.
    apply Den_seq. eexists x, _, []. split; [reflexivity|]. split; [now apply Den_plus_chr|].
    apply Den_seq. eexists [91], _, []. split; [reflexivity|]. split; [now apply Den_char|].
    apply Den_seq. eexists y, _, []. split; [reflexivity|]. split; [now apply Den_plus_chr|now apply Den_char].
Qed.
Lemma sub_ending s : rewritten ending s (re_sub re_end (fun _ => [32; 93; 44]) s).
Proof.
  apply sub_rewritten.
  - intros u rest c E. apply rmatch_sound in E as (x & rest' & c' & -> & D & [= -> ->]). unfold re_end in D.
    apply Den_seq in D as (a & y1 & c1 & -> & D1 & D). apply Den_plus_chr in D1 as (Na & Fa & ->).
    apply Den_seq in D as (b & y2 & c2 & -> & D2 & D). apply Den_char in D2 as [-> ->]. apply Den_char in D as [-> ->].
    apply rw_one; [|destruct a; [congruence|discriminate]]. exists a. split; [now split|]. split; reflexivity.
  - intros a b rest (x & [Nx Fx] & -> & _). exists (x ++ [93; 44]), rest, []. split; [reflexivity|]. unfold re_end.
    apply Den_seq. eexists x, [93; 44], []. split; [reflexivity|]. split; [now apply Den_plus_chr|].
    apply Den_seq. eexists [93], [44], []. split; [reflexivity|]. split; now apply Den_char.
Qed.
Lemma sub_closing s : rewritten closing s (re_sub re_close (fun c => [34; 32; 93] ++ group_or_nil 1 c ++ [125] ++ group_or_nil 2 c) s).
Proof.
  apply sub_rewritten.
  - intros u rest c E. apply rmatch_sound in E as (x & rest' & c' & -> & D & [= -> ->]). unfold re_close in D.
    apply Den_seq in D as (a & y1 & c1 & -> & D1 & D). apply Den_char in D1 as [-> ->].
    apply Den_seq in D as (b & y2 & c2 & -> & D2 & D). apply Den_plus_chr in D2 as (Nb & Fb & ->).
    apply Den_seq in D as (d & y3 & c3 & -> & D3 & D). apply Den_char in D3 as [-> ->].
    apply Den_seq in D as (g & y4 & c4 & -> & D4 & D). apply Den_grp in D4 as (c4' & -> & D4). apply Den_plus_chr in D4 as (Ng & Fg & ->).
    apply Den_seq in D as (h & y5 & c5 & -> & D5 & D). apply Den_char in D5 as [-> ->].
    assert (K : forall r, closing ([34] ++ b ++ [93] ++ g ++ [125]) ([34; 32; 93] ++ g ++ [125]) r) by (intro r; exists b, g; repeat (split; [first [now split|reflexivity]|]); reflexivity).
    unfold ropt in D. apply Den_alt in D as [D|D].
    + apply Den_grp in D as (c6 & -> & D). apply Den_char in D as [-> ->]. rewrite (group_next 1 2), !group_here by discriminate.
      split; [rewrite app_length; cbn; lia|]. intros t R.
      replace (([34] ++ b ++ [93] ++ g ++ [125] ++ [44]) ++ rest) with (([34] ++ b ++ [93] ++ g ++ [125]) ++ 44 :: rest) by (cbn [app]; rewrite <- !app_assoc; cbn [app]; rewrite <- !app_assoc; reflexivity).
      replace (([34; 32; 93] ++ g ++ [125] ++ [44]) ++ t) with (([34; 32; 93] ++ g ++ [125]) ++ 44 :: t) by (rewrite <- !app_assoc; reflexivity).
      apply rw_here; [apply K|]. apply rw_not; [|exact R]. intros a b' r E (s1 & s2 & _ & _ & -> & _). discriminate E.
    + apply Den_emp in D as [-> ->]. rewrite group_here, (group_next 2 1) by discriminate. change (group_or_nil 2 []) with (@nil N). rewrite !app_nil_r. apply rw_one; [apply K|discriminate].
  - intros a b rest (x & y & [Nx Fx] & [Ny Fy] & -> & _). exists ([34] ++ x ++ [93] ++ y ++ [125] ++ []), rest, [(1%nat, y)]. split; [now rewrite app_nil_r|]. unfold re_close.
    apply Den_seq. eexists [34], _, []. split; [reflexivity|]. split; [now apply Den_char|].
    apply Den_seq. eexists x, _, []. split; [reflexivity|]. split; [now apply Den_plus_chr|].
    apply Den_seq. eexists [93], _, []. split; [reflexivity|]. split; [now apply Den_char|].
    apply Den_seq. eexists y, _, [(1%nat, y)]. split; [reflexivity|]. split; [apply Den_grp; eexists; split; [reflexivity|now apply Den_plus_chr]|].
    apply Den_seq. eexists [125], [], [(1%nat, y)]. split; [reflexivity|]. split; [now apply Den_char|]. apply Den_alt. right. now apply Den_emp.
Qed.
Lemma sub_entry s : rewritten first_entry s (re_sub re_entry (fun c => group_or_nil 1 c ++ [32]) s).
Proof.
  apply sub_rewritten.
  - intros u rest c E. unfold re_entry in E. cbn [rmatch] in E. 
    set (A := RGroup 1 (RSeq (rchar 91) (RSeq (rplus (RChr is_entry_char)) (rchar 44)))).
    assert (E' : rmatch A u [] (fun s' c' => rmatch (rplus rspace) s' c' (fun s' c' => Some (s', c'))) = Some (rest, c)) by exact E. clear E.
    apply rmatch_sound in E' as (x & rest' & c' & -> & D & E). pose proof (plus_greedy _ _ _ _ _ E) as G.
    apply rmatch_sound in E as (y & rest2 & c2 & -> & D2 & [= -> ->]). apply Den_plus_chr in D2 as (Ny & Fy & ->).
    unfold A in D. apply Den_grp in D as (c3 & -> & D). apply Den_seq in D as (a & y1 & c1 & -> & D1 & D). apply Den_char in D1 as [-> ->].
    apply Den_seq in D as (e & y2 & c4 & -> & D3 & D). apply Den_plus_chr in D3 as (Ne & Fe & ->). apply Den_char in D as [-> ->].
    rewrite group_here. replace (([91] ++ e ++ [44]) ++ y ++ rest) with (([91] ++ e ++ [44] ++ y) ++ rest) by (cbn [app]; rewrite <- !app_assoc; reflexivity).
    apply rw_one; [|discriminate]. exists e, y. split; [exact Ne|]. split; [now apply entry_chars|]. split; [now split|]. split; [exact G|]. split; [reflexivity|].
    cbn [app]. rewrite <- app_assoc. reflexivity.
  - intros a b rest (e & y & Ne & Fe & [Ny Fy] & _ & -> & _). exists (([91] ++ e ++ [44]) ++ y), rest, [(1%nat, [91] ++ e ++ [44])]. split; [now rewrite <- !app_assoc|]. unfold re_entry.
    apply Den_seq. eexists ([91] ++ e ++ [44]), y, _. split; [reflexivity|]. split; [|apply Den_plus_chr; split; [exact Ny|split; [exact Fy|reflexivity]]].
    apply Den_grp. eexists. split; [reflexivity|].
    apply Den_seq. eexists [91], _, []. split; [reflexivity|]. split; [now apply Den_char|].
    apply Den_seq. eexists e, _, []. split; [reflexivity|]. split; [apply Den_plus_chr; split; [exact Ne|split; [now apply entry_chars|reflexivity]]|now apply Den_char].
Qed.

(** * C93 *)

(** What is written, exactly. *)
Definition compacted (t u : str) : Prop := exists t1 t2 t3 t4 t5 t6,
  replaced plain_name t t1 /\ replaced shorter_digest t1 t2 /\
  rewritten opening t2 t3 /\ rewritten closing t3 t4 /\ rewritten ending t4 t5 /\ rewritten first_entry t5 t6 /\ u = t6 ++ [10].

Theorem C93_exact : forall t u, compactify t = u <-> compacted t u.
Proof.
  intro t. assert (Y : compacted t (compactify t)).
  { destruct (C93_partial t) as (t1 & t2 & R1 & R2 & _). unfold compactify.
    exists (re_sub (rlit (`"sha512-spec-ex")) (fun _ => `"sha512") t).
    eexists _, _, _, _, _. split; [|split; [|split; [apply sub_opening|split; [apply sub_closing|split; [apply sub_ending|split; [apply sub_entry|reflexivity]]]]]].
    - apply sub_replaced.
      + intros x rest c D. apply Den_lit in D as [-> _]. discriminate.
      + intros x rest c D. apply Den_lit in D as [-> _]. now split.
      + intros x b rest [-> _]. exists []. now apply Den_lit.
    - apply sub_replaced.
      + intros x rest c D. apply den_digest in D as (f & m & l & -> & _). discriminate.
      + intros x rest c D. apply den_digest in D as (f & m & l & -> & -> & K). exists f, m, l. split; [reflexivity|]. split; [|exact K].
        rewrite (group_next 1 3), (group_next 1 2), !group_here by discriminate. reflexivity.
      + intros x b rest (f & m & l & -> & _ & K). eexists. apply den_digest. exists f, m, l. split; [reflexivity|]. split; [reflexivity|exact K]. }
  intro u. split; [now intros <-|]. intros (t1 & t2 & t3 & t4 & t5 & t6 & R1 & R2 & R3 & R4 & R5 & R6 & ->).
  destruct Y as (u1 & u2 & u3 & u4 & u5 & u6 & U1 & U2 & U3 & U4 & U5 & U6 & ->).
  destruct (C93_determined _ _ _ _ _ R1 R2 U1 U2) as [<- <-].
  pose proof (rewritten_fun _ opening_fits ltac:(intros b r (s & s' & [Ns _] & _ & E & _); destruct s; [congruence|discriminate E]) _ _ _ U3 R3) as ->.
  pose proof (rewritten_fun _ closing_fits ltac:(intros b r (s & s' & _ & _ & E & _); discriminate E) _ _ _ U4 R4) as ->.
  pose proof (rewritten_fun _ ending_fits ltac:(intros b r (s & [Ns _] & E & _); destruct s; [congruence|discriminate E]) _ _ _ U5 R5) as ->.
  pose proof (rewritten_fun _ first_entry_fits ltac:(intros b r (e & s & _ & _ & _ & _ & E & _); discriminate E) _ _ _ U6 R6) as ->.
  reflexivity.
Qed.
Print Assumptions C93_exact.

(** The example of Properties_Compact.v has all four kinds of white space that is changed. *)
Example C93_exact_ex : exists u, compacted (`"{ x: [" ++ [10; 32] ++ quoted (`"a") ++ [44; 10; 32] ++ quoted (`"b") ++ [10] ++ `"]," ++ [10] ++ `"y: [" ++ [10] ++ quoted (`"c") ++ [10] ++ `"]" ++ [10] ++ `"}}") u /\
  u = `"{ x: [ " ++ quoted (`"a") ++ `", " ++ quoted (`"b") ++ `" ]," ++ [10] ++ `"y: [ " ++ quoted (`"c") ++ `" ]" ++ [10] ++ `"}}" ++ [10].
Proof. eexists. split; [apply C93_exact; reflexivity|vm_compute; reflexivity]. Qed.
