(** Regular expressions in the style of Python's [re] module.

    Models the matching procedure of [re.match], [re.search] and [re.sub] for the
    constructs that occur in /repo: literals, character classes, '.', sequence,
    alternation, greedy *, +, ?, {n}, {n,m}, numbered groups and the anchor '$'
    (which, without re.MULTILINE, matches at the end and before one final
    newline). '^' at the start of a [re.match] pattern is a no-op and is omitted.
    The matcher is a backtracking matcher, so the first (Python) match is found.
    It is proved sound and complete with respect to the relation [Den]. *)
From Verif Require Import Base Unicode.

Inductive re :=
| RChr (p : N -> bool)
| REmpty
| RSeq (a b : re)
| RAlt (a b : re)
| RStar (a : re)
| RGroup (n : nat) (a : re)
| RDollar.

(** Captured groups, newest first. *)
Definition caps := list (nat * str).

Fixpoint group (n : nat) (c : caps) : option str :=
  match c with
  | [] => None
  | (k, s) :: r => if Nat.eqb n k then Some s else group n r
  end.

Definition at_dollar (s : str) : bool :=
  match s with [] => true | [c] => N.eqb c 10 | _ => false end.

Section Star.
  Variable m1 : str -> caps -> (str -> caps -> option (str * caps)) -> option (str * caps).
  Fixpoint mstar (fuel : nat) (s : str) (c : caps)
    (k : str -> caps -> option (str * caps)) : option (str * caps) :=
    match fuel with
    | O => k s c
    | S f =>
        match m1 s c (fun s' c' =>
                        if (List.length s' <? List.length s)%nat then mstar f s' c' k else None)
        with
        | Some v => Some v
        | None => k s c
        end
    end.
End Star.

Fixpoint rmatch (r : re) (s : str) (c : caps)
  (k : str -> caps -> option (str * caps)) : option (str * caps) :=
  match r with
  | RChr p => match s with [] => None | x :: s' => if p x then k s' c else None end
  | REmpty => k s c
  | RSeq a b => rmatch a s c (fun s' c' => rmatch b s' c' k)
  | RAlt a b => match rmatch a s c k with Some v => Some v | None => rmatch b s c k end
  | RStar a => mstar (rmatch a) (List.length s) s c k
  | RGroup n a =>
      rmatch a s c (fun s' c' => k s' ((n, firstn (List.length s - List.length s') s) :: c'))
  | RDollar => if at_dollar s then k s c else None
  end.

(** re.match: Some captures, or None. *)
Definition re_match (r : re) (s : str) : option caps :=
  option_map snd (rmatch r s [] (fun s' c' => Some (s', c'))).

(** re.search: leftmost position that matches; returns (text before, captures). *)
Fixpoint re_search_from (r : re) (before s : str) : option (str * caps) :=
  match rmatch r s [] (fun s' c' => Some (s', c')) with
  | Some (_, c) => Some (rev before, c)
  | None => match s with [] => None | x :: s' => re_search_from r (x :: before) s' end
  end.
Definition re_search (r : re) (s : str) : option (str * caps) := re_search_from r [] s.

(** * Derived forms *)
Definition rchar (c : N) : re := RChr (N.eqb c).
Fixpoint rlit (s : str) : re :=
  match s with [] => REmpty | c :: r => RSeq (rchar c) (rlit r) end.
Definition ropt (a : re) : re := RAlt a REmpty.
Definition rplus (a : re) : re := RSeq a (RStar a).
Fixpoint rrep (n : nat) (a : re) : re :=
  match n with O => REmpty | S k => RSeq a (rrep k a) end.
Fixpoint rupto (n : nat) (a : re) : re :=
  match n with O => REmpty | S k => ropt (RSeq a (rupto k a)) end.
Definition rrange (n m : nat) (a : re) : re := RSeq (rrep n a) (rupto (m - n) a).
(** '.' matches anything but a newline. *)
Definition is_dot (c : N) : bool := negb (N.eqb c 10).
Definition rdot : re := RChr is_dot.
Definition rdigit : re := RChr is_digit.
Definition rspace : re := RChr is_space.
Definition rnspace : re := RChr (fun c => negb (is_space c)).
Definition rword : re := RChr is_word.

(** * Relational semantics *)

(** [Den r x rest c c']: r matches exactly the text x when the text following it
    is rest, turning the captures c into c'. *)
Inductive Den : re -> str -> str -> caps -> caps -> Prop :=
| D_chr p x rest c : p x = true -> Den (RChr p) [x] rest c c
| D_empty rest c : Den REmpty [] rest c c
| D_seq a b x y rest c c1 c2 :
    Den a x (y ++ rest) c c1 -> Den b y rest c1 c2 -> Den (RSeq a b) (x ++ y) rest c c2
| D_altl a b x rest c c' : Den a x rest c c' -> Den (RAlt a b) x rest c c'
| D_altr a b x rest c c' : Den b x rest c c' -> Den (RAlt a b) x rest c c'
| D_star0 a rest c : Den (RStar a) [] rest c c
| D_star1 a x y rest c c1 c2 :
    x <> [] -> Den a x (y ++ rest) c c1 -> Den (RStar a) y rest c1 c2 ->
    Den (RStar a) (x ++ y) rest c c2
| D_group n a x rest c c' : Den a x rest c c' -> Den (RGroup n a) x rest c ((n, x) :: c')
| D_dollar rest c : rest = [] \/ rest = [10%N] -> Den RDollar [] rest c c.

Lemma at_dollar_spec s : at_dollar s = true <-> s = [] \/ s = [10%N].
Proof.
  destruct s as [|c [|d s]]; simpl; split; intros H; try tauto; try discriminate.
  - apply N.eqb_eq in H; subst; auto.
  - destruct H as [H|H]; inversion H; reflexivity.
  - destruct H as [H|H]; discriminate.
Qed.

Lemma firstn_app_len {A} (x r : list A) :
  firstn (List.length (x ++ r) - List.length r) (x ++ r) = x.
Proof.
  rewrite app_length. replace (List.length x + List.length r - List.length r)%nat with (List.length x) by lia.
  rewrite firstn_app, firstn_all, Nat.sub_diag. simpl. apply app_nil_r.
Qed.

Lemma rmatch_sound r : forall s c k v,
  rmatch r s c k = Some v ->
  exists x rest c', s = x ++ rest /\ Den r x rest c c' /\ k rest c' = Some v.
Proof.
  induction r as [p| |a IHa b IHb|a IHa b IHb|a IHa|n a IHa|]; intros s c k v; simpl.
  - destruct s as [|x s]; [discriminate|]. destruct (p x) eqn:E; [|discriminate].
    intros H. exists [x], s, c. repeat split; auto. now constructor.
  - intros H. exists [], s, c. repeat split; auto. constructor.
  - intros H. apply IHa in H as [x [r1 [c1 [-> [H1 H]]]]].
    apply IHb in H as [y [r2 [c2 [-> [H2 H]]]]].
    exists (x ++ y), r2, c2. repeat split; auto; [apply app_assoc|]. econstructor; eauto.
  - destruct (rmatch a s c k) eqn:E.
    + intros [= <-]. apply IHa in E as [x [r1 [c1 [-> [H1 H]]]]].
      exists x, r1, c1; repeat split; auto. now apply D_altl.
    + intros H. apply IHb in H as [x [r1 [c1 [-> [H1 H]]]]].
      exists x, r1, c1; repeat split; auto. now apply D_altr.
  - generalize (List.length s) as f. intros f; revert s c.
    induction f as [|f IHf]; intros s c; simpl.
    + intros H. exists [], s, c. repeat split; auto. constructor.
    + destruct (rmatch a s c _) eqn:E.
      * intros [= <-]. apply IHa in E as [x [r1 [c1 [Hs [H1 H]]]]]. subst s.
        destruct (Nat.ltb_spec (List.length r1) (List.length (x ++ r1))) as [Hl|Hl]; [|discriminate].
        apply IHf in H as [y [r2 [c2 [-> [H2 H]]]]].
        exists (x ++ y), r2, c2. repeat split; auto; [apply app_assoc|].
        econstructor; eauto. intros ->. simpl in Hl. lia.
      * intros H. exists [], s, c. repeat split; auto. constructor.
  - intros H. apply IHa in H as [x [r1 [c1 [-> [H1 H]]]]].
    exists x, r1, ((n, x) :: c1). repeat split; auto; [now constructor|].
    now rewrite firstn_app_len in H.
  - destruct (at_dollar s) eqn:E; [|discriminate]. intros H.
    exists [], s, c; repeat split; auto. constructor. now apply at_dollar_spec.
Qed.

Lemma rmatch_complete r : forall x rest c c',
  Den r x rest c c' -> forall k, k rest c' <> None -> rmatch r (x ++ rest) c k <> None.
Proof.
  induction r as [p| |a IHa b IHb|a IHa b IHb|a IHa|n a IHa|]; intros x rest c c' HD k Hk; simpl.
  - inversion HD as [p0 x0 r0 c0 Hp| | | | | | | |]; subst. simpl. rewrite Hp. auto.
  - inversion HD; subst; auto.
  - inversion HD; subst. rewrite <- app_assoc. eapply IHa; eauto.
  - inversion HD; subst.
    + destruct (rmatch a (x ++ rest) c k) eqn:E; [discriminate|].
      exfalso. eapply IHa; eauto.
    + destruct (rmatch a (x ++ rest) c k) eqn:E; [discriminate|]. eapply IHb; eauto.
  - assert (G : forall f x c, Den (RStar a) x rest c c' -> (List.length (x ++ rest) <= f)%nat ->
        mstar (rmatch a) f (x ++ rest) c k <> None).
    { clear x c HD. induction f as [|f IHf]; intros x c HD Hl; simpl.
      - inversion HD; subst; simpl; auto.
        exfalso. destruct x0; [congruence|]. rewrite !app_length in Hl. simpl in Hl. lia.
      - destruct (rmatch a (x ++ rest) c _) eqn:E; [discriminate|].
        inversion HD; subst; auto.
        exfalso. rewrite <- app_assoc in E. revert E. eapply IHa; eauto. cbv beta.
        assert (Hx : (0 < List.length x0)%nat) by (destruct x0; [congruence|simpl; lia]).
        rewrite !app_length in *.
        destruct (Nat.ltb_spec (List.length y + List.length rest) (List.length x0 + (List.length y + List.length rest))); [|lia].
        apply IHf; auto. rewrite app_length; lia. }
    apply G; auto.
  - inversion HD; subst. eapply IHa; eauto. cbv beta. rewrite firstn_app_len. auto.
  - inversion HD; subst. simpl. apply at_dollar_spec in H. now rewrite H.
Qed.

Theorem re_match_sound r s c' :
  re_match r s = Some c' -> exists x rest, s = x ++ rest /\ Den r x rest [] c'.
Proof.
  unfold re_match. destruct (rmatch r s [] _) as [[r0 c0]|] eqn:E; simpl; [|discriminate].
  intros [= <-]. apply rmatch_sound in E as [x [rest [c1 [-> [HD [= -> ->]]]]]]. eauto.
Qed.

Theorem re_match_complete r s x rest c' :
  s = x ++ rest -> Den r x rest [] c' -> re_match r s <> None.
Proof.
  intros -> HD. unfold re_match.
  destruct (rmatch r (x ++ rest) [] _) as [[r0 c0]|] eqn:E; simpl; [discriminate|].
  exfalso. eapply rmatch_complete; [eauto| |eauto]. cbv beta. discriminate.
Qed.

Corollary re_match_iff r s :
  re_match r s <> None <-> exists x rest c', s = x ++ rest /\ Den r x rest [] c'.
Proof.
  split.
  - destruct (re_match r s) eqn:E; [|congruence]. intros _.
    apply re_match_sound in E as [x [rest [-> HD]]]. eauto.
  - intros [x [rest [c' [E HD]]]]. eapply re_match_complete; eauto.
Qed.

Lemma re_search_sound r s b c :
  re_search r s = Some (b, c) -> exists x rest, s = b ++ x ++ rest /\ Den r x rest [] c.
Proof.
  unfold re_search. assert (G : forall s b0, re_search_from r b0 s = Some (b, c) ->
    exists p x rest, b = rev b0 ++ p /\ s = p ++ x ++ rest /\ Den r x rest [] c).
  { clear s. induction s as [|y s IH]; intros b0; simpl.
    - destruct (rmatch r [] [] _) as [[r0 c0]|] eqn:E; [|discriminate]. intros [= <- <-].
      apply rmatch_sound in E as [x [rest [c1 [Es [HD [= -> ->]]]]]].
      exists [], x, r0. rewrite app_nil_r. auto.
    - destruct (rmatch r (y :: s) [] _) as [[r0 c0]|] eqn:E.
      + intros [= <- <-].
        apply rmatch_sound in E as [x [rest [c1 [Es [HD [= -> ->]]]]]].
        exists [], x, r0. rewrite app_nil_r. auto.
      + intros H. apply IH in H as [p [x [rest [-> [-> HD]]]]].
        exists (y :: p), x, rest. simpl. rewrite <- app_assoc. auto. }
  intros H. apply G in H as [p [x [rest [-> [-> HD]]]]]. simpl. eauto.
Qed.

Lemma re_search_complete r s b x rest c :
  s = b ++ x ++ rest -> Den r x rest [] c -> re_search r s <> None.
Proof.
  unfold re_search. generalize (@nil N). revert s.
  induction b as [|y b IH]; intros s b0 -> HD.
  - simpl app. pose proof (rmatch_complete r x rest [] c HD (fun s' c' => Some (s', c'))) as Hc.
    specialize (Hc ltac:(discriminate)).
    destruct (x ++ rest); simpl re_search_from; simpl app in Hc;
      destruct (rmatch r _ [] _) as [[? ?]|]; congruence.
  - simpl. destruct (rmatch r (y :: b ++ x ++ rest) [] _) as [[? ?]|]; [discriminate|].
    apply IH; auto.
Qed.

(** * Characterisations of the derived forms *)

Lemma Den_chr p x rest c c' : Den (RChr p) x rest c c' <-> exists a, x = [a] /\ p a = true /\ c' = c.
Proof.
  split.
  - intros H; inversion H; subst; eauto.
  - intros [a [-> [Hp ->]]]. now constructor.
Qed.

Lemma Den_emp x rest c c' : Den REmpty x rest c c' <-> x = [] /\ c' = c.
Proof.
  split; [intros H; inversion H; subst; auto|intros [-> ->]; constructor].
Qed.

Lemma Den_seq a b s rest c c' :
  Den (RSeq a b) s rest c c' <->
  exists x y c1, s = x ++ y /\ Den a x (y ++ rest) c c1 /\ Den b y rest c1 c'.
Proof.
  split.
  - intros H; inversion H; subst; eauto 7.
  - intros [x [y [c1 [-> [H1 H2]]]]]. econstructor; eauto.
Qed.

Lemma Den_alt a b s rest c c' :
  Den (RAlt a b) s rest c c' <-> Den a s rest c c' \/ Den b s rest c c'.
Proof.
  split.
  - intros H; inversion H; subst; auto.
  - intros [H|H]; [now apply D_altl|now apply D_altr].
Qed.

Lemma Den_grp n a s rest c c' :
  Den (RGroup n a) s rest c c' <-> exists c1, c' = (n, s) :: c1 /\ Den a s rest c c1.
Proof.
  split.
  - intros H; inversion H; subst; eauto.
  - intros [c1 [-> H]]. now constructor.
Qed.

Lemma Den_dol s rest c c' :
  Den RDollar s rest c c' <-> s = [] /\ c' = c /\ (rest = [] \/ rest = [10%N]).
Proof.
  split.
  - intros H; inversion H; subst; auto.
  - intros [-> [-> H]]. now constructor.
Qed.

Lemma Den_lit l s rest c c' : Den (rlit l) s rest c c' <-> s = l /\ c' = c.
Proof.
  revert s c c'; induction l as [|y l IH]; intros s c c'; simpl.
  - apply Den_emp.
  - rewrite Den_seq. split.
    + intros [x [z [c1 [-> [H1 H2]]]]]. apply Den_chr in H1 as [a [-> [E ->]]].
      apply N.eqb_eq in E; subst. apply IH in H2 as [-> ->]. auto.
    + intros [-> ->]. exists [y], l, c. repeat split.
      * apply Den_chr. exists y. rewrite N.eqb_refl. auto.
      * now apply IH.
Qed.

Lemma Den_star_chr p s rest c c' :
  Den (RStar (RChr p)) s rest c c' <-> Forall (fun a => p a = true) s /\ c' = c.
Proof.
  split.
  - intros H. remember (RStar (RChr p)) as r. induction H; inversion Heqr; subst; auto.
    apply Den_chr in H0 as [a [-> [Hp ->]]]. destruct IHDen2 as [Hf ->]; auto.
    split; auto. simpl. constructor; auto.
  - intros [Hf ->]. induction Hf as [|x l Hx Hf IH]; [constructor|].
    change (x :: l) with ([x] ++ l). econstructor; [discriminate| |eauto]. now constructor.
Qed.

Lemma Den_plus_chr p s rest c c' :
  Den (rplus (RChr p)) s rest c c' <-> s <> [] /\ Forall (fun a => p a = true) s /\ c' = c.
Proof.
  unfold rplus. rewrite Den_seq. split.
  - intros [x [y [c1 [-> [H1 H2]]]]]. apply Den_chr in H1 as [a [-> [Hp ->]]].
    apply Den_star_chr in H2 as [Hf ->]. simpl. repeat split; auto. discriminate.
  - intros [Hn [Hf ->]]. destruct s as [|a s]; [congruence|]. inversion Hf; subst.
    exists [a], s, c. repeat split.
    + apply Den_chr; eauto.
    + apply Den_star_chr; auto.
Qed.

Lemma Den_rep_chr n p s rest c c' :
  Den (rrep n (RChr p)) s rest c c' <->
  List.length s = n /\ Forall (fun a => p a = true) s /\ c' = c.
Proof.
  revert s c c'; induction n as [|n IH]; intros s c c'; simpl.
  - rewrite Den_emp. destruct s; simpl; intuition (try discriminate); auto.
  - rewrite Den_seq. split.
    + intros [x [y [c1 [-> [H1 H2]]]]]. apply Den_chr in H1 as [a [-> [Hp ->]]].
      apply IH in H2 as [Hl [Hf ->]]. simpl. auto.
    + intros [Hl [Hf ->]]. destruct s as [|a s]; [discriminate|]. inversion Hf; subst.
      exists [a], s, c. repeat split; [apply Den_chr; eauto|]. apply IH. simpl in Hl; auto.
Qed.

Lemma Den_upto_chr n p s rest c c' :
  Den (rupto n (RChr p)) s rest c c' <->
  (List.length s <= n)%nat /\ Forall (fun a => p a = true) s /\ c' = c.
Proof.
  revert s c c'; induction n as [|n IH]; intros s c c'; simpl.
  - rewrite Den_emp. destruct s; simpl; intuition (try discriminate; try lia); auto.
  - unfold ropt. rewrite Den_alt, Den_emp, Den_seq. split.
    + intros [[x [y [c1 [-> [H1 H2]]]]]|[-> ->]].
      * apply Den_chr in H1 as [a [-> [Hp ->]]]. apply IH in H2 as [Hl [Hf ->]]. simpl.
        repeat split; auto; lia.
      * simpl; repeat split; auto; lia.
    + intros [Hl [Hf ->]]. destruct s as [|a s]; [auto|]. left. inversion Hf; subst.
      exists [a], s, c. repeat split; [apply Den_chr; eauto|]. apply IH. simpl in Hl.
      repeat split; auto; lia.
Qed.

Lemma Den_range_chr n m p s rest c c' : (n <= m)%nat ->
  Den (rrange n m (RChr p)) s rest c c' <->
  (n <= List.length s <= m)%nat /\ Forall (fun a => p a = true) s /\ c' = c.
Proof.
  intros Hnm. unfold rrange. rewrite Den_seq. split.
  - intros [x [y [c1 [-> [H1 H2]]]]]. apply Den_rep_chr in H1 as [Hl [Hf ->]].
    apply Den_upto_chr in H2 as [Hl2 [Hf2 ->]]. rewrite app_length.
    repeat split; try lia. apply Forall_app; auto.
  - intros [Hl [Hf ->]]. exists (firstn n s), (skipn n s), c.
    rewrite firstn_skipn. repeat split.
    + apply Den_rep_chr. repeat split; auto.
      * apply firstn_length_le; lia.
      * rewrite <- (firstn_skipn n s) in Hf. apply Forall_app in Hf; tauto.
    + apply Den_upto_chr. repeat split; auto.
      * rewrite skipn_length; lia.
      * rewrite <- (firstn_skipn n s) in Hf. apply Forall_app in Hf; tauto.
Qed.
