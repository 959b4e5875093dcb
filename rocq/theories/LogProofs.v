(** What computations that log put into the log. *)
From Verif Require Import Base Log.

(** All entries of the log satisfy P. *)
Definition logs {A} (P : entry -> Prop) (w : wexc A) : Prop := Forall P (fst w).
(** The entry e is in the log. *)
Definition logged {A} (e : entry) (w : wexc A) : Prop := In e (fst w).

Section Logs.
  Variable P : entry -> Prop.
  Lemma logs_ret {A} (a : A) : logs P (wret a).
  Proof using. constructor. Qed.
  Lemma logs_raise {A} e : logs P (@wraise A e).
  Proof using. constructor. Qed.
  Lemma logs_lift {A} (x : exc A) : logs P (wlift x).
  Proof using. constructor. Qed.
  Lemma logs_error c : P (LError c) -> logs P (werror c).
  Proof using. now repeat constructor. Qed.
  Lemma logs_warning c : P (LWarning c) -> logs P (wwarning c).
  Proof using. now repeat constructor. Qed.
  Lemma logs_bind {A B} (x : wexc A) (f : A -> wexc B) : logs P x -> (forall a, snd x = Ok a -> logs P (f a)) -> logs P (wbind x f).
  Proof using.
    unfold logs, wbind. intros H K. destruct x as [l [a|e]]; cbn [fst snd] in *; [|exact H].
    apply Forall_app. split; [exact H|now apply K].
  Qed.
  Lemma logs_if {A} (b : bool) (x y : wexc A) : (b = true -> logs P x) -> (b = false -> logs P y) -> logs P (if b then x else y).
  Proof using. destruct b; auto. Qed.
  Lemma logs_wfold {A S} (I : S -> Prop) (f : S -> A -> wexc S) l : forall s, I s ->
    (forall s a, I s -> In a l -> logs P (f s a) /\ forall s', snd (f s a) = Ok s' -> I s') -> logs P (wfold f l s).
  Proof using.
    induction l as [|a l IH]; intros s Hs H; cbn [wfold]; [apply logs_ret|].
    destruct (H s a Hs (or_introl eq_refl)) as [H1 H2]. apply logs_bind; [exact H1|]. intros s' E. apply IH; [now apply H2|].
    intros s0 a0 H0 Ha. apply H; [exact H0|now right].
  Qed.
  Lemma logs_wfold_any {A S} (f : S -> A -> wexc S) l s : (forall s a, In a l -> logs P (f s a)) -> logs P (wfold f l s).
  Proof using. intros H. apply (logs_wfold (fun _ => True)); [exact Logic.I|]. intros s' a _ Ha. split; [now apply H|auto]. Qed.
End Logs.

Lemma logs_imp {A} (P Q : entry -> Prop) (w : wexc A) : (forall e, P e -> Q e) -> logs P w -> logs Q w.
Proof. intros H. now apply Forall_impl. Qed.
Lemma logs_iff {A} (P : entry -> Prop) (w : wexc A) : logs P w <-> forall e, logged e w -> P e.
Proof. apply Forall_forall. Qed.

Lemma logged_bind {A B} e (x : wexc A) (f : A -> wexc B) :
  logged e (wbind x f) <-> logged e x \/ exists a, snd x = Ok a /\ logged e (f a).
Proof.
  unfold logged, wbind. destruct x as [l [a|r]]; cbn [fst snd].
  - rewrite in_app_iff. split; intros [H|H]; auto; [right; eauto|]. destruct H as (b & E & H). apply Ok_inv in E. subst b. now right.
  - split; [auto|]. intros [H|(b & E & _)]; [exact H|discriminate].
Qed.
Lemma logged_wfold_unit {A} e (f : A -> wexc unit) l : (forall a, In a l -> exists u, snd (f a) = Ok u) ->
  (logged e (wfold (fun _ a => f a) l tt) <-> exists a, In a l /\ logged e (f a)).
Proof.
  induction l as [|a l IH]; intros H; cbn [wfold].
  - split; [intros []|intros (a & [] & _)].
  - rewrite logged_bind. destruct (H a (or_introl eq_refl)) as [[] E]. split.
    + intros [K|([] & _ & K)]; [exists a; split; [now left|exact K]|]. apply IH in K as (b & Hb & K); [|intros b Hb; apply H; now right].
      exists b. split; [now right|exact K].
    + intros (b & [<-|Hb] & K); [now left|]. right. exists tt. split; [exact E|]. apply IH; [intros c Hc; apply H; now right|]. eauto.
Qed.

(** Goes through a computation; leaves the entries and what is not a fixed form. *)
Ltac logs_step :=
  lazymatch goal with
  | |- logs _ (wret _) => apply logs_ret
  | |- logs _ (wraise _) => apply logs_raise
  | |- logs _ (wlift _) => apply logs_lift
  | |- logs _ (werror _) => apply logs_error
  | |- logs _ (wwarning _) => apply logs_warning
  | |- logs _ (wbind _ _) => apply logs_bind; [|intros ? ?]
  | |- logs _ (match ?x with _ => _ end) => destruct x eqn:?
  | |- logs _ (wfold _ _ _) => apply logs_wfold_any; intros ? ? ?
  end.
