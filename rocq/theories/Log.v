(** Validation log (ocfl/validation_logger.py:34-143) and computations that log.

    An entry keeps what error()/warning() (135-143) count and store as code; the
    message text is not modelled. num_errors and num_warnings are the numbers of
    entries of each kind. *)
From Verif Require Import Base.

Inductive entry := LError (code : str) | LWarning (code : str).

Definition is_error (e : entry) : bool := match e with LError _ => true | LWarning _ => false end.
Definition num_errors (l : list entry) : nat := List.length (filter is_error l).
Definition no_errors (l : list entry) : bool := forallb (fun e => negb (is_error e)) l.

(** What a call adds to the log, and its result. An exception keeps the entries
    logged before it. *)
Definition wexc (A : Type) : Type := (list entry * exc A)%type.

Definition wret {A} (a : A) : wexc A := ([], Ok a).
Definition wraise {A} (e : exn) : wexc A := ([], Raise e).
Definition wlift {A} (x : exc A) : wexc A := ([], x).
Definition wbind {A B} (x : wexc A) (f : A -> wexc B) : wexc B :=
  match snd x with
  | Ok a => let y := f a in (fst x ++ fst y, snd y)
  | Raise e => (fst x, Raise e)
  end.
Definition werror (code : str) : wexc unit := ([LError code], Ok tt).
Definition wwarning (code : str) : wexc unit := ([LWarning code], Ok tt).
Notation "'let!' x := a 'in' b" := (wbind a (fun x => b))
  (at level 200, x pattern, a at level 100, b at level 200, right associativity).
Notation "a ;! b" := (wbind a (fun _ => b)) (at level 190, right associativity).

Fixpoint wfold {A S} (f : S -> A -> wexc S) (l : list A) (s : S) : wexc S :=
  match l with
  | [] => wret s
  | a :: r => let! s' := f s a in wfold f r s'
  end.

(** Runs without error entry and without exception. *)
Definition clean {A} (w : wexc A) (a : A) : Prop := snd w = Ok a /\ no_errors (fst w) = true.

Lemma no_errors_app a b : no_errors (a ++ b) = no_errors a && no_errors b.
Proof. unfold no_errors. apply forallb_app. Qed.

Lemma num_errors_0 l : num_errors l = 0%nat <-> no_errors l = true.
Proof.
  unfold num_errors, no_errors. induction l as [|[c|c] l IH]; simpl; [split; auto|split; congruence|exact IH].
Qed.

Lemma num_errors_app a b : num_errors (a ++ b) = (num_errors a + num_errors b)%nat.
Proof. unfold num_errors. now rewrite filter_app, app_length. Qed.

Lemma clean_ret {A} (a b : A) : clean (wret a) b <-> a = b.
Proof. unfold clean; simpl. split; [intros [H _]; now apply Ok_inv in H|intros ->; auto]. Qed.
Lemma clean_raise {A} e (b : A) : clean (wraise e) b <-> False.
Proof. unfold clean; simpl. split; [intros [H _]; discriminate|tauto]. Qed.
Lemma clean_lift {A} (x : exc A) b : clean (wlift x) b <-> x = Ok b.
Proof. unfold clean; simpl. tauto. Qed.
Lemma clean_error c u : clean (werror c) u <-> False.
Proof. unfold clean; simpl. split; [intros [_ H]; discriminate|tauto]. Qed.
Lemma clean_warning c u : clean (wwarning c) u <-> True.
Proof. unfold clean; simpl. destruct u. tauto. Qed.
Lemma clean_bind {A B} (x : wexc A) (f : A -> wexc B) b :
  clean (wbind x f) b <-> exists a, clean x a /\ clean (f a) b.
Proof.
  unfold clean, wbind. destruct x as [l [a|e]]; cbn [fst snd].
  - rewrite no_errors_app, andb_true_iff. split.
    + intros [H1 [H2 H3]]. exists a. auto.
    + intros [a' [[H1 H2] [H3 H4]]]. apply Ok_inv in H1. subst a'. auto.
  - split; [intros [H _]; discriminate|intros [a [[H _] _]]; discriminate].
Qed.
Lemma clean_fun {A} (w : wexc A) a b : clean w a -> clean w b -> a = b.
Proof. intros [H _] [H' _]. rewrite H in H'. now apply Ok_inv in H'. Qed.
Lemma clean_bind_error {A} c (f : unit -> wexc A) b : clean (wbind (werror c) f) b <-> False.
Proof. rewrite clean_bind. split; [intros [a [H _]]; now apply clean_error in H|tauto]. Qed.
Lemma clean_bind_ret {A B} (a : A) (f : A -> wexc B) b : clean (wbind (wret a) f) b <-> clean (f a) b.
Proof.
  rewrite clean_bind. split; [intros [x [H K]]; apply clean_ret in H; now subst|].
  intros H. exists a. split; [now apply clean_ret|auto].
Qed.
Lemma clean_bind_warning {A} c (f : unit -> wexc A) b : clean (wbind (wwarning c) f) b <-> clean (f tt) b.
Proof.
  rewrite clean_bind. split; [intros [[] [_ K]]; auto|]. intros H. exists tt.
  split; [now apply clean_warning|auto].
Qed.
Lemma clean_if {A} (b : bool) (x y : wexc A) r :
  clean (if b then x else y) r <-> (b = true /\ clean x r) \/ (b = false /\ clean y r).
Proof. destruct b; intuition congruence. Qed.

(** Raising is decided by the parts. *)
Definition wraises {A} (w : wexc A) : Prop := exists e, snd w = Raise e.
