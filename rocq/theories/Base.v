(** Base library: the Python values the model is built from.

    Nothing in this file models a particular function of /repo; it models the
    Python built-ins the code uses (str, dict, exceptions, sorted, split, join,
    decimal conversion). *)
From Coq Require Export String Ascii List NArith ZArith Lia Bool.
From Coq Require Import Permutation Sorted.
Export ListNotations.
Open Scope list_scope.

(** Keep arithmetic on numbers folded under [simpl]. *)
Global Arguments N.eqb : simpl never.
Global Arguments N.leb : simpl never.
Global Arguments N.ltb : simpl never.
Global Arguments N.add : simpl never.
Global Arguments N.sub : simpl never.
Global Arguments N.mul : simpl never.
Global Arguments N.div : simpl never.
Global Arguments N.modulo : simpl never.
(** Let [lia] see through division. *)
Ltac Zify.zify_post_hook ::= Z.to_euclidean_division_equations.

(** * Strings: Python [str] is a list of Unicode code points *)

Definition str := list N.

(** ASCII literal. [ascii_code] is [N_of_ascii], written so that [simpl] computes it. *)
Definition ascii_code (a : ascii) : N :=
  match a with
  | Ascii b0 b1 b2 b3 b4 b5 b6 b7 =>
      let f (b : bool) (n : N) := if b then N.succ_double n else N.double n in
      f b0 (f b1 (f b2 (f b3 (f b4 (f b5 (f b6 (f b7 0%N)))))))
  end.
Fixpoint lit (s : string) : str :=
  match s with
  | EmptyString => []
  | String a r => ascii_code a :: lit r
  end.

Notation "` s" := (lit s%string) (at level 1, s at level 0, only parsing).

Fixpoint str_eqb (a b : str) : bool :=
  match a, b with
  | [], [] => true
  | x :: a', y :: b' => N.eqb x y && str_eqb a' b'
  | _, _ => false
  end.

Lemma str_eqb_spec a b : reflect (a = b) (str_eqb a b).
Proof.
  revert b; induction a as [|x a IH]; destruct b as [|y b]; simpl; try (constructor; congruence).
  destruct (N.eqb_spec x y) as [->|Hn]; simpl.
  - destruct (IH b) as [->|Hn]; constructor; congruence.
  - constructor; congruence.
Qed.

Lemma str_eqb_refl a : str_eqb a a = true.
Proof. destruct (str_eqb_spec a a); congruence. Qed.

Lemma str_eqb_eq a b : str_eqb a b = true <-> a = b.
Proof. destruct (str_eqb_spec a b); split; congruence. Qed.

Lemma str_eqb_neq a b : str_eqb a b = false <-> a <> b.
Proof. destruct (str_eqb_spec a b); split; congruence. Qed.

Lemma str_eqb_sym a b : str_eqb a b = str_eqb b a.
Proof. destruct (str_eqb_spec a b), (str_eqb_spec b a); congruence. Qed.

Definition str_eq_dec (a b : str) : {a = b} + {a <> b} := list_eq_dec N.eq_dec a b.

(** [x in l] for a list of strings. *)
Definition str_in (x : str) (l : list str) : bool := existsb (str_eqb x) l.

Lemma str_in_spec x l : reflect (In x l) (str_in x l).
Proof.
  unfold str_in. induction l as [|y l IH]; simpl; [constructor; tauto|].
  destruct (str_eqb_spec x y); simpl; [constructor; auto|].
  destruct IH; constructor; intuition congruence.
Qed.

Lemma str_in_true x l : str_in x l = true <-> In x l.
Proof. destruct (str_in_spec x l); split; auto; congruence. Qed.

Lemma str_in_false x l : str_in x l = false <-> ~ In x l.
Proof. destruct (str_in_spec x l); split; intros; try congruence; tauto. Qed.

(** s.startswith(p), s.endswith(p) *)
Fixpoint startswith (p s : str) : bool :=
  match p, s with
  | [], _ => true
  | x :: p', y :: s' => N.eqb x y && startswith p' s'
  | _ :: _, [] => false
  end.

Lemma startswith_spec p s : startswith p s = true <-> exists r, s = p ++ r.
Proof.
  revert s; induction p as [|x p IH]; intros s; simpl.
  - split; eauto.
  - destruct s as [|y s]; [split; [congruence|intros [r Hr]; discriminate]|].
    rewrite andb_true_iff, N.eqb_eq, IH. split.
    + intros [-> [r ->]]; eauto.
    + intros [r Hr]. inversion Hr; subst; eauto.
Qed.

Definition endswith (p s : str) : bool := startswith (rev p) (rev s).

Lemma endswith_spec p s : endswith p s = true <-> exists r, s = r ++ p.
Proof.
  unfold endswith. rewrite startswith_spec. split; intros [r Hr].
  - exists (rev r). rewrite <- (rev_involutive s), Hr, rev_app_distr, rev_involutive; auto.
  - exists (rev r). rewrite Hr, rev_app_distr; auto.
Qed.

(** [c in s] for one character. *)
Definition char_in (c : N) (s : str) : bool := existsb (N.eqb c) s.

Lemma char_in_spec c s : reflect (In c s) (char_in c s).
Proof.
  unfold char_in. induction s as [|y l IH]; simpl; [constructor; tauto|].
  destruct (N.eqb_spec c y); simpl; [constructor; auto|].
  destruct IH; constructor; intuition congruence.
Qed.

(** Substring test [p in s]. *)
Fixpoint contains (p s : str) : bool :=
  startswith p s || match s with [] => false | _ :: s' => contains p s' end.

(** * split / join *)

Fixpoint split_on (c : N) (s : str) : list str :=
  match s with
  | [] => [[]]
  | x :: s' =>
      if N.eqb x c then [] :: split_on c s'
      else match split_on c s' with
           | [] => [[x]]
           | h :: t => (x :: h) :: t
           end
  end.

Fixpoint join (sep : str) (l : list str) : str :=
  match l with
  | [] => []
  | [a] => a
  | a :: r => a ++ sep ++ join sep r
  end.

Lemma split_on_nonnil c s : split_on c s <> [].
Proof.
  destruct s; simpl; [discriminate|]. destruct (N.eqb n c); [discriminate|].
  destruct (split_on c s); discriminate.
Qed.

Lemma join_cons sep a l : l <> [] -> join sep (a :: l) = a ++ sep ++ join sep l.
Proof. destruct l; [congruence|reflexivity]. Qed.

Lemma join_split c s : join [c] (split_on c s) = s.
Proof.
  induction s as [|x s IH]; [reflexivity|]. simpl.
  destruct (N.eqb_spec x c) as [->|Hn].
  - rewrite join_cons by apply split_on_nonnil. simpl. now rewrite IH.
  - destruct (split_on c s) as [|h t] eqn:E; [now apply split_on_nonnil in E|].
    destruct t as [|h2 t]; simpl in *; congruence.
Qed.

Lemma split_on_noc c s e : In e (split_on c s) -> ~ In c e.
Proof.
  revert e; induction s as [|x s IH]; simpl; intros e He.
  - destruct He as [<-|[]]; simpl; tauto.
  - destruct (N.eqb_spec x c) as [->|Hn].
    + destruct He as [<-|He]; [simpl; tauto|auto].
    + destruct (split_on c s) as [|h t] eqn:E.
      * destruct He as [<-|[]]; simpl; intuition.
      * destruct He as [<-|He]; simpl.
        -- intros [->|Hi]; [auto|]. apply (IH h); simpl; auto.
        -- apply IH; simpl; auto.
Qed.

Lemma split_on_app c a b : ~ In c a -> split_on c (a ++ c :: b) = a :: split_on c b.
Proof.
  induction a as [|x a IH]; simpl; intros Hn.
  - now rewrite N.eqb_refl.
  - destruct (N.eqb_spec x c); [intuition|]. rewrite IH by tauto. reflexivity.
Qed.

Lemma split_on_single c a : ~ In c a -> split_on c a = [a].
Proof.
  induction a as [|x a IH]; simpl; intros Hn; [reflexivity|].
  destruct (N.eqb_spec x c); [intuition|]. rewrite IH by tauto. reflexivity.
Qed.

Lemma split_on_app_gen c a b :
  split_on c (a ++ c :: b) = split_on c a ++ split_on c b.
Proof.
  induction a as [|x a IH]; simpl.
  - now rewrite N.eqb_refl.
  - destruct (N.eqb_spec x c); [now rewrite IH|]. rewrite IH.
    destruct (split_on c a) eqn:E; [now apply split_on_nonnil in E|]. reflexivity.
Qed.

Lemma split_join c l :
  l <> [] -> (forall e, In e l -> ~ In c e) -> split_on c (join [c] l) = l.
Proof.
  induction l as [|a l IH]; [congruence|]. intros _ H.
  destruct l as [|b l].
  - simpl. apply split_on_single, H; simpl; auto.
  - rewrite join_cons by discriminate. simpl app. rewrite split_on_app by (apply H; simpl; auto).
    f_equal. apply IH; [discriminate|]. intros e He; apply H; simpl in *; auto.
Qed.

Lemma join_inj c l1 l2 :
  l1 <> [] -> l2 <> [] ->
  (forall e, In e l1 -> ~ In c e) -> (forall e, In e l2 -> ~ In c e) ->
  join [c] l1 = join [c] l2 -> l1 = l2.
Proof.
  intros H1 H2 N1 N2 E. rewrite <- (split_join c l1), <- (split_join c l2); auto. now rewrite E.
Qed.

Lemma join_app sep l1 l2 :
  l1 <> [] -> l2 <> [] -> join sep (l1 ++ l2) = join sep l1 ++ sep ++ join sep l2.
Proof.
  induction l1 as [|a l1 IH]; [congruence|]. intros _ H2.
  destruct l1 as [|b l1].
  - simpl app. rewrite join_cons by auto. reflexivity.
  - change ((a :: b :: l1) ++ l2) with (a :: ((b :: l1) ++ l2)).
    rewrite join_cons by (simpl; discriminate). rewrite IH by (auto; discriminate).
    rewrite (join_cons sep a (b :: l1)) by discriminate. now rewrite <- !app_assoc.
Qed.

(** * Exceptions as values *)

Inductive exn :=
| ObjectException | InventoryException | NewVersionException | LayoutException
| StorageRootException (code : str) | NamasteException | ValidatorAbortException
| BaggerException | FswException
| ValueError | TypeError | KeyError | IndexError | AttributeError
| FileNotFoundError | JSONDecodeError | UnicodeDecodeError | OverflowError
| OSError | OtherException
| OutOfFuel (* never raised: every use comes with a proof that the fuel suffices *).

Inductive exc (A : Type) := Ok (a : A) | Raise (e : exn).
Arguments Ok {A}. Arguments Raise {A}.

Lemma Ok_inv {A} (a b : A) : Ok a = Ok b -> a = b.
Proof. congruence. Qed.

Definition ebind {A B} (x : exc A) (f : A -> exc B) : exc B :=
  match x with Ok a => f a | Raise e => Raise e end.
Notation "'let*' x := a 'in' b" := (ebind a (fun x => b))
  (at level 200, x pattern, a at level 100, b at level 200, right associativity).

Lemma ebind_ok {A B} (x : exc A) (f : A -> exc B) b :
  ebind x f = Ok b <-> exists a, x = Ok a /\ f a = Ok b.
Proof. destruct x; simpl; split; [eauto| |discriminate|]; intros [a' [H1 H2]]; congruence. Qed.

Fixpoint emap {A B} (f : A -> exc B) (l : list A) : exc (list B) :=
  match l with
  | [] => Ok []
  | a :: r => let* b := f a in let* bs := emap f r in Ok (b :: bs)
  end.

Fixpoint efold {A S} (f : S -> A -> exc S) (l : list A) (s : S) : exc S :=
  match l with
  | [] => Ok s
  | a :: r => let* s' := f s a in efold f r s'
  end.

Lemma emap_ok {A B} (f : A -> exc B) l bs :
  emap f l = Ok bs <-> Forall2 (fun a b => f a = Ok b) l bs.
Proof.
  revert bs; induction l as [|a l IH]; simpl; intros bs.
  - split; [intros H; inversion H; constructor|]. intros H; inversion H; auto.
  - rewrite ebind_ok. split.
    + intros [b [H1 H2]]. apply ebind_ok in H2 as [bs' [H2 H3]]. inversion H3; subst.
      constructor; auto. now apply IH.
    + intros H; inversion H; subst. exists y; split; auto.
      apply IH in H4. rewrite H4. reflexivity.
Qed.

(** * Dicts: insertion-ordered association lists *)

Section Dict.
  Context {A : Type}.
  Definition dict_t := list (str * A).

  Fixpoint dget (k : str) (d : dict_t) : option A :=
    match d with
    | [] => None
    | (k', v) :: r => if str_eqb k k' then Some v else dget k r
    end.

  Definition dmem (k : str) (d : dict_t) : bool :=
    match dget k d with Some _ => true | None => false end.

  (** d[k] = v: replaces in place, otherwise appends at the end. *)
  Fixpoint dset (k : str) (v : A) (d : dict_t) : dict_t :=
    match d with
    | [] => [(k, v)]
    | (k', v') :: r => if str_eqb k k' then (k', v) :: r else (k', v') :: dset k v r
    end.

  (** del d[k] (no effect if absent; the callers check). *)
  Fixpoint ddel (k : str) (d : dict_t) : dict_t :=
    match d with
    | [] => []
    | (k', v') :: r => if str_eqb k k' then r else (k', v') :: ddel k r
    end.

  Definition keys (d : dict_t) : list str := map fst d.

  Lemma dget_In k d v : dget k d = Some v -> In (k, v) d.
  Proof.
    induction d as [|[k' v'] d IH]; simpl; [discriminate|].
    destruct (str_eqb_spec k k'); [intros [= ->]; subst; auto|auto].
  Qed.

  Lemma dget_In_key k d v : dget k d = Some v -> In k (keys d).
  Proof. intros H; apply dget_In in H. apply in_map_iff. exists (k, v); auto. Qed.

  Lemma dget_None k d : dget k d = None <-> ~ In k (keys d).
  Proof.
    induction d as [|[k' v'] d IH]; simpl; [tauto|].
    destruct (str_eqb_spec k k'); subst; split; intros; try discriminate; intuition congruence.
  Qed.

  Lemma In_key_dget k d : In k (keys d) -> exists v, dget k d = Some v.
  Proof.
    destruct (dget k d) eqn:E; [eauto|]. apply dget_None in E. tauto.
  Qed.

  Lemma dmem_spec k d : reflect (In k (keys d)) (dmem k d).
  Proof.
    unfold dmem. destruct (dget k d) eqn:E.
    - constructor. eapply dget_In_key; eauto.
    - constructor. now apply dget_None.
  Qed.

  Lemma dmem_true k d : dmem k d = true <-> In k (keys d).
  Proof. destruct (dmem_spec k d); split; auto; congruence. Qed.

  Lemma dmem_false k d : dmem k d = false <-> ~ In k (keys d).
  Proof. destruct (dmem_spec k d); split; auto; try congruence; tauto. Qed.

  Lemma In_dget k v d : NoDup (keys d) -> In (k, v) d -> dget k d = Some v.
  Proof.
    induction d as [|[k' v'] d IH]; simpl; [tauto|]. intros Hnd Hin.
    inversion Hnd; subst. destruct Hin as [[= -> ->]|Hin].
    - now rewrite str_eqb_refl.
    - destruct (str_eqb_spec k k'); subst; auto. exfalso; apply H1.
      apply in_map_iff; exists (k', v); auto.
  Qed.

  Lemma dget_dset_same k v d : dget k (dset k v d) = Some v.
  Proof.
    induction d as [|[k' v'] d IH]; simpl; [now rewrite str_eqb_refl|].
    destruct (str_eqb k k') eqn:E; simpl; rewrite E; auto.
  Qed.

  Lemma dget_dset_other k k' v d : k <> k' -> dget k (dset k' v d) = dget k d.
  Proof.
    intros Hn. induction d as [|[k0 v0] d IH]; simpl.
    - destruct (str_eqb_spec k k'); congruence.
    - destruct (str_eqb_spec k' k0); simpl; destruct (str_eqb_spec k k0); congruence.
  Qed.

  Lemma dget_dset k k' v d :
    dget k (dset k' v d) = if str_eqb k k' then Some v else dget k d.
  Proof.
    destruct (str_eqb_spec k k'); subst; [apply dget_dset_same|now apply dget_dset_other].
  Qed.

  Lemma keys_dset k v d :
    keys (dset k v d) = if dmem k d then keys d else keys d ++ [k].
  Proof.
    unfold dmem. induction d as [|[k' v'] d IH]; simpl; [reflexivity|].
    destruct (str_eqb k k'); simpl; [reflexivity|]. rewrite IH. destruct (dget k d); reflexivity.
  Qed.

  Lemma In_keys_dset x k v d : In x (keys (dset k v d)) <-> x = k \/ In x (keys d).
  Proof.
    rewrite keys_dset. destruct (dmem_spec k d).
    - intuition congruence.
    - rewrite in_app_iff; simpl. intuition congruence.
  Qed.

  Lemma NoDup_dset k v d : NoDup (keys d) -> NoDup (keys (dset k v d)).
  Proof.
    intros H. rewrite keys_dset. destruct (dmem_spec k d); auto.
    apply NoDup_rev in H. rewrite <- (rev_involutive (keys d ++ [k])).
    apply NoDup_rev. rewrite rev_app_distr. simpl. constructor; auto.
    now rewrite <- in_rev.
  Qed.

  Lemma In_ddel_sub x k d : In x (ddel k d) -> In x d.
  Proof.
    induction d as [|[k' v'] d IH]; simpl; [tauto|].
    destruct (str_eqb k k'); simpl; intuition.
  Qed.

  Lemma NoDup_ddel k d : NoDup (keys d) -> NoDup (keys (ddel k d)).
  Proof.
    induction d as [|[k' v'] d IH]; simpl; intros H; [constructor|].
    inversion H; subst. destruct (str_eqb k k'); simpl; auto.
    constructor; auto. intros Hin. apply H2. apply in_map_iff in Hin as [p [E Hp]].
    apply in_map_iff. exists p; split; auto. eapply In_ddel_sub; eauto.
  Qed.

  Lemma dget_ddel k k' d : NoDup (keys d) ->
    dget k (ddel k' d) = if str_eqb k k' then None else dget k d.
  Proof.
    induction d as [|[k0 v0] d IH]; simpl; intros H.
    - now destruct (str_eqb k k').
    - inversion H; subst. destruct (str_eqb_spec k' k0); subst.
      + destruct (str_eqb_spec k k0); subst; auto. now apply dget_None.
      + simpl. rewrite IH by auto. destruct (str_eqb_spec k k0), (str_eqb_spec k k'); congruence.
  Qed.
End Dict.
Arguments dict_t A : clear implicits.
Notation dict := dict_t.

(** * Decimal numbers: Python's str(n) for n >= 0 *)

Fixpoint dec_fuel (fuel : nat) (n : N) : str :=
  match fuel with
  | O => []
  | S f => if N.ltb n 10 then [48 + n]%N else dec_fuel f (n / 10) ++ [48 + n mod 10]%N
  end.
Definition str_of_N (n : N) : str := dec_fuel (S (N.size_nat n)) n.

(** Value of a list of ASCII digit characters. *)
Definition digits_val (s : str) : N := fold_left (fun a c => (a * 10 + (c - 48))%N) s 0%N.

Definition is_ascii_digit (c : N) : bool := (48 <=? c)%N && (c <=? 57)%N.

Lemma digits_val_app a b :
  digits_val (a ++ [b]) = (digits_val a * 10 + (b - 48))%N.
Proof. unfold digits_val. now rewrite fold_left_app. Qed.

Lemma size_nat_bound n : (n < 2 ^ N.of_nat (N.size_nat n))%N.
Proof.
  destruct n as [|p]; [reflexivity|]. simpl N.size_nat.
  induction p as [p IH|p IH|]; cbn [Pos.size_nat].
  - rewrite Nat2N.inj_succ, N.pow_succ_r'. lia.
  - rewrite Nat2N.inj_succ, N.pow_succ_r'. lia.
  - reflexivity.
Qed.

Lemma dec_fuel_S f n : (n < 2 ^ N.of_nat f)%N -> forall f', (f <= f')%nat ->
  dec_fuel (S f') n = dec_fuel (S f) n.
Proof.
  revert n; induction f as [|f IH]; intros n Hn f' Hf.
  - change (2 ^ N.of_nat 0)%N with 1%N in Hn. simpl.
    destruct (N.ltb_spec n 10); [reflexivity|lia].
  - destruct f' as [|f']; [lia|].
    change (dec_fuel (S (S f')) n) with
      (if N.ltb n 10 then [48 + n]%N else dec_fuel (S f') (n / 10) ++ [48 + n mod 10]%N).
    change (dec_fuel (S (S f)) n) with
      (if N.ltb n 10 then [48 + n]%N else dec_fuel (S f) (n / 10) ++ [48 + n mod 10]%N).
    destruct (N.ltb_spec n 10); [reflexivity|]. f_equal. apply IH; [|lia].
    rewrite Nat2N.inj_succ, N.pow_succ_r' in Hn.
    apply N.div_lt_upper_bound; lia.
Qed.

Lemma str_of_N_small n : (n < 10)%N -> str_of_N n = [48 + n]%N.
Proof. intros H. unfold str_of_N; simpl. destruct (N.ltb_spec n 10); [reflexivity|lia]. Qed.

Lemma str_of_N_step n : (10 <= n)%N -> str_of_N n = str_of_N (n / 10) ++ [48 + n mod 10]%N.
Proof.
  intros H. unfold str_of_N at 1. cbn [dec_fuel].
  destruct (N.ltb_spec n 10); [lia|]. f_equal.
  pose proof (size_nat_bound n) as Hb.
  destruct (N.size_nat n) as [|f] eqn:E.
  { change (2 ^ N.of_nat 0)%N with 1%N in Hb. lia. }
  unfold str_of_N.
  assert (Hq: (n / 10 < 2 ^ N.of_nat f)%N).
  { rewrite Nat2N.inj_succ, N.pow_succ_r' in Hb. apply N.div_lt_upper_bound; lia. }
  pose proof (size_nat_bound (n/10)) as Hb2.
  set (g := N.size_nat (n/10)) in *.
  rewrite <- (dec_fuel_S f (n/10) Hq (Nat.max f g)) by lia.
  now rewrite <- (dec_fuel_S g (n/10) Hb2 (Nat.max f g)) by lia.
Qed.

Lemma N_dec_ind (P : N -> Prop) :
  (forall n, (n < 10)%N -> P n) ->
  (forall n, (10 <= n)%N -> P (n / 10)%N -> P n) -> forall n, P n.
Proof.
  intros H0 H1 n. induction n as [n IH] using (well_founded_induction N.lt_wf_0).
  destruct (N.lt_ge_cases n 10); auto. apply H1; auto. apply IH.
  apply N.div_lt; lia.
Qed.

Lemma digits_val_str_of_N n : digits_val (str_of_N n) = n.
Proof.
  induction n using N_dec_ind.
  - rewrite str_of_N_small by auto. unfold digits_val; cbn [fold_left]. lia.
  - rewrite str_of_N_step by auto. rewrite digits_val_app, IHn.
    pose proof (N.div_mod' n 10) as Hd.
    generalize dependent (n mod 10)%N; generalize dependent (n / 10)%N. intros; lia.
Qed.

Lemma str_of_N_inj a b : str_of_N a = str_of_N b -> a = b.
Proof. intros H. rewrite <- (digits_val_str_of_N a), H. apply digits_val_str_of_N. Qed.

Lemma str_of_N_digits n : Forall (fun c => is_ascii_digit c = true) (str_of_N n).
Proof.
  induction n using N_dec_ind.
  - rewrite str_of_N_small by auto. constructor; [|constructor].
    unfold is_ascii_digit. apply andb_true_iff; split; apply N.leb_le; lia.
  - rewrite str_of_N_step by auto. apply Forall_app; split; auto.
    constructor; [|constructor]. pose proof (N.mod_lt n 10 ltac:(discriminate)) as Hm; revert Hm; generalize (n mod 10)%N; intros m Hm.
    unfold is_ascii_digit. apply andb_true_iff; split; apply N.leb_le; lia.
Qed.

Lemma str_of_N_nonnil n : str_of_N n <> [].
Proof.
  destruct (N.lt_ge_cases n 10).
  - now rewrite str_of_N_small by auto.
  - rewrite str_of_N_step by auto. destruct (str_of_N (n/10)); discriminate.
Qed.

(** First character is not '0' for a positive number. *)
Lemma str_of_N_head n : (0 < n)%N -> exists c r, str_of_N n = c :: r /\ c <> 48%N.
Proof.
  induction n using N_dec_ind; intros Hp.
  - exists (48+n)%N, []. split; [now apply str_of_N_small|lia].
  - destruct IHn as [c [r [E Hc]]].
    { apply N.div_str_pos; lia. }
    exists c, (r ++ [48 + n mod 10]%N). rewrite str_of_N_step by auto. rewrite E. auto.
Qed.

(** Length of the decimal: n < 10^k iff at most k digits (k >= 1). *)
Lemma str_of_N_length n k : (1 <= k)%nat ->
  ((List.length (str_of_N n) <= k)%nat <-> (n < 10 ^ N.of_nat k)%N).
Proof.
  revert k; induction n using N_dec_ind; intros k Hk.
  - rewrite str_of_N_small by auto. simpl. split; [intros _|lia].
    destruct k as [|k]; [lia|]. rewrite Nat2N.inj_succ, N.pow_succ_r'.
    assert (0 < 10 ^ N.of_nat k)%N by (apply N.neq_0_lt_0, N.pow_nonzero; lia). nia.
  - rewrite str_of_N_step by auto. rewrite app_length; simpl.
    destruct k as [|k]; [lia|]. destruct k as [|k].
    + change (10 ^ N.of_nat 1)%N with 10%N. split; [|lia].
      pose proof (str_of_N_nonnil (n/10)). destruct (str_of_N (n/10)); simpl; [congruence|lia].
    + specialize (IHn (S k)). rewrite (Nat2N.inj_succ (S k)), N.pow_succ_r'.
      destruct (IHn ltac:(lia)) as [I1 I2].
      split; intros Hx.
      * assert ((n / 10 < 10 ^ N.of_nat (S k))%N) by (apply I1; lia).
        pose proof (N.div_mod' n 10). pose proof (N.mod_lt n 10 ltac:(discriminate)) as Hm. nia.
      * assert ((List.length (str_of_N (n/10)) <= S k)%nat); [|lia].
        apply I2. apply N.div_lt_upper_bound; lia.
Qed.

(** "%0<w>d" % n *)
Definition zero_pad (w : nat) (s : str) : str := repeat 48%N (w - List.length s) ++ s.

Lemma zero_pad_length w s : List.length (zero_pad w s) = Nat.max w (List.length s).
Proof. unfold zero_pad. rewrite app_length, repeat_length. lia. Qed.

Lemma digits_val_zeros k s : digits_val (repeat 48%N k ++ s) = digits_val s.
Proof.
  unfold digits_val. rewrite fold_left_app. f_equal.
  induction k; simpl; auto.
Qed.

Lemma digits_val_zero_pad w n : digits_val (zero_pad w (str_of_N n)) = n.
Proof. unfold zero_pad. now rewrite digits_val_zeros, digits_val_str_of_N. Qed.

(** * sorted() *)

Fixpoint str_leb (a b : str) : bool :=
  match a, b with
  | [], _ => true
  | _ :: _, [] => false
  | x :: a', y :: b' => if N.ltb x y then true else if N.ltb y x then false else str_leb a' b'
  end.

Section Sort.
  Context {A : Type} (leb : A -> A -> bool).
  Fixpoint insert_sorted (x : A) (l : list A) : list A :=
    match l with
    | [] => [x]
    | y :: r => if leb x y then x :: l else y :: insert_sorted x r
    end.
  (** Stable insertion sort; the result of Python's sorted() does not depend on
      the sorting algorithm because sorted() is stable. *)
  Fixpoint isort (l : list A) : list A :=
    match l with [] => [] | x :: r => insert_sorted x (isort r) end.

  Lemma insert_sorted_perm x l : Permutation (x :: l) (insert_sorted x l).
  Proof.
    induction l as [|y l IH]; simpl; auto. destruct (leb x y); auto.
    rewrite perm_swap. now constructor.
  Qed.
  Lemma isort_perm l : Permutation l (isort l).
  Proof.
    induction l as [|x l IH]; simpl; auto. rewrite <- insert_sorted_perm. now constructor.
  Qed.
  Lemma In_isort x l : In x (isort l) <-> In x l.
  Proof.
    split; apply Permutation_in; [apply Permutation_sym|]; apply isort_perm.
  Qed.
  Lemma isort_length l : List.length (isort l) = List.length l.
  Proof. symmetry; apply Permutation_length, isort_perm. Qed.
  Lemma isort_NoDup l : NoDup l -> NoDup (isort l).
  Proof. apply Permutation_NoDup, isort_perm. Qed.

  Hypothesis leb_total : forall a b, leb a b = true \/ leb b a = true.
  Hypothesis leb_trans : forall a b c, leb a b = true -> leb b c = true -> leb a c = true.
  Lemma insert_sorted_sorted x l :
    StronglySorted (fun a b => leb a b = true) l ->
    StronglySorted (fun a b => leb a b = true) (insert_sorted x l).
  Proof.
    induction l as [|y l IH]; simpl; intros Hs; [repeat constructor|].
    inversion Hs; subst. destruct (leb x y) eqn:E.
    - constructor; auto. constructor; auto.
      eapply Forall_impl; [|eauto]. intros a Ha; cbv beta in Ha. eauto.
    - constructor; auto. apply Forall_forall. intros z Hz.
      assert (Hz2 : In z (x :: l)).
      { eapply Permutation_in; [apply Permutation_sym, insert_sorted_perm|auto]. }
      destruct Hz2 as [<-|Hz2].
      + destruct (leb_total x y); congruence.
      + rewrite Forall_forall in H2; auto.
  Qed.
  Lemma isort_sorted l : StronglySorted (fun a b => leb a b = true) (isort l).
  Proof. induction l; simpl; [constructor|]. now apply insert_sorted_sorted. Qed.
End Sort.

Lemma str_leb_total a b : str_leb a b = true \/ str_leb b a = true.
Proof.
  revert b; induction a as [|x a IH]; destruct b as [|y b]; simpl; auto.
  destruct (N.ltb_spec x y), (N.ltb_spec y x); auto.
Qed.

Lemma str_leb_trans a b c : str_leb a b = true -> str_leb b c = true -> str_leb a c = true.
Proof.
  revert b c; induction a as [|x a IH]; destruct b as [|y b], c as [|z c]; simpl; auto; try discriminate.
  destruct (N.ltb_spec x y), (N.ltb_spec y x), (N.ltb_spec y z), (N.ltb_spec z y),
    (N.ltb_spec x z), (N.ltb_spec z x); intros; try lia; try congruence; eauto.
Qed.

Lemma str_leb_antisym a b : str_leb a b = true -> str_leb b a = true -> a = b.
Proof.
  revert b; induction a as [|x a IH]; destruct b as [|y b]; simpl; auto; try discriminate.
  destruct (N.ltb_spec x y), (N.ltb_spec y x); intros; try lia; try congruence.
  f_equal; [lia|auto].
Qed.

Definition sorted_strs (l : list str) : list str := isort str_leb l.

(** * Small list helpers *)

Fixpoint list_eqb {A} (eqb : A -> A -> bool) (a b : list A) : bool :=
  match a, b with
  | [], [] => true
  | x :: a', y :: b' => eqb x y && list_eqb eqb a' b'
  | _, _ => false
  end.

Definition last_opt {A} (l : list A) : option A :=
  match rev l with [] => None | x :: _ => Some x end.

Lemma last_opt_app {A} (l : list A) x : last_opt (l ++ [x]) = Some x.
Proof. unfold last_opt. now rewrite rev_app_distr. Qed.

Lemma last_opt_some {A} (l : list A) x : last_opt l = Some x <-> exists r, l = r ++ [x].
Proof.
  unfold last_opt. split.
  - destruct (rev l) eqn:E; [discriminate|]. intros [= ->]. exists (rev l0).
    rewrite <- (rev_involutive l), E. reflexivity.
  - intros [r ->]. now rewrite rev_app_distr.
Qed.

(** Remove all duplicates, keeping first occurrences. *)
Fixpoint dedup (l : list str) : list str :=
  match l with
  | [] => []
  | x :: r => x :: filter (fun y => negb (str_eqb x y)) (dedup r)
  end.

Lemma In_dedup x l : In x (dedup l) <-> In x l.
Proof.
  induction l as [|y l IH]; simpl; [tauto|]. rewrite filter_In, IH.
  destruct (str_eqb_spec y x); simpl; intuition congruence.
Qed.

Lemma NoDup_dedup l : NoDup (dedup l).
Proof.
  induction l as [|y l IH]; simpl; constructor.
  - rewrite filter_In, str_eqb_refl. simpl. intuition discriminate.
  - now apply NoDup_filter.
Qed.
