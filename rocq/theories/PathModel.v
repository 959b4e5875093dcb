(** Model of the os.path functions used by /repo (posixpath). *)
From Verif Require Import Base.

Definition slash : N := 47.

(** os.path.join(a, b) *)
Definition path_join (a b : str) : str :=
  if startswith [slash] b then b
  else match last_opt a with
       | None => b
       | Some c => if N.eqb c slash then a ++ b else a ++ slash :: b
       end.

(** os.path.join of several arguments: join(join(a, b), c) ... *)
Definition path_join_list (l : list str) : str :=
  match l with [] => [] | a :: r => fold_left path_join r a end.

(** The position after the last '/': (text up to and including it, rest). *)
Fixpoint rsplit_slash (s : str) : str * str :=
  match s with
  | [] => ([], [])
  | c :: r =>
      let '(h, t) := rsplit_slash r in
      match h with
      | [] => if N.eqb c slash then ([c], t) else ([], c :: t)
      | _ => (c :: h, t)
      end
  end.

(** s.rstrip("/") *)
Fixpoint lstrip_slash (s : str) : str :=
  match s with
  | [] => []
  | c :: r => if N.eqb c slash then lstrip_slash r else s
  end.
Definition rstrip_slash (s : str) : str := rev (lstrip_slash (rev s)).

(** os.path.split(p): if the head is not all slashes, strip its trailing slashes *)
Definition path_split (p : str) : str * str :=
  let '(head, tail) := rsplit_slash p in
  let stripped := rstrip_slash head in
  ((match stripped with [] => head | _ => stripped end), tail).

Definition path_basename (p : str) : str := snd (rsplit_slash p).
Definition path_dirname (p : str) : str := fst (path_split p).

(** * Facts *)

Lemma path_join_simple a b :
  a <> [] -> last_opt a <> Some slash -> startswith [slash] b = false ->
  path_join a b = a ++ slash :: b.
Proof.
  intros Ha Hl Hb. unfold path_join. rewrite Hb.
  destruct (last_opt a) as [c|] eqn:E.
  - destruct (N.eqb_spec c slash); [congruence|reflexivity].
  - exfalso. destruct a as [|x a] using rev_ind; [congruence|]. now rewrite last_opt_app in E.
Qed.

Lemma path_join_nil b : path_join [] b = b.
Proof. unfold path_join. destruct (startswith [slash] b); reflexivity. Qed.

(** A safe, non-empty path component. *)
Definition plain_component (c : str) : Prop := c <> [] /\ ~ In slash c.

Lemma plain_nostart c : plain_component c -> startswith [slash] c = false.
Proof.
  intros [Hn Hs]. destruct c as [|x c]; [congruence|]. simpl.
  destruct (N.eqb_spec slash x); [|reflexivity]. subst. exfalso; apply Hs; simpl; auto.
Qed.

Lemma last_opt_In {A} (l : list A) x : last_opt l = Some x -> In x l.
Proof. intros H. apply last_opt_some in H as [r ->]. apply in_app_iff; simpl; auto. Qed.

Lemma last_opt_app2 {A} (a b : list A) : b <> [] -> last_opt (a ++ b) = last_opt b.
Proof.
  intros Hb. destruct b as [|x b] using rev_ind; [congruence|].
  now rewrite app_assoc, !last_opt_app.
Qed.

Lemma join_last l : l <> [] -> Forall plain_component l ->
  join [slash] l <> [] /\ last_opt (join [slash] l) <> Some slash.
Proof.
  induction l as [|a l IH]; [congruence|]. intros _ Hf. inversion Hf; subst.
  destruct l as [|b l].
  - simpl. destruct H1 as [Hn Hs]. split; auto. intros H. apply Hs. now apply last_opt_In.
  - destruct IH as [I1 I2]; [discriminate|auto|].
    rewrite join_cons by discriminate. split.
    + destruct a; discriminate.
    + change (a ++ [slash] ++ join [slash] (b :: l)) with (a ++ ([slash] ++ join [slash] (b :: l))).
      rewrite last_opt_app2 by discriminate. now rewrite last_opt_app2.
Qed.

Lemma join_snoc sep l a : l <> [] -> join sep (l ++ [a]) = join sep l ++ sep ++ a.
Proof. intros H. rewrite join_app by (auto; discriminate). reflexivity. Qed.

Lemma path_join_join l a : Forall plain_component l -> plain_component a ->
  path_join (join [slash] l) a = join [slash] (l ++ [a]).
Proof.
  intros Hf Ha. destruct l as [|b l].
  - simpl. apply path_join_nil.
  - destruct (join_last (b :: l)) as [H1 H2]; [discriminate|auto|].
    rewrite path_join_simple; auto using plain_nostart.
    rewrite join_snoc by discriminate. reflexivity.
Qed.

Lemma path_join_list_plain l : Forall plain_component l -> path_join_list l = join [slash] l.
Proof.
  destruct l as [|a l]; [reflexivity|]. intros Hf. inversion Hf; subst. simpl path_join_list.
  assert (G : forall l p, Forall plain_component p -> Forall plain_component l ->
    fold_left path_join l (join [slash] p) = join [slash] (p ++ l)).
  { clear. induction l as [|b l IH]; intros p Hp Hl; simpl; [now rewrite app_nil_r|].
    inversion Hl; subst. rewrite path_join_join by auto.
    rewrite IH; auto; [now rewrite <- app_assoc|]. apply Forall_app; auto. }
  apply (G l [a]); auto.
Qed.
