(** Python operations on the values json.load returns (not a function of /repo). *)
From Verif Require Import Base Json.

(** k in j, for a string k *)
Definition py_in (k : str) (j : json) : exc bool :=
  match j with
  | JObj d => Ok (dmem k d)
  | JArr l => Ok (existsb (fun x => json_eq_str x k) l)
  | JStr s => Ok (contains k s)
  | _ => Raise TypeError
  end.

(** j[k], for a string k *)
Definition py_getitem (k : str) (j : json) : exc json :=
  match j with
  | JObj d => match dget k d with Some v => Ok v | None => Raise KeyError end
  | _ => Raise TypeError
  end.

(** for x in j: the keys of a dict, the elements of a list, the characters of a str *)
Definition py_iter (j : json) : exc (list json) :=
  match j with
  | JObj d => Ok (map JStr (keys d))
  | JArr l => Ok l
  | JStr s => Ok (map (fun c => JStr [c]) s)
  | _ => Raise TypeError
  end.

(** j[x] for a value x: dicts by key, lists and strs by integer (negative from the end) *)
Definition py_index {A} (l : list A) (z : Z) : exc A :=
  let n := Z.of_nat (List.length l) in
  let i := if (z <? 0)%Z then (z + n)%Z else z in
  if (i <? 0)%Z then Raise IndexError
  else match nth_error l (Z.to_nat i) with Some a => Ok a | None => Raise IndexError end.
Definition py_getitem_j (x : json) (j : json) : exc json :=
  match j with
  | JObj d =>
      match x with
      | JStr k => match dget k d with Some v => Ok v | None => Raise KeyError end
      | JArr _ | JObj _ => Raise TypeError
      | _ => Raise KeyError
      end
  | JArr l => match json_int x with Some z => py_index l z | None => Raise TypeError end
  | JStr s => match json_int x with
              | Some z => let* c := py_index s z in Ok (JStr [c])
              | None => Raise TypeError
              end
  | _ => Raise TypeError
  end.

Definition hashable (j : json) : bool := match j with JArr _ | JObj _ => false | _ => true end.

(** Decides [json_wf]. *)
Fixpoint distinct_strs (l : list str) : bool :=
  match l with [] => true | x :: r => negb (str_in x r) && distinct_strs r end.
Lemma distinct_strs_NoDup l : distinct_strs l = true -> NoDup l.
Proof.
  induction l as [|x l IH]; simpl; [constructor|]. intros H. apply andb_true_iff in H as [H1 H2].
  apply negb_true_iff, str_in_false in H1. constructor; auto.
Qed.
Fixpoint json_wfb (j : json) : bool :=
  match j with
  | JArr l => (fix go (l : list json) : bool := match l with [] => true | x :: r => json_wfb x && go r end) l
  | JObj d => distinct_strs (keys d) &&
      (fix go (d : list (str * json)) : bool := match d with [] => true | kv :: r => json_wfb (snd kv) && go r end) d
  | _ => true
  end.
Lemma json_wfb_sound j : json_wfb j = true -> json_wf j.
Proof.
  induction j as [| | | | |l IH|d IH] using json_ind'; try (intros; exact I).
  - intros H. apply json_wf_arr. cbn [json_wfb] in H. induction IH as [|x l Hx _ IHl]; [constructor|].
    apply andb_true_iff in H as [H1 H2]. constructor; auto.
  - intros H. cbn [json_wfb] in H. apply andb_true_iff in H as [H0 H]. apply json_wf_obj. split; [now apply distinct_strs_NoDup|].
    clear H0. induction IH as [|kv d Hx _ IHl]; [constructor|]. apply andb_true_iff in H as [H1 H2]. constructor; auto.
Qed.

(** a == b. Simplification: two floats are equal if they are written the same, and a float
    is never equal to an int (Python compares their values). *)
Fixpoint py_eq (a b : json) {struct a} : bool :=
  match a, b with
  | JNull, JNull => true
  | JFloat s, JFloat t => str_eqb s t
  | JStr s, JStr t => str_eqb s t
  | JArr l, JArr m =>
      (fix go (l m : list json) : bool :=
         match l, m with [], [] => true | x :: l', y :: m' => py_eq x y && go l' m' | _, _ => false end) l m
  | JObj d, JObj e =>
      Nat.eqb (List.length d) (List.length e) &&
      (fix go (d : list (str * json)) : bool :=
         match d with
         | [] => true
         | kv :: r => match dget (fst kv) e with Some y => py_eq (snd kv) y | None => false end && go r
         end) d
  | (JBool _ | JInt _), (JBool _ | JInt _) =>
      match json_int a, json_int b with Some x, Some y => (x =? y)%Z | _, _ => false end
  | _, _ => false
  end.

(** j.get(k) of a dict *)
Definition py_get (k : str) (d : dict json) : json := match dget k d with Some v => v | None => JNull end.
