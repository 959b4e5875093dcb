(** JSON values as produced by Python's json.load and consumed by json.dump.
    Models the Python data (None, bool, int, float, str, list, dict), not a
    function of /repo. Floats are kept as an uninterpreted token. *)
From Verif Require Import Base.

Inductive json :=
| JNull
| JBool (b : bool)
| JInt (z : Z)
| JFloat (tok : str)
| JStr (s : str)
| JArr (l : list json)
| JObj (d : list (str * json)).

Section JsonInd.
  Variable P : json -> Prop.
  Hypothesis Hnull : P JNull.
  Hypothesis Hbool : forall b, P (JBool b).
  Hypothesis Hint : forall z, P (JInt z).
  Hypothesis Hfloat : forall t, P (JFloat t).
  Hypothesis Hstr : forall s, P (JStr s).
  Hypothesis Harr : forall l, Forall P l -> P (JArr l).
  Hypothesis Hobj : forall d, Forall (fun kv => P (snd kv)) d -> P (JObj d).
  Fixpoint json_ind' (j : json) : P j :=
    match j with
    | JNull => Hnull
    | JBool b => Hbool b
    | JInt z => Hint z
    | JFloat t => Hfloat t
    | JStr s => Hstr s
    | JArr l => Harr l ((fix go (l : list json) : Forall P l :=
                           match l with
                           | [] => Forall_nil _
                           | x :: r => Forall_cons x (json_ind' x) (go r)
                           end) l)
    | JObj d => Hobj d ((fix go (d : list (str * json)) : Forall (fun kv => P (snd kv)) d :=
                           match d with
                           | [] => Forall_nil _
                           | x :: r => Forall_cons x (json_ind' (snd x)) (go r)
                           end) d)
    end.
End JsonInd.

(** json.load never produces duplicate keys (later pairs overwrite earlier ones). *)
Fixpoint json_wf (j : json) : Prop :=
  match j with
  | JArr l => (fix go (l : list json) : Prop :=
                 match l with [] => True | x :: r => json_wf x /\ go r end) l
  | JObj d => NoDup (map fst d) /\
              (fix go (d : list (str * json)) : Prop :=
                 match d with [] => True | kv :: r => json_wf (snd kv) /\ go r end) d
  | _ => True
  end.

Lemma json_wf_arr l : json_wf (JArr l) <-> Forall json_wf l.
Proof.
  simpl. induction l as [|x l IH]; [split; auto|]. split.
  - intros [H1 H2]. constructor; auto. now apply IH.
  - intros H. inversion H; subst. split; auto. now apply IH.
Qed.

Lemma json_wf_obj d : json_wf (JObj d) <-> NoDup (keys d) /\ Forall (fun kv => json_wf (snd kv)) d.
Proof.
  simpl. unfold keys.
  assert (G : (fix go (d : list (str * json)) : Prop :=
                 match d with [] => True | kv :: r => json_wf (snd kv) /\ go r end) d
              <-> Forall (fun kv => json_wf (snd kv)) d).
  { induction d as [|x l IH]; [split; auto|]. split.
    - intros [H1 H2]. constructor; auto. now apply IH.
    - intros H. inversion H; subst. split; auto. now apply IH. }
  rewrite G. tauto.
Qed.

(** Python's == between a JSON value and a str. *)
Definition json_eq_str (j : json) (s : str) : bool :=
  match j with JStr t => str_eqb t s | _ => false end.

(** isinstance(j, int) and its value; bool is a subclass of int. *)
Definition json_int (j : json) : option Z :=
  match j with
  | JInt z => Some z
  | JBool b => Some (if b then 1 else 0)%Z
  | _ => None
  end.
