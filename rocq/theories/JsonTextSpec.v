(** What it means for JSON data to survive writing and reading, without the printer and
    parser. *)
From Coq Require Import Sorted.
From Verif Require Import Base Json.

(** The same value at every key at every level; the order of the keys of an object does not
    matter (Python's == on dicts). *)
Inductive same_json : json -> json -> Prop :=
| same_null : same_json JNull JNull
| same_bool b : same_json (JBool b) (JBool b)
| same_int z : same_json (JInt z) (JInt z)
| same_float t : same_json (JFloat t) (JFloat t)
| same_str s : same_json (JStr s) (JStr s)
| same_arr l l' : Forall2 same_json l l' -> same_json (JArr l) (JArr l')
| same_obj d d' :
    (forall k, In k (keys d) <-> In k (keys d')) ->
    (forall k v v', dget k d = Some v -> dget k d' = Some v' -> same_json v v') ->
    same_json (JObj d) (JObj d').

Open Scope N_scope.

(** A Python str of Unicode code points in which no high surrogate is directly followed by
    a low one (in particular: any text without surrogates). *)
Definition high_surrogate (c : N) : Prop := 55296 <= c <= 56319.
Definition low_surrogate (c : N) : Prop := 56320 <= c <= 57343.
Fixpoint text (s : str) : Prop :=
  match s with
  | [] => True
  | c :: r => c < 1114112 /\ (match r with d :: _ => ~ (high_surrogate c /\ low_surrogate d) | [] => True end) /\ text r
  end.

(** The texts of floats: what float.__repr__ returns has this form. *)
Definition digits (s : str) : Prop := s <> [] /\ Forall (fun c => 48 <= c <= 57) s.
Definition float_text (t : str) : Prop :=
  t = `"NaN" \/ t = `"Infinity" \/ t = `"-Infinity" \/
  exists sign ip fr ex,
    t = sign ++ ip ++ fr ++ ex /\ (sign = [] \/ sign = [45]) /\
    (ip = [48] \/ exists c r, ip = c :: r /\ 49 <= c <= 57 /\ Forall (fun c => 48 <= c <= 57) r) /\
    (fr = [] \/ exists d, fr = 46 :: d /\ digits d) /\
    (ex = [] \/ exists e sg d, ex = e :: sg ++ d /\ (e = 101 \/ e = 69) /\ (sg = [] \/ sg = [43] \/ sg = [45]) /\ digits d) /\
    (fr <> [] \/ ex <> []).

(** Data that json.dump can write and json.load can read: no repeated keys, strings as
    above, integers of at most 4300 digits. *)
Fixpoint writable (j : json) : Prop :=
  match j with
  | JInt z => (Z.abs z < 10 ^ 4300)%Z
  | JFloat t => float_text t
  | JStr s => text s
  | JArr l => (fix go (l : list json) : Prop := match l with [] => True | x :: r => writable x /\ go r end) l
  | JObj d => NoDup (keys d) /\
      (fix go (d : list (str * json)) : Prop :=
         match d with [] => True | kv :: r => (text (fst kv) /\ writable (snd kv)) /\ go r end) d
  | _ => True
  end.

(** The keys of every object are in order of code points. *)
Inductive before : str -> str -> Prop :=
| before_end c s : before [] (c :: s)
| before_here a b s t : a < b -> before (a :: s) (b :: t)
| before_later c s t : before s t -> before (c :: s) (c :: t).
Inductive keys_sorted : json -> Prop :=
| ks_null : keys_sorted JNull
| ks_bool b : keys_sorted (JBool b)
| ks_int z : keys_sorted (JInt z)
| ks_float t : keys_sorted (JFloat t)
| ks_str s : keys_sorted (JStr s)
| ks_arr l : Forall keys_sorted l -> keys_sorted (JArr l)
| ks_obj d : StronglySorted before (keys d) -> Forall (fun kv => keys_sorted (snd kv)) d -> keys_sorted (JObj d).

(** Unicode text: code points that are not surrogates. *)
Definition unicode (s : str) : Prop := Forall (fun c => c < 55296 \/ 57344 <= c < 1114112) s.
