(** Specifications for ocfl/fsw.py. *)
From Verif Require Import Base Utf8 PathModel FsModel FsSpec.

(** A directory path that does not end with a slash (the root may be written "/"). *)
Definition walkable (s : str) : Prop := last_opt (lstrip_slash s) <> Some slash.
Definition walkable_dec (s : str) : {walkable s} + {~ walkable s}.
Proof.
  unfold walkable. destruct (last_opt (lstrip_slash s)) as [c|]; [|left; discriminate].
  destruct (N.eq_dec c slash); [right|left]; congruence.
Defined.

Definition is_dir (n : node) : bool := match n with Dir _ => true | _ => false end.
Definition dirs_of (d : list (str * node)) : list str := map fst (filter (fun kv => is_dir (snd kv)) d).
Definition others_of (d : list (str * node)) : list str := map fst (filter (fun kv => negb (is_dir (snd kv))) d).

(** What is at a place is not a directory. *)
Definition leaf (w : node) (p : place) : Prop := look w p <> None /\ look w p <> Some EDir.

(** The directories that a consumer's pruning leaves to be visited, starting with [n] at
    [s]: all names on the way were kept. *)
Fixpoint reached (keep : str -> list str -> list str -> str -> bool) (s : str) (n : node) (rel : place) : Prop :=
  match rel, n with
  | [], Dir _ => True
  | k :: r, Dir d => keep s (dirs_of d) (others_of d) k = true /\
      match dget k d with Some m => reached keep (path_join s k) m r | None => False end
  | _, _ => False
  end.
