(** What the file system looks like from outside: what is at each place. *)
From Verif Require Import Base Utf8 PathModel FsModel.

(** A file name as the operating system has them. *)
Definition fname (c : str) : Prop := c <> [] /\ c <> `"." /\ c <> `".." /\ ~ In slash c.

(** A file system: names are file names and differ within a directory. *)
Fixpoint tree (n : node) : Prop :=
  match n with
  | Dir d => NoDup (keys d) /\
      (fix all (d : list (str * node)) : Prop :=
         match d with [] => True | (k, m) :: r => fname k /\ tree m /\ all r end) d
  | _ => True
  end.

Inductive entry := EFile (b : bytes) | EDir | EOther.
Definition entry_of (n : node) : entry := match n with File b => EFile b | Dir _ => EDir | Other => EOther end.
(** What is at a place, if anything. *)
Definition look (n : node) (p : place) : option entry :=
  match get n p with Ok m => Some (entry_of m) | Raise _ => None end.

Definition place_eq_dec : forall p q : place, {p = q} + {p <> q} := list_eq_dec (list_eq_dec N.eq_dec).

(** [q] after [p] *)
Fixpoint strip (p q : place) : option place :=
  match p, q with
  | [], _ => Some q
  | c :: p', c' :: q' => if str_eqb c c' then strip p' q' else None
  | _, _ => None
  end.
Definition look_at_spec (p q : place) (o : option place) : Prop :=
  if place_eq_dec q p then o = Some []
  else match o with Some [] => False | Some r => q = p ++ r | None => True end.

(** There is something, or there may be something, at [p]. *)
Definition can_put (p : place) (n : node) : Prop :=
  look n p <> None \/ (p <> [] /\ look n (removelast p) = Some EDir).
(** Nothing is there, but its directory is. *)
Definition fresh_place (w : node) (p : place) : Prop :=
  p <> [] /\ look w (removelast p) = Some EDir /\ look w p = None.

(** [w'] is [w] but for what is at [p]. *)
Definition changes (w w' : node) (p : place) (e : option entry) : Prop :=
  forall q, look w' q = if place_eq_dec q p then e else look w q.

Definition step_place (s : step) : place :=
  match s with Mkdir p | Create p | Append p _ | Unlink p => p end.

(** The string is no URL. *)
Definition no_url (s : str) : Prop := forall a b, s <> a ++ `"://" ++ b.
(** The directory a path is relative to *)
Definition base_of (cwd : place) (path : str) : place := if startswith [slash] path then [] else cwd.
