(** What Object.tree shows (C84). *)
From Coq Require Import Sorted.
From Verif Require Import Base Unicode PathModel FsModel FsSpec.

(** The names of what is in a directory, in order *)
Definition names_at (w : node) (p : place) (l : list str) : Prop :=
  StronglySorted (fun a b => str_leb a b = true /\ a <> b) l /\ forall n, In n l <-> look w (p ++ [n]) <> None.

(** Names that are taken for those of version directories: a v and digits, of any script, and
    possibly a line feed. *)
Definition version_like (n : str) : Prop :=
  exists ds nl, n = `"v" ++ ds ++ nl /\ ds <> [] /\ Forall (fun c => is_digit c = true) ds /\ (nl = [] \/ nl = [10%N]).
Definition digest_file (n : str) : Prop := exists x, n = `"inventory.json." ++ x.

(** The mark of an entry of the object root that is among the entries [all] *)
Inductive root_mark (spec : str) (all : list str) (n : str) : str -> Prop :=
| rm_version : version_like n -> root_mark spec all n []
| rm_known : n = `"0=ocfl_object_" ++ spec \/ n = `"inventory.json" -> root_mark spec all n []
| rm_first : digest_file n -> (forall m, In m all -> digest_file m -> str_leb n m = true) -> root_mark spec all n []
| rm_more m : digest_file n -> In m all -> digest_file m -> str_leb m n = true -> m <> n -> root_mark spec all n (`"<--- multiple inventory digests?")
| rm_unknown : ~ version_like n -> n <> `"0=ocfl_object_" ++ spec -> n <> `"inventory.json" -> ~ digest_file n -> root_mark spec all n (`"<--- ???").

(** The places [l] are those of the files below [p], or [p] itself is not a directory. *)
Definition files_below (w : node) (p : place) (l : list place) : Prop :=
  NoDup l /\ forall q, In q l <-> exists r e, q = p ++ r /\ look w q = Some e /\ e <> EDir.

(** The mark of an entry of the version directory [v] *)
Inductive version_mark (w : node) (h : place) (cdir v n : str) : str -> Prop :=
| vm_known : n = `"inventory.json" \/ digest_file n -> version_mark w h cdir v n []
| vm_content l : n = cdir -> n <> `"inventory.json" -> ~ digest_file n -> files_below w (h ++ [v; n]) l ->
    version_mark w h cdir v n (`"(" ++ str_of_N (N.of_nat (List.length l)) ++ `" files)")
| vm_unknown : n <> cdir -> n <> `"inventory.json" -> ~ digest_file n -> version_mark w h cdir v n (`"<--- ???").

(** A line: an entry of the object root (None), or of one of its version directories, with a mark *)
Record row := { r_in : option str; r_name : str; r_mark : str }.

(** The rows for a directory: each entry of the object root, followed by those of it if its name is
    version_like. *)
Inductive rows_for (w : node) (h : place) (spec cdir : str) (all : list str) : list str -> list row -> Prop :=
| rf_none : rows_for w h spec cdir all [] []
| rf_other n r m rows : ~ version_like n -> root_mark spec all n m -> rows_for w h spec cdir all r rows ->
    rows_for w h spec cdir all (n :: r) ({| r_in := None; r_name := n; r_mark := m |} :: rows)
| rf_version n r l below rows : version_like n -> names_at w (h ++ [n]) l ->
    Forall2 (fun k x => r_in x = Some n /\ r_name x = k /\ version_mark w h cdir n k (r_mark x)) l below ->
    rows_for w h spec cdir all r rows ->
    rows_for w h spec cdir all (n :: r) ({| r_in := None; r_name := n; r_mark := [] |} :: below ++ rows).

(** Lines are drawn with lines to the left: a corner for the last entry of a directory and a tee
    for others; below a version directory that is not the last entry there is a bar. *)
Definition corner : str := [9492; 9472; 9472; 32]%N.
Definition tee : str := [9500; 9472; 9472; 32]%N.
Definition bar : str := [9474; 32; 32; 32]%N.
(** [more_root]: there is another row for the root below; [more_in]: the next row is in the same
    version directory. *)
Definition in_root (x : row) : bool := match r_in x with None => true | Some _ => false end.
Fixpoint drawn (rows : list row) : str :=
  match rows with
  | [] => []
  | x :: below =>
      let more_root := existsb in_root below in
      let more_in := match below with y :: _ => negb (in_root y) | [] => false end in
      (if in_root x then (if more_root then tee else corner)
       else (if more_root then bar else `"    ") ++ (if more_in then tee else corner)) ++
      r_name x ++ `" " ++ r_mark x ++ [10%N] ++ drawn below
  end.
