(** Specification for C02, C16-C21: what an inventory says, as relations. *)
From Verif Require Import Base Json InventorySpec InventoryModel.

(** In version v the logical path p has the digest d. *)
Definition in_state (i : inventory) (v d p : str) : Prop :=
  exists vs b st l, i_versions i = Some vs /\ In (v, b) vs /\ vb_state b = Some st /\ In (d, l) st /\ In p l.
Definition in_version (i : inventory) (v p : str) : Prop := exists d, in_state i v d p.
Definition is_version (i : inventory) (v : str) : Prop := exists vs b, i_versions i = Some vs /\ In (v, b) vs.

(** Content with the digest d is in the file c. *)
Definition stored (i : inventory) (d c : str) : Prop :=
  exists m l, i_manifest i = Some m /\ In (d, l) m /\ In c l.

(** The content of the logical path p of version v is in the file c. *)
Definition resolves (i : inventory) (v p c : str) : Prop := exists d, in_state i v d p /\ stored i d c.

(** The dicts of the inventory have distinct keys, as every Python dict has. *)
Definition dicts_ok (i : inventory) : Prop :=
  (forall m, i_manifest i = Some m -> NoDup (map fst m)) /\
  (forall vs, i_versions i = Some vs -> NoDup (map fst vs)) /\
  (forall vs v b st, i_versions i = Some vs -> In (v, b) vs -> vb_state b = Some st -> NoDup (map fst st)).

(** Every logical path is once in the state of version v. *)
Definition unique_paths (i : inventory) (v : str) : Prop :=
  forall vs b st, i_versions i = Some vs -> In (v, b) vs -> vb_state b = Some st -> NoDup (concat (map snd st)).

(** Everything but the manifest and the states is the same. *)
Definition same_rest (i i' : inventory) : Prop :=
  i_id i' = i_id i /\ i_type i' = i_type i /\ i_alg i' = i_alg i /\ i_head i' = i_head i /\ i_cdir i' = i_cdir i /\
  i_fixity i' = i_fixity i /\ i_other i' = i_other i /\
  (forall v, is_version i' v <-> is_version i v) /\
  (forall vs vs' v b b', i_versions i = Some vs -> i_versions i' = Some vs' -> In (v, b) vs -> In (v, b') vs' ->
     vb_created b' = vb_created b /\ vb_message b' = vb_message b /\ vb_user b' = vb_user b /\ vb_other b' = vb_other b).

(** p is in the directory of version v. *)
Definition in_directory (v p : str) : Prop := exists r, p = v ++ `"/" ++ r.

(** ** Version numbers *)

(** v is the name of version n, of no more than five digits. *)
Definition number (v : str) (n : N) : Prop :=
  (exists w, version_name w n v) /\ n <> 0%N /\ (List.length v <= 6)%nat.

(** All versions have such names. *)
Definition numbered_versions (i : inventory) : Prop := forall v, is_version i v -> exists n, number v n.

(** w is the version with the highest number below that of v. *)
Definition previous (i : inventory) (v w : str) : Prop :=
  is_version i w /\ exists n m, number v n /\ number w m /\ (m < n)%N /\
  forall x k, is_version i x -> number x k -> (k < n)%N -> (k <= m)%N.
