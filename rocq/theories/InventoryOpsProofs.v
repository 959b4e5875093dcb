From Coq Require Import Permutation.
From Verif Require Import Base Unicode Regex Utf8 Json PathModel DigestModel ObjectUtilsModel ObjectUtilsProofs InventoryValidatorModel
  InventoryModel InventoryOpsSpec.

(** ** Blocks *)

Definition block_has (b : block) (d p : str) : Prop := exists l, In (d, l) b /\ In p l.

Lemma In_paths_of b p : In p (paths_of b) <-> exists d, block_has b d p.
Proof.
  unfold paths_of. rewrite in_flat_map. split.
  - intros [[d l] [H1 H2]]. exists d, l. auto.
  - intros [d [l [H1 H2]]]. exists (d, l). auto.
Qed.

Lemma block_has_dget b d p : NoDup (keys b) -> (block_has b d p <-> exists l, dget d b = Some l /\ In p l).
Proof.
  intros Hn. split; intros [l [H1 H2]]; exists l; split; auto; [now apply In_dget|now apply dget_In].
Qed.

Lemma block_has_dset b k l d p : NoDup (keys b) ->
  (block_has (dset k l b) d p <-> (d = k /\ In p l) \/ (d <> k /\ block_has b d p)).
Proof.
  intros Hn. rewrite !block_has_dget by auto using NoDup_dset. rewrite dget_dset. destruct (str_eqb_spec d k) as [->|E].
  - split; [intros [x [H1 H2]]; apply Some_inv in H1; subst; auto|]. intros [[_ H]|[H _]]; [|congruence]. exists l. auto.
  - split; [intros H; right; auto|]. intros [[H _]|[_ H]]; [congruence|auto].
Qed.

Lemma block_has_ddel b k d p : NoDup (keys b) -> (block_has (ddel k b) d p <-> d <> k /\ block_has b d p).
Proof.
  intros Hn. rewrite !block_has_dget by auto using NoDup_ddel. rewrite dget_ddel by auto. destruct (str_eqb_spec d k) as [->|E].
  - split; [intros [l [H _]]; discriminate|]. tauto.
  - tauto.
Qed.

Lemma append_to_has b k x d p : NoDup (keys b) -> (block_has (append_to k x b) d p <-> block_has b d p \/ (d = k /\ p = x)).
Proof.
  intros Hn. unfold append_to. destruct (dget k b) as [l|] eqn:E.
  - rewrite block_has_dset by auto. rewrite block_has_dget by auto. split.
    + intros [[-> H]|[H1 H2]]; [|auto]. apply in_app_or in H as [H|[H|[]]]; [left; eauto|auto].
    + intros [[l' [H1 H2]]|[-> ->]].
      * destruct (str_eq_dec d k) as [->|Hk]; [|right; split; eauto]. left. split; [auto|]. apply in_or_app. left. congruence.
      * left. split; [auto|]. apply in_or_app. right. now left.
  - rewrite block_has_dset by auto. split.
    + intros [[-> [H|[]]]|[H1 H2]]; auto.
    + intros [H|[-> ->]]; [|left; split; [auto|now left]]. destruct (str_eq_dec d k) as [->|Hk]; [|auto].
      apply block_has_dget in H as [l [H _]]; congruence.
Qed.

Lemma NoDup_append_to b k x : NoDup (keys b) -> NoDup (keys (append_to k x b)).
Proof. intros H. unfold append_to. destruct (dget k b); now apply NoDup_dset. Qed.

Lemma paths_dset_perm (b : block) k l l' : NoDup (keys b) -> dget k b = Some l ->
  exists r, Permutation (paths_of b) (l ++ r) /\ Permutation (paths_of (dset k l' b)) (l' ++ r).
Proof.
  induction b as [|[k' v] b IH]; [discriminate|]. intros Hn E. cbn [keys map fst] in Hn. inversion Hn as [|? ? N1 N2]; subst.
  cbn [dget] in E. cbn [dset]. destruct (str_eqb_spec k k') as [->|Ek].
  - apply Some_inv in E. subst v. exists (paths_of b). split; reflexivity.
  - destruct (IH N2 E) as (r & P1 & P2). exists (v ++ r). cbn [paths_of flat_map snd]. fold (paths_of b). fold (paths_of (dset k l' b)). split.
    + rewrite P1. rewrite !app_assoc. apply Permutation_app_tail, Permutation_app_comm.
    + rewrite P2. rewrite !app_assoc. apply Permutation_app_tail, Permutation_app_comm.
Qed.

Lemma paths_dset_new (b : block) k l : dget k b = None -> paths_of (dset k l b) = paths_of b ++ l.
Proof.
  induction b as [|[k' v] b IH]; intros E; cbn [dset dget] in *; [cbn; now rewrite app_nil_r|].
  destruct (str_eqb k k') eqn:Ek; [discriminate|]. cbn [paths_of flat_map snd]. fold (paths_of b). fold (paths_of (dset k l b)).
  rewrite IH by auto. now rewrite app_assoc.
Qed.

Lemma paths_append_to b k x : NoDup (keys b) -> Permutation (paths_of (append_to k x b)) (x :: paths_of b).
Proof.
  intros Hn. unfold append_to. destruct (dget k b) as [l|] eqn:E.
  - destruct (paths_dset_perm b k l (l ++ [x]) Hn E) as (r & P1 & P2). rewrite P2, P1.
    rewrite <- app_assoc. symmetry. apply Permutation_middle.
  - rewrite paths_dset_new by auto. symmetry. apply Permutation_cons_append.
Qed.

(** ** Inventories *)

Lemma dicts_manifest i : dicts_ok i -> NoDup (keys (manifest i)).
Proof. intros [H _]. unfold manifest. destruct (i_manifest i) eqn:E; [now apply H|constructor]. Qed.
Lemma dicts_versions i : dicts_ok i -> NoDup (keys (versions_block i)).
Proof. intros [_ [H _]]. unfold versions_block. destruct (i_versions i) eqn:E; [now apply H|constructor]. Qed.
Lemma dicts_state i v : dicts_ok i -> NoDup (keys (state i v)).
Proof.
  intros (_ & _ & H). unfold state, versiondata, versions_block. destruct (i_versions i) as [vs|] eqn:E; [|constructor]. cbn [or_empty].
  destruct (dget v vs) as [b|] eqn:Ev; [|constructor]. destruct (vb_state b) as [st|] eqn:Es; [|constructor].
  apply (H vs v b st); auto. now apply dget_In.
Qed.

Lemma stored_iff i d c : stored i d c <-> block_has (manifest i) d c.
Proof.
  unfold stored, manifest, block_has. split.
  - intros (m & l & -> & H1 & H2). eauto.
  - intros (l & H1 & H2). destruct (i_manifest i) as [m|]; [|contradiction]. eauto.
Qed.
Lemma stored_any i c : (exists d, stored i d c) <-> In c (content_paths i).
Proof.
  unfold content_paths. rewrite In_paths_of. split; intros [d H]; exists d; now apply stored_iff.
Qed.
Lemma in_state_iff i v d p : dicts_ok i -> (in_state i v d p <-> block_has (state i v) d p).
Proof.
  intros (_ & Hv & _). unfold in_state, state, versiondata, versions_block, block_has. split.
  - intros (vs & b & st & l & E1 & H1 & E2 & H2 & H3). rewrite E1. cbn [or_empty].
    rewrite (In_dget v b vs) by (auto; now apply Hv). rewrite E2. cbn [or_empty]. eauto.
  - intros (l & H1 & H2). destruct (i_versions i) as [vs|] eqn:E; [|contradiction]. cbn [or_empty] in H1.
    destruct (dget v vs) as [b|] eqn:Ev; [|contradiction]. destruct (vb_state b) as [st|] eqn:Es; [|contradiction].
    exists vs, b, st, l. split; [auto|]. split; [now apply dget_In|]. auto.
Qed.
Lemma in_version_iff i v p : dicts_ok i -> (in_version i v p <-> In p (logical_paths i v)).
Proof.
  intros H. unfold in_version, logical_paths. rewrite In_paths_of. split; intros [d Hd]; exists d; now apply in_state_iff.
Qed.
Lemma is_version_iff i v : is_version i v <-> exists b, dget v (versions_block i) = Some b.
Proof.
  unfold is_version, versions_block. split.
  - intros (vs & b & -> & H). cbn [or_empty]. apply (in_map fst) in H. now apply In_key_dget.
  - intros [b H]. destruct (i_versions i) as [vs|]; [|discriminate]. exists vs, b. split; [auto|]. now apply dget_In.
Qed.
Lemma unique_paths_iff i v : dicts_ok i -> (unique_paths i v <-> NoDup (logical_paths i v)).
Proof.
  intros (_ & Hv & _). unfold unique_paths, logical_paths, state, versiondata, versions_block, paths_of. split.
  - intros H. destruct (i_versions i) as [vs|] eqn:E; [|constructor]. cbn [or_empty].
    destruct (dget v vs) as [b|] eqn:Ev; [|constructor]. destruct (vb_state b) as [st|] eqn:Es; [|constructor].
    cbn [or_empty]. rewrite flat_map_concat_map. apply (H vs b st); auto. now apply dget_In.
  - intros H vs b st E1 H1 E2. rewrite E1 in H. cbn [or_empty] in H.
    rewrite (In_dget v b vs) in H by (auto; now apply Hv). rewrite E2 in H. cbn [or_empty] in H. now rewrite flat_map_concat_map in H.
Qed.

(** Two inventories with the same manifest and states. *)
Lemma state_set_manifest m i v : state (set_manifest m i) v = state i v.
Proof. reflexivity. Qed.
Lemma manifest_set_manifest m i : manifest (set_manifest m i) = m.
Proof. reflexivity. Qed.
Lemma versions_set_versions vs i : versions_block (set_versions vs i) = vs.
Proof. reflexivity. Qed.
Lemma manifest_set_state v s i : manifest (set_state v s i) = manifest i.
Proof. unfold set_state, update_version. now destruct (dget v (versions_block i)). Qed.
Lemma content_paths_set_state v s i : content_paths (set_state v s i) = content_paths i.
Proof. unfold content_paths. now rewrite manifest_set_state. Qed.
Lemma state_set_state v s i v' : is_version i v -> state (set_state v s i) v' = if str_eqb v' v then s else state i v'.
Proof.
  intros Hv. apply is_version_iff in Hv as [b Hb]. unfold set_state, update_version. rewrite Hb.
  unfold state, versiondata. rewrite versions_set_versions, dget_dset. destruct (str_eqb_spec v' v) as [->|E]; reflexivity.
Qed.

Lemma dicts_set_manifest m i : dicts_ok i -> NoDup (keys m) -> dicts_ok (set_manifest m i).
Proof. intros (H1 & H2 & H3) H. split; [intros m' E; apply Some_inv in E; subst; auto|]. split; auto. Qed.

Lemma dicts_set_state v s i : dicts_ok i -> NoDup (keys s) -> dicts_ok (set_state v s i).
Proof.
  intros Hd H. pose proof (dicts_versions i Hd) as Hv. unfold set_state, update_version.
  destruct (dget v (versions_block i)) as [b|] eqn:E; [|auto]. destruct Hd as (H1 & H2 & H3).
  split; [exact H1|]. split.
  - intros vs Evs. apply Some_inv in Evs. subst vs. now apply NoDup_dset.
  - intros vs w b' st Evs Hi Est. apply Some_inv in Evs. subst vs.
    apply (In_dget w b') in Hi; [|now apply NoDup_dset]. rewrite dget_dset in Hi. destruct (str_eqb_spec w v) as [->|Ew].
    + apply Some_inv in Hi. subst b'. apply Some_inv in Est. now subst.
    + unfold versions_block in Hi. destruct (i_versions i) as [vs0|] eqn:Ei; [|discriminate]. apply (H3 vs0 w b' st); auto. now apply dget_In.
Qed.

(** ** What stays the same *)

Lemma same_rest_refl i : dicts_ok i -> same_rest i i.
Proof.
  intros (_ & H & _). do 7 (split; [reflexivity|]). split; [tauto|]. intros vs vs' v b b' E E' Hb Hb'.
  assert (vs' = vs) by congruence. subst. assert (b' = b); [|subst; auto].
  apply (In_dget v b) in Hb; [|now apply H]. apply (In_dget v b') in Hb'; [|now apply H]. congruence.
Qed.

Lemma same_rest_trans i j k : same_rest i j -> same_rest j k -> same_rest i k.
Proof.
  intros (A1 & A2 & A3 & A4 & A5 & A6 & A7 & A8 & A9) (B1 & B2 & B3 & B4 & B5 & B6 & B7 & B8 & B9).
  do 7 (split; [congruence|]). split; [intros v; rewrite B8; apply A8|].
  intros vs vs' v b b' E E' Hb Hb'. destruct (proj1 (B8 v)) as (vs1 & b1 & E1 & Hb1); [exists vs', b'; auto|].
  destruct (A9 _ _ _ _ _ E E1 Hb Hb1) as (C1 & C2 & C3 & C4). destruct (B9 _ _ _ _ _ E1 E' Hb1 Hb') as (D1 & D2 & D3 & D4).
  repeat split; congruence.
Qed.

Lemma same_rest_set_manifest m i : dicts_ok i -> same_rest i (set_manifest m i).
Proof. intros H. exact (same_rest_refl i H). Qed.

Lemma same_rest_set_state v s i : dicts_ok i -> same_rest i (set_state v s i).
Proof.
  intros Hd. pose proof (dicts_versions i Hd) as Hv. unfold set_state, update_version.
  destruct (dget v (versions_block i)) as [b|] eqn:E; [|now apply same_rest_refl].
  do 7 (split; [reflexivity|]). split.
  - intros w. rewrite !is_version_iff, versions_set_versions, dget_dset. destruct (str_eqb_spec w v) as [->|Ew]; [|reflexivity].
    split; intros _; eauto.
  - intros vs vs' w c c' E1 E2 H1 H2. apply Some_inv in E2. subst vs'. assert (Evs : versions_block i = vs) by (unfold versions_block; now rewrite E1).
    rewrite Evs in *. apply (In_dget w c) in H1; [|auto]. apply (In_dget w c') in H2; [|now apply NoDup_dset].
    rewrite dget_dset in H2. destruct (str_eqb_spec w v) as [->|Ew].
    + apply Some_inv in H2. subst c'. rewrite E in H1. apply Some_inv in H1. subst c. repeat split; reflexivity.
    + assert (c' = c) by congruence. subst. auto.
Qed.

Lemma is_version_set_state i v s w : dicts_ok i -> (is_version (set_state v s i) w <-> is_version i w).
Proof. intros H. pose proof (same_rest_set_state v s i H) as (_ & _ & _ & _ & _ & _ & _ & A & _). apply A. Qed.

(** ** add_file_to_manifest *)

Lemma add_file_to_manifest_ok d c i i' r : dicts_ok i -> add_file_to_manifest d c i = (i', r) ->
  (In c (content_paths i) /\ i' = i /\ r = Raise InventoryException) \/
  (~ In c (content_paths i) /\ r = Ok tt /\ i' = set_manifest (append_to d c (manifest i)) i /\ dicts_ok i' /\
   (forall d' c', stored i' d' c' <-> stored i d' c' \/ (d' = d /\ c' = c))).
Proof.
  intros Hd. unfold add_file_to_manifest. destruct (str_in_spec c (content_paths i)) as [H|H]; intros E.
  - left. repeat split; congruence.
  - right. assert (Ei : i' = set_manifest (append_to d c (manifest i)) i) by congruence. assert (Er : r = Ok tt) by congruence.
    subst i' r. pose proof (dicts_manifest i Hd) as Hm. split; [auto|]. split; [auto|]. split; [auto|]. split.
    + apply dicts_set_manifest; auto. now apply NoDup_append_to.
    + intros d' c'. rewrite !stored_iff, manifest_set_manifest. now apply append_to_has.
Qed.

(** ** add_file *)

Lemma add_to_state_ok i v d p : dicts_ok i -> is_version i v ->
  let i' := set_state v (append_to d p (state i v)) i in
  dicts_ok i' /\ same_rest i i' /\ manifest i' = manifest i /\
  (forall w e q, in_state i' w e q <-> in_state i w e q \/ (w = v /\ e = d /\ q = p)).
Proof.
  intros Hd Hv i'. pose proof (dicts_state i v Hd) as Hs.
  assert (Hd' : dicts_ok i') by (apply dicts_set_state; auto; now apply NoDup_append_to).
  split; [auto|]. split; [now apply same_rest_set_state|]. split; [apply manifest_set_state|].
  intros w e q. rewrite !in_state_iff by auto. unfold i'. rewrite state_set_state by auto. destruct (str_eqb_spec w v) as [->|E].
  - rewrite append_to_has by auto. tauto.
  - split; [auto|]. intros [H|[H _]]; [auto|contradiction].
Qed.

Theorem add_file_correct v d p cp dd i i' r : dicts_ok i -> is_version i v ->
  add_file v d p cp dd i = (i', r) ->
  (in_version i v p /\ i' = i /\ r = Raise InventoryException) \/
  (~ in_version i v p /\ exists o, r = Ok o /\ dicts_ok i' /\ same_rest i i' /\
     (forall w e q, in_state i' w e q <-> in_state i w e q \/ (w = v /\ e = d /\ q = p)) /\
     (forall e c, stored i' e c <-> stored i e c \/ (e = d /\ o = Some c)) /\
     (forall c, o = Some c -> forall e, ~ stored i e c) /\
     (o = None <-> dd = true /\ exists c, stored i d c)).
Proof.
  intros Hd Hv. unfold add_file. destruct (str_in_spec p (logical_paths i v)) as [Hp|Hp].
  { intros E. left. split; [now apply in_version_iff|]. split; congruence. }
  intros E. right. split; [now rewrite in_version_iff|].
  set (r0 := match content_paths_for_digest i d with [] => _ | _ :: _ => _ end) in E.
  assert (G : exists i1 o, r0 = (i1, Ok o) /\ dicts_ok i1 /\ same_rest i i1 /\ i_versions i1 = i_versions i /\
     (forall e c, stored i1 e c <-> stored i e c \/ (e = d /\ o = Some c)) /\
     (forall c, o = Some c -> forall e, ~ stored i e c) /\ (o = None <-> dd = true /\ exists c, stored i d c)).
  { assert (New : forall P : Prop, (~ (dd = true /\ exists c, stored i d c)) ->
      exists i1 o, (match make_unused_filepath (path_join_list [v; content_directory_to_use i; match cp with Some c => c | None => p end])
                        (content_paths i) default_separator with
          | Raise e => (i, Raise e)
          | Ok p0 => match add_file_to_manifest d p0 i with (i1, Ok tt) => (i1, Ok (Some p0)) | (i1, Raise e) => (i1, Raise e) end
          end) = (i1, Ok o) /\ dicts_ok i1 /\ same_rest i i1 /\ i_versions i1 = i_versions i /\
     (forall e c, stored i1 e c <-> stored i e c \/ (e = d /\ o = Some c)) /\
     (forall c, o = Some c -> forall e, ~ stored i e c) /\ (o = None <-> dd = true /\ exists c, stored i d c)).
    { intros _ Hno. destruct (make_unused_filepath_total (path_join_list [v; content_directory_to_use i; match cp with Some c => c | None => p end])
                        (content_paths i) default_separator) as [c Hc].
      rewrite Hc. pose proof (make_unused_filepath_spec _ _ _ _ Hc) as [Hu _].
      destruct (add_file_to_manifest d c i) as [i1 r1] eqn:Ea.
      destruct (add_file_to_manifest_ok _ _ _ _ _ Hd Ea) as [(F & _)|(_ & -> & Ei & Hd1 & Hs)]; [contradiction|].
      exists i1, (Some c). split; [reflexivity|]. split; [auto|]. rewrite Ei. split; [now apply same_rest_set_manifest|]. split; [reflexivity|].
      rewrite <- Ei. split; [intros e c'; rewrite Hs; split; intros [H|[H1 H2]]; auto; right; split; auto; congruence|].
      split; [|split; [discriminate|tauto]].
      intros c' Ec e He. apply Some_inv in Ec. subst c'. apply Hu. apply stored_any. eauto. }
    assert (Hcp : forall c, In c (content_paths_for_digest i d) <-> stored i d c).
    { intros c. rewrite stored_iff, block_has_dget by now apply dicts_manifest. unfold content_paths_for_digest.
      destruct (dget d (manifest i)) as [l|]; cbn [or_empty]; split; [eauto|intros [l' [El Hl]]; congruence|intros []|intros [l' [El _]]; discriminate]. }
    subst r0. destruct (content_paths_for_digest i d) as [|c0 cs].
    - apply (New True). intros [_ [c Hc]]. apply Hcp in Hc. destruct Hc.
    - destruct dd.
      + exists i, None. split; [reflexivity|]. split; [auto|]. split; [now apply same_rest_refl|]. split; [auto|].
        split; [intros e c; split; [auto|intros [H|[_ H]]; [auto|discriminate]]|]. split; [discriminate|]. split; [|auto].
        intros _. split; [auto|]. exists c0. apply Hcp. now left.
      + apply (New True). intros [H _]. discriminate. }
  destruct G as (i1 & o & E0 & Hd1 & Hr1 & Hv1 & S1 & S2 & S3). rewrite E0 in E.
  assert (Hver : is_version i1 v) by (destruct Hv as (vs & b & H1 & H2); exists vs, b; split; [congruence|auto]).
  pose proof (proj1 (is_version_iff _ _) Hver) as [b Hb]. rewrite Hb in E.
  destruct (add_to_state_ok i1 v d p Hd1 Hver) as (K1 & K2 & K3 & K4).
  assert (Ei : i' = set_state v (append_to d p (state i1 v)) i1) by congruence. assert (Er : r = Ok o) by congruence.
  clear E. subst i' r. exists o. split; [auto|]. split; [auto|]. split; [eapply same_rest_trans; eauto|]. split.
  - intros w e q. rewrite K4. assert (A : in_state i1 w e q <-> in_state i w e q); [|tauto].
    unfold in_state. now rewrite Hv1.
  - split; [|auto]. intros e c. rewrite <- S1. rewrite !stored_iff, K3. reflexivity.
Qed.

(** ** delete_logical_path *)

Lemma NoDup_app_disj {A} (a b : list A) x : NoDup (a ++ b) -> In x a -> In x b -> False.
Proof.
  induction a as [|y a IH]; [intros _ []|]. cbn [app]. intros Hn. inversion Hn as [|? ? H1 H2]; subst. intros [->|Ha] Hb; [|eauto].
  apply H1, in_or_app. auto.
Qed.
Lemma NoDup_app_l {A} (a b : list A) : NoDup (a ++ b) -> NoDup a.
Proof.
  induction a as [|y a IH]; [constructor|]. cbn [app]. intros Hn. inversion Hn as [|? ? H1 H2]; subst.
  constructor; [|auto]. intros H. apply H1, in_or_app. auto.
Qed.
Lemma NoDup_app_r {A} (a b : list A) : NoDup (a ++ b) -> NoDup b.
Proof. induction a as [|y a IH]; [auto|]. cbn [app]. intros Hn. inversion Hn; auto. Qed.

Lemma paths_unique (b : block) d e p : NoDup (paths_of b) -> block_has b d p -> block_has b e p -> d = e.
Proof.
  induction b as [|[k l] b IH]; [intros _ [x [[] _]]|]. cbn [paths_of flat_map snd]. fold (paths_of b). intros Hn [x [Hx Hpx]] [y [Hy Hpy]].
  assert (Q : forall f z, In (f, z) b -> In p z -> In p (paths_of b)) by (intros f z Hz Hpz; apply In_paths_of; exists f, z; auto).
  destruct Hx as [Hx|Hx], Hy as [Hy|Hy].
  - congruence.
  - exfalso. apply (NoDup_app_disj _ _ p Hn); [congruence|eauto].
  - exfalso. apply (NoDup_app_disj _ _ p Hn); [congruence|eauto].
  - apply IH; [eapply NoDup_app_r; eauto|exists x; auto|exists y; auto].
Qed.
Lemma paths_entry (b : block) d l : NoDup (paths_of b) -> In (d, l) b -> NoDup l.
Proof.
  induction b as [|[k x] b IH]; [intros _ []|]. cbn [paths_of flat_map snd]. intros Hn [H|H].
  - apply NoDup_app_l in Hn. congruence.
  - apply IH; [eapply NoDup_app_r; eauto|auto].
Qed.

Lemma In_remove_first x y l : NoDup l -> (In y (remove_first x l) <-> In y l /\ y <> x).
Proof.
  induction l as [|z l IH]; [simpl; tauto|]. intros Hn. inversion Hn as [|? ? H1 H2]; subst. cbn [remove_first].
  destruct (str_eqb_spec x z) as [->|E].
  - split; [intros H; split; [now right|intros ->; contradiction]|]. intros [[->|H] Hne]; [congruence|auto].
  - cbn [In]. rewrite IH by auto. split; [intros [->|[H3 H4]]; [split; [auto|congruence]|auto]|]. intros [[->|H] Hne]; auto.
Qed.

Lemma find_block b p : match find (fun kv => str_in p (snd kv)) b with
  | Some (d, l) => In (d, l) b /\ In p l
  | None => ~ In p (paths_of b) end.
Proof.
  destruct (find _ b) as [[d l]|] eqn:E.
  - apply find_some in E as [H1 H2]. apply str_in_true in H2. auto.
  - intros H. apply In_paths_of in H as [d [l [H1 H2]]]. apply (find_none _ _ E) in H1. apply str_in_false in H1. contradiction.
Qed.

Theorem delete_correct v p i i' r : dicts_ok i -> unique_paths i v -> delete_logical_path v p i = (i', r) ->
  (~ in_version i v p /\ i' = i /\ r = Raise InventoryException) \/
  (exists d, in_state i v d p /\ r = Ok d /\ dicts_ok i' /\ same_rest i i' /\
     (forall w e q, in_state i' w e q <-> in_state i w e q /\ ~ (w = v /\ q = p)) /\
     (forall e c, stored i' e c <-> stored i e c /\ ~ (e = d /\ in_directory v c /\ forall q, in_state i v d q -> q = p))).
Proof.
  intros Hd Hu E. apply unique_paths_iff in Hu; [|auto]. unfold logical_paths in Hu. unfold delete_logical_path in E.
  pose proof (find_block (state i v) p) as F. destruct (find _ (state i v)) as [[d l]|].
  2:{ left. split; [rewrite in_version_iff by auto; exact F|]. split; congruence. }
  right. destruct F as [Fi Fp]. pose proof (dicts_state i v Hd) as Hs. pose proof (dicts_manifest i Hd) as Hm.
  pose proof (paths_entry _ _ _ Hu Fi) as Hl.
  assert (Hin : in_state i v d p) by (apply in_state_iff; [auto|exists l; auto]).
  assert (Hv : is_version i v) by (destruct Hin as (vs & b & st & l' & H1 & H2 & _); exists vs, b; auto).
  assert (Ent : forall q, in_state i v d q <-> In q l).
  { intros q. rewrite in_state_iff by auto. split; [|intros H; exists l; auto]. intros [l' [H1 H2]].
    apply In_dget in H1; [|auto]. apply In_dget in Fi; [|auto]. congruence. }
  exists d. split; [auto|].
  destruct (1 <? List.length l)%nat eqn:Len.
  - apply Nat.ltb_lt in Len.
    assert (Ei : i' = set_state v (dset d (remove_first p l) (state i v)) i) by congruence. assert (Er : r = Ok d) by congruence. clear E. subst i' r.
    assert (Hd' : dicts_ok (set_state v (dset d (remove_first p l) (state i v)) i)) by (apply dicts_set_state; auto; now apply NoDup_dset).
    split; [auto|]. split; [auto|]. split; [now apply same_rest_set_state|]. split.
    + intros w e q. rewrite !in_state_iff by auto. rewrite state_set_state by auto. destruct (str_eqb_spec w v) as [->|Ew].
      * rewrite block_has_dset by auto. rewrite In_remove_first by auto. split.
        -- intros [[-> [H1 H2]]|[H1 H2]]; (split; [|intros [_ ->]]).
           ++ exists l. auto.
           ++ congruence.
           ++ auto.
           ++ apply H1. apply (paths_unique (state i v) e d p); auto. exists l. auto.
        -- intros [H1 H2]. destruct (str_eq_dec e d) as [->|Ed]; [left|right; auto]. split; [auto|]. split; [|intros ->; tauto].
           apply Ent. apply in_state_iff; auto.
      * split; [intros H; split; [auto|intros [? _]; contradiction]|tauto].
    + intros e c. rewrite !stored_iff, manifest_set_state. split; [|tauto]. intros H. split; [auto|]. intros (_ & _ & Ho).
      destruct l as [|a [|b l]]; cbn in Len; try lia. assert (a = p) by (apply Ho, Ent; now left). assert (b = p) by (apply Ho, Ent; right; now left).
      subst. inversion Hl as [|? ? H1 _]. apply H1. now left.
  - apply Nat.ltb_ge in Len. assert (l = [p]). { destruct l as [|a [|b l]]; [destruct Fp|destruct Fp as [->|[]]; auto|cbn in Len; lia]. } subst l.
    set (i1 := set_state v (ddel d (state i v)) i) in E.
    assert (Hd1 : dicts_ok i1) by (apply dicts_set_state; auto; now apply NoDup_ddel).
    assert (Hst : forall w e q, in_state i1 w e q <-> in_state i w e q /\ ~ (w = v /\ q = p)).
    { intros w e q. rewrite !in_state_iff by auto. unfold i1. rewrite state_set_state by auto. destruct (str_eqb_spec w v) as [->|Ew].
      - rewrite block_has_ddel by auto. split.
        + intros [H1 H2]. split; [auto|]. intros [_ ->]. apply H1. apply (paths_unique (state i v) e d p); auto. exists [p]. split; [auto|now left].
        + intros [H1 H2]. split; [|auto]. intros ->. apply in_state_iff, Ent in H1; [|auto]. destruct H1 as [->|[]]. tauto.
      - split; [intros H; split; [auto|intros [? _]; contradiction]|tauto]. }
    assert (Mi1 : manifest i1 = manifest i) by apply manifest_set_state. rewrite Mi1 in E.
    destruct (dget d (manifest i)) as [cs|] eqn:Ec.
    + set (i2 := set_manifest (dset d (filter (fun c => negb (startswith (v ++ `"/") c)) cs) (manifest i)) i1) in E.
      assert (Ei : i' = i2) by congruence. assert (Er : r = Ok d) by congruence. clear E. subst i' r.
      split; [auto|]. assert (Hd2 : dicts_ok i2) by (apply dicts_set_manifest; auto; now apply NoDup_dset).
      split; [auto|]. split; [eapply same_rest_trans; [apply same_rest_set_state|apply same_rest_set_manifest]; auto|].
      split; [exact Hst|]. intros e c. rewrite !stored_iff. unfold i2. rewrite manifest_set_manifest, block_has_dset, filter_In by auto.
      assert (Dir : negb (startswith (v ++ `"/") c) = true <-> ~ in_directory v c).
      { rewrite negb_true_iff. unfold in_directory. destruct (startswith (v ++ `"/") c) eqn:Es.
        - apply startswith_spec in Es as [x Ex]. split; [discriminate|]. intros H. exfalso. apply H. exists x. now rewrite Ex, <- app_assoc.
        - split; [|auto]. intros _ [x Ex]. assert (startswith (v ++ `"/") c = true); [|congruence]. apply startswith_spec. exists x. now rewrite Ex, <- app_assoc. }
      rewrite Dir. split.
      * intros [[-> [H1 H2]]|[H1 H2]]; (split; [|intros (H3 & H4 & _); contradiction]); [|auto]. exists cs. split; [now apply dget_In|auto].
      * intros [H1 H2]. destruct (str_eq_dec e d) as [->|Ed]; [left|right; auto]. split; [auto|].
        apply block_has_dget in H1 as [cs' [H3 H4]]; [|auto]. assert (cs' = cs) by congruence. subst cs'. split; [auto|].
        intros H5. apply H2. split; [auto|]. split; [auto|]. intros q Hq. apply Ent in Hq. destruct Hq as [->|[]]; auto.
    + assert (Ei : i' = i1) by congruence. assert (Er : r = Ok d) by congruence. clear E. subst i' r.
      split; [auto|]. split; [auto|]. split; [now apply same_rest_set_state|]. split; [exact Hst|].
      intros e c. rewrite !stored_iff, Mi1. split; [|tauto]. intros H. split; [auto|]. intros (-> & _).
      apply block_has_dget in H as [l [Hl' _]]; [|auto]. congruence.
Qed.
