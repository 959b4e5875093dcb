(** Proofs about NewVersion.add and sequences of operations (C42, C57). *)
From Coq Require Import Permutation.
From Verif Require Import Base Unicode Regex Utf8 Json PathModel DigestModel LayoutModel LayoutProofs ObjectUtilsModel ObjectUtilsProofs
  InventoryValidatorModel InventoryModel NewVersionModel InventoryOpsSpec InventoryOpsProofs NewVersionProofs.

(** ** add *)

(** The digest of the source file s. *)
Definition source_digest (H : hashfn) (src : str -> exc bytes) (alg s d : str) : Prop :=
  exists c, src s = Ok c /\ file_digest H alg c = Ok d.

Lemma in_directory_spec v c : startswith (v ++ `"/") c = true <-> in_directory v c.
Proof.
  unfold in_directory. rewrite startswith_spec. split; intros [r E]; exists r; rewrite E, <- ?app_assoc; reflexivity.
Qed.

Lemma map_filepath_unused H nv s c : map_filepath H nv s = Ok c -> ~ In c (content_paths (nv_inv nv)).
Proof.
  unfold map_filepath. intros E. apply ebind_ok in E as [g [_ E]]. apply ebind_ok in E as [h [_ E]].
  destruct (str_in_spec (path_join_list [h; content_directory_to_use (nv_inv nv); g]) (content_paths (nv_inv nv))) as [Hi|Hi].
  - now apply make_unused_filepath_spec in E.
  - apply Ok_inv in E. now subst c.
Qed.

Theorem nv_add_correct H src s p cp nv nv' r h : i_head (nv_inv nv) = Some h -> dicts_ok (nv_inv nv) ->
  nv_add H src s p cp nv = (nv', r) ->
  (nv' = nv /\ exists e, r = Raise e) \/
  (r = Ok tt /\ is_version (nv_inv nv) h /\ ~ in_version (nv_inv nv) h p /\
   exists d a o, i_alg (nv_inv nv) = Some a /\ source_digest H src a s d /\
     dicts_ok (nv_inv nv') /\ same_rest (nv_inv nv) (nv_inv nv') /\
     (forall w e q, in_state (nv_inv nv') w e q <-> in_state (nv_inv nv) w e q \/ (w = h /\ e = d /\ q = p)) /\
     (forall e c, stored (nv_inv nv') e c <-> stored (nv_inv nv) e c \/ (e = d /\ o = Some c)) /\
     (forall c, o = Some c -> (forall e, ~ stored (nv_inv nv) e c) /\
        match cp with Some c' => c = c' | None => map_filepath H nv s = Ok c end) /\
     nv_copy nv' = match o with Some c => dset s c (nv_copy nv) | None => nv_copy nv end /\
     nv_norm nv' = nv_norm nv /\ nv_forward_delta nv' = nv_forward_delta nv /\ nv_dedupe nv' = nv_dedupe nv /\ nv_old_alg nv' = nv_old_alg nv /\
     (o = None <->
        (nv_dedupe nv = true /\ exists c, stored (nv_inv nv) d c /\ in_directory h c) \/
        (nv_forward_delta nv = true /\ (exists c, stored (nv_inv nv) d c) /\ forall c, stored (nv_inv nv) d c -> ~ in_directory h c))).
Proof.
  intros Hh Hd. unfold nv_add. unfold head_of. rewrite Hh. set (i := nv_inv nv) in *.
  destruct (match cp with None => _ | Some _ => _ end) as [cpath|e] eqn:Ec; [|intros E; left; split; [congruence|]; exists e; congruence].
  assert (Hunused : ~ In cpath (content_paths i) /\ match cp with Some c' => cpath = c' | None => map_filepath H nv s = Ok cpath end).
  { destruct cp as [c|].
    - destruct (negb (startswith (h ++ `"/" ++ content_directory_to_use i ++ `"/") c)); [discriminate|].
      destruct (str_in_spec c (content_paths i)) as [Hi|Hi]; [discriminate|]. apply Ok_inv in Ec. subst. auto.
    - split; [|auto]. now apply map_filepath_unused in Ec. }
  destruct (str_in_spec p (logical_paths i h)) as [Hp|Hp]; [intros E; left; split; [congruence|exists NewVersionException; congruence]|].
  destruct (let* c := src s in _) as [digest|e] eqn:Ed; [|intros E; left; split; [congruence|exists e; congruence]].
  destruct (dget h (versions_block i)) as [b|] eqn:Eb; [|intros E; left; split; [congruence|exists KeyError; congruence]].
  intros E. right.
  assert (Hv : is_version i h) by (apply is_version_iff; eauto).
  apply ebind_ok in Ed as [content_ [Es Ed]]. destruct (i_alg i) as [a|] eqn:Ea; [|discriminate].
  destruct (add_to_state_ok i h digest p Hd Hv) as (K1 & K2 & K3 & K4).
  set (i1 := set_state h (append_to digest p (state i h)) i) in *.
  assert (Hcp : forall c, In c (content_paths_for_digest i1 digest) <-> stored i digest c).
  { intros c. rewrite stored_iff, block_has_dget by now apply dicts_manifest. unfold content_paths_for_digest. rewrite K3.
    destruct (dget digest (manifest i)) as [l|]; cbn [or_empty]; split; [eauto|intros [l' [El Hl]]; congruence|intros []|intros [l' [El _]]; discriminate]. }
  assert (Cur : existsb (startswith (h ++ `"/")) (content_paths_for_digest i1 digest) = true <-> exists c, stored i digest c /\ in_directory h c).
  { rewrite existsb_exists. split; intros [c [H1 H2]]; exists c; (split; [now apply Hcp|now apply in_directory_spec]). }
  assert (Prev : existsb (fun q => negb (startswith (h ++ `"/") q)) (content_paths_for_digest i1 digest) = true <-> exists c, stored i digest c /\ ~ in_directory h c).
  { rewrite existsb_exists. split; intros [c [H1 H2]]; exists c; (split; [now apply Hcp|]).
    - rewrite negb_true_iff in H2. intros H3. apply in_directory_spec in H3. congruence.
    - rewrite negb_true_iff. destruct (startswith (h ++ `"/") c) eqn:Es'; [|reflexivity]. exfalso. apply H2. now apply in_directory_spec. }
  set (cur := existsb (startswith (h ++ `"/")) (content_paths_for_digest i1 digest)) in *.
  set (prev := existsb (fun q => negb (startswith (h ++ `"/") q)) (content_paths_for_digest i1 digest)) in *.
  assert (Hnp : ~ in_version i h p) by now rewrite in_version_iff.
  assert (None_iff : ((negb prev && negb cur) || (negb cur && negb (nv_forward_delta nv)) || (cur && negb (nv_dedupe nv)) = false <->
      (nv_dedupe nv = true /\ exists c, stored i digest c /\ in_directory h c) \/
      (nv_forward_delta nv = true /\ (exists c, stored i digest c) /\ forall c, stored i digest c -> ~ in_directory h c))).
  { rewrite <- Cur. destruct cur.
    - cbn [negb andb]. rewrite andb_false_r. cbn [orb andb]. destruct (nv_dedupe nv); cbn; split; try discriminate; auto.
      intros [[? _]|[_ [_ H2]]]; [discriminate|]. exfalso. destruct (proj1 Cur eq_refl) as [c [H3 H4]]. now apply (H2 c).
    - assert (Hno : forall c, stored i digest c -> ~ in_directory h c).
      { intros c H1 H2. assert (false = true); [|discriminate]. apply Cur. eauto. }
      cbn [negb andb]. rewrite andb_true_r. rewrite orb_false_r. destruct (nv_forward_delta nv); cbn [negb].
      + rewrite orb_false_r. destruct prev.
        * cbn. split; [intros _; right|auto]. split; [auto|]. split; [|auto]. destruct (proj1 Prev eq_refl) as [c [H1 _]]. eauto.
        * cbn. split; [discriminate|]. intros [[_ F]|[_ [[c H1] _]]]; [discriminate|]. exfalso. assert (false = true); [|discriminate].
          apply Prev. exists c. auto.
      + rewrite orb_true_r. split; [discriminate|]. intros [[_ F]|[F _]]; discriminate. }
  destruct ((negb prev && negb cur) || (negb cur && negb (nv_forward_delta nv)) || (cur && negb (nv_dedupe nv))).
  - destruct (add_file_to_manifest digest cpath i1) as [i2 r2] eqn:Em.
    destruct (add_file_to_manifest_ok _ _ _ _ _ K1 Em) as [(F & _)|(_ & -> & Ei & D2 & S2)].
    { exfalso. apply Hunused. unfold i1 in F. rewrite content_paths_set_state in F. exact F. }
    assert (En : nv' = mk_nv i2 (nv_norm nv) (nv_forward_delta nv) (nv_dedupe nv) (nv_old_alg nv) (dset s cpath (nv_copy nv))) by congruence.
    assert (Er : r = Ok tt) by congruence. clear E. subst nv' r. split; [auto|]. split; [auto|]. split; [auto|].
    exists digest, a, (Some cpath). cbn [nv_inv nv_copy nv_norm nv_forward_delta nv_dedupe nv_old_alg].
    split; [auto|]. split; [exists content_; auto|]. split; [auto|].
    split; [eapply same_rest_trans; [exact K2|]; rewrite Ei; now apply same_rest_set_manifest|].
    split; [intros w e q; rewrite <- K4; unfold in_state; rewrite Ei; reflexivity|].
    split; [intros e c; rewrite S2, !stored_iff, K3; split; (intros [?|[? ?]]; [now left|right; split; [auto|congruence]])|].
    split.
    { intros c Hc. apply Some_inv in Hc. subst c. split; [|tauto]. intros e He. apply Hunused, stored_any. eauto. }
    do 5 (split; [reflexivity|]). rewrite <- None_iff. split; discriminate.
  - assert (En : nv' = set_inv i1 nv) by congruence. assert (Er : r = Ok tt) by congruence. clear E. subst nv' r.
    split; [auto|]. split; [auto|]. split; [auto|]. exists digest, a, None. cbn [nv_inv nv_copy nv_norm nv_forward_delta nv_dedupe nv_old_alg set_inv].
    split; [auto|]. split; [exists content_; auto|]. split; [auto|]. split; [auto|]. split; [auto|].
    split; [intros e c; rewrite !stored_iff, K3; split; [auto|intros [?|[_ ?]]; [auto|discriminate]]|]. split; [discriminate|].
    do 5 (split; [reflexivity|]). rewrite <- None_iff. split; reflexivity.
Qed.

(** ** Sequences of operations *)

Inductive nv_op := OAdd (src_path logical_path : str) (content_path : option str) | ODelete (path : str) | ORename (old new : str).
Definition nv_step (H : hashfn) (src : str -> exc bytes) (op : nv_op) (nv : new_version) : new_version * exc unit :=
  match op with
  | OAdd s p c => nv_add H src s p c nv
  | ODelete p => nv_delete p nv
  | ORename a b => nv_rename a b nv
  end.
Fixpoint nv_run (H : hashfn) (src : str -> exc bytes) (ops : list nv_op) (nv : new_version) : new_version * exc unit :=
  match ops with
  | [] => (nv, Ok tt)
  | op :: r => match nv_step H src op nv with
               | (nv1, Ok _) => nv_run H src r nv1
               | (nv1, Raise e) => (nv1, Raise e)
               end
  end.

(** The head state is usable: each logical path once. *)
Record nv_good (h : str) (nv : new_version) : Prop := {
  g_head : i_head (nv_inv nv) = Some h;
  g_dicts : dicts_ok (nv_inv nv);
  g_version : is_version (nv_inv nv) h;
  g_unique : unique_paths (nv_inv nv) h
}.

Lemma unique_set_state i v st w : dicts_ok i -> NoDup (keys st) -> is_version i v -> NoDup (paths_of st) -> unique_paths i w ->
  unique_paths (set_state v st i) w.
Proof.
  intros Hd Hk Hv Hs Hu. apply unique_paths_iff; [now apply dicts_set_state|]. apply unique_paths_iff in Hu; [|auto].
  unfold logical_paths in *. rewrite state_set_state by auto. destruct (str_eqb w v); auto.
Qed.
Lemma unique_set_manifest i m w : unique_paths i w -> unique_paths (set_manifest m i) w.
Proof. intros Hu. exact Hu. Qed.

Lemma unique_append i v d p w : dicts_ok i -> is_version i v -> unique_paths i v -> ~ in_version i v p -> unique_paths i w ->
  unique_paths (set_state v (append_to d p (state i v)) i) w.
Proof.
  intros Hd Hv Hu Hp Hw. apply unique_set_state; auto.
  - now apply NoDup_append_to, dicts_state.
  - apply unique_paths_iff in Hu; [|auto]. eapply Permutation_NoDup; [apply Permutation_sym, paths_append_to; now apply dicts_state|].
    constructor; [|auto]. intros H. apply Hp. now apply in_version_iff.
Qed.

Lemma remove_first_perm x l : In x l -> Permutation l (x :: remove_first x l).
Proof.
  induction l as [|y l IH]; [intros []|]. cbn [remove_first]. destruct (str_eqb_spec x y) as [->|E]; [reflexivity|].
  intros [H|H]; [congruence|]. rewrite IH at 1 by auto. constructor.
Qed.
Lemma paths_ddel b d l : dget d b = Some l -> Permutation (paths_of b) (l ++ paths_of (ddel d b)).
Proof.
  induction b as [|[k x] b IH]; [discriminate|]. cbn [dget ddel]. destruct (str_eqb_spec d k) as [->|E].
  - intros H. apply Some_inv in H. subst x. reflexivity.
  - intros H. cbn [paths_of flat_map snd]. fold (paths_of b). fold (paths_of (ddel d b)). rewrite IH by auto.
    rewrite !app_assoc. apply Permutation_app_tail, Permutation_app_comm.
Qed.

Lemma delete_unique v p i i' r w : dicts_ok i -> unique_paths i v -> unique_paths i w -> delete_logical_path v p i = (i', r) -> unique_paths i' w.
Proof.
  intros Hd Hu Hw E. unfold delete_logical_path in E. pose proof (find_block (state i v) p) as F. destruct (find _ (state i v)) as [[d l]|].
  2:{ assert (i' = i) by congruence. now subst. }
  destruct F as [Fi Fp]. pose proof (dicts_state i v Hd) as Hs. pose proof (proj1 (unique_paths_iff i v Hd) Hu) as Hu'. unfold logical_paths in Hu'.
  assert (Hv : is_version i v).
  { assert (Hin : in_state i v d p) by (apply in_state_iff; [auto|exists l; auto]). destruct Hin as (vs & b & st & l' & H1 & H2 & _). exists vs, b; auto. }
  assert (Eg : dget d (state i v) = Some l) by (apply In_dget; auto).
  destruct (1 <? List.length l)%nat.
  - assert (Ei : i' = set_state v (dset d (remove_first p l) (state i v)) i) by congruence. subst i'.
    apply unique_set_state; auto; [now apply NoDup_dset|]. destruct (paths_dset_perm (state i v) d l (remove_first p l) Hs Eg) as (rest & P1 & P2).
    eapply Permutation_NoDup; [apply Permutation_sym, P2|]. apply (Permutation_NoDup P1) in Hu'.
    assert (P3 : Permutation (l ++ rest) (p :: remove_first p l ++ rest)) by (rewrite (remove_first_perm p l Fp) at 1; reflexivity).
    apply (Permutation_NoDup P3) in Hu'. now inversion Hu'.
  - set (i1 := set_state v (ddel d (state i v)) i) in E.
    assert (U1 : unique_paths i1 w).
    { apply unique_set_state; auto; [now apply NoDup_ddel|]. apply (Permutation_NoDup (paths_ddel _ _ _ Eg)) in Hu'. now apply NoDup_app_r in Hu'. }
    destruct (dget d (manifest i1)) as [cs|].
    + match type of E with (?x, _) = _ => assert (Ei : i' = x) by congruence end. subst i'. now apply unique_set_manifest.
    + assert (i' = i1) by congruence. now subst.
Qed.

(** A removal of logical path p takes no content of this version away. *)
Definition keeps_content (h p : str) (i : inventory) : Prop :=
  forall d c, in_state i h d p -> stored i d c -> in_directory h c -> exists q, in_state i h d q /\ q <> p.

Definition harmless (h : str) (op : nv_op) (nv : new_version) : Prop :=
  match op with
  | OAdd s _ _ => nv_dedupe nv = true \/ ~ In s (keys (nv_copy nv))
  | ODelete p | ORename p _ => keeps_content h p (nv_inv nv)
  end.

Fixpoint harmless_run (H : hashfn) (src : str -> exc bytes) (h : str) (ops : list nv_op) (nv : new_version) : Prop :=
  match ops with
  | [] => True
  | op :: r => harmless h op nv /\ harmless_run H src h r (fst (nv_step H src op nv))
  end.

(** What is to be copied agrees with the manifest. *)
Record copies_agree (H : hashfn) (src : str -> exc bytes) (h : str) (nv : new_version) : Prop := {
  ca_keys : NoDup (keys (nv_copy nv));
  ca_copied : forall d c, stored (nv_inv nv) d c -> in_directory h c ->
    exists s a, In (s, c) (nv_copy nv) /\ i_alg (nv_inv nv) = Some a /\ source_digest H src a s d;
  ca_listed : forall s c, In (s, c) (nv_copy nv) ->
    exists d a, stored (nv_inv nv) d c /\ i_alg (nv_inv nv) = Some a /\ source_digest H src a s d
}.

Lemma set_inv_id nv : set_inv (nv_inv nv) nv = nv.
Proof. now destruct nv. Qed.

Lemma same_alg i i' : same_rest i i' -> i_alg i' = i_alg i.
Proof. intros H. apply H. Qed.
Lemma same_head i i' : same_rest i i' -> i_head i' = i_head i.
Proof. intros H. apply H. Qed.
Lemma same_version i i' v : same_rest i i' -> is_version i v -> is_version i' v.
Proof. intros (_ & _ & _ & _ & _ & _ & _ & H & _). apply H. Qed.

Lemma file_digest_fun H src a s d d' : source_digest H src a s d -> source_digest H src a s d' -> d = d'.
Proof. intros [c [H1 H2]] [c' [H3 H4]]. assert (c = c') by congruence. subst. congruence. Qed.

Lemma step_good H src h op nv nv' : nv_good h nv -> nv_step H src op nv = (nv', Ok tt) -> nv_good h nv'.
Proof.
  intros [G1 G2 G3 G4] E. destruct op as [s p cp|p|old new]; cbn [nv_step] in E.
  - destruct (nv_add_correct H src s p cp nv nv' (Ok tt) h G1 G2 E) as [(_ & e & F)|(_ & _ & Hp & d & a & o & Ha & Hs & D' & Sr & St & _)]; [discriminate|].
    constructor; [rewrite (same_head _ _ Sr); auto|auto|eapply same_version; eauto|].
    (* the state of the head *)
    unfold nv_add, head_of in E. rewrite G1 in E. set (i := nv_inv nv) in *.
    destruct (match cp with None => _ | Some _ => _ end) as [cpath|e]; [|discriminate].
    destruct (str_in p (logical_paths i h)); [discriminate|]. destruct (let* c := src s in _) as [digest|e]; [|discriminate].
    destruct (dget h (versions_block i)); [|discriminate].
    assert (U : unique_paths (set_state h (append_to digest p (state i h)) i) h) by (apply unique_append; auto).
    match type of E with (if ?b then _ else _) = _ => destruct b end.
    + match type of E with (let '(_, _) := ?x in _) = _ => destruct x as [i2 r2] eqn:Em end. assert (En : nv_inv nv' = i2) by (assert (K : nv' = mk_nv i2 (nv_norm nv) (nv_forward_delta nv) (nv_dedupe nv) (nv_old_alg nv) (dset s cpath (nv_copy nv))) by congruence; now rewrite K).
      rewrite En. unfold add_file_to_manifest in Em. match type of Em with (if ?b then _ else _) = _ => destruct b end.
      * assert (Ei : i2 = set_state h (append_to digest p (state i h)) i) by congruence. now rewrite Ei.
      * match type of Em with (?x, _) = _ => assert (Ei : i2 = x) by congruence end. rewrite Ei. now apply unique_set_manifest.
    + match type of E with (set_inv ?x nv, _) = _ => assert (En : nv_inv nv' = x) by (assert (K : nv' = set_inv x nv) by congruence; now rewrite K) end. rewrite En. exact U.
  - unfold nv_delete, current in E. rewrite G1 in E. cbn [or_empty] in E. destruct (delete_logical_path h p (nv_inv nv)) as [i1 r1] eqn:Ed.
    destruct (delete_correct _ _ _ _ _ G2 G4 Ed) as [(_ & _ & ->)|(d & _ & -> & D' & Sr & _)]; [discriminate|].
    assert (En : nv' = set_inv i1 nv) by congruence. subst nv'. cbn [nv_inv set_inv].
    constructor; cbn [nv_inv set_inv]; [rewrite (same_head _ _ Sr); auto|auto|eapply same_version; eauto|]. exact (delete_unique _ _ _ _ _ _ G2 G4 G4 Ed).
  - pose proof E as E0. destruct (rename_correct old new nv nv' (Ok tt) h G1 G2 G4 E) as [(_ & _ & F)|(Hn & d & Hd & _ & _ & D' & Sr & _)]; [discriminate|].
    constructor; [rewrite (same_head _ _ Sr); auto|auto|eapply same_version; eauto|].
    unfold nv_rename, current in E0. rewrite G1 in E0. cbn [or_empty] in E0. destruct (str_in new (logical_paths (nv_inv nv) h)); [discriminate|].
    destruct (delete_logical_path h old (nv_inv nv)) as [i1 r1] eqn:Ed.
    destruct (delete_correct _ _ _ _ _ G2 G4 Ed) as [(_ & _ & ->)|(d' & _ & -> & D1 & Sr1 & St1 & _)]; [discriminate|].
    match type of E0 with (set_inv ?x nv, _) = _ => assert (En : nv_inv nv' = x) by (assert (K : nv' = set_inv x nv) by congruence; now rewrite K) end.
    rewrite En. pose proof (delete_unique _ _ _ _ _ _ G2 G4 G4 Ed) as U1. apply unique_append; auto; [eapply same_version; eauto|].
    intros [e He]. apply St1 in He as [He _]. apply Hn. exists e. auto.
Qed.

Lemma step_agree H src h op nv nv' : nv_good h nv -> copies_agree H src h nv -> harmless h op nv ->
  nv_step H src op nv = (nv', Ok tt) -> copies_agree H src h nv'.
Proof.
  intros [G1 G2 G3 G4] [C0 C1 C2] Hh E. destruct op as [s p cp|p|old new]; cbn [nv_step harmless] in *.
  - destruct (nv_add_correct H src s p cp nv nv' (Ok tt) h G1 G2 E) as [(_ & e & F)|(_ & _ & Hp & d & a & o & Ha & Hs & D' & Sr & St & Sto & Hc & Hcopy & _ & _ & _ & _ & Hnone)]; [discriminate|].
    assert (Ha' : i_alg (nv_inv nv') = Some a) by (rewrite (same_alg _ _ Sr); auto).
    destruct o as [c0|].
    2:{ constructor.
        - rewrite Hcopy. auto.
        - intros e c He Hi. apply Sto in He as [He|[_ F]]; [|discriminate]. rewrite Hcopy, (same_alg _ _ Sr). eauto.
        - intros x c Hx. rewrite Hcopy in Hx. destruct (C2 x c Hx) as (e & a' & H1 & H2 & H3). exists e, a'.
          split; [apply Sto; auto|]. rewrite (same_alg _ _ Sr). auto. }
    destruct (Hc c0 eq_refl) as [Hnew _].
    assert (Gone : forall c, In (s, c) (nv_copy nv) -> ~ in_directory h c).
    { intros c Hi Hin. destruct (C2 s c Hi) as (e & a' & H1 & H2 & H3). assert (a' = a) by congruence. subst a'.
      assert (e = d) by (eapply file_digest_fun; eauto). subst e.
      destruct Hh as [Hh|Hh]; [|apply Hh; now apply (in_map fst) in Hi].
      assert (Some c0 = None); [|discriminate]. apply Hnone. left. split; [auto|]. eauto. }
    constructor.
    + rewrite Hcopy. now apply NoDup_dset.
    + intros e c He Hi. rewrite Hcopy. apply Sto in He as [He|[-> F]].
      * destruct (C1 e c He Hi) as (x & a' & H1 & H2 & H3). exists x, a'. split; [|rewrite (same_alg _ _ Sr); auto].
        apply dget_In. rewrite dget_dset. destruct (str_eqb_spec x s) as [->|Ex]; [exfalso; eapply Gone; eauto|]. now apply In_dget.
      * apply Some_inv in F. subst c0. exists s, a. split; [|auto]. apply dget_In. now rewrite dget_dset, str_eqb_refl.
    + intros x c Hx. rewrite Hcopy in Hx. apply In_dget in Hx; [|now apply NoDup_dset]. rewrite dget_dset in Hx.
      destruct (str_eqb_spec x s) as [->|Ex].
      * apply Some_inv in Hx. subst c. exists d, a. split; [apply Sto; auto|auto].
      * apply dget_In in Hx. destruct (C2 x c Hx) as (e & a' & H1 & H2 & H3). exists e, a'. split; [apply Sto; auto|]. rewrite (same_alg _ _ Sr). auto.
  - unfold nv_delete, current in E. rewrite G1 in E. cbn [or_empty] in E. destruct (delete_logical_path h p (nv_inv nv)) as [i1 r1] eqn:Ed.
    destruct (delete_correct _ _ _ _ _ G2 G4 Ed) as [(_ & _ & ->)|(d & Hd & -> & D' & Sr & St & Sto)]; [discriminate|].
    assert (En : nv' = set_inv i1 nv) by congruence. subst nv'.
    assert (Same : forall e c, stored i1 e c <-> stored (nv_inv nv) e c).
    { intros e c. rewrite Sto. split; [tauto|]. intros He. split; [auto|]. intros (-> & Hi & Ho). destruct (Hh d c Hd He Hi) as (q & Hq & Hne). apply Hne. auto. }
    constructor; cbn [nv_inv set_inv nv_copy]; [auto| |]; rewrite (same_alg _ _ Sr).
    + intros e c He Hi. apply Same in He. eauto.
    + intros x c Hx. destruct (C2 x c Hx) as (e & a' & H1 & H2). exists e, a'. split; [now apply Same|auto].
  - destruct (rename_correct old new nv nv' (Ok tt) h G1 G2 G4 E) as [(_ & _ & F)|(Hn & d & Hd & _ & En & D' & Sr & St & Sto)]; [discriminate|].
    assert (Same : forall e c, stored (nv_inv nv') e c <-> stored (nv_inv nv) e c).
    { intros e c. rewrite Sto. split; [tauto|]. intros He. split; [auto|]. intros (-> & Hi & Ho). destruct (Hh d c Hd He Hi) as (q & Hq & Hne). apply Hne. auto. }
    assert (Hcopy : nv_copy nv' = nv_copy nv) by now rewrite En.
    constructor; rewrite Hcopy; [auto| |]; rewrite (same_alg _ _ Sr).
    + intros e c He Hi. apply Same in He. eauto.
    + intros x c Hx. destruct (C2 x c Hx) as (e & a' & H1 & H2). exists e, a'. split; [now apply Same|auto].
Qed.

Theorem run_agree H src h ops : forall nv nv', nv_good h nv -> copies_agree H src h nv -> harmless_run H src h ops nv ->
  nv_run H src ops nv = (nv', Ok tt) -> nv_good h nv' /\ copies_agree H src h nv'.
Proof.
  induction ops as [|op ops IH]; intros nv nv' G C Hh E; cbn [nv_run harmless_run] in *.
  - assert (nv' = nv) by congruence. subst. auto.
  - destruct (nv_step H src op nv) as [nv1 [[]|e]] eqn:Es; [|discriminate]. destruct Hh as [Hh Hr]. cbn [fst] in Hr.
    apply (IH nv1); auto; [eapply step_good; eauto|eapply step_agree; eauto].
Qed.
