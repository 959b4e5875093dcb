(** Proofs about renaming, finding, comparing and numbering (C02, C18-C20). *)
From Coq Require Import Permutation Sorted.
From Verif Require Import Base Unicode Regex Utf8 Json PathModel DigestModel LayoutModel ObjectUtilsModel ObjectUtilsProofs
  InventoryValidatorModel InventoryModel NewVersionModel InventoryOpsSpec InventoryOpsProofs.

(** ** rename *)

Theorem rename_correct old new nv nv' r h : i_head (nv_inv nv) = Some h ->
  dicts_ok (nv_inv nv) -> unique_paths (nv_inv nv) h -> nv_rename old new nv = (nv', r) ->
  ((in_version (nv_inv nv) h new \/ ~ in_version (nv_inv nv) h old) /\ nv' = nv /\ r = Raise NewVersionException) \/
  (~ in_version (nv_inv nv) h new /\ exists d, in_state (nv_inv nv) h d old /\ r = Ok tt /\
     nv' = set_inv (nv_inv nv') nv /\ dicts_ok (nv_inv nv') /\ same_rest (nv_inv nv) (nv_inv nv') /\
     (forall w e q, in_state (nv_inv nv') w e q <->
        (in_state (nv_inv nv) w e q /\ ~ (w = h /\ q = old)) \/ (w = h /\ e = d /\ q = new)) /\
     (forall e c, stored (nv_inv nv') e c <->
        stored (nv_inv nv) e c /\ ~ (e = d /\ in_directory h c /\ forall q, in_state (nv_inv nv) h d q -> q = old))).
Proof.
  intros Hh Hd Hu. unfold nv_rename. unfold current. rewrite Hh. cbn [or_empty].
  set (i := nv_inv nv) in *.
  destruct (str_in_spec new (logical_paths i h)) as [Hn|Hn].
  { intros E. left. split; [left; now apply in_version_iff|]. split; congruence. }
  assert (Hn' : ~ in_version i h new) by now rewrite in_version_iff.
  destruct (delete_logical_path h old i) as [i1 r1] eqn:Ed.
  destruct (delete_correct _ _ _ _ _ Hd Hu Ed) as [(N & -> & ->)|(d & H1 & -> & H2 & H3 & H4 & H5)].
  { intros E. left. split; [auto|]. assert (Es : set_inv i nv = nv) by (unfold i; destruct nv; reflexivity).
    rewrite Es in E. split; congruence. }
  intros E. right. split; [auto|]. exists d. split; [auto|].
  assert (Hv : is_version i1 h).
  { destruct H3 as (_ & _ & _ & _ & _ & _ & _ & Hv & _). apply Hv. destruct H1 as (vs & b & st & l & ? & ? & _). exists vs, b. auto. }
  destruct (add_to_state_ok i1 h d new H2 Hv) as (K1 & K2 & K3 & K4).
  assert (En : nv' = set_inv (set_state h (append_to d new (state i1 h)) i1) nv) by congruence.
  assert (Er : r = Ok tt) by congruence. clear E. subst nv' r. split; [auto|]. cbn [nv_inv set_inv].
  split; [reflexivity|]. split; [auto|]. split; [eapply same_rest_trans; eauto|]. split.
  - intros w e q. rewrite K4, H4. reflexivity.
  - intros e c. rewrite <- H5. rewrite !stored_iff, K3. reflexivity.
Qed.

(** ** The version directories in order *)

Definition numbered (v : str) (n : N) : Prop := parse_version_directory v = Ok n.

Lemma version_directories_ok i vdirs : version_directories i = Ok vdirs ->
  Permutation vdirs (keys (versions_block i)) /\
  exists ns, Forall2 numbered vdirs ns /\ StronglySorted N.le ns.
Proof.
  unfold version_directories. intros H. apply ebind_ok in H as [l [H1 H2]]. apply Ok_inv in H2. subst vdirs.
  apply emap_ok in H1. set (le := fun a b : N * str => (fst a <=? fst b)%N).
  assert (Hk : map snd l = keys (versions_block i)).
  { clear -H1. induction H1 as [|v [n w] ks l H H1 IH]; [reflexivity|]. cbn [map]. apply ebind_ok in H as [m [_ H]]. apply Ok_inv in H.
    f_equal; [|auto]. cbn. congruence. }
  assert (Hn : Forall (fun x => numbered (snd x) (fst x)) l).
  { clear -H1. induction H1 as [|v [n w] ks l H H1 IH]; constructor; [|auto]. apply ebind_ok in H as [m [Hm H]]. apply Ok_inv in H.
    unfold numbered. cbn. congruence. }
  pose proof (isort_perm le l) as P.
  assert (S : StronglySorted (fun a b => le a b = true) (isort le l)).
  { apply isort_sorted; unfold le.
    - intros a b. destruct (N.leb_spec (fst a) (fst b)); [now left|right; apply N.leb_le; lia].
    - intros a b c. rewrite !N.leb_le. lia. }
  split.
  - rewrite <- Hk. now apply Permutation_map, Permutation_sym.
  - exists (map fst (isort le l)). apply (Permutation_Forall P) in Hn. clear -S Hn. split.
    + induction Hn; cbn [map]; constructor; auto. apply IHHn. now inversion S.
    + induction S as [|a x S IH H]; cbn [map]; constructor; [apply IH; now inversion Hn|].
      apply Forall_map. eapply Forall_impl; [|exact H]. unfold le. intros b Hb. now apply N.leb_le.
Qed.
