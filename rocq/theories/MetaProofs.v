(** Metadata of the versions of an object: what the inventory that create, build and
    add_version_with_content return says of each version (C76). *)
From Coq Require Import Permutation.
From Verif Require Import Base Unicode Regex Utf8 Json PyJson JsonTextModel JsonTextSpec JsonTextProofs JsonFileProofs Log DigestModel LayoutModel LayoutProofs
  ObjectUtilsModel ObjectUtilsProofs InventorySpec InventoryValidatorModel InventoryValidatorProofs InventoryRulesProofs
  InventoryModel InventoryOpsSpec InventoryOpsProofs NewVersionModel NewVersionProofs NewVersionOpsProofs VersionNumberProofs InventoryParseProofs ParseModel
  ContentPathProofs TextFile PathModel FsModel FsSpec FsProofs FswModel FswSpec FswProofs FswCopyProofs ValidatorModel ObjectModel ObjectSpec ObjectInvProofs ObjectParseProofs MetaSpec.

(** What VersionMetadata reads of a version *)
Definition read_meta (i : inventory) (b : vblock) : vmeta :=
  mk_vmeta (i_id i) (vb_created b) (vb_message b) (dget (`"name") (or_empty (vb_user b))) (dget (`"address") (or_empty (vb_user b))).
Definition says (i : inventory) (v : str) : option vmeta := option_map (read_meta i) (dget v (versions_block i)).

Lemma from_says i v : from_inventory empty_vmeta i (Some v) = match says i v with Some m => Ok m | None => Raise InventoryException end.
Proof.
  unfold from_inventory, says, versions_block. destruct (i_versions i) as [vs|]; [|reflexivity]. cbn [or_empty or_else]. destruct (dget v vs) as [b|]; [|reflexivity].
  cbn [option_map]. unfold read_meta, empty_vmeta. cbn [vm_created vm_message vm_name vm_address]. assert (O : forall A (o : option A), or_else o None = o) by (intros A [?|]; reflexivity). now rewrite !O.
Qed.

Lemma bind_inv {A B} (x : io A) (f : A -> io B) w b : result (ibind x f) w = Ok b -> exists a, result x w = Ok a /\ result (f a) (after x w) = Ok b.
Proof. intros R. apply ibind_ok in R as (a & R1 & R2 & _). eauto. Qed.

(** The same identifier and head, and the same said of each version *)
Record same_says (i i' : inventory) : Prop := { sy_id : i_id i' = i_id i; sy_head : i_head i' = i_head i; sy_keys : keys (versions_block i') = keys (versions_block i); sy_says : forall v, says i' v = says i v }.
Lemma same_says_refl i : same_says i i. Proof. split; reflexivity. Qed.
Lemma same_says_trans i j k : same_says i j -> same_says j k -> same_says i k.
Proof. intros [A1 A2 A3 A4] [B1 B2 B3 B4]. split; try congruence; intros v; now rewrite B4. Qed.
Lemma keys_dset_old {A} k (v x : A) d : dget k d = Some x -> keys (dset k v d) = keys d.
Proof. induction d as [|[k' y] d IH]; [discriminate|]. cbn [dget dset]. destruct (str_eqb k k') eqn:E; [apply str_eqb_eq in E; subst; reflexivity|]. intros Hd. cbn [keys map fst]. f_equal. now apply IH. Qed.

Lemma same_says_state v st i : same_says i (set_state v st i).
Proof.
  unfold set_state, update_version. destruct (dget v (versions_block i)) as [b|] eqn:E; [|apply same_says_refl]. split; try reflexivity.
  - exact (keys_dset_old v (with_state st b) b _ E).
  - intros u. unfold says. change (versions_block (set_versions _ i)) with (dset v (with_state st b) (versions_block i)). destruct (str_eqb_spec u v) as [->|Ne].
    + rewrite dget_dset_same, E. reflexivity.
    + now rewrite dget_dset_other.
Qed.
Lemma same_says_manifest m i : same_says i (set_manifest m i). Proof. split; reflexivity. Qed.

Lemma nv_add_says H src s l cp nv nv' : nv_add H src s l cp nv = (nv', Ok tt) -> same_says (nv_inv nv) (nv_inv nv').
Proof.
  unfold nv_add. destruct (head_of (nv_inv nv)) as [head|]; [|discriminate]. destruct (match cp with None => _ | Some _ => _ end) as [cpath|]; [|discriminate].
  destruct (str_in _ _); [discriminate|]. destruct (ebind _ _) as [digest|]; [|discriminate]. destruct (dget head _); [|discriminate]. set (i1 := set_state _ _ _).
  destruct (_ || _ || _)%bool.
  - unfold add_file_to_manifest. destruct (str_in cpath (content_paths i1)); intros E; [discriminate|]. apply pair_equal_spec in E as [<- _]. cbn [nv_inv].
    eapply same_says_trans; [apply same_says_state|apply same_says_manifest].
  - intros E. apply pair_equal_spec in E as [<- _]. apply same_says_state.
Qed.
Lemma nv_add_all_says H src ps : forall nv nv', nv_add_all H src ps nv = (nv', Ok tt) -> same_says (nv_inv nv) (nv_inv nv').
Proof.
  induction ps as [|p ps IH]; intros nv nv'; cbn [nv_add_all]; [intros E; apply pair_equal_spec in E as [<- _]; apply same_says_refl|].
  destruct (nv_add H src p p None nv) as [nv1 [[]|x]] eqn:E; [|discriminate]. intros E'. eapply same_says_trans; [eapply nv_add_says; eauto|now apply IH].
Qed.
Lemma from_srcdir_says H w src nv nv' : nv_from_srcdir H w src nv = Ok nv' -> same_says (nv_inv nv) (nv_inv nv').
Proof.
  unfold nv_from_srcdir, add_from_srcdir. intros E. apply ebind_ok in E as (files & _ & E). destruct (nv_add_all _ _ _ nv) as [nv1 [[]|x]] eqn:Ea; [|discriminate].
  apply Ok_inv in E. subst nv1. eapply nv_add_all_says; eauto.
Qed.

(** ** One more version *)

Lemma add_version_says metadata st i i' v : add_version None (Some metadata) st None i = (i', Ok v) ->
  i_id i' = i_id i /\ i_head i' = Some v /\ next_directory i None = Ok v /\ says i' v = Some (read_meta i metadata) /\ (forall u, u <> v -> says i' u = says i u) /\
  versions_block i' = dset v (match st with Some s => with_state s metadata | None => metadata end) (versions_block i).
Proof.
  unfold add_version. destruct (next_directory i None) as [u|x]; [|discriminate]. intros E. apply pair_equal_spec in E as [<- E]. apply Ok_inv in E. subst u.
  repeat split; try reflexivity.
  - unfold says. change (versions_block (set_head v (set_versions ?d i))) with d. rewrite dget_dset_same. destruct st; reflexivity.
  - intros u Hu. unfold says. change (versions_block (set_head v (set_versions ?d i))) with d. now rewrite dget_dset_other.
Qed.
Lemma read_recorded now i m : read_meta i (as_dict now m) = recorded now (i_id i) m.
Proof. unfold read_meta, recorded, as_dict. cbn [vb_created vb_message vb_user]. destruct (vm_name m), (vm_address m); reflexivity. Qed.

Lemma next_names i k v : keys (versions_block i) = names None k -> (N.of_nat k <= 99999)%N -> next_directory i None = Ok v -> v = vn (S k).
Proof.
  intros Hk Hr E. set (bs := map snd (versions_block i)). set (i0 := set_versions [] i).
  assert (L : List.length bs = k) by (unfold bs; rewrite map_length; rewrite <- (names_length None k), <- Hk; unfold keys; now rewrite map_length).
  pose proof (add_version_step None None i0 bs None None eq_refl eq_refl ltac:(cbn; lia)) as A. rewrite L in A.
  assert (V : versions_block (with_versions None i0 bs) = versions_block i).
  { rewrite versions_with by reflexivity. rewrite L, <- Hk. unfold bs. clear. induction (versions_block i) as [|[a b] d IH]; [reflexivity|]. cbn [keys map fst snd combine]. f_equal. exact IH. }
  unfold add_version in A. assert (E' : next_directory (with_versions None i0 bs) None = Ok v) by (rewrite <- E; unfold next_directory, version_directories; now rewrite V).
  rewrite E' in A. destruct (_ <=? _)%N; [|discriminate]. apply pair_equal_spec in A as [_ A]. apply Ok_inv in A. rewrite A. unfold vn. f_equal. lia.
Qed.
Lemma names_next k : names None k ++ [vn (S k)] = names None (S k).
Proof. rewrite names_S. unfold vn. do 3 f_equal. lia. Qed.
Lemma keys_next {A} k (b : A) d : keys d = names None k -> keys (dset (vn (S k)) b d) = names None (S k).
Proof.
  intros E. assert (N : ~ In (vn (S k)) (keys d)).
  { rewrite E. intros X. apply In_names in X as (j & Hj & X). unfold vn in X. apply version_fmt_inj in X. lia. }
  rewrite dset_new by exact N. unfold keys. rewrite map_app. cbn [map fst]. change (map fst d) with (keys d). rewrite E. apply names_next.
Qed.

Lemma first_says c e id m nv : first_of c e id (Some m) = Ok nv -> i_id (nv_inv nv) = Some id /\ i_head (nv_inv nv) = Some (vn 1) /\
  keys (versions_block (nv_inv nv)) = names None 1 /\ says (nv_inv nv) (vn 1) = Some (recorded (e_now e) (Some id) m).
Proof.
  unfold first_of, first_version, metadata_dict. cbn [option_map]. set (i2 := fold_left _ _ _).
  assert (I2 : i_id i2 = Some id /\ versions_block i2 = []).
  { unfold i2. set (i1 := init_manifest_and_versions _). assert (X : i_id i1 = Some id /\ versions_block i1 = []) by (split; reflexivity). revert X. generalize i1 as i. induction (or_empty (o_fixity c)) as [|t l IH]; intros i X; [exact X|]. cbn [fold_left]. apply IH. exact X. }
  destruct I2 as [Id V]. destruct (add_version None (Some (as_dict (e_now e) m)) None None i2) as [i3 [v|x]] eqn:E; [|discriminate]. intros X. apply Ok_inv in X. subst nv. cbn [nv_inv].
  destruct (add_version_says _ _ _ _ _ E) as (A1 & A2 & A3 & A4 & _ & A5). assert (v = vn 1) by (apply (next_names i2 0 v); [rewrite V; reflexivity|lia|exact A3]). subst v.
  rewrite read_recorded, Id in A4. rewrite Id in A1. assert (K : keys (versions_block i3) = names None 1) by (rewrite A5; apply keys_next; now rewrite V).
  destruct (o_cdir c) as [cd|]; [destruct (str_eqb cd _)|]; repeat split; auto.
Qed.

Lemma next_says i spec now m norm fd dd cf old nv : next_version i spec (Some (as_dict now m)) norm fd dd cf old = Ok nv ->
  exists v, i_id (nv_inv nv) = i_id i /\ i_head (nv_inv nv) = Some v /\ next_directory i None = Ok v /\ says (nv_inv nv) v = Some (recorded now (i_id i) m) /\ (forall u, u <> v -> says (nv_inv nv) u = says i u) /\
    exists b, versions_block (nv_inv nv) = dset v b (versions_block i).
Proof.
  unfold next_version. intros E. apply ebind_ok in E as (i1 & E1 & E).
  assert (S1 : i_id i1 = i_id i /\ versions_block i1 = versions_block i).
  { destruct (spec_version i) as [s|]; [|discriminate]. destruct (str_eqb spec s); [apply Ok_inv in E1; subst; auto|]. destruct (str_ltb spec s); [discriminate|]. apply Ok_inv in E1. subst. auto. }
  destruct S1 as [S1 S2]. match type of E with context [add_version None (Some ?m) ?s None i1] => destruct (add_version None (Some m) s None i1) as [i2 [v|x]] eqn:Ea end; [|discriminate]. apply Ok_inv in E. subst nv. cbn [nv_inv].
  destruct (add_version_says _ _ _ _ _ Ea) as (A1 & A2 & A3 & A4 & A5 & A6). exists v. rewrite read_recorded in A4. rewrite S1 in *. split; [auto|]. split; [auto|].
  split; [rewrite <- A3; unfold next_directory, version_directories; now rewrite S2|]. split; [auto|].
  split; [intros u Hu; rewrite (A5 u Hu); unfold says; rewrite S2; unfold read_meta; now rewrite S1|]. rewrite S2 in A6. eauto.
Qed.

(** ** What the calls return *)

Theorem create_says H c e sp m op w i id : o_id c = Some id -> result (create H c e sp (Some m) op) w = Ok i ->
  i_id i = Some id /\ says i (vn 1) = Some (recorded (e_now e) (Some id) m).
Proof.
  intros Hid. unfold create. rewrite Hid. intros R. apply bind_inv in R as (src & _ & R). rewrite result_read in R. set (w1 := after _ w) in R. clearbody w1.
  cbv beta in R. match type of R with match ?x with _ => _ end = _ => destruct x as [nv|] eqn:En end; [|discriminate]. apply ebind_ok in En as (nv0 & E1 & E2).
  destruct (first_says _ _ _ _ _ E1) as (A1 & _ & _ & A4). pose proof (from_srcdir_says _ _ _ _ _ E2) as [S1 _ _ S4].
  assert (Ei : i = nv_inv nv).
  { destruct op as [op|]; [|apply Ok_inv in R; auto]. repeat (apply bind_inv in R as (? & _ & R)). apply Ok_inv in R. auto. }
  subst i. rewrite S1, S4. auto.
Qed.

Lemma change_fixity_says old alg fx i : same_says i (change_fixity old alg fx i).
Proof. unfold change_fixity. destruct fx as [l|]; [destruct (i_fixity i)|destruct (_ && _)%bool]; split; reflexivity. Qed.
Lemma change_digests_says H alg w h i i' : change_digests H alg w h i = Ok i' -> same_says i i'.
Proof.
  unfold change_digests. intros E. apply ebind_ok in E as ([o m] & _ & E). apply ebind_ok in E as (vd & _ & E). apply ebind_ok in E as (i1 & E1 & E). apply Ok_inv in E. subst i'.
  eapply same_says_trans; [|apply same_says_manifest]. revert i E1. induction vd as [|v vd IH]; intros i E1; cbn [efold] in E1; [apply Ok_inv in E1; subst; apply same_says_refl|].
  apply ebind_ok in E1 as (i2 & E2 & E1). apply ebind_ok in E2 as (st & _ & E2). apply Ok_inv in E2. subst i2. eapply same_says_trans; [apply same_says_state|]. exact (IH _ E1).
Qed.
Lemma start_change_says H da fx w h i r : start_inventory_change H da fx w h i = Ok r -> same_says i (fst r).
Proof.
  unfold start_inventory_change. destruct (i_alg i) as [old|]; [|discriminate]. set (alg := match da with Some a => a | None => old end). intros E. apply ebind_ok in E as (i3 & E & X). apply Ok_inv in X. subst r. cbn [fst].
  assert (S0 : same_says i (change_fixity old alg fx (set_alg (Some alg) i))) by (eapply same_says_trans; [|apply change_fixity_says]; split; reflexivity).
  eapply same_says_trans; [exact S0|]. destruct (str_eqb alg old); [apply Ok_inv in E; subst i3; apply same_says_manifest|eapply change_digests_says; eauto].
Qed.

Theorem update_says H c e path sp m abort w i : result (add_version_with_content H c e path (Some sp) (Some m) abort) w = Ok (Some i) ->
  exists h, result (open_obj_fs e path false) w = Ok h /\ forall w1, w1 = after (open_obj_fs e path false) w -> exists p s v, parse_inventory w1 h = Ok (p, s) /\
    i_id i = i_id p /\ i_head i = Some v /\ says i v = Some (recorded (e_now e) (i_id p) m) /\ forall u, u <> v -> says i u = says p u.
Proof.
  unfold add_version_with_content, start_new_version. intros R. apply bind_inv in R as ([[h src] nv] & R1 & R). apply bind_inv in R1 as (h' & Ro & R1). exists h'. split; [exact Ro|]. intros w1 ->.
  set (w1 := after (open_obj_fs e path false) w) in *. rewrite result_read in R1. match type of R1 with match ?x with _ => _ end = _ => destruct x as [ok|] end; [|discriminate]. destruct (negb ok); [discriminate|]. rewrite result_read in R1.
  match type of R1 with match ?x with _ => _ end = _ => destruct x as [[i1 old]|] eqn:Ep end; [|discriminate]. apply ebind_ok in Ep as ([p s] & Ep & Ec). cbn [fst] in Ec.
  apply bind_inv in R1 as (src' & _ & R1). rewrite result_read in R1. match type of R1 with match ?x with _ => _ end = _ => destruct x as [nv0|] eqn:En end; [|discriminate]. apply Ok_inv in R1. apply pair_equal_spec in R1 as [R1 <-]. apply pair_equal_spec in R1 as [<- <-].
  pose proof (start_change_says _ _ _ _ _ _ _ Ec) as [C1 C2 C3 C4]. cbn [fst] in C1, C2, C3, C4. cbn [fst metadata_dict option_map] in En. unfold metadata_dict in En. cbn [option_map] in En.
  destruct (next_says _ _ _ _ _ _ _ _ _ _ En) as (v & N1 & N2 & _ & N3 & N4 & _). exists p, s, v. split; [exact Ep|].
  rewrite result_read in R. match type of R with match ?x with _ => _ end = _ => destruct x as [nv1|] eqn:E1 end; [|discriminate]. apply from_srcdir_says in E1 as [S1 S2 S3 S4].
  assert (Ei : i = nv_inv nv1).
  { apply bind_inv in R as (diff & _ & R). assert (W : forall w0, result (do inv <- write_new_version H (o_alg c) h' src' nv1 ;; iret (Some inv)) w0 = Ok (Some i) -> i = nv_inv nv1).
    { intros w0 Rw. apply bind_inv in Rw as (inv & Rw & Rr). apply Ok_inv in Rr. injection Rr as <-. unfold write_new_version in Rw. repeat (apply bind_inv in Rw as (? & _ & Rw)). now apply Ok_inv in Rw. }
    destruct diff as [[|? ?]|]; [discriminate| |]; exact (W _ R). }
  subst i. rewrite S1, S2, N1, C1. rewrite C1 in N3. split; [auto|]. split; [auto|]. split; [rewrite S4; auto|]. intros u Hu. rewrite S4, N4, C4 by auto. reflexivity.
Qed.

(** One directory after the other *)
Lemma build_versions_says H c e id sp ms h len : forall j inv w r,
  (forall p, inv = Some p -> i_id p = Some id /\ keys (versions_block p) = names None j) -> (inv = None <-> j = 0%nat) -> (N.of_nat (j + len) <= 99999)%N -> (0 < j + len)%nat ->
  result (build_versions H c e id sp ms h inv (map (fun k => (N.of_nat k, vn k)) (seq (S j) len))) w = Ok r ->
  exists i, r = Some i /\ i_id i = Some id /\ keys (versions_block i) = names None (j + len) /\
    (forall p u, inv = Some p -> (forall k, (j < k)%nat -> u <> vn k) -> says i u = says p u) /\
    forall k, (j < k <= j + len)%nat -> says i (vn k) = Some (recorded (e_now e) (Some id) (meta_for ms k)).
Proof.
  induction len as [|len IH]; intros j inv w r Hp H0 Hr Hpos R; cbn [seq map build_versions] in R.
  - apply Ok_inv in R. subst r. destruct inv as [p|]; [|exfalso; pose proof (proj1 H0 eq_refl); lia]. destruct (Hp p eq_refl) as [P1 P2]. exists p. split; [auto|]. split; [auto|]. split; [now rewrite Nat.add_0_r|].
    split; [intros p' u E _; injection E as <-; reflexivity|]. intros k Hk. lia.
  - apply bind_inv in R as (i1 & R1 & R). set (w1 := after _ w) in R. clearbody w1.
    assert (X : i_id i1 = Some id /\ keys (versions_block i1) = names None (S j) /\ says i1 (vn (S j)) = Some (recorded (e_now e) (Some id) (meta_for ms (S j))) /\ forall p u, inv = Some p -> u <> vn (S j) -> says i1 u = says p u).
    { unfold build_version in R1. apply bind_inv in R1 as (src & _ & R1). rewrite result_read in R1. set (w0 := after _ w) in R1. clearbody w0.
      match type of R1 with match ?x with _ => _ end = _ => destruct x as [nv|] eqn:En end; [|discriminate]. apply ebind_ok in En as (nv0 & E1 & E2). apply from_srcdir_says in E2 as [S1 S2 S3 S4].
      assert (Ei : i1 = nv_inv nv) by (repeat (apply bind_inv in R1 as (? & _ & R1)); now apply Ok_inv in R1). subst i1. rewrite S1, S3.
      fold (meta_for ms (S j)) in E1. destruct (str_eqb_spec (vn (S j)) (`"v1")) as [Ev|Ev].
      - change (`"v1") with (vn 1) in Ev. unfold vn in Ev. apply version_fmt_inj in Ev. assert (j = 0%nat) by lia. subst j. destruct (first_says _ _ _ _ _ E1) as (A1 & _ & A3 & A4).
        split; [auto|]. split; [auto|]. split; [now rewrite S4|]. intros p u E. assert (inv = None) by now apply H0. congruence.
      - destruct inv as [p|]; [|discriminate]. destruct (Hp p eq_refl) as [P1 P2]. unfold metadata_dict in E1. cbn [option_map] in E1. destruct (next_says _ _ _ _ _ _ _ _ _ _ E1) as (v & N1 & _ & N3 & N4 & N5 & b & N6).
        assert (v = vn (S j)) by (apply (next_names p j v P2 ltac:(lia) N3)). subst v. rewrite P1 in *. split; [auto|]. split; [rewrite N6; now apply keys_next|]. split; [now rewrite S4|]. intros p' u E Hu. injection E as <-. rewrite S4. auto. }
    destruct X as (X1 & X2 & X3 & X4). destruct (IH (S j) (Some i1) w1 r) as (i & -> & I1 & I2 & I3 & I4); auto.
    { intros p E. injection E as <-. auto. } { split; [discriminate|lia]. } { lia. } { lia. }
    exists i. split; [reflexivity|]. split; [auto|]. split; [rewrite I2; f_equal; lia|]. split.
    + intros p u E Hu. rewrite (I3 i1 u eq_refl) by (intros k Hk; apply Hu; lia). apply (X4 p u E). apply Hu. lia.
    + intros k Hk. destruct (Nat.eq_dec k (S j)) as [->|Ne]; [|apply I4; lia]. rewrite (I3 i1 _ eq_refl); [exact X3|]. intros k Hk' E. unfold vn in E. apply version_fmt_inj in E. lia.
Qed.

(** ** Writing and reading *)

Lemma sort_user_get u k : user_ok u -> dget k (sort_user u) = dget k u.
Proof.
  intros (N & _ & T). unfold sort_user. rewrite dget_sorted by exact N. destruct (dget k u) as [x|] eqn:E; [|reflexivity]. apply dget_In in E. destruct (T _ _ E) as (_ & s & -> & _). reflexivity.
Qed.
Lemma says_sorted alg spec n i v : sound alg spec n i -> says (sort_inv i) v = says i v.
Proof.
  intros So. destruct (so_versions _ _ _ _ So) as (vs & Hv & Pm). unfold says, versions_block, sort_inv. cbn [i_versions]. rewrite Hv. cbn [option_map or_empty].
  assert (Nv : NoDup (keys vs)) by (apply (Permutation_NoDup (Permutation_sym Pm)), names_NoDup).
  assert (E : dget v (sort_values sort_vblock vs) = option_map sort_vblock (dget v vs)).
  { unfold sort_values. rewrite <- dget_map. symmetry. apply dget_perm; [now rewrite keys_map|apply isort_perm]. }
  rewrite E. destruct (dget v vs) as [b|] eqn:Eb; [|reflexivity]. cbn [option_map]. f_equal. unfold read_meta. cbn [i_id vb_created vb_message vb_user sort_vblock].
  apply dget_In in Eb. destruct (so_blocks _ _ _ _ So vs v b Hv Eb) as [Bb _]. destruct (vb_user b) as [u|] eqn:Eu; [|reflexivity]. cbn [option_map or_empty]. pose proof (bk_user _ Bb u Eu) as Uo. now rewrite !sort_user_get.
Qed.
