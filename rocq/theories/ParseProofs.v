(** Proofs about Object.parse_inventory (C21, C29). *)
From Coq Require Import Permutation.
From Verif Require Import Base Unicode Regex Utf8 Json PyJson Log DigestModel ObjectUtilsModel InventorySpec
  InventoryValidatorModel InventoryValidatorProofs InventoryRulesProofs Properties_InventoryValidator InventoryModel InventoryOpsSpec
  InventoryOpsProofs VersionNumberProofs InventoryParseProofs ParseModel.

(** The names of the versions have at most five digits. *)
Definition short_names (inv : json) : Prop :=
  forall vs v b, member inv (`"versions") (JObj vs) -> In (v, b) vs -> (List.length v <= 6)%nat.

Lemma facts_numbered R inv f i : json_wf inv -> obeys R inv f -> reads R inv f i -> short_names inv ->
  numbered_versions i /\ distinct_numbers i.
Proof.
  intros Hw Ho Hr Hs. pose proof Ho as (_ & _ & _ & _ & _ & _ & _ & vs & (Hv & (w & (_ & Hq) & _) & Hp) & _).
  assert (N : forall v, is_version i v -> exists k, nth_error (f_versions f) k = Some v /\ number v (N.of_nat k + 1)).
  { intros v H. apply (reads_is_version R inv f i Hr) in H. pose proof H as H0. apply In_nth_error in H as [k Hk]. exists k. split; [auto|].
    split; [exists w; now apply Hq|]. split; [lia|]. apply (Permutation_in _ (Permutation_sym Hp)) in H0.
    apply in_map_iff in H0 as [[v' b] [<- H0]]. eapply Hs; eauto. }
  split.
  - intros v H. destruct (N v H) as (k & _ & Hk). eauto.
  - intros v x n H1 H2 N1 N2. destruct (N v H1) as (k & E1 & K1). destruct (N x H2) as (m & E2 & K2).
    pose proof (number_unique _ _ _ N1 K1). pose proof (number_unique _ _ _ N2 K2). assert (k = m) by lia. subst m. congruence.
Qed.

(** What is known of an opened inventory. *)
Record opened (inv : json) (i0 i : inventory) : Prop := {
  op_dicts : dicts_ok i;
  op_numbered : numbered_versions i;
  op_distinct : distinct_numbers i;
  op_unique : forall v, unique_paths i v;
  op_rest : same_rest i0 i;
  op_resolves : forall v p c, resolves i v p c <-> content_file inv v p c;
  op_path : forall v p, in_version i v p <-> has_path inv v p;
  op_manifest : forall man, member inv (`"manifest") (JObj man) ->
    Permutation (manifest i) (map (fun kv => (lower (fst kv), strings (snd kv))) man);
  op_state : forall v st, state_of inv v st ->
    Permutation (state i v) (map (fun kv => (lower (fst kv), strings (snd kv))) st);
  op_lower : forall d, In d (keys (manifest i)) \/ (exists v, In d (keys (state i v))) -> lower d = d;
  op_all : forall v p, in_version i v p -> exists c, content_path_for_logical_path i v p = Some c /\ resolves i v p c
}.

Lemma has_path_iff inv v p : has_path inv v p <-> exists st d x, state_of inv v st /\ In (d, x) st /\ In p (strings x).
Proof.
  split.
  - intros (st & Hs & Hp). unfold listed in Hp. apply in_flat_map in Hp as [[d x] [H1 H2]]. exists st, d, x. auto.
  - intros (st & d & x & Hs & H1 & H2). exists st. split; [auto|]. apply in_flat_map. exists (d, x). auto.
Qed.

Lemma block_has_keys b d p : block_has b d p -> In d (keys b).
Proof. intros [l [H _]]. now apply (in_map fst) in H. Qed.

Lemma find_path_for i v p d c : dicts_ok i -> unique_paths i v -> in_state i v d p -> stored i d c ->
  exists c', content_path_for_logical_path i v p = Some c' /\ resolves i v p c'.
Proof.
  intros Hd Hu Hs Hc. unfold content_path_for_logical_path, digest_for_logical_path, digest_of_path.
  pose proof (proj1 (unique_paths_iff i v Hd) Hu) as Hu'. unfold logical_paths in Hu'.
  pose proof (find_block (state i v) p) as F. pose proof (proj1 (in_state_iff i v d p Hd) Hs) as Hb.
  destruct (find _ (state i v)) as [[d' l]|].
  - destruct F as [Fi Fp]. cbn [fst]. assert (d' = d) by (eapply paths_unique; [exact Hu'|exists l; eauto|eauto]). subst d'.
    pose proof (proj1 (stored_iff i d c) Hc) as Hm. apply block_has_dget in Hm as (cs & Hm & Hin); [|now apply dicts_manifest].
    unfold content_path_for_digest, content_paths_for_digest. rewrite Hm. cbn [or_empty]. destruct cs as [|c' cs]; [destruct Hin|].
    exists c'. split; [reflexivity|]. exists d. split; [auto|]. apply stored_iff. exists (c' :: cs). split; [now apply dget_In|now left].
  - exfalso. apply F. apply In_paths_of. eauto.
Qed.

Theorem parse_correct inv : json_wf inv -> valid inv None DEFAULT_SPEC_VERSION -> short_names inv ->
  exists i0 i f, inventory_of_json inv = Ok i0 /\ parse_inventory_json inv = Ok (i, f_spec f) /\ obeys as_coded inv f /\
    i_alg i = Some (f_alg f) /\ opened inv i0 i.
Proof.
  intros Hw Hv Hs. destruct Hv as [st Hv]. pose proof (C22_attributes _ _ _ _ Hw Hv) as (f & Ho & _ & Esp & Ealg & _).
  destruct (reads_valid as_coded inv f Hw Ho) as (i0 & E0 & Hr). exists i0.
  unfold parse_inventory_json. rewrite Hv. cbn [ebind negb]. rewrite E0. cbn [ebind]. rewrite Ealg.
  destruct (normalize_digests (f_alg f) i0) as [i r] eqn:En. exists i, f.
  pose proof (reads_dicts as_coded inv f i0 Hw Ho Hr) as D0. destruct (facts_numbered as_coded inv f i0 Hw Ho Hr Hs) as [N0 S0].
  pose proof (reads_norm_manifest as_coded inv f i0 Ho Hr) as M0.
  pose proof (fun v => reads_norm_state as_coded inv f i0 v Hw Ho Hr) as T0.
  destruct (normalize_correct _ _ _ _ D0 N0 M0 T0 En) as (-> & D1 & Sr & St & Sto & Pm & Ps).
  split; [reflexivity|]. split; [now rewrite Esp|]. split; [auto|].
  assert (Iv : forall v, is_version i v <-> is_version i0 v) by apply Sr.
  assert (Nd : forall d, normalized_digest d (f_alg f) = lower d).
  { intros d. pose proof Ho as (_ & _ & (_ & Ha) & _). unfold normalized_digest. destruct Ha as [<-|[<-|[]]]; reflexivity. }
  assert (Sk : forall v d p, in_state i0 v d p -> In d (keys (manifest i0))).
  { intros v d p H. apply in_state_iff in H; [|auto]. destruct H as [l [H _]].
    destruct (reads_state_digest as_coded inv f i0 Hw Ho Hr v d l H) as (c & cs & Hc). now apply (in_map fst) in Hc. }
  assert (Res : forall v p c, resolves i v p c <-> resolves i0 v p c).
  { intros v p c. split.
    - intros (e & H1 & H2). apply St in H1 as (d & H1 & E1). apply Sto in H2 as (d' & H2 & E2). exists d. split; [auto|].
      assert (d = d'); [|subst; auto]. apply M0; [eapply Sk; eauto| |congruence]. apply stored_iff in H2. eapply block_has_keys; eauto.
    - intros (d & H1 & H2). exists (normalized_digest d (f_alg f)). split; [apply St|apply Sto]; eauto. }
  assert (Un : forall v, unique_paths i v).
  { intros v. apply unique_paths_iff; [auto|]. pose proof (reads_unique as_coded inv f i0 Hw Ho Hr v) as U. apply unique_paths_iff in U; [|auto].
    destruct (dget v (versions_block i0)) as [b|] eqn:Eb.
    - assert (V : is_version i0 v) by (apply is_version_iff; eauto). pose proof (Ps v V) as P. unfold logical_paths, paths_of in *.
      eapply Permutation_NoDup; [|exact U]. apply Permutation_sym. rewrite (Permutation_flat_map snd P). rewrite !flat_map_concat_map, map_map. reflexivity.
    - unfold logical_paths, state, versiondata. destruct (dget v (versions_block i)) as [b|] eqn:Eb'; [|constructor].
      exfalso. assert (V : is_version i v) by (apply is_version_iff; eauto). apply Iv, is_version_iff in V as [b' V]. congruence. }
  split; [destruct Sr as (_ & _ & -> & _); apply (rd_alg _ _ _ _ Hr)|]. constructor; auto.
  - intros v H. apply N0. now apply Iv.
  - intros v w n H1 H2. apply S0; now apply Iv.
  - intros v p c. rewrite Res. apply (reads_resolves as_coded inv f i0 Hw Ho Hr).
  - intros v p. rewrite has_path_iff. split.
    + intros [e H]. apply St in H as (d & H & _). apply (reads_in_state as_coded inv f i0 Hw Hr) in H as (s & x & H). exists s, d, x. exact H.
    + intros (s & d & x & H). exists (normalized_digest d (f_alg f)). apply St. exists d. split; [|auto].
      apply (reads_in_state as_coded inv f i0 Hw Hr). exists s, x. exact H.
  - intros man Hm. assert (man = f_manifest f). { pose proof Ho as (_ & _ & _ & _ & (Hm' & _) & _). pose proof (member_fun _ _ _ _ Hw Hm Hm') as E. congruence. }
    subst man. rewrite Pm. unfold manifest. rewrite (rd_manifest _ _ _ _ Hr). cbn [or_empty]. unfold typed. rewrite map_map. cbn [fst snd].
    erewrite map_ext; [reflexivity|]. intros [k x]. cbn. now rewrite Nd.
  - intros v s Hst. assert (V : is_version i0 v).
    { apply (reads_is_version as_coded inv f i0 Hr). destruct Hst as (vs & b & H1 & H2 & _).
      pose proof Ho as (_ & _ & _ & _ & _ & _ & _ & vs' & (Hv' & _ & Hp) & _). pose proof (member_fun _ _ _ _ Hw H1 Hv') as E.
      assert (vs = vs') by congruence. subst vs'. apply (Permutation_in _ Hp). now apply (in_map fst) in H2. }
    rewrite (Ps v V). assert (Es : state i0 v = typed s).
    { destruct Hst as (vs & b & H1 & H2 & H3). pose proof (rd_versions _ _ _ _ Hr) as (vs' & tvs & Hv' & Et & F & P).
      pose proof (member_fun _ _ _ _ Hw H1 Hv') as E. assert (vs = vs') by congruence. subst vs'. clear E.
      assert (Hb : exists t, In (v, t) tvs /\ exists st', block_rule as_coded f b st' /\ reads_block b st' t).
      { clear -F H2. induction F as [|[a x] [a' y] l l' [Ha Hx] F IH]; [destruct H2|]. destruct H2 as [E|H2].
        - injection E as -> ->. cbn [fst snd] in *. subst a'. exists y. split; [now left|auto].
        - destruct (IH H2) as (t & Ht & R). exists t. split; [now right|auto]. }
      destruct Hb as (t & Ht & st' & Hbr & Hrb). unfold state, versiondata, versions_block. rewrite Et. cbn [or_empty].
      assert (Ek : NoDup (keys tvs)). { pose proof (dicts_versions i0 D0) as Hk. unfold versions_block in Hk. now rewrite Et in Hk. }
      rewrite (In_dget _ _ _ Ek Ht), (rb_state _ _ _ Hrb). cbn [or_empty]. f_equal.
      destruct Hbr as (_ & _ & _ & Hm & _).
      assert (Wb : json_wf b). { pose proof (member_wf _ _ _ Hw H1) as W. apply json_wf_obj in W as [_ W]. rewrite Forall_forall in W. apply (W (v, b) H2). }
      pose proof (member_fun _ _ _ _ Wb H3 Hm). congruence. }
    rewrite Es. unfold typed. rewrite map_map. cbn [fst snd]. erewrite map_ext; [reflexivity|]. intros [k x]. cbn. now rewrite Nd.
  - assert (L : forall (b b0 : block), Permutation b (map (fun kv => (normalized_digest (fst kv) (f_alg f), snd kv)) b0) -> forall d, In d (keys b) -> lower d = d).
    { intros b b0 P d Hd. unfold keys in Hd. apply (Permutation_in _ (Permutation_map fst P)) in Hd. rewrite map_map in Hd. apply in_map_iff in Hd as [[k x] [<- _]].
      cbn [fst]. rewrite Nd. apply lower_idem. }
    intros d [Hd|[v Hd]]; [exact (L _ _ Pm d Hd)|]. destruct (dget v (versions_block i)) as [b|] eqn:Eb.
    + assert (V : is_version i0 v) by (apply Iv, is_version_iff; eauto). exact (L _ _ (Ps v V) d Hd).
    + unfold state, versiondata in Hd. rewrite Eb in Hd. destruct Hd.
  - intros v p [e He]. pose proof He as He0. apply St in He as (d & He & _). pose proof (proj1 (in_state_iff i0 v d p D0) He) as [l [Hl _]].
    destruct (reads_state_digest as_coded inv f i0 Hw Ho Hr v d l Hl) as (c & cs & Hc).
    assert (R0 : resolves i0 v p c) by (exists d; split; [auto|]; apply stored_iff; exists (c :: cs); split; [auto|now left]).
    apply Res in R0 as (e' & R1 & R2). eapply find_path_for; eauto.
Qed.
