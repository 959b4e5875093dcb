(** Proofs about version numbers in inventories (C02, C19, C20). *)
From Coq Require Import Permutation Sorted.
From Verif Require Import Base Unicode Regex Utf8 Json PathModel DigestModel LayoutModel ObjectUtilsModel ObjectUtilsProofs
  InventoryValidatorModel InventorySpec InventoryValidatorProofs InventoryModel NewVersionModel InventoryOpsSpec InventoryOpsProofs NewVersionProofs Properties_Names.

Lemma number_parse v n : number v n -> parse_version_directory v = Ok n.
Proof.
  intros [[w [ds [-> [H1 [H2 [H3 _]]]]]] [H4 H5]]. rewrite value_digits_val in H3. subst n.
  apply parse_version_ascii; auto.
  - eapply Forall_impl; [|exact H2]. intros a. apply ascii_digit_spec.
  - change (`"v" ++ ds) with (118%N :: ds) in H5. cbn [List.length] in H5. lia.
Qed.

Lemma is_version_keys i v : is_version i v <-> In v (keys (versions_block i)).
Proof.
  rewrite is_version_iff. split; [intros [b Hb]; eapply dget_In_key; eauto|apply In_key_dget].
Qed.

Lemma version_directories_total i : numbered_versions i -> exists vdirs, version_directories i = Ok vdirs.
Proof.
  intros H. unfold version_directories.
  assert (G : exists l, emap (fun v => let* n := parse_version_directory v in Ok (n, v)) (keys (versions_block i)) = Ok l).
  { assert (K : forall v, In v (keys (versions_block i)) -> exists n, number v n) by (intros v Hv; apply H; now apply is_version_keys).
    induction (keys (versions_block i)) as [|v ks IH]; [exists []; reflexivity|].
    destruct IH as [l Hl]; [intros; apply K; now right|]. destruct (K v (or_introl eq_refl)) as [n Hn]. apply number_parse in Hn.
    exists ((n, v) :: l). cbn [emap]. rewrite Hn. cbn [ebind]. rewrite Hl. reflexivity. }
  destruct G as [l ->]. cbn [ebind]. eauto.
Qed.

(** The version directories are all versions, with increasing numbers. *)
Lemma version_directories_spec i vdirs : numbered_versions i -> version_directories i = Ok vdirs ->
  (forall v, In v vdirs <-> is_version i v) /\
  exists ns, Forall2 number vdirs ns /\ StronglySorted N.le ns.
Proof.
  intros Hn H. apply version_directories_ok in H as [P [ns [F S]]].
  assert (A : forall v, In v vdirs <-> is_version i v).
  { intros v. rewrite is_version_keys. split; apply Permutation_in; [auto|now apply Permutation_sym]. }
  split; [exact A|]. exists ns. split; [|auto].
  assert (B : forall v, In v vdirs -> exists n, number v n) by (intros v Hv; apply Hn, A, Hv). clear -F B.
  induction F as [|v n vs ns H F IH]; constructor; [|apply IH; intros; apply B; now right].
  destruct (B v (or_introl eq_refl)) as [m Hm]. pose proof (number_parse _ _ Hm) as E. unfold numbered in H. congruence.
Qed.

Lemma number_unique v n m : number v n -> number v m -> n = m.
Proof. intros H1 H2. apply number_parse in H1, H2. congruence. Qed.

(** ** find_logical_path *)

Lemma sorted_split l x r ns : Forall2 number (l ++ x :: r) ns -> StronglySorted N.le ns ->
  forall n, number x n ->
  (forall y m, In y l -> number y m -> (m <= n)%N) /\ (forall y m, In y r -> number y m -> (n <= m)%N).
Proof.
  revert ns. induction l as [|z l IH]; intros ns F S n Hx; cbn [app] in F; inversion F as [|? k ? ns' H1 H2]; subst; inversion S as [|? ? S1 S2]; subst.
  - split; [intros y m []|]. intros y m Hy Hm. rewrite Forall_forall in S2.
    destruct (Forall2_in_l _ _ _ H2 y Hy) as [m' [Hm' Hn']]. rewrite (number_unique _ _ _ Hm Hn'). rewrite (number_unique _ _ _ Hx H1). auto.
  - destruct (IH _ H2 S1 n Hx) as [A B]. split; [|auto]. intros y m [->|Hy] Hm; [|eauto].
    rewrite (number_unique _ _ _ Hm H1). rewrite Forall_forall in S2.
    destruct (Forall2_in_l _ _ _ H2 x) as [n' [Hn Hn']]; [apply in_or_app; right; now left|].
    rewrite (number_unique _ _ _ Hx Hn'). auto.
Qed.

Lemma find_split {A} (f : A -> bool) l x : find f l = Some x -> exists a b, l = a ++ x :: b /\ f x = true /\ forall y, In y a -> f y = false.
Proof.
  induction l as [|y l IH]; cbn [find]; [discriminate|]. destruct (f y) eqn:E.
  - intros H. apply Some_inv in H. subst y. exists [], l. repeat split; auto. intros z [].
  - intros H. destruct (IH H) as (a & b & -> & Hx & Ha). exists (y :: a), b. repeat split; auto. intros z [<-|Hz]; auto.
Qed.

Theorem find_correct i p r : dicts_ok i -> numbered_versions i -> find_logical_path i p = r ->
  (r = Ok None /\ forall v, ~ in_version i v p) \/
  (exists v d l n, r = Ok (Some (v, hd_error l)) /\ in_state i v d p /\ number v n /\
     (forall m, i_manifest i = Some m -> In (d, l) m \/ (l = [] /\ forall l', ~ In (d, l') m)) /\ (i_manifest i = None -> l = []) /\
     forall w m, in_version i w p -> number w m -> (m <= n)%N).
Proof.
  intros Hd Hn E. unfold find_logical_path in E. destruct (version_directories_total i Hn) as [vdirs Hv]. rewrite Hv in E. cbn [ebind] in E.
  destruct (version_directories_spec i vdirs Hn Hv) as [A [ns [F S]]].
  assert (P : forall v, str_in p (logical_paths i v) = true <-> in_version i v p) by (intros v; rewrite str_in_true; symmetry; now apply in_version_iff).
  destruct (find _ (rev vdirs)) as [v|] eqn:Ef.
  - right. apply find_split in Ef as (a & b & Er & Hp & Ha). pose proof Hp as Hp0. apply P in Hp.
    assert (Ev : vdirs = rev b ++ v :: rev a).
    { rewrite <- (rev_involutive vdirs), Er, rev_app_distr. cbn [rev]. now rewrite <- app_assoc. }
    assert (Hver : is_version i v) by (apply A; rewrite Ev; apply in_or_app; right; now left).
    destruct (Hn v Hver) as [n Hnum]. rewrite Ev in F. destruct (sorted_split _ _ _ _ F S n Hnum) as [S1 S2].
    unfold content_path_for_logical_path, digest_for_logical_path, digest_of_path in E.
    pose proof (find_block (state i v) p) as Fb. destruct (find _ (state i v)) as [[d ps]|].
    2:{ exfalso. apply Fb. now apply str_in_true. }
    destruct Fb as [F1 F2]. cbn [fst] in E.
    exists v, d, (content_paths_for_digest i d), n. split; [symmetry; exact E|].
    split; [apply in_state_iff; [auto|]; exists ps; auto|]. split; [auto|]. split; [|split].
    + intros m Em. unfold content_paths_for_digest, manifest. rewrite Em. cbn [or_empty].
      destruct (dget d m) as [l|] eqn:Eg; [left; now apply dget_In|right]. split; [reflexivity|]. intros l' Hl'.
      apply dget_None in Eg. apply Eg. now apply (in_map fst) in Hl'.
    + intros Em. unfold content_paths_for_digest, manifest. rewrite Em. reflexivity.
    + intros w m Hw Hm. assert (Hwv : is_version i w) by (destruct Hw as (d' & vs & bb & st & l & H1 & H2 & _); exists vs, bb; auto).
      apply A in Hwv. rewrite Ev in Hwv. apply in_app_or in Hwv as [Hwv|[<-|Hwv]]; [eauto|rewrite (number_unique _ _ _ Hm Hnum); lia|].
      exfalso. apply in_rev in Hwv. apply Ha in Hwv. apply P in Hw. congruence.
  - left. split; [auto|]. intros v Hp. assert (Hwv : is_version i v) by (destruct Hp as (d' & vs & bb & st & l & H1 & H2 & _); exists vs, bb; auto).
    apply A in Hwv. apply in_rev in Hwv. apply (find_none _ _ Ef) in Hwv. apply P in Hp. congruence.
Qed.

(** ** diff_with_previous *)

Definition distinct_numbers (i : inventory) : Prop :=
  forall v w n, is_version i v -> is_version i w -> number v n -> number w n -> v = w.

Lemma before_head_split h l r : forall prev, ~ In h l -> before_head h prev (l ++ h :: r) = match last_opt l with Some x => Some x | None => prev end.
Proof.
  induction l as [|x l IH]; intros prev Hn; cbn [app before_head].
  - now rewrite str_eqb_refl.
  - destruct (str_eqb_spec x h) as [->|E]; [exfalso; apply Hn; now left|]. rewrite IH by (intros H; apply Hn; now right).
    destruct l as [|y t _] using rev_ind; [reflexivity|]. rewrite last_opt_app. change (x :: t ++ [y]) with ((x :: t) ++ [y]). now rewrite last_opt_app.
Qed.

Lemma previous_before i h vdirs l r : dicts_ok i -> numbered_versions i -> distinct_numbers i -> version_directories i = Ok vdirs ->
  vdirs = l ++ h :: r -> ~ In h l /\ forall w, last_opt l = Some w <-> previous i h w.
Proof.
  intros Hd Hn Hu Hv Ev. destruct (version_directories_spec i vdirs Hn Hv) as [A [ns [F S]]].
  assert (ND : NoDup vdirs).
  { apply version_directories_ok in Hv as [P _]. eapply Permutation_NoDup; [apply Permutation_sym, P|]. now apply dicts_versions. }
  subst vdirs. assert (Hnl : ~ In h l) by (intros H; apply (NoDup_app_disj _ _ h ND H); now left).
  assert (Hnr : ~ In h r) by (apply NoDup_app_r in ND; now inversion ND).
  split; [exact Hnl|].
  assert (Hh : is_version i h) by (apply A, in_or_app; right; now left). destruct (Hn h Hh) as [n Hhn].
  destruct (sorted_split _ _ _ _ F S n Hhn) as [S1 S2].
  assert (Hl : forall y m, In y l -> number y m -> (m < n)%N).
  { intros y m Hy Hm. pose proof (S1 y m Hy Hm). destruct (N.eq_dec m n) as [->|]; [|lia]. exfalso.
    assert (y = h) by (apply (Hu y h n); auto; apply A, in_or_app; auto). congruence. }
  intros w. destruct l as [|w' l _] using rev_ind.
  { change (last_opt (@nil str)) with (@None str). split; [discriminate|]. intros (Hw & n' & m & Hn' & Hm & Hlt & _). exfalso.
    rewrite (number_unique _ _ _ Hn' Hhn) in Hlt. apply A in Hw. cbn [app] in Hw. destruct Hw as [<-|Hw].
    - rewrite (number_unique _ _ _ Hm Hhn) in Hlt. lia.
    - pose proof (S2 w m Hw Hm). lia. }
  rewrite last_opt_app.
  assert (Hw' : is_version i w') by (apply A, in_or_app; left; apply in_or_app; right; now left). destruct (Hn w' Hw') as [m' Hm'].
  assert (F' : Forall2 number (l ++ w' :: h :: r) ns) by (rewrite <- app_assoc in F; exact F).
  destruct (sorted_split _ _ _ _ F' S m' Hm') as [T1 T2].
  assert (Top : forall x k, is_version i x -> number x k -> (k < n)%N -> (k <= m')%N).
  { intros x k Hx Hk Hlt. apply A in Hx. apply in_app_or in Hx as [Hx|[<-|Hx]].
    - apply in_app_or in Hx as [Hx|[<-|[]]]; [eauto|]. rewrite (number_unique _ _ _ Hk Hm'). lia.
    - rewrite (number_unique _ _ _ Hk Hhn) in Hlt. lia.
    - pose proof (S2 x k Hx Hk). lia. }
  assert (Hlt' : (m' < n)%N) by (apply (Hl w'); auto; apply in_or_app; right; now left).
  split.
  - intros E. apply Some_inv in E. subst w. split; [auto|]. exists n, m'. auto.
  - intros (Hw & n' & m & Hn' & Hm & Hlt & Hmax). rewrite (number_unique _ _ _ Hn' Hhn) in *. f_equal.
    apply (Hu w' w m'); auto. assert (m = m'); [|congruence]. pose proof (Top w m Hw Hm Hlt). pose proof (Hmax w' m' Hw' Hm' Hlt'). lia.
Qed.

Lemma In_pairs b d p : In (d, p) (pairs_of b) <-> block_has b d p.
Proof.
  unfold pairs_of. rewrite in_flat_map. split.
  - intros [[k l] [H1 H2]]. apply in_map_iff in H2 as [q [E H2]]. cbn in *. exists l. split; congruence.
  - intros [l [H1 H2]]. exists (d, l). split; [auto|]. apply in_map_iff. exists p. auto.
Qed.
Lemma pair_in_spec x l : pair_in x l = true <-> In x l.
Proof.
  unfold pair_in. rewrite existsb_exists. split.
  - intros [y [H1 H2]]. apply andb_prop in H2 as [H2 H3]. destruct x, y; cbn in *.
    destruct (str_eqb_spec s s1), (str_eqb_spec s0 s2); try discriminate. now subst.
  - intros H. exists x. split; [auto|]. now rewrite !str_eqb_refl.
Qed.

Theorem diff_correct nv h : i_head (nv_inv nv) = Some h -> is_version (nv_inv nv) h ->
  dicts_ok (nv_inv nv) -> numbered_versions (nv_inv nv) -> distinct_numbers (nv_inv nv) ->
  exists r, diff_with_previous nv = Ok r /\
    (forall d p, In (DAdd d p) r <-> in_state (nv_inv nv) h d p /\ ~ exists w, previous (nv_inv nv) h w /\ in_state (nv_inv nv) w d p) /\
    (forall d p, In (DDel d p) r <-> (exists w, previous (nv_inv nv) h w /\ in_state (nv_inv nv) w d p) /\ ~ in_state (nv_inv nv) h d p).
Proof.
  intros Hh Hv Hd Hn Hu. unfold diff_with_previous, current. rewrite Hh. cbn [or_empty]. set (i := nv_inv nv) in *.
  destruct (version_directories_total i Hn) as [vdirs Ev]. rewrite Ev. cbn [ebind].
  destruct (version_directories_spec i vdirs Hn Ev) as [A _].
  pose proof (proj2 (A h) Hv) as Hin. apply in_split in Hin as (l & r & Es).
  destruct (previous_before i h vdirs l r Hd Hn Hu Ev Es) as [Hnl Hprev]. rewrite Es, before_head_split by auto.
  assert (St : forall v d p, in_state i v d p <-> In (d, p) (pairs_of (state i v))) by (intros v d p; rewrite in_state_iff, In_pairs by auto; reflexivity).
  destruct (last_opt l) as [w|] eqn:El.
  - pose proof (proj1 (Hprev w) eq_refl) as Hw. assert (Hne : w <> []).
    { intros ->. destruct Hw as (_ & n & m & _ & [[x [ds [E _]]] _] & _). discriminate. }
    destruct w as [|c w']; [congruence|]. set (w := c :: w') in *.
    eexists. split; [reflexivity|].
    assert (Pw : forall d p, (exists w, previous i h w /\ in_state i w d p) <-> In (d, p) (pairs_of (state i w))).
    { intros d p. rewrite <- St. split; [|eauto]. intros [w2 [H1 H2]]. apply Hprev in H1. apply Some_inv in H1. now subst. }
    split; intros d p; rewrite Pw, St, in_app_iff, !in_map_iff.
    + split.
      * intros [[[d' p'] [E H]]|[[d' p'] [E H]]]; [|discriminate]. apply filter_In in H as [H1 H2]. cbn in E.
        assert (d' = d /\ p' = p) as [-> ->] by (split; congruence). split; [auto|]. intros H3. apply pair_in_spec in H3. rewrite H3 in H2. discriminate.
      * intros [H1 H2]. left. exists (d, p). split; [reflexivity|]. apply filter_In. split; [auto|].
        destruct (pair_in (d, p) (pairs_of (state i w))) eqn:E; [|reflexivity]. apply pair_in_spec in E. contradiction.
    + split.
      * intros [[[d' p'] [E H]]|[[d' p'] [E H]]]; [discriminate|]. apply filter_In in H as [H1 H2]. cbn in E.
        assert (d' = d /\ p' = p) as [-> ->] by (split; congruence). split; [auto|]. intros H3. apply pair_in_spec in H3. rewrite H3 in H2. discriminate.
      * intros [H1 H2]. right. exists (d, p). split; [reflexivity|]. apply filter_In. split; [auto|].
        destruct (pair_in (d, p) (pairs_of (state i h))) eqn:E; [|reflexivity]. apply pair_in_spec in E. contradiction.
  - eexists. split; [reflexivity|]. assert (No : forall w, ~ previous i h w) by (intros w Hw; apply Hprev in Hw; discriminate).
    split; intros d p; rewrite in_map_iff.
    + rewrite St. split.
      * intros [[d' p'] [E H]]. cbn in E. assert (d' = d /\ p' = p) as [-> ->] by (split; congruence). split; [auto|]. intros [w [Hw _]]. now apply No in Hw.
      * intros [H _]. exists (d, p). auto.
    + split; [intros [x [E _]]; discriminate|]. intros [[w [Hw _]] _]. now apply No in Hw.
Qed.

Lemma diff_empty (i : inventory) r h : 
    (forall d p, In (DAdd d p) r <-> in_state i h d p /\ ~ exists w, previous i h w /\ in_state i w d p) ->
    (forall d p, In (DDel d p) r <-> (exists w, previous i h w /\ in_state i w d p) /\ ~ in_state i h d p) ->
    (forall d p, in_state i h d p \/ ~ in_state i h d p) -> (forall d p, (exists w, previous i h w /\ in_state i w d p) \/ ~ exists w, previous i h w /\ in_state i w d p) ->
    (r = [] <-> forall d p, in_state i h d p <-> exists w, previous i h w /\ in_state i w d p).
Proof.
  intros HA HD D1 D2. split.
  - intros -> d p. specialize (HA d p). specialize (HD d p). cbn [In] in *. destruct (D1 d p), (D2 d p); tauto.
  - intros H. destruct r as [|[d p|d p] r]; [reflexivity| |]; exfalso.
    + pose proof (proj1 (HA d p) (or_introl eq_refl)). specialize (H d p). tauto.
    + pose proof (proj1 (HD d p) (or_introl eq_refl)). specialize (H d p). tauto.
Qed.

Lemma In_pairs_dec (x : str * str) l : In x l \/ ~ In x l.
Proof. rewrite <- pair_in_spec. destruct (pair_in x l); auto. Qed.

Theorem diff_correct_empty nv h r : i_head (nv_inv nv) = Some h -> is_version (nv_inv nv) h ->
  dicts_ok (nv_inv nv) -> numbered_versions (nv_inv nv) -> distinct_numbers (nv_inv nv) -> diff_with_previous nv = Ok r ->
  (r = [] <-> forall d p, in_state (nv_inv nv) h d p <-> exists w, previous (nv_inv nv) h w /\ in_state (nv_inv nv) w d p).
Proof.
  intros Hh Hv Hd Hn Hu E. destruct (diff_correct nv h Hh Hv Hd Hn Hu) as (r' & E' & HA & HD). assert (r' = r) by congruence. subst r'.
  apply diff_empty; auto; set (i := nv_inv nv) in *.
  - intros d p. rewrite in_state_iff, <- In_pairs by auto. apply In_pairs_dec.
  - intros d p. destruct (version_directories_total i Hn) as [vdirs Ev].
    destruct (version_directories_spec i vdirs Hn Ev) as [A _]. pose proof (proj2 (A h) Hv) as Hin. apply in_split in Hin as (l & t & Es).
    destruct (previous_before i h vdirs l t Hd Hn Hu Ev Es) as [_ Hprev]. destruct (last_opt l) as [w|] eqn:El.
    + assert (D : in_state i w d p \/ ~ in_state i w d p) by (rewrite in_state_iff, <- In_pairs by auto; apply In_pairs_dec).
      destruct D as [D|D]; [left; exists w; split; [now apply Hprev|auto]|right]. intros [w2 [H1 H2]]. apply Hprev in H1. apply Some_inv in H1. subst. auto.
    + right. intros [w2 [H1 _]]. apply Hprev in H1. discriminate.
Qed.

(** ** add_version *)

(** Widths first_version_directory accepts, and the number of versions that can be added. *)
Definition admissible (zw : option Z) (w : option nat) : Prop :=
  match zw with None => w = None | Some z => (2 <= z <= 5)%Z /\ w = Some (Z.to_nat z) end.
Definition most_versions (w : option nat) : N :=
  match w with None => 100000%N | Some w => (10 ^ N.of_nat (w - 1) - 1)%N end.

Lemma first_fmt zw w : admissible zw w -> first_version_directory zw = Ok (version_fmt w 1).
Proof.
  destruct zw as [z|]; cbn [admissible]; [|intros ->; reflexivity]. intros [Hz ->].
  assert (C : z = 2%Z \/ z = 3%Z \/ z = 4%Z \/ z = 5%Z) by lia. destruct C as [->|[->|[->| ->]]]; reflexivity.
Qed.

Lemma digits_val_bound ds : ascii_digits ds -> (digits_val ds < 10 ^ N.of_nat (List.length ds))%N.
Proof.
  induction ds as [|b ds IH] using rev_ind; intros H; [reflexivity|]. apply Forall_app in H as [H Hb]. apply Forall_inv in Hb.
  apply ascii_digit_spec in Hb. unfold ascii_digit in Hb. specialize (IH H). rewrite digits_val_app, app_length, Nat.add_comm. cbn [List.length Nat.add].
  rewrite Nat2N.inj_succ, N.pow_succ_r'. lia.
Qed.

Lemma next_fmt w m : (0 < m)%N -> match w with None => True | Some w => (2 <= w)%nat /\ (m < 10 ^ N.of_nat (w - 1))%N end ->
  next_version_directory (version_fmt w m) =
    match w with
    | None => Ok (version_fmt None (m + 1))
    | Some k => if (m + 1 <? 10 ^ N.of_nat (k - 1))%N then Ok (version_fmt w (m + 1)) else Raise ObjectException
    end.
Proof.
  intros Hm Hw. pose proof (version_fmt_name w m Hm Hw) as [ds [E [Hne [Hf [Hv Hs]]]]]. rewrite E. rewrite value_digits_val in Hv.
  assert (Ha : ascii_digits ds) by (eapply Forall_impl; [|exact Hf]; intros a; apply ascii_digit_spec).
  destruct ds as [|c ds]; [congruence|]. inversion Ha as [|? ? Hc Hds]; subst. cbn [hd_error] in Hs.
  destruct w as [k|].
  - destruct Hs as [Hl Hc0]. apply Some_inv in Hc0. subst c. destruct Hw as [Hk Hlt].
    change (`"v" ++ 48%N :: ds) with (`"v0" ++ ds).
    assert (Dv : digits_val (48%N :: ds) = digits_val ds) by reflexivity.
    destruct (C01_next_padded ds Hds) as [(ds' & En & Ha' & Hl' & Hv')|[En Hle]].
    + rewrite En. assert (Hn : version_name (Some k) (digits_val (48%N :: ds) + 1) (`"v0" ++ ds')).
      { exists (48%N :: ds'). split; [reflexivity|]. split; [discriminate|]. split.
        - constructor; [unfold ascii_digit; lia|]. eapply Forall_impl; [|exact Ha']. intros a. apply ascii_digit_spec.
        - split; [rewrite value_digits_val; cbn [digits_val fold_left]; change (digits_val ds' = digits_val ds + 1)%N; exact Hv'|].
          split; [cbn [List.length] in *; lia|reflexivity]. }
      assert (Hpos : (0 < digits_val (48%N :: ds) + 1)%N) by (rewrite Dv; lia). pose proof (version_name_fmt _ _ _ Hpos Hn) as Efmt. rewrite Efmt.
      destruct (N.ltb_spec (digits_val (48%N :: ds) + 1) (10 ^ N.of_nat (k - 1))) as [L|L]; [reflexivity|]. exfalso.
      assert (Hb : (digits_val ds' < 10 ^ N.of_nat (List.length ds'))%N) by (apply digits_val_bound; exact Ha').
      cbn [List.length] in Hl. replace (k - 1)%nat with (List.length ds') in L by lia. rewrite Dv in L. lia.
    + rewrite En. destruct (N.ltb_spec (digits_val (48%N :: ds) + 1) (10 ^ N.of_nat (k - 1))) as [L|L]; [|reflexivity]. exfalso.
      cbn [List.length] in Hl. replace (k - 1)%nat with (List.length ds) in L by lia. rewrite Dv in L. lia.
  - rewrite C01_next_unpadded; auto. congruence.
Qed.

Lemma isort_id {A} (le : A -> A -> bool) l : StronglySorted (fun a b => le a b = true) l -> isort le l = l.
Proof.
  induction 1 as [|a l S IH H]; [reflexivity|]. cbn [isort]. rewrite IH. destruct l as [|b l]; [reflexivity|]. cbn [insert_sorted].
  apply Forall_inv in H. now rewrite H.
Qed.

Definition within (w : option nat) (m : N) : Prop :=
  match w with None => (m <= 99999)%N | Some k => (2 <= k <= 5)%nat /\ (m < 10 ^ N.of_nat (k - 1))%N end.

Lemma fmt_number w n : (0 < n)%N -> within w n -> number (version_fmt w n) n.
Proof.
  intros Hn Hw. split; [|split; [lia|]].
  - exists w. apply version_fmt_name; [auto|]. destruct w; [cbn in Hw; split; [lia|tauto]|auto].
  - destruct w as [k|]; cbn in Hw.
    + destruct Hw as [Hk Hlt]. unfold version_fmt. rewrite app_length, zero_pad_length.
      assert (List.length (str_of_N n) <= k - 1)%nat by (apply str_of_N_length; [lia|auto]). change (List.length (`"v")) with 1%nat. lia.
    + unfold version_fmt. rewrite app_length. change (List.length (`"v")) with 1%nat.
      assert (List.length (str_of_N n) <= 5)%nat; [|lia]. apply str_of_N_length; [lia|]. change (10 ^ N.of_nat 5)%N with 100000%N. lia.
Qed.

Lemma within_le w n m : (n <= m)%N -> within w m -> within w n.
Proof. destruct w; cbn; lia. Qed.

Lemma directories_of_names i w m : keys (versions_block i) = names w m -> within w (N.of_nat m) ->
  version_directories i = Ok (names w m).
Proof.
  intros Hk Hw. unfold version_directories. rewrite Hk.
  assert (E : emap (fun v => let* n := parse_version_directory v in Ok (n, v)) (names w m) =
              Ok (map (fun k => ((N.of_nat k + 1)%N, version_fmt w (N.of_nat k + 1))) (seq 0 m))).
  { apply emap_ok. unfold names. assert (L : forall k, In k (seq 0 m) -> (k < m)%nat) by (intros k Hi; apply in_seq in Hi; lia).
    induction (seq 0 m) as [|k l IH]; constructor; [|apply IH; intros; apply L; now right].
    rewrite (number_parse _ (N.of_nat k + 1)%N); [reflexivity|]. apply fmt_number; [lia|].
    eapply within_le; [|exact Hw]. pose proof (L k (or_introl eq_refl)). lia. }
  rewrite E. cbn [ebind]. rewrite isort_id.
  - rewrite map_map. reflexivity.
  - clear. generalize 0%nat. induction m as [|m IH]; intros s; [constructor|]. cbn [seq map]. constructor; [apply IH|].
    apply Forall_map, Forall_forall. intros x Hx. apply in_seq in Hx. cbn. apply N.leb_le. lia.
Qed.

Lemma directories_fail i w m : keys (versions_block i) = names w m -> (0 < m)%nat -> List.length (version_fmt w (N.of_nat m)) = 7%nat ->
  (forall n, (0 < n < m)%nat -> within w (N.of_nat n)) -> (forall c, In c (version_fmt w (N.of_nat m)) -> c <> 10%N) ->
  version_directories i = Raise ObjectException.
Proof.
  intros Hk Hm Hlen Hw Hc. unfold version_directories. rewrite Hk. destruct m as [|m]; [lia|]. rewrite names_S.
  assert (G : forall pre last, (forall v, In v pre -> exists n, parse_version_directory v = Ok n) -> parse_version_directory last = Raise ObjectException ->
    emap (fun v => let* n := parse_version_directory v in Ok (n, v)) (pre ++ [last]) = Raise ObjectException).
  { induction pre as [|v pre IH]; intros la Hp Hl; cbn [app emap].
    - rewrite Hl. reflexivity.
    - destruct (Hp v (or_introl eq_refl)) as [n Hn]. rewrite Hn. cbn [ebind]. rewrite IH; auto. intros; apply Hp; now right. }
  rewrite G; [reflexivity| |].
  - intros v Hv. apply In_names in Hv as [k [Hk' ->]]. exists (N.of_nat k + 1)%N. apply number_parse, fmt_number; [lia|].
    specialize (Hw (S k)). replace (N.of_nat k + 1)%N with (N.of_nat (S k)) by lia. apply Hw. lia.
  - replace (N.of_nat m + 1)%N with (N.of_nat (S m)) by lia. set (v := version_fmt w (N.of_nat (S m))) in *.
    pose proof (parse_version_directory_correct v) as P. destruct (parse_version_directory v) as [n|e]; [|cbn in P; destruct P as [-> _]; reflexivity].
    exfalso. destruct P as (ds & nl & Ev & [Hne Hd] & Ho & Hl & _). destruct Ho as [->| ->].
    + rewrite app_nil_r in Ev. rewrite Ev in Hlen. change (`"v" ++ ds) with (118%N :: ds) in Hlen. cbn [List.length] in Hlen. lia.
    + apply (Hc 10%N); [|reflexivity]. rewrite Ev. apply in_or_app. right. apply in_or_app. right. now left.
Qed.

(** The inventory i0 with versions of the given blocks added. *)
Definition with_versions (w : option nat) (i0 : inventory) (bs : list vblock) : inventory :=
  match bs with
  | [] => i0
  | _ => set_head (version_fmt w (N.of_nat (List.length bs))) (set_versions (combine (names w (List.length bs)) bs) i0)
  end.

Lemma combine_snoc {A B} (l : list A) (l' : list B) a b : List.length l = List.length l' -> combine (l ++ [a]) (l' ++ [b]) = combine l l' ++ [(a, b)].
Proof. revert l'. induction l as [|x l IH]; intros [|y l'] H; try discriminate; [reflexivity|]. cbn [app combine]. f_equal. apply IH. now injection H. Qed.
Lemma keys_combine {B} (l : list str) (l' : list B) : List.length l = List.length l' -> keys (combine l l') = l.
Proof. revert l'. induction l as [|x l IH]; intros [|y l'] H; try discriminate; [reflexivity|]. cbn. f_equal. apply IH. now injection H. Qed.

Lemma dset_new {A} k (v : A) d : ~ In k (keys d) -> dset k v d = d ++ [(k, v)].
Proof.
  induction d as [|[k' v'] d IH]; intros H; [reflexivity|]. cbn [dset]. destruct (str_eqb_spec k k') as [->|E]; [exfalso; apply H; now left|].
  cbn [app]. f_equal. apply IH. intros K. apply H. now right.
Qed.

Definition new_block (metadata : option vblock) (st : option block) : vblock :=
  let b := match metadata with Some b => b | None => empty_vblock end in
  match st with Some s => with_state s b | None => b end.

Lemma versions_with w i0 bs : versions_block i0 = [] -> versions_block (with_versions w i0 bs) = combine (names w (List.length bs)) bs.
Proof. destruct bs as [|b bs]; [auto|]. intros _. reflexivity. Qed.

Theorem add_version_step zw w i0 bs metadata st : admissible zw w -> versions_block i0 = [] -> within w (N.of_nat (List.length bs)) ->
  add_version None metadata st zw (with_versions w i0 bs) =
    if (N.of_nat (List.length bs) + 1 <=? most_versions w)%N
    then (with_versions w i0 (bs ++ [new_block metadata st]), Ok (version_fmt w (N.of_nat (List.length bs) + 1)))
    else (with_versions w i0 bs, Raise ObjectException).
Proof.
  intros Hz H0 Hw. unfold add_version.
  assert (Hn : next_directory (with_versions w i0 bs) zw =
    if (N.of_nat (List.length bs) + 1 <=? most_versions w)%N then Ok (version_fmt w (N.of_nat (List.length bs) + 1)) else Raise ObjectException).
  { assert (Hkeys : keys (versions_block (with_versions w i0 bs)) = names w (List.length bs)).
    { rewrite versions_with by auto. apply keys_combine, names_length. }
    unfold next_directory. rewrite (directories_of_names _ w (List.length bs)) by auto. cbn [ebind].
    assert (En : emap parse_version_directory (names w (List.length bs)) = Ok (map (fun k => N.of_nat k + 1)%N (seq 0 (List.length bs)))).
    { apply emap_ok. unfold names. assert (L : forall k, In k (seq 0 (List.length bs)) -> (k < List.length bs)%nat) by (intros k Hi; apply in_seq in Hi; lia).
      induction (seq 0 (List.length bs)) as [|k l IH]; constructor; [|apply IH; intros; apply L; now right].
      apply number_parse, fmt_number; [lia|]. eapply within_le; [|exact Hw]. pose proof (L k (or_introl eq_refl)). lia. }
    rewrite En. cbn [ebind]. destruct bs as [|b bs].
    - cbn [List.length seq map fold_left]. change (0 =? 0)%N with true. cbv iota. rewrite (first_fmt zw w Hz).
      change (N.of_nat 0 + 1)%N with 1%N. destruct (N.leb_spec 1 (most_versions w)) as [L|L]; [reflexivity|]. exfalso.
      destruct w as [k|]; cbn in L; [|lia]. destruct zw as [z|]; cbn in Hz; [|discriminate]. destruct Hz as [Hz Ek]. apply Some_inv in Ek. subst k.
      assert (C : z = 2%Z \/ z = 3%Z \/ z = 4%Z \/ z = 5%Z) by lia. destruct C as [->|[->|[->| ->]]]; vm_compute in L; discriminate.
    - set (m := List.length (b :: bs)) in *.
      assert (Hmax : (fold_left N.max (map (fun k => N.of_nat k + 1) (seq 0 m)) 0 =? 0)%N = false).
      { apply N.eqb_neq. assert (G : forall l a, (a <= fold_left N.max l a)%N).
        { induction l as [|x l IH]; intros a; cbn [fold_left]; [lia|]. specialize (IH (N.max a x)). lia. }
        cbn [m List.length seq map fold_left]. pose proof (G (map (fun k : nat => (N.of_nat k + 1)%N) (seq 1 (List.length bs))) (N.max 0 (N.of_nat 0 + 1))).
        lia. }
      rewrite Hmax. assert (Em : m = S (List.length bs)) by reflexivity. clearbody m. subst m. rewrite names_S, last_opt_app.
      replace (N.of_nat (List.length bs) + 1)%N with (N.of_nat (S (List.length bs))) by lia.
      rewrite next_fmt; [|lia|destruct w; cbn in Hw |- *; [lia|auto]]. destruct w as [k|]; cbn [most_versions].
      + destruct (N.ltb_spec (N.of_nat (S (List.length bs)) + 1) (10 ^ N.of_nat (k - 1))), (N.leb_spec (N.of_nat (S (List.length bs)) + 1) (10 ^ N.of_nat (k - 1) - 1)); auto; lia.
      + cbn in Hw. destruct (N.leb_spec (N.of_nat (S (List.length bs)) + 1) 100000); [reflexivity|lia]. }
  rewrite Hn. destruct (N.of_nat (List.length bs) + 1 <=? most_versions w)%N; [|reflexivity].
  f_equal. rewrite versions_with by auto. fold (new_block metadata st). rewrite dset_new.
  2:{ rewrite keys_combine by apply names_length. intros H. apply In_names in H as [k [Hk E]]. apply version_fmt_inj in E. lia. }
  unfold with_versions at 2. destruct (bs ++ [new_block metadata st]) eqn:Eb; [destruct bs; discriminate|]. rewrite <- Eb. clear Eb v l.
  rewrite app_length, Nat.add_comm. cbn [List.length Nat.add]. rewrite names_S, combine_snoc by apply names_length.
  replace (N.of_nat (S (List.length bs))) with (N.of_nat (List.length bs) + 1)%N by lia.
  destruct bs; reflexivity.
Qed.

(** After 100000 unpadded versions the names have six digits and cannot be read. *)
Theorem add_version_overflow zw i0 bs metadata st : versions_block i0 = [] -> N.of_nat (List.length bs) = 100000%N ->
  add_version None metadata st zw (with_versions None i0 bs) = (with_versions None i0 bs, Raise ObjectException).
Proof.
  intros H0 Hl. unfold add_version, next_directory. rewrite (directories_fail _ None (List.length bs)); [reflexivity| | | | |].
  - rewrite versions_with by auto. apply keys_combine, names_length.
  - lia.
  - rewrite Hl. reflexivity.
  - intros n Hn. cbn. lia.
  - rewrite Hl. intros c Hc E. subst c. vm_compute in Hc. repeat (destruct Hc as [Hc|Hc]; [discriminate|]). destruct Hc.
Qed.

(** Any number of calls *)
Fixpoint add_versions (calls : list (option vblock * option block)) (zw : option Z) (i : inventory) : inventory * exc (list str) :=
  match calls with
  | [] => (i, Ok [])
  | (m, s) :: r =>
      match add_version None m s zw i with
      | (i1, Ok v) => match add_versions r zw i1 with (i2, Ok vs) => (i2, Ok (v :: vs)) | (i2, Raise e) => (i2, Raise e) end
      | (i1, Raise e) => (i1, Raise e)
      end
  end.
Definition blocks_of (calls : list (option vblock * option block)) : list vblock := map (fun c => new_block (fst c) (snd c)) calls.

Lemma add_version_at zw w i0 bs metadata st : admissible zw w -> versions_block i0 = [] -> (N.of_nat (List.length bs) <= most_versions w)%N ->
  add_version None metadata st zw (with_versions w i0 bs) =
    if (N.of_nat (List.length bs) + 1 <=? most_versions w)%N
    then (with_versions w i0 (bs ++ [new_block metadata st]), Ok (version_fmt w (N.of_nat (List.length bs) + 1)))
    else (with_versions w i0 bs, Raise ObjectException).
Proof.
  intros Hz H0 Hl.
  assert (Hk : forall k, w = Some k -> (2 <= k <= 5)%nat).
  { intros k ->. destruct zw as [z|]; cbn in Hz; [|discriminate]. destruct Hz as [Hz E]. apply Some_inv in E. lia. }
  destruct w as [k|].
  - apply add_version_step; auto. cbn [within]. specialize (Hk k eq_refl). split; [auto|]. cbn in Hl.
    assert (0 < 10 ^ N.of_nat (k - 1))%N by (apply N.neq_0_lt_0, N.pow_nonzero; discriminate). lia.
  - destruct (N.eq_dec (N.of_nat (List.length bs)) 100000) as [E|E].
    + rewrite add_version_overflow by auto. rewrite E. reflexivity.
    + apply add_version_step; auto. cbn in *. lia.
Qed.

Theorem add_versions_correct calls zw w i0 : admissible zw w -> versions_block i0 = [] -> forall bs, (N.of_nat (List.length bs) <= most_versions w)%N ->
  let n := N.of_nat (List.length bs + List.length calls) in
  if (n <=? most_versions w)%N
  then add_versions calls zw (with_versions w i0 bs) =
         (with_versions w i0 (bs ++ blocks_of calls),
          Ok (map (fun k => version_fmt w (N.of_nat k + 1)) (seq (List.length bs) (List.length calls))))
  else add_versions calls zw (with_versions w i0 bs) =
         (with_versions w i0 (bs ++ firstn (N.to_nat (most_versions w) - List.length bs) (blocks_of calls)), Raise ObjectException).
Proof.
  intros Hz H0. induction calls as [|[m s] calls IH]; intros bs Hl; cbv zeta.
  - cbn [List.length]. rewrite Nat.add_0_r. apply N.leb_le in Hl. rewrite Hl. cbn. now rewrite app_nil_r.
  - cbn [List.length add_versions blocks_of map fst snd seq]. rewrite (add_version_at zw w) by auto.
    destruct (N.leb_spec (N.of_nat (List.length bs) + 1) (most_versions w)) as [L|L].
    + specialize (IH (bs ++ [new_block m s])). rewrite app_length in IH. cbn [List.length] in IH. cbv zeta in IH.
      replace (List.length bs + 1 + List.length calls)%nat with (List.length bs + S (List.length calls))%nat in IH by lia.
      specialize (IH ltac:(lia)). destruct (N.leb_spec (N.of_nat (List.length bs + S (List.length calls))) (most_versions w)) as [L2|L2].
      * rewrite IH. rewrite <- app_assoc. replace (List.length bs + 1)%nat with (S (List.length bs)) by lia. reflexivity.
      * rewrite IH. rewrite <- app_assoc. replace (N.to_nat (most_versions w) - List.length bs)%nat with (S (N.to_nat (most_versions w) - (List.length bs + 1)))%nat by lia.
        reflexivity.
    + destruct (N.leb_spec (N.of_nat (List.length bs + S (List.length calls))) (most_versions w)) as [L2|L2]; [lia|].
      replace (N.to_nat (most_versions w) - List.length bs)%nat with 0%nat by lia. cbn [firstn]. now rewrite app_nil_r.
Qed.
