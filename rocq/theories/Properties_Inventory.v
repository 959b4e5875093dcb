(** C02, C16-C21, C29, C42, C54, C57, C60: inventories and new versions. *)
From Coq Require Import Permutation.
From Verif Require Import Base Unicode Regex Utf8 Json PyJson Log PathModel DigestModel LayoutModel ObjectUtilsModel ObjectUtilsProofs
  Properties_Layout InventorySpec InventoryValidatorModel InventoryValidatorProofs InventoryRulesProofs Properties_InventoryValidator
  InventoryModel NewVersionModel InventoryOpsSpec InventoryOpsProofs NewVersionProofs VersionNumberProofs InventoryParseProofs
  NewVersionOpsProofs ContentPathProofs ParseModel ParseProofs.

(** ** C02 *)

(** Any number of add_version() calls, each with any metadata and state. *)
Theorem C02_numbering : forall calls zw w i0, admissible zw w -> versions_block i0 = [] ->
  let n := List.length calls in
  if (N.of_nat n <=? most_versions w)%N
  then exists i vs, add_versions calls zw i0 = (i, Ok vs) /\
         List.length vs = n /\ (calls <> [] -> version_sequence w vs) /\
         versions_block i = combine vs (map (fun c => new_block (fst c) (snd c)) calls) /\
         (calls <> [] -> i_head i = last_opt vs) /\
         i_id i = i_id i0 /\ i_type i = i_type i0 /\ i_alg i = i_alg i0 /\ i_cdir i = i_cdir i0 /\ i_manifest i = i_manifest i0 /\
         i_fixity i = i_fixity i0 /\ i_other i = i_other i0
  else exists i, add_versions calls zw i0 = (i, Raise ObjectException).
Proof.
  intros calls zw w i0 Hz H0 n. pose proof (add_versions_correct calls zw w i0 Hz H0 [] ltac:(cbn; lia)) as T. cbn [List.length Nat.add] in T.
  cbv zeta in T. fold n in T. destruct (N.leb_spec (N.of_nat n) (most_versions w)) as [L|L].
  - cbn [with_versions] in T. eexists _, (names w n). split; [exact T|]. split; [apply names_length|].
    assert (Ln : List.length (blocks_of calls) = n) by (unfold blocks_of; now rewrite map_length).
    split; [|split; [|split]].
    + intros Hc. split; [destruct calls; [congruence|discriminate]|]. intros k s Hk. unfold names in Hk. rewrite nth_error_map in Hk.
      destruct (nth_error (seq 0 n) k) as [m|] eqn:Em; [|discriminate]. cbn in Hk. apply Some_inv in Hk. subst s.
      assert (Hkn : (k < n)%nat) by (rewrite <- (seq_length n 0); apply nth_error_Some; congruence).
      apply (nth_error_nth _ _ 0%nat) in Em. rewrite seq_nth in Em by auto. cbn in Em. subst m.
      apply version_fmt_name; [lia|]. destruct w as [u|]; [|auto]. destruct zw as [z|]; [|discriminate]. destruct Hz as [Hz Hw]. injection Hw as ->.
      split; [lia|]. cbn [most_versions] in L. pose proof (N.pow_nonzero 10 (N.of_nat (Z.to_nat z - 1))). lia.
    + cbn [app]. rewrite versions_with by auto. rewrite Ln. reflexivity.
    + intros Hc. cbn [app]. destruct (blocks_of calls) as [|b bs] eqn:Eb; [destruct calls; [congruence|discriminate]|].
      unfold with_versions. cbn [i_head set_head]. rewrite <- Ln. rewrite <- Eb in *. rewrite Ln. destruct n as [|m]; [rewrite Eb in Ln; discriminate|].
      rewrite names_S, last_opt_app. do 2 f_equal. lia.
    + cbn [app]. destruct (blocks_of calls); repeat split; reflexivity.
  - eexists. exact T.
Qed.
Print Assumptions C02_numbering.

(** One call more leaves the earlier version blocks alone, whatever they are. *)
Theorem C02_earlier_blocks : forall vdir metadata st zw i i' v w, add_version vdir metadata st zw i = (i', Ok v) -> w <> v ->
  dget w (versions_block i') = dget w (versions_block i).
Proof.
  intros vdir metadata st zw i i' v w E Hw. unfold add_version in E.
  destruct (match vdir with Some v => Ok v | None => next_directory i zw end) as [u|e]; [|discriminate].
  assert (u = v) by congruence. subst u. match type of E with (?x, _) = _ => assert (Ei : i' = x) by congruence end. subst i'.
  unfold versions_block at 1. cbn [i_versions set_head set_versions or_empty]. rewrite dget_dset. destruct (str_eqb_spec w v); congruence.
Qed.
Print Assumptions C02_earlier_blocks.

(** With unpadded names there can be 100000 versions; the next call fails. *)
Theorem C02_limit : forall calls i0, versions_block i0 = [] -> N.of_nat (List.length calls) = 100001%N ->
  exists i, add_versions calls None i0 = (i, Raise ObjectException) /\ N.of_nat (List.length (versions_block i)) = 100000%N.
Proof.
  intros calls i0 H0 Hn. pose proof (add_versions_correct calls None None i0 eq_refl H0 [] ltac:(cbn; lia)) as T. cbn [List.length Nat.add] in T. cbv zeta in T.
  rewrite Hn in T. change (100001 <=? most_versions None)%N with false in T. cbv iota in T. rewrite Nat.sub_0_r in T. cbn [app with_versions] in T.
  eexists. split; [exact T|]. rewrite versions_with by auto. rewrite combine_length, names_length, Nat.min_id, firstn_length.
  unfold blocks_of. rewrite map_length. cbn [most_versions]. lia.
Qed.
Print Assumptions C02_limit.

Example C02_ex : exists i, add_versions [(None, None); (None, Some [(`"d", [`"p"])]); (None, None)] (Some 3%Z) empty_inventory = (i, Ok [`"v001"; `"v002"; `"v003"]) /\
  admissible (Some 3%Z) (Some 3%nat) /\ i_head i = Some (`"v003").
Proof. eexists. split; [vm_compute; reflexivity|]. split; [split; [lia|reflexivity]|reflexivity]. Qed.
Example C02_ex_full : fst (add_versions (repeat (None, None) 10) (Some 2%Z) empty_inventory) = fst (add_versions (repeat (None, None) 9) (Some 2%Z) empty_inventory) /\
  snd (add_versions (repeat (None, None) 10) (Some 2%Z) empty_inventory) = Raise ObjectException.
Proof. split; vm_compute; reflexivity. Qed.

(** ** Examples *)

Definition ex_block (s : block) : vblock := mk_vblock (Some (`"2024-02-29T12:30:00Z")) None None (Some s) [].
(** v1: a (content d1); v2: a and b (content d1 and d2) *)
Definition ex_i : InventoryModel.inventory :=
  mk_inventory (Some (`"info:x")) (Some type11) (Some (`"sha256")) (Some (`"v2")) None
    (Some [(`"d1", [`"v1/content/a"]); (`"d2", [`"v2/content/b"])])
    (Some [(`"v1", ex_block [(`"d1", [`"a"])]); (`"v2", ex_block [(`"d1", [`"a"]); (`"d2", [`"b"])])]) None [].

(** Checks of the hypotheses for concrete inventories. *)
Lemma NoDup_check (l : list str) : distinct_strs l = true -> NoDup l.
Proof. intros H. now apply distinct_strs_NoDup. Qed.
Definition dicts_check (i : InventoryModel.inventory) : bool :=
  distinct_strs (keys (manifest i)) && distinct_strs (keys (versions_block i)) &&
  forallb (fun vb => distinct_strs (keys (or_empty (vb_state (snd vb)))) && distinct_strs (paths_of (or_empty (vb_state (snd vb))))) (versions_block i).
Lemma dicts_check_ok i : dicts_check i = true -> dicts_ok i /\ forall v, unique_paths i v.
Proof.
  intros H. unfold dicts_check in H. apply andb_prop in H as [H H3]. apply andb_prop in H as [H1 H2]. rewrite forallb_forall in H3.
  unfold manifest, versions_block in *.
  split; [split; [|split]|].
  - intros m E. rewrite E in H1. now apply NoDup_check in H1.
  - intros vs E. rewrite E in H2. now apply NoDup_check in H2.
  - intros vs v b st E Hb Es. rewrite E in H3. apply H3 in Hb. cbn [snd] in Hb. rewrite Es in Hb. apply andb_prop in Hb as [Hb _]. now apply NoDup_check in Hb.
  - intros v vs b st E Hb Es. rewrite E in H3. apply H3 in Hb. cbn [snd] in Hb. rewrite Es in Hb. apply andb_prop in Hb as [_ Hb]. apply NoDup_check in Hb.
    unfold paths_of in Hb. cbn [or_empty] in Hb. now rewrite flat_map_concat_map in Hb.
Qed.
Lemma ex_i_ok : dicts_ok ex_i /\ forall v, unique_paths ex_i v.
Proof. apply dicts_check_ok. vm_compute. reflexivity. Qed.
Lemma is_version_check i v : dmem v (versions_block i) = true -> is_version i v.
Proof. intros H. apply is_version_iff. apply dmem_true in H. now apply In_key_dget in H. Qed.
Lemma in_state_check i v d p : dicts_ok i -> (in_state i v d p <-> str_in p (or_empty (dget d (state i v))) = true).
Proof.
  intros Hd. rewrite in_state_iff, block_has_dget by (auto using dicts_state). rewrite str_in_true. split.
  - intros (l & E & H). rewrite E. exact H.
  - destruct (dget d (state i v)) as [l|]; [eauto|intros []].
Qed.
Lemma stored_check i d c : dicts_ok i -> (stored i d c <-> str_in c (or_empty (dget d (manifest i))) = true).
Proof.
  intros Hd. rewrite stored_iff, block_has_dget by now apply dicts_manifest. rewrite str_in_true. split.
  - intros (l & E & H). rewrite E. exact H.
  - destruct (dget d (manifest i)) as [l|]; [eauto|intros []].
Qed.

(** ** C16 *)

Theorem C16_add_file : forall v d p cp dedupe i i' r, dicts_ok i -> is_version i v ->
  add_file v d p cp dedupe i = (i', r) ->
  (in_version i v p /\ i' = i /\ r = Raise InventoryException) \/
  (~ in_version i v p /\ exists o, r = Ok o /\ dicts_ok i' /\ same_rest i i' /\
     (forall w e q, in_state i' w e q <-> in_state i w e q \/ (w = v /\ e = d /\ q = p)) /\
     (forall e c, stored i' e c <-> stored i e c \/ (e = d /\ o = Some c)) /\
     (forall c, o = Some c -> forall e, ~ stored i e c) /\
     (o = None <-> dedupe = true /\ exists c, stored i d c) /\
     (exists c, stored i' d c /\ resolves i' v p c)).
Proof.
  intros v d p cp dd i i' r Hd Hv E. destruct (add_file_correct v d p cp dd i i' r Hd Hv E) as [H|(H1 & o & H2 & H3 & H4 & H5 & H6 & H7 & H8)]; [left; exact H|].
  right. split; [auto|]. exists o. do 7 (split; [assumption|]).
  assert (C : exists c, stored i' d c).
  { destruct o as [c|]; [exists c; apply H6; auto|]. destruct (proj1 H8 eq_refl) as [_ [c Hc]]. exists c. apply H6. auto. }
  destruct C as [c Hc]. exists c. split; [auto|]. exists d. split; [apply H5; auto|auto].
Qed.
Print Assumptions C16_add_file.

Example C16_ex : (exists i', add_file (`"v2") (`"d1") (`"c") None true ex_i = (i', Ok None)) /\
  (exists i', add_file (`"v2") (`"d3") (`"b") None false ex_i = (i', Raise InventoryException)) /\
  (exists i', add_file (`"v2") (`"d2") (`"x/b") (Some (`"b")) false ex_i = (i', Ok (Some (`"v2/content/b__2")))).
Proof. repeat split; eexists; vm_compute; reflexivity. Qed.

(** Without the version block the call fails, but the manifest has been changed. *)
Theorem C16_unknown_version_refuted : exists v d p i i', dicts_ok i /\ ~ is_version i v /\
  add_file v d p None true i = (i', Raise KeyError) /\ stored i' d (v ++ `"/content/" ++ p) /\ forall c, ~ stored i d c.
Proof.
  exists (`"v3"), (`"d3"), (`"c"), ex_i. eexists. split; [apply ex_i_ok|]. split.
  { intros H. apply is_version_iff in H as [b H]. vm_compute in H. discriminate. }
  split; [vm_compute; reflexivity|]. split.
  - apply stored_check; [apply dicts_check_ok; vm_compute; reflexivity|vm_compute; reflexivity].
  - intros c H. apply stored_check in H; [|apply ex_i_ok]. vm_compute in H. discriminate.
Qed.
Print Assumptions C16_unknown_version_refuted.

(** ** C17 *)

Theorem C17_delete : forall v p i i' r, dicts_ok i -> unique_paths i v -> delete_logical_path v p i = (i', r) ->
  (~ in_version i v p /\ i' = i /\ r = Raise InventoryException) \/
  (exists d, in_state i v d p /\ r = Ok d /\ dicts_ok i' /\ same_rest i i' /\
     (forall w e q, in_state i' w e q <-> in_state i w e q /\ ~ (w = v /\ q = p)) /\
     (forall e c, stored i' e c <-> stored i e c /\ ~ (e = d /\ in_directory v c /\ forall q, in_state i v d q -> q = p))).
Proof. exact delete_correct. Qed.
Print Assumptions C17_delete.

(** Every other logical path still resolves, if those of other versions have content
    outside the directory of v. *)
Theorem C17_resolves_partial : forall v p i i' d w q, dicts_ok i -> unique_paths i v -> delete_logical_path v p i = (i', Ok d) ->
  ~ (w = v /\ q = p) -> (exists c, resolves i w q c) -> (w = v \/ exists c, resolves i w q c /\ ~ in_directory v c) ->
  exists c, resolves i' w q c.
Proof.
  intros v p i i' d w q Hd Hu E Hne [c Hc] Hw. destruct (delete_correct v p i i' (Ok d) Hd Hu E) as [(_ & _ & F)|(d' & Hp & Ed & _ & _ & St & Sto)]; [discriminate|].
  assert (d' = d) by congruence. subst d'. destruct Hw as [->|(c' & (e & H1 & H2) & Hc')].
  - destruct Hc as (e & H1 & H2). exists c, e. split; [apply St; auto|]. apply Sto. split; [auto|]. intros (-> & _ & Ho). apply Hne. auto.
  - exists c', e. split; [apply St; auto|]. apply Sto. split; [auto|]. tauto.
Qed.
Print Assumptions C17_resolves_partial.

(** In general not: the file a of version 2 has no content after it is deleted in version 1. *)
Theorem C17_resolves_refuted : exists v p i i' d w q c, dicts_ok i /\ unique_paths i v /\ delete_logical_path v p i = (i', Ok d) /\
  w <> v /\ resolves i w q c /\ in_version i' w q /\ forall c', ~ resolves i' w q c'.
Proof.
  exists (`"v1"), (`"a"), ex_i. eexists. exists (`"d1"), (`"v2"), (`"a"), (`"v1/content/a"). destruct ex_i_ok as [D U].
  split; [auto|]. split; [apply U|]. split; [vm_compute; reflexivity|]. split; [discriminate|].
  split; [exists (`"d1"); split; [apply in_state_check; [auto|reflexivity]|apply stored_check; [auto|reflexivity]]|].
  match goal with |- in_version ?i _ _ /\ _ => assert (D' : dicts_ok i) by (apply dicts_check_ok; vm_compute; reflexivity) end.
  split; [exists (`"d1"); apply in_state_check; [auto|reflexivity]|].
  intros c' (d & H1 & H2). apply stored_iff in H2 as [l [H2 H3]]. cbn in H2. destruct H2 as [E|[E|[]]]; injection E as <- <-; [destruct H3|].
  apply in_state_check in H1; [|auto]. vm_compute in H1. discriminate.
Qed.
Print Assumptions C17_resolves_refuted.

Example C17_ex : exists i', delete_logical_path (`"v2") (`"b") ex_i = (i', Ok (`"d2")) /\ i_manifest i' = Some [(`"d1", [`"v1/content/a"]); (`"d2", [])].
Proof. eexists. split; vm_compute; reflexivity. Qed.

(** ** C18 *)

Definition ex_nv : new_version := mk_nv ex_i None false true None [(`"b", `"v2/content/b")].

Theorem C18_rename : forall old new nv nv' r h, i_head (nv_inv nv) = Some h ->
  dicts_ok (nv_inv nv) -> unique_paths (nv_inv nv) h -> nv_rename old new nv = (nv', r) ->
  ((in_version (nv_inv nv) h new \/ ~ in_version (nv_inv nv) h old) /\ nv' = nv /\ r = Raise NewVersionException) \/
  (~ in_version (nv_inv nv) h new /\ exists d, in_state (nv_inv nv) h d old /\ r = Ok tt /\
     nv' = set_inv (nv_inv nv') nv /\ dicts_ok (nv_inv nv') /\ same_rest (nv_inv nv) (nv_inv nv') /\
     (forall w e q, in_state (nv_inv nv') w e q <->
        (in_state (nv_inv nv) w e q /\ ~ (w = h /\ q = old)) \/ (w = h /\ e = d /\ q = new)) /\
     (forall e c, stored (nv_inv nv') e c <->
        stored (nv_inv nv) e c /\ ~ (e = d /\ in_directory h c /\ forall q, in_state (nv_inv nv) h d q -> q = old))).
Proof. exact rename_correct. Qed.
Print Assumptions C18_rename.

(** The content of old is kept if it is outside the new version, or if another logical
    path of the new version has the same content. *)
Theorem C18_content_partial : forall old new nv nv' h c, i_head (nv_inv nv) = Some h ->
  dicts_ok (nv_inv nv) -> unique_paths (nv_inv nv) h -> nv_rename old new nv = (nv', Ok tt) ->
  resolves (nv_inv nv) h old c ->
  (~ in_directory h c \/ exists d q, in_state (nv_inv nv) h d old /\ in_state (nv_inv nv) h d q /\ q <> old) ->
  resolves (nv_inv nv') h new c.
Proof.
  intros old new nv nv' h c Hh Hd Hu E (d & H1 & H2) Hk.
  destruct (rename_correct old new nv nv' (Ok tt) h Hh Hd Hu E) as [(_ & _ & F)|(_ & d' & Ho & _ & _ & _ & _ & St & Sto)]; [discriminate|].
  assert (F : forall x y, in_state (nv_inv nv) h x old -> in_state (nv_inv nv) h y old -> x = y).
  { intros x y Hx Hy. apply in_state_iff in Hx; [|auto]. apply in_state_iff in Hy; [|auto]. apply unique_paths_iff in Hu; [|auto]. eapply paths_unique; eauto. }
  pose proof (F _ _ H1 Ho). subst d'. exists d. split; [apply St; auto|]. apply Sto. split; [auto|]. intros (_ & Hi & Hall).
  destruct Hk as [Hk|(x & q & Hx & Hq & Hne)]; [auto|]. pose proof (F _ _ Hx Ho). subst x. apply Hne. auto.
Qed.
Print Assumptions C18_content_partial.

(** In general not: a file added in this version and then renamed has no content. *)
Theorem C18_content_refuted : exists old new nv nv' h c, i_head (nv_inv nv) = Some h /\
  dicts_ok (nv_inv nv) /\ unique_paths (nv_inv nv) h /\ nv_rename old new nv = (nv', Ok tt) /\
  resolves (nv_inv nv) h old c /\ in_version (nv_inv nv') h new /\ forall c', ~ resolves (nv_inv nv') h new c'.
Proof.
  exists (`"b"), (`"c"), ex_nv. eexists. exists (`"v2"), (`"v2/content/b"). destruct ex_i_ok as [D U]. cbn [nv_inv ex_nv].
  split; [reflexivity|]. split; [auto|]. split; [apply U|]. split; [vm_compute; reflexivity|].
  split; [exists (`"d2"); split; [apply in_state_check; [auto|reflexivity]|apply stored_check; [auto|reflexivity]]|].
  cbn [nv_inv]. match goal with |- in_version ?i _ _ /\ _ => assert (D' : dicts_ok i) by (apply dicts_check_ok; vm_compute; reflexivity) end.
  split; [exists (`"d2"); apply in_state_check; [auto|reflexivity]|].
  intros c' (d & H1 & H2). apply stored_iff in H2 as [l [H2 H3]]. cbn in H2. destruct H2 as [E|[E|[]]]; injection E as <- <-; [|destruct H3].
  apply in_state_check in H1; [|auto]. vm_compute in H1. discriminate.
Qed.
Print Assumptions C18_content_refuted.

Example C18_ex : exists nv', nv_rename (`"a") (`"z") ex_nv = (nv', Ok tt) /\ resolves ex_i (`"v2") (`"a") (`"v1/content/a") /\ ~ in_directory (`"v2") (`"v1/content/a").
Proof.
  eexists. split; [vm_compute; reflexivity|]. destruct ex_i_ok as [D U].
  split; [exists (`"d1"); split; [apply in_state_check; [auto|reflexivity]|apply stored_check; [auto|reflexivity]]|]. intros [r E]. discriminate.
Qed.

(** ** C19 *)

Theorem C19_find : forall i p r, dicts_ok i -> numbered_versions i -> find_logical_path i p = r ->
  (r = Ok None /\ forall v, ~ in_version i v p) \/
  (exists v d l n, r = Ok (Some (v, hd_error l)) /\ in_state i v d p /\ number v n /\
     (forall m, i_manifest i = Some m -> In (d, l) m \/ (l = [] /\ forall l', ~ In (d, l') m)) /\ (i_manifest i = None -> l = []) /\
     forall w m, in_version i w p -> number w m -> (m <= n)%N).
Proof. exact find_correct. Qed.
Print Assumptions C19_find.

Lemma ex_number1 : number (`"v1") 1.
Proof.
  split; [exists None; exists (`"1")|split; [discriminate|cbn; lia]].
  split; [reflexivity|]. split; [discriminate|]. split; [repeat constructor; discriminate|]. split; [reflexivity|discriminate].
Qed.
Lemma ex_number2 : number (`"v2") 2.
Proof.
  split; [exists None; exists (`"2")|split; [discriminate|cbn; lia]].
  split; [reflexivity|]. split; [discriminate|]. split; [repeat constructor; discriminate|]. split; [reflexivity|discriminate].
Qed.
Lemma ex_numbered : numbered_versions ex_i /\ distinct_numbers ex_i.
Proof.
  assert (V : forall v, is_version ex_i v -> v = `"v1" \/ v = `"v2").
  { intros v (vs & b & E & Hb). apply Some_inv in E. subst vs. destruct Hb as [E|[E|[]]]; injection E as <- _; auto. }
  split.
  - intros v H. apply V in H as [-> | ->]; [exists 1%N; apply ex_number1|exists 2%N; apply ex_number2].
  - intros v w n H1 H2 N1 N2. apply V in H1. apply V in H2. destruct H1 as [-> | ->], H2 as [-> | ->]; try reflexivity; exfalso.
    + pose proof (number_unique _ _ _ N1 ex_number1). pose proof (number_unique _ _ _ N2 ex_number2). lia.
    + pose proof (number_unique _ _ _ N2 ex_number1). pose proof (number_unique _ _ _ N1 ex_number2). lia.
Qed.
Example C19_ex : dicts_ok ex_i /\ numbered_versions ex_i /\ find_logical_path ex_i (`"a") = Ok (Some (`"v2", Some (`"v1/content/a"))) /\
  find_logical_path ex_i (`"nope") = Ok None.
Proof. split; [apply ex_i_ok|]. split; [apply ex_numbered|]. split; vm_compute; reflexivity. Qed.

(** ** C20 *)

Theorem C20_diff : forall nv h, i_head (nv_inv nv) = Some h -> is_version (nv_inv nv) h ->
  dicts_ok (nv_inv nv) -> numbered_versions (nv_inv nv) -> distinct_numbers (nv_inv nv) ->
  exists r, diff_with_previous nv = Ok r /\
    (forall d p, In (DAdd d p) r <-> in_state (nv_inv nv) h d p /\ ~ exists w, previous (nv_inv nv) h w /\ in_state (nv_inv nv) w d p) /\
    (forall d p, In (DDel d p) r <-> (exists w, previous (nv_inv nv) h w /\ in_state (nv_inv nv) w d p) /\ ~ in_state (nv_inv nv) h d p) /\
    (r = [] <-> forall d p, in_state (nv_inv nv) h d p <-> exists w, previous (nv_inv nv) h w /\ in_state (nv_inv nv) w d p).
Proof.
  intros nv h H1 H2 H3 H4 H5. destruct (diff_correct nv h H1 H2 H3 H4 H5) as (r & E & HA & HD). exists r. split; [auto|]. split; [auto|]. split; [auto|].
  exact (diff_correct_empty nv h r H1 H2 H3 H4 H5 E).
Qed.
Print Assumptions C20_diff.

Example C20_ex : i_head (nv_inv ex_nv) = Some (`"v2") /\ is_version (nv_inv ex_nv) (`"v2") /\ dicts_ok (nv_inv ex_nv) /\
  numbered_versions (nv_inv ex_nv) /\ distinct_numbers (nv_inv ex_nv) /\ diff_with_previous ex_nv = Ok [DAdd (`"d2") (`"b")].
Proof.
  split; [reflexivity|]. split; [apply is_version_check; reflexivity|]. split; [apply ex_i_ok|]. split; [apply ex_numbered|]. split; [apply ex_numbered|]. vm_compute. reflexivity.
Qed.

(** ** C21 and C29 *)

(** A valid inventory whose version names have at most five digits can be opened. What it
    says is the same as before; digests are in lower case and no entry is lost. *)
Theorem C29_opens_partial : forall inv, json_wf inv -> valid inv None (`"1.1") -> short_names inv ->
  exists i spec, parse_inventory_json inv = Ok (i, spec) /\
    (forall v p, in_version i v p <-> has_path inv v p) /\
    (forall v p c, resolves i v p c <-> content_file inv v p c) /\
    (forall v p, in_version i v p -> exists c, content_path_for_logical_path i v p = Some c /\ content_file inv v p c) /\
    (forall p, exists r, find_logical_path i p = Ok r).
Proof.
  intros inv Hw Hv Hs. destruct (parse_correct inv Hw Hv Hs) as (i0 & i & f & _ & E & _ & _ & O). exists i, (f_spec f). split; [auto|].
  split; [apply (op_path _ _ _ O)|]. split; [apply (op_resolves _ _ _ O)|]. split.
  - intros v p H. destruct (op_all _ _ _ O v p H) as (c & H1 & H2). exists c. split; [auto|]. now apply (op_resolves _ _ _ O).
  - intros p. destruct (find_correct i p _ (op_dicts _ _ _ O) (op_numbered _ _ _ O) eq_refl) as [[E' _]|(v & d & l & n & E' & _)]; eauto.
Qed.
Print Assumptions C29_opens_partial.

Theorem C21_normalize_partial : forall inv, json_wf inv -> valid inv None (`"1.1") -> short_names inv ->
  exists i0 i f, inventory_of_json inv = Ok i0 /\ obeys as_coded inv f /\ normalize_digests (f_alg f) i0 = (i, Ok tt) /\ same_rest i0 i /\
    (forall v p c, resolves i v p c <-> resolves i0 v p c) /\ (forall v p c, resolves i v p c <-> content_file inv v p c) /\
    (forall d, In d (keys (manifest i)) \/ (exists v, In d (keys (state i v))) -> lower d = d) /\
    (forall man, member inv (`"manifest") (JObj man) ->
       Permutation (manifest i) (map (fun kv => (lower (fst kv), strings (snd kv))) man)) /\
    (forall v st, state_of inv v st -> Permutation (state i v) (map (fun kv => (lower (fst kv), strings (snd kv))) st)).
Proof.
  intros inv Hw Hv Hs. destruct (parse_correct inv Hw Hv Hs) as (i0 & i & f & E0 & E & Ho & _ & O). exists i0, i, f. split; [auto|]. split; [auto|]. split.
  - destruct Hv as [st Hv]. pose proof (C22_attributes _ _ _ _ Hw Hv) as (f' & Ho' & _ & _ & Ealg & _).
    assert (Ea : f_alg f' = f_alg f).
    { destruct Ho as (_ & _ & (H1 & _) & _). destruct Ho' as (_ & _ & (H2 & _) & _). pose proof (member_fun _ _ _ _ Hw H1 H2). congruence. }
    unfold parse_inventory_json in E. change DEFAULT_SPEC_VERSION with (`"1.1") in E. rewrite Hv in E. cbn [ebind negb] in E. rewrite E0 in E. cbn [ebind] in E.
    rewrite Ealg, Ea in E. destruct (normalize_digests (f_alg f) i0) as [i1 [[]|e]]; [|discriminate]. apply Ok_inv in E. congruence.
  - split; [apply (op_rest _ _ _ O)|]. split; [|split; [apply (op_resolves _ _ _ O)|split; [apply (op_lower _ _ _ O)|split; [apply (op_manifest _ _ _ O)|apply (op_state _ _ _ O)]]]].
    intros v p c. rewrite (op_resolves _ _ _ O). symmetry. destruct (reads_valid as_coded inv f Hw Ho) as (i0' & E0' & Hr).
    assert (i0' = i0) by congruence. subst i0'. apply (reads_resolves as_coded inv f i0 Hw Ho Hr).
Qed.
Print Assumptions C21_normalize_partial.

(** Digests in capitals in the manifest *)
Definition caps_inv : json :=
  Properties_InventoryValidator.inventory type11 (`"v1") [(repeat 65%N 64, strs [`"v1/content/a.txt"])]
    [(`"v1", version_block now_ [(repeat 65%N 64, strs [`"a.txt"])])] [].
Lemma short_names_check inv vs : json_wf inv -> member inv (`"versions") (JObj vs) -> forallb (fun vb => Nat.leb (List.length (fst vb)) 6) vs = true -> short_names inv.
Proof.
  intros Hw Hm H vs' v b Hm' Hb. pose proof (member_fun _ _ _ _ Hw Hm Hm') as E. assert (vs = vs') by congruence. subst vs'.
  rewrite forallb_forall in H. apply H in Hb. now apply Nat.leb_le in Hb.
Qed.
Example C29_ex : json_wf caps_inv /\ valid caps_inv None (`"1.1") /\ short_names caps_inv /\
  exists i, parse_inventory_json caps_inv = Ok (i, `"1.1") /\ keys (manifest i) = [repeat 97%N 64].
Proof.
  assert (W : json_wf caps_inv) by (apply json_wfb_sound; vm_compute; reflexivity). split; [exact W|].
  split; [eexists; vm_compute; reflexivity|]. split.
  - eapply short_names_check; [exact W| |]; [eexists; split; [reflexivity|]; cbn; tauto|reflexivity].
  - eexists. split; vm_compute; reflexivity.
Qed.

(** A valid inventory with six digits in the version name cannot be opened. *)
Definition wide_inv : json := one_version (`"v000001") now_ (`"a.txt").
Theorem C29_opens_refuted : json_wf wide_inv /\ valid wide_inv None (`"1.1") /\ parse_inventory_json wide_inv = Raise ObjectException.
Proof.
  split; [apply json_wfb_sound; vm_compute; reflexivity|]. split; [eexists; vm_compute; reflexivity|]. vm_compute. reflexivity.
Qed.
Print Assumptions C29_opens_refuted.
(** It obeys the specification, too. *)
Theorem C29_specification_refuted : obeys by_the_book wide_inv (one_facts (`"v000001") (`"a.txt")).
Proof.
  apply (one_version_obeys _ _ _ (Some 6%nat)); [exists false, false, false; apply now_rfc| |lia|apply name_a].
  exists (`"000001"). split; [reflexivity|]. split; [discriminate|]. split; [repeat constructor; discriminate|].
  split; [reflexivity|]. split; reflexivity.
Qed.
Print Assumptions C29_specification_refuted.

(** ** C42 *)

(** After any sequence of operations that does not raise, the content files of the new
    version in the manifest are those to be copied, with the digests of their sources --
    if no operation takes content of this version away again, and no source file is added
    twice without dedupe. *)
Theorem C42_run_partial : forall H src h ops nv nv', nv_good h nv -> copies_agree H src h nv -> harmless_run H src h ops nv ->
  nv_run H src ops nv = (nv', Ok tt) -> nv_good h nv' /\ copies_agree H src h nv'.
Proof. exact run_agree. Qed.
Print Assumptions C42_run_partial.

(** The first version starts this way. *)
Theorem C42_first_version : forall H src identifier spec alg cdir metadata dedupe fixity norm nv,
  (forall b, metadata = Some b -> vb_state b = None) ->
  first_version identifier spec alg cdir metadata dedupe fixity norm = Ok nv -> nv_good (`"v1") nv /\ copies_agree H src (`"v1") nv.
Proof.
  intros H src identifier spec alg cdir metadata dedupe fx norm nv Hm E. unfold first_version in E.
  set (i1 := init_manifest_and_versions _) in E.
  assert (F : forall l i, i_versions i = Some [] -> i_manifest i = Some [] ->
    i_versions (fold_left (fun i t => add_fixity_type t None i) l i) = Some [] /\ i_manifest (fold_left (fun i t => add_fixity_type t None i) l i) = Some []).
  { induction l as [|t l IH]; intros i H1 H2; [auto|]. apply IH; auto. }
  destruct (F fx i1 eq_refl eq_refl) as [V2 M2]. set (i2 := fold_left _ fx i1) in *. clearbody i2. clear F i1.
  assert (En : next_directory i2 None = Ok (`"v1")) by (unfold next_directory, version_directories, versions_block; rewrite V2; reflexivity).
  unfold add_version in E. rewrite En in E. unfold versions_block in E. rewrite V2 in E. cbn [or_empty] in E.
  set (b := match metadata with Some b => b | None => empty_vblock end) in E.
  assert (Eb : vb_state b = None) by (unfold b; destruct metadata; [now apply Hm|reflexivity]).
  apply Ok_inv in E. assert (P : i_versions (nv_inv nv) = Some [(`"v1", b)] /\ i_manifest (nv_inv nv) = Some [] /\ i_head (nv_inv nv) = Some (`"v1") /\ nv_copy nv = []).
  { subst nv. destruct cdir as [c|]; [destruct (str_eqb c _)|]; cbn; auto. }
  destruct P as (P1 & P2 & P3 & P4). assert (No : forall d c, ~ stored (nv_inv nv) d c) by (intros d c (m & l & Em & Hi & _); rewrite P2 in Em; apply Some_inv in Em; subst m; destruct Hi).
  split; constructor; auto.
  - split; [|split].
    + intros m Em. rewrite P2 in Em. apply Some_inv in Em. subst m. constructor.
    + intros vs Ev. rewrite P1 in Ev. apply Some_inv in Ev. subst vs. constructor; [intros []|constructor].
    + intros vs v x st Ev Hx Es. rewrite P1 in Ev. apply Some_inv in Ev. subst vs. destruct Hx as [Hx|[]]. injection Hx as <- <-. congruence.
  - exists [(`"v1", b)], b. split; [auto|now left].
  - intros vs x st Ev Hx Es. rewrite P1 in Ev. apply Some_inv in Ev. subst vs. destruct Hx as [Hx|[]]. injection Hx as <-. congruence.
  - rewrite P4. constructor.
  - intros d c Hs. now apply No in Hs.
  - rewrite P4. intros s c [].
Qed.
Print Assumptions C42_first_version.

(** So does a next version, if there is no content in its directory yet. *)
Theorem C42_next_version : forall H src i spec metadata norm fd dedupe carry old nv h0,
  dicts_ok i -> i_head i = Some h0 -> unique_paths i h0 -> i_versions i <> None ->
  next_version i spec metadata norm fd dedupe carry old = Ok nv ->
  exists h, i_head (nv_inv nv) = Some h /\ nv_good h nv /\
    ((forall d c, stored i d c -> ~ in_directory h c) -> copies_agree H src h nv).
Proof.
  intros H src i spec metadata norm fd dedupe carry old nv h0 Hd Hh Hu Hv E. unfold next_version in E. apply ebind_ok in E as [i1 [E1 E]].
  assert (P1 : i_versions i1 = i_versions i /\ i_manifest i1 = i_manifest i /\ i_head i1 = i_head i).
  { destruct (spec_version i) as [s|]; [|discriminate]. destruct (str_eqb spec s); [apply Ok_inv in E1; subst; auto|].
    destruct (str_ltb spec s); [discriminate|]. apply Ok_inv in E1. subst i1. auto. }
  destruct P1 as (PV & PM & PH). set (st := if carry then _ else _) in E.
  assert (Hst : NoDup (keys st) /\ NoDup (paths_of st)).
  { unfold st. destruct carry; [|split; constructor]. rewrite PH, Hh. unfold state, versiondata, versions_block. rewrite PV.
    split; [exact (dicts_state i h0 Hd)|exact (proj1 (unique_paths_iff i h0 Hd) Hu)]. }
  clearbody st. destruct (add_version None metadata (Some st) None i1) as [i2 [h|e]] eqn:Ea; [|discriminate]. apply Ok_inv in E. subst nv. cbn [nv_inv nv_copy].
  unfold add_version in Ea. destruct (next_directory i1 None) as [u|e]; [|discriminate]. assert (u = h) by congruence. subst u.
  set (b := match metadata with Some b => b | None => empty_vblock end) in Ea.
  match type of Ea with (?x, _) = _ => assert (Ei : i2 = x) by congruence end. subst i2. clear Ea. exists h. split; [reflexivity|].
  assert (D2 : dicts_ok (set_head h (set_versions (dset h (with_state st b) (versions_block i1)) i1))).
  { split; [|split].
    - intros m Em. cbn in Em. rewrite PM in Em. now apply Hd.
    - intros vs Ev. cbn in Ev. apply Some_inv in Ev. subst vs. apply NoDup_dset. unfold versions_block. rewrite PV. now apply dicts_versions.
    - intros vs v x s Ev Hx Es. cbn in Ev. apply Some_inv in Ev. subst vs.
      apply In_dget in Hx; [|apply NoDup_dset; unfold versions_block; rewrite PV; now apply dicts_versions]. rewrite dget_dset in Hx.
      destruct (str_eqb_spec v h) as [->|Hne].
      + apply Some_inv in Hx. subst x. cbn in Es. apply Some_inv in Es. subst s. apply Hst.
      + apply dget_In in Hx. unfold versions_block in Hx. rewrite PV in Hx. destruct (i_versions i) as [vs|] eqn:Ev; [|congruence]. destruct Hd as (_ & _ & Hd). eapply Hd; eauto. }
  split; [constructor; auto; cbn [nv_inv nv_copy]|intros Hno; constructor; cbn [nv_inv nv_copy]].
  - apply is_version_iff. unfold versions_block at 1. cbn [i_versions set_head set_versions or_empty]. rewrite dget_dset, str_eqb_refl. eauto.
  - apply unique_paths_iff; [auto|]. unfold logical_paths, state, versiondata, versions_block at 1. cbn [i_versions set_head set_versions or_empty].
    rewrite dget_dset, str_eqb_refl. cbn. apply Hst.
  - constructor.
  - intros d c (m & l & Em & Hm) Hi. exfalso. apply (Hno d c); [|auto]. exists m, l. cbn in Em. rewrite PM in Em. auto.
  - intros s c [].
Qed.
Print Assumptions C42_next_version.

(** Any sequence of adds of distinct source files is harmless, so add_from_srcdir is covered. *)
Theorem C42_adds : forall H src h ops nv nv', nv_good h nv -> copies_agree H src h nv ->
  (forall op, In op ops -> exists s p c, op = OAdd s p c) ->
  (nv_dedupe nv = true \/ NoDup (keys (nv_copy nv) ++ flat_map (fun op => match op with OAdd s _ _ => [s] | _ => [] end) ops)) ->
  nv_run H src ops nv = (nv', Ok tt) -> copies_agree H src h nv'.
Proof.
  intros H src h ops. induction ops as [|op ops IH]; intros nv nv' G C Ha Hn E.
  - cbn in E. congruence.
  - cbn [nv_run] in E. destruct (nv_step H src op nv) as [nv1 [[]|e]] eqn:Es; [|discriminate].
    destruct (Ha op ltac:(now left)) as (s & p & c & ->). cbn [flat_map app] in Hn.
    assert (C1 : copies_agree H src h nv1).
    { eapply step_agree; eauto. cbn. destruct Hn as [Hn|Hn]; [now left|right]. intros Hi. eapply NoDup_app_disj; [exact Hn|exact Hi|now left]. }
    apply (IH nv1); auto; [eapply step_good; eauto|intros op Hop; apply Ha; now right|].
    cbn [nv_step] in Es. destruct (nv_add_correct H src s p c nv nv1 (Ok tt) h (g_head _ _ G) (g_dicts _ _ G) Es) as [(_ & e & F)|(_ & _ & _ & d & a & o & _ & _ & _ & _ & _ & _ & _ & Hc & _ & _ & Hd & _)]; [discriminate|].
    rewrite Hd. destruct Hn as [Hn|Hn]; [now left|right]. rewrite Hc. destruct o as [c0|].
    + assert (Ek : keys (dset s c0 (nv_copy nv)) = keys (nv_copy nv) ++ [s]).
      { rewrite keys_dset. destruct (dmem s (nv_copy nv)) eqn:Ei; [|reflexivity]. apply dmem_true in Ei. exfalso. eapply NoDup_app_disj; [exact Hn|exact Ei|now left]. }
      rewrite Ek, <- app_assoc. exact Hn.
    + apply NoDup_remove_1 in Hn. exact Hn.
Qed.
Print Assumptions C42_adds.

Definition ex_src (s : str) : exc bytes :=
  if str_eqb s (`"one") then Ok [1%N] else if str_eqb s (`"two") then Ok [1%N; 2%N] else Raise FileNotFoundError.
Definition ex_first (dedupe : bool) : new_version :=
  match first_version (`"info:x") (`"1.1") (Some (`"sha256")) None None dedupe [] None with Ok nv => nv | Raise _ => ex_nv end.
Example C42_ex : exists nv', nv_run toy_hash ex_src [OAdd (`"one") (`"a") None; OAdd (`"two") (`"b") None; OAdd (`"one") (`"c") None; ODelete (`"c")] (ex_first true) = (nv', Ok tt) /\
  nv_copy nv' = [(`"one", `"v1/content/one"); (`"two", `"v1/content/two")].
Proof. eexists. split; vm_compute; reflexivity. Qed.

(** In general not: a file added and deleted again is still copied, though it is not in the
    manifest. *)
Theorem C42_delete_refuted : exists ops nv nv', nv_good (`"v1") nv /\ copies_agree toy_hash ex_src (`"v1") nv /\
  nv_run toy_hash ex_src ops nv = (nv', Ok tt) /\
  exists s c, In (s, c) (nv_copy nv') /\ forall d, ~ stored (nv_inv nv') d c.
Proof.
  exists [OAdd (`"one") (`"a") None; ODelete (`"a")], (ex_first true).
  destruct (C42_first_version toy_hash ex_src (`"info:x") (`"1.1") (Some (`"sha256")) None None true [] None (ex_first true)) as [G C];
    [intros b F; discriminate|vm_compute; reflexivity|].
  eexists. split; [exact G|]. split; [exact C|]. split; [vm_compute; reflexivity|].
  exists (`"one"), (`"v1/content/one"). split; [now left|]. intros d Hs. apply stored_iff in Hs as (l & [E|[]] & Hl). injection E as _ <-. destruct Hl.
Qed.
Print Assumptions C42_delete_refuted.

(** The same source file added twice without dedupe: one of the two content files of the
    manifest is not copied. *)
Theorem C42_twice_refuted : exists ops nv nv', nv_good (`"v1") nv /\ copies_agree toy_hash ex_src (`"v1") nv /\
  nv_run toy_hash ex_src ops nv = (nv', Ok tt) /\
  exists d c, stored (nv_inv nv') d c /\ in_directory (`"v1") c /\ forall s, ~ In (s, c) (nv_copy nv').
Proof.
  exists [OAdd (`"one") (`"a") None; OAdd (`"one") (`"b") None], (ex_first false).
  destruct (C42_first_version toy_hash ex_src (`"info:x") (`"1.1") (Some (`"sha256")) None None false [] None (ex_first false)) as [G C];
    [intros b F; discriminate|vm_compute; reflexivity|].
  eexists. split; [exact G|]. split; [exact C|]. split; [vm_compute; reflexivity|].
  eexists _, (`"v1/content/one"). split; [apply stored_iff; eexists; split; [left; reflexivity|now left]|].
  split; [exists (`"content/one"); reflexivity|]. intros s [E|[]]. discriminate.
Qed.
Print Assumptions C42_twice_refuted.

(** ** C54 *)

Definition blank : vmeta := mk_vmeta None None None None None.

(** What is put in with add_version is read back, by name or as the head version. *)
Theorem C54_round_trip : forall now m vdir st zw i i' v c version,
  vm_created m = Some c -> c <> [] -> add_version vdir (Some (as_dict now m)) st zw i = (i', Ok v) ->
  version = Some v \/ version = None ->
  from_inventory blank i' version = Ok (mk_vmeta (i_id i) (vm_created m) (vm_message m) (vm_name m) (vm_address m)).
Proof.
  intros now m vdir st zw i i' v c version Hc Hne E Hv. unfold add_version in E.
  destruct (match vdir with Some v => Ok v | None => next_directory i zw end) as [u|e]; [|discriminate].
  assert (u = v) by congruence. subst u. match type of E with (?x, _) = _ => assert (Ei : i' = x) by congruence end. subst i'. clear E.
  unfold from_inventory. cbn [i_versions set_head set_versions].
  assert (Eo : or_else version (i_head (set_head v (set_versions (dset v match st with Some s => with_state s (as_dict now m) | None => as_dict now m end (versions_block i)) i))) = Some v)
    by (destruct Hv as [->| ->]; reflexivity).
  rewrite Eo, dget_dset, str_eqb_refl.
  set (b := match st with Some s => with_state s (as_dict now m) | None => as_dict now m end).
  assert (B : vb_created b = Some c /\ vb_message b = vm_message m /\ vb_user b = vb_user (as_dict now m)).
  { unfold b. destruct st; cbn; rewrite Hc; destruct c; [congruence|auto|congruence|auto]. }
  destruct B as (B1 & B2 & B3). rewrite B1, B2, B3. unfold as_dict. cbn [vb_user].
  destruct m as [mid mc mm mn ma]. cbn in *. subst mc. destruct mm, mn, ma; reflexivity.
Qed.
Print Assumptions C54_round_trip.

(** The other versions read the same as before. *)
Theorem C54_others : forall m0 metadata vdir st zw i i' v w, add_version vdir metadata st zw i = (i', Ok v) -> w <> v ->
  from_inventory m0 i' (Some w) = from_inventory m0 i (Some w).
Proof.
  intros m0 metadata vdir st zw i i' v w E Hw. pose proof (C02_earlier_blocks _ _ _ _ _ _ _ w E Hw) as Ew. unfold add_version in E.
  destruct (match vdir with Some v => Ok v | None => next_directory i zw end) as [u|e]; [|discriminate].
  match type of E with (?x, _) = _ => assert (Ei : i' = x) by congruence end. subst i'. clear E.
  unfold from_inventory. cbn [or_else i_versions set_head set_versions i_id]. unfold versions_block at 1 in Ew. cbn [i_versions set_head set_versions or_empty] in Ew.
  rewrite Ew. unfold versions_block. destruct (i_versions i); reflexivity.
Qed.
Print Assumptions C54_others.

(** Without created (or if it is empty) the current time is put in, so it is not the same. *)
Theorem C54_no_created_refuted : forall now, now <> [] -> exists m i' v m', add_version None (Some (as_dict now m)) None None empty_inventory = (i', Ok v) /\
  from_inventory blank i' None = Ok m' /\ vm_created m' <> vm_created m.
Proof.
  intros now Hn. exists (mk_vmeta None None (Some (`"m")) None None). eexists _, _, _. split; [reflexivity|]. split; [reflexivity|]. discriminate.
Qed.
Print Assumptions C54_no_created_refuted.

Example C54_ex : exists i', add_version None (Some (as_dict (`"now") (mk_vmeta None (Some (`"2024-01-01T00:00:00Z")) (Some (`"m")) (Some (JStr (`"A"))) None))) None None ex_i = (i', Ok (`"v3")).
Proof. eexists. vm_compute. reflexivity. Qed.

(** ** C57 *)

(** The content path chosen by NewVersion.add for a source path. *)
Theorem C57_content_path : forall H src nv nv' s p h d c,
  hash_ok H -> i_head (nv_inv nv) = Some h -> dicts_ok (nv_inv nv) -> plain_name h -> plain_name (content_directory_to_use (nv_inv nv)) -> plain_path s ->
  nv_add H src s p None nv = (nv', Ok tt) -> stored (nv_inv nv') d c -> ~ stored (nv_inv nv) d c ->
  (forall e, ~ stored (nv_inv nv) e c) /\
  exists f t, c = h ++ slash :: content_directory_to_use (nv_inv nv) ++ slash :: f ++ t /\
    source_name H (nv_norm nv) s f /\ plain_path f /\ plain_path (f ++ t) /\
    (t = [] \/ exists k, (2 <= k)%N /\ t = `"__" ++ str_of_N k).
Proof.
  intros H src nv nv' s p h d c HH Hh Hd Hph Hpc Hp E Hn Ho.
  destruct (nv_add_correct H src s p None nv nv' (Ok tt) h Hh Hd E) as [(_ & e & F)|(_ & _ & _ & d' & a & o & _ & _ & _ & _ & _ & Sto & Hc & _)]; [discriminate|].
  apply Sto in Hn as [Hn|[-> Eo]]; [contradiction|]. destruct (Hc c Eo) as [_ Em]. eapply map_filepath_correct; eauto.
Qed.
Print Assumptions C57_content_path.

(** With uri normalisation different sources have different names. *)
Theorem C57_uri_injective : forall H s1 s2 f, source_name H (Some (`"uri")) s1 f -> source_name H (Some (`"uri")) s2 f -> s1 = s2.
Proof. exact source_name_uri_inj. Qed.
Print Assumptions C57_uri_injective.

(** A name is found for every source path that can be encoded. *)
Theorem C57_total : forall H nv s h, i_head (nv_inv nv) = Some h -> plain_path s -> In (nv_norm nv) [None; Some (`"uri"); Some (`"md5")] ->
  (exists bs, utf8_encode s = Ok bs) -> exists c, map_filepath H nv s = Ok c.
Proof. exact map_filepath_total. Qed.
Print Assumptions C57_total.

Definition with_norm (n : option str) (nv : new_version) : new_version := mk_nv (nv_inv nv) n (nv_forward_delta nv) (nv_dedupe nv) (nv_old_alg nv) (nv_copy nv).
Example C57_ex : map_filepath toy_hash (with_norm (Some (`"uri")) ex_nv) (`".x y/b") = Ok (`"v2/content/%2Ex%20y/b") /\
  map_filepath toy_hash ex_nv (`"b") = Ok (`"v2/content/b__2") /\ plain_name (`"v2").
Proof.
  split; [vm_compute; reflexivity|]. split; [vm_compute; reflexivity|]. split; [repeat split; discriminate|]. cbn. intuition discriminate.
Qed.

(** A hidden name below the top level is left as it is. *)
Theorem C57_hidden_below_refuted : map_filepath toy_hash (with_norm (Some (`"uri")) ex_nv) (`"d/.b") = Ok (`"v2/content/d/.b").
Proof. vm_compute. reflexivity. Qed.
Print Assumptions C57_hidden_below_refuted.

(** An explicit content path is only checked for its prefix. *)
Theorem C57_explicit_refuted : exists nv', nv_add toy_hash ex_src (`"one") (`"z") (Some (`"v2/content/../../../x")) ex_nv = (nv', Ok tt) /\
  exists d, stored (nv_inv nv') d (`"v2/content/../../../x").
Proof.
  eexists. split; [vm_compute; reflexivity|]. eexists. apply stored_iff. eexists. split; [right; right; left; reflexivity|now left].
Qed.
Print Assumptions C57_explicit_refuted.

(** ** C60: where Version.add_file puts content *)

Theorem C60_inside : forall v d p cp dedupe i i' c, dicts_ok i -> is_version i v -> plain_name v -> plain_name (content_directory_to_use i) ->
  plain_path (match cp with Some x => x | None => p end) -> add_file v d p cp dedupe i = (i', Ok (Some c)) ->
  exists t, c = v ++ slash :: content_directory_to_use i ++ slash :: (match cp with Some x => x | None => p end) ++ t /\
    plain_path ((match cp with Some x => x | None => p end) ++ t) /\ (t = [] \/ exists k, (2 <= k)%N /\ t = `"__" ++ str_of_N k).
Proof.
  intros v d p cp dd i i' c Hd Hv Hpv Hpc Hp E. unfold add_file in E. destruct (str_in p (logical_paths i v)); [discriminate|].
  set (x := match cp with Some x => x | None => p end) in *. rewrite join_three in E by auto.
  assert (M : make_unused_filepath (v ++ slash :: content_directory_to_use i ++ slash :: x) (content_paths i) default_separator = Ok c).
  { set (r := match content_paths_for_digest i d with [] => _ | _ :: _ => _ end) in E. destruct r as [i1 [o|e]] eqn:Er; [|discriminate].
    destruct (dget v (versions_block i1)); [|discriminate]. assert (o = Some c) by congruence. subst o. unfold r in Er.
    destruct (make_unused_filepath _ _ _) as [q|e].
    - assert (Eq : q = c); [|congruence]. destruct (content_paths_for_digest i d), dd; try discriminate;
        (destruct (add_file_to_manifest d q i) as [i2 [[]|e]]; [congruence|discriminate]).
    - destruct (content_paths_for_digest i d), dd; discriminate. }
  apply make_unused_filepath_spec in M as (_ & k & Hk & -> & _). unfold candidate. destruct (N.eqb_spec k 1) as [->|Hk1].
  - exists []. rewrite !app_nil_r. auto.
  - exists (`"__" ++ str_of_N k). split; [repeat (rewrite <- ?app_assoc; cbn [app]); reflexivity|].
    split; [|right; exists k; split; [lia|auto]]. apply plain_path_suffix; auto.
    + intros Hi. apply in_app_or in Hi as [Hi|Hi]; [destruct Hi as [Hi|[Hi|[]]]; discriminate|].
      pose proof (str_of_N_digits k) as F. rewrite Forall_forall in F. apply F in Hi. discriminate.
    + rewrite app_length. change (List.length (`"__")) with 2%nat. pose proof (str_of_N_nonnil k). destruct (str_of_N k); [congruence|]. cbn. lia.
Qed.
Print Assumptions C60_inside.

(** Other logical paths can lead anywhere: an absolute one is used as it is. *)
Theorem C60_absolute_refuted : exists i', add_file (`"v2") (`"d3") (`"/etc/x") None true ex_i = (i', Ok (Some (`"/etc/x"))).
Proof. eexists. vm_compute. reflexivity. Qed.
Print Assumptions C60_absolute_refuted.
