(** Proofs about reading valid inventories and normalising their digests (C21, C29). *)
From Coq Require Import Permutation.
From Verif Require Import Base Unicode Regex Utf8 Json PyJson PathModel DigestModel ObjectUtilsModel ObjectUtilsProofs InventorySpec
  InventoryValidatorModel InventoryValidatorProofs InventoryRulesProofs InventoryModel InventoryOpsSpec InventoryOpsProofs
  NewVersionProofs VersionNumberProofs.

(** ** From JSON to the record *)

Definition typed (d : dict json) : block := map (fun kv => (fst kv, strings (snd kv))) d.

Lemma strings_of_json_ok x : string_array x -> strings_of_json x = Ok (strings x).
Proof.
  intros [l ->]. cbn [strings_of_json strings]. induction l as [|s l IH]; [reflexivity|]. cbn [map emap string_of_json]. cbn [ebind].
  rewrite IH. reflexivity.
Qed.

Lemma entries_ok {A} (g : json -> exc A) d l : Forall2 (fun kv y => fst y = fst kv /\ g (snd kv) = Ok (snd y)) d l ->
  entries_of_json g (JObj d) = Ok l.
Proof.
  intros H. unfold entries_of_json. cbn [object_of_json ebind]. apply emap_ok. induction H as [|[k x] [k' y] d l [H1 H2] H IH]; constructor; [|auto].
  cbn in *. rewrite H2. cbn [ebind]. congruence.
Qed.

Lemma block_of_json_ok d : (forall k x, In (k, x) d -> string_array x) -> block_of_json (JObj d) = Ok (typed d).
Proof.
  intros H. apply entries_ok. unfold typed. induction d as [|[k x] d IH]; constructor.
  - cbn. split; [reflexivity|]. apply strings_of_json_ok. apply (H k). now left.
  - apply IH. intros k' y Hy. apply (H k'). now right.
Qed.

Lemma opt_member_some {A} (g : json -> exc A) k d x y : NoDup (keys d) -> member (JObj d) k x -> g x = Ok y -> opt_member g k d = Ok (Some y).
Proof. intros Hn Hm Hg. unfold opt_member. apply member_obj in Hm; [|auto]. rewrite Hm, Hg. reflexivity. Qed.
Lemma opt_member_none {A} (g : json -> exc A) k d : lacks (JObj d) k -> opt_member g k d = Ok None.
Proof.
  intros H. unfold opt_member. destruct (dget k d) as [v|] eqn:E; [|reflexivity]. exfalso. apply (H v). exists d. split; [auto|]. now apply dget_In.
Qed.

(** What the version block says. *)
Record reads_block (b : json) (st : dict json) (t : vblock) : Prop := {
  rb_created : exists c, member b (`"created") (JStr c) /\ vb_created t = Some c;
  rb_message : match vb_message t with None => lacks b (`"message") | Some m => member b (`"message") (JStr m) end;
  rb_user : match vb_user t with None => lacks b (`"user") | Some u => member b (`"user") (JObj u) end;
  rb_state : vb_state t = Some (typed st)
}.

Lemma vblock_of_json_ok R f b st : json_wf b -> block_rule R f b st -> exists t, vblock_of_json b = Ok t /\ reads_block b st t.
Proof.
  intros Hw (Hc & Hm & Hu & Hs & Hst). assert (Hb : exists d, b = JObj d) by (destruct Hs as (d & -> & _); eauto).
  destruct Hb as [d ->]. apply json_wf_obj in Hw as [Hn Hwd].
  destruct Hc as (c & Hc & _). destruct Hst as (Hsa & _).
  assert (Es : block_of_json (JObj st) = Ok (typed st)) by (apply block_of_json_ok; intros k x Hx; apply (Hsa k x Hx)).
  unfold vblock_of_json. cbn [object_of_json ebind].
  rewrite (opt_member_some string_of_json _ _ _ c Hn Hc eq_refl). cbn [ebind].
  assert (Em : exists m, opt_member string_of_json (`"message") d = Ok m /\
     match m with None => lacks (JObj d) (`"message") | Some m => member (JObj d) (`"message") (JStr m) end).
  { destruct Hm as [Hm|[m Hm]]; [exists None; split; [now apply opt_member_none|auto]|exists (Some m)].
    split; [|auto]. apply (opt_member_some _ _ _ (JStr m)); auto. }
  destruct Em as [m [-> Hm']]. cbn [ebind].
  assert (Eu : exists u, opt_member object_of_json (`"user") d = Ok u /\
     match u with None => lacks (JObj d) (`"user") | Some u => member (JObj d) (`"user") (JObj u) end).
  { destruct Hu as [Hu|(u & Hu & (n & (ud & -> & _)) & _)]; [exists None; split; [now apply opt_member_none|auto]|exists (Some ud)].
    split; [|auto]. apply (opt_member_some _ _ _ (JObj ud)); auto. }
  destruct Eu as [u [-> Hu']]. cbn [ebind].
  rewrite (opt_member_some _ _ _ _ _ Hn Hs Es). cbn [ebind].
  eexists. split; [reflexivity|]. constructor; cbn; eauto.
Qed.

Record reads (R : reading) (inv : json) (f : facts) (i : inventory) : Prop := {
  rd_id : i_id i = Some (f_id f);
  rd_type : exists t, i_type i = Some t /\ member inv (`"type") (JStr t);
  rd_alg : i_alg i = Some (f_alg f);
  rd_head : exists h before, i_head i = Some h /\ f_versions f = before ++ [h];
  rd_cdir : content_directory_to_use i = f_cdir f;
  rd_manifest : i_manifest i = Some (typed (f_manifest f));
  rd_versions : exists vs tvs, member inv (`"versions") (JObj vs) /\ i_versions i = Some tvs /\
    Forall2 (fun vb vt => fst vt = fst vb /\ exists st, block_rule R f (snd vb) st /\ reads_block (snd vb) st (snd vt)) vs tvs /\
    Permutation (map fst vs) (f_versions f)
}.

Lemma reads_valid R inv f : json_wf inv -> obeys R inv f -> exists i, inventory_of_json inv = Ok i /\ reads R inv f i.
Proof.
  intros Hw ((Hid & _) & (t & Ht & _) & (Ha & _) & Hc & Hm & Hh & Hf & vs & (Hv & _ & Hp) & Hb & _).
  assert (Ho : exists d, inv = JObj d) by (destruct Hid as (d & -> & _); eauto). destruct Ho as [d ->].
  pose proof Hw as Hw0. apply json_wf_obj in Hw as [Hn Hwd]. destruct Hm as (Hm & Hma & _). destruct Hh as (h & before & Hh & Eh).
  assert (Em : block_of_json (JObj (f_manifest f)) = Ok (typed (f_manifest f))) by (apply block_of_json_ok; intros k x Hx; apply (Hma k x Hx)).
  assert (Ev : exists tvs, entries_of_json vblock_of_json (JObj vs) = Ok tvs /\
    Forall2 (fun vb vt => fst vt = fst vb /\ exists st, block_rule R f (snd vb) st /\ reads_block (snd vb) st (snd vt)) vs tvs).
  { assert (Wv : json_wf (JObj vs)) by (eapply member_wf; eauto). apply json_wf_obj in Wv as [_ Wv].
    assert (G : exists tvs, Forall2 (fun vb vt => fst vt = fst vb /\ vblock_of_json (snd vb) = Ok (snd vt) /\
                exists st, block_rule R f (snd vb) st /\ reads_block (snd vb) st (snd vt)) vs tvs).
    { clear -Hb Wv. induction vs as [|[v b] vs IH]; [exists []; constructor|]. inversion Wv as [|? ? W1 W2]; subst.
      destruct IH as [tvs IH]; auto; [intros v' b' H'; apply (Hb v' b'); now right|].
      destruct (Hb v b (or_introl eq_refl)) as [st Hst]. destruct (vblock_of_json_ok R f b st W1 Hst) as [tb [E1 E2]].
      exists ((v, tb) :: tvs). constructor; [|auto]. cbn. split; [auto|]. split; [auto|]. eauto. }
    destruct G as [tvs G]. exists tvs. split.
    - apply entries_ok. eapply Forall2_imp; [|exact G]. cbn. tauto.
    - eapply Forall2_imp; [|exact G]. cbn. tauto. }
  destruct Ev as [tvs [Ev Fv]].
  assert (Ef : exists fx, opt_member (entries_of_json block_of_json) (`"fixity") d = Ok fx).
  { destruct Hf as [Hf|(fx & Hf & Hx)]; [exists None; now apply opt_member_none|].
    assert (G : exists l, entries_of_json block_of_json (JObj fx) = Ok l).
    { assert (G : exists l, Forall2 (fun kv y => fst y = fst kv /\ block_of_json (snd kv) = Ok (snd y)) fx l).
      { clear -Hx. induction fx as [|[a x] fx IH]; [exists []; constructor|]. destruct IH as [l IH]; [intros alg y Hy; apply (Hx alg y); now right|].
        destruct (Hx a x (or_introl eq_refl)) as [_ (bl & -> & Hbl & _)]. exists ((a, typed bl) :: l). constructor; [|auto].
        cbn. split; [auto|]. apply block_of_json_ok. intros k y Hy. apply (Hbl k y Hy). }
      destruct G as [l G]. exists l. now apply entries_ok. }
    destruct G as [l G]. exists (Some l). eapply opt_member_some; eauto. }
  destruct Ef as [fx Ef].
  unfold inventory_of_json. cbn [object_of_json ebind].
  rewrite (opt_member_some string_of_json _ _ _ _ Hn Hid eq_refl). cbn [ebind].
  rewrite (opt_member_some string_of_json _ _ _ _ Hn Ht eq_refl). cbn [ebind].
  rewrite (opt_member_some string_of_json _ _ _ _ Hn Ha eq_refl). cbn [ebind].
  rewrite (opt_member_some string_of_json _ _ _ _ Hn Hh eq_refl). cbn [ebind].
  unfold content_directory_rule in Hc.
  assert (Ec : exists c, opt_member string_of_json (`"contentDirectory") d = Ok c /\ match c with Some c => c | None => `"content" end = f_cdir f).
  { destruct (f_cdir_set f).
    - destruct Hc as [Hc _]. exists (Some (f_cdir f)). split; [|auto]. eapply opt_member_some; eauto.
    - destruct Hc as [Hc Ec]. exists None. split; [|auto]. now apply opt_member_none. }
  destruct Ec as [c [Ec Ec']]. rewrite Ec. cbn [ebind].
  rewrite (opt_member_some _ _ _ _ _ Hn Hm Em). cbn [ebind]. rewrite (opt_member_some _ _ _ _ _ Hn Hv Ev). cbn [ebind]. rewrite Ef. cbn [ebind].
  eexists. split; [reflexivity|]. constructor; cbn; eauto.
  - exists vs, tvs. repeat split; auto.
Qed.

(** ** Consequences *)

Lemma typed_has d k p : block_has (typed d) k p <-> exists x, In (k, x) d /\ In p (strings x).
Proof.
  unfold block_has, typed. split.
  - intros [l [H1 H2]]. apply in_map_iff in H1 as [[k' x] [E H1]]. cbn in E. assert (k' = k) by congruence. subst k'. exists x. split; [auto|]. congruence.
  - intros [x [H1 H2]]. exists (strings x). split; [|auto]. apply in_map_iff. exists (k, x). auto.
Qed.
Lemma typed_keys d : map fst (typed d) = map fst d.
Proof. unfold typed. rewrite map_map. reflexivity. Qed.
Lemma typed_paths d : concat (map snd (typed d)) = listed d.
Proof. unfold typed, listed. rewrite map_map, flat_map_concat_map. reflexivity. Qed.

Section Reads.
  Variable R : reading.
  Variable inv : json.
  Variable f : facts.
  Variable i : inventory.
  Hypothesis Hw : json_wf inv.
  Hypothesis Ho : obeys R inv f.
  Hypothesis Hr : reads R inv f i.

  Lemma reads_manifest_member : member inv (`"manifest") (JObj (f_manifest f)).
  Proof using Ho. pose proof Ho as H. destruct H as (_ & _ & _ & _ & (Hm & _) & _). exact Hm. Qed.

  Lemma reads_stored d c : stored i d c <-> exists y, In (d, y) (f_manifest f) /\ In c (strings y).
  Proof using Hr. rewrite stored_iff. unfold manifest. rewrite (rd_manifest _ _ _ _ Hr). cbn [or_empty]. apply typed_has. Qed.

  Lemma reads_version_block vs tvs v t : member inv (`"versions") (JObj vs) -> i_versions i = Some tvs -> In (v, t) tvs ->
    exists b st, In (v, b) vs /\ block_rule R f b st /\ reads_block b st t.
  Proof using Hw Hr.
    intros Hv Et Hi. pose proof (rd_versions _ _ _ _ Hr) as (vs' & tvs' & Hv' & Et' & F & _).
    assert (tvs' = tvs) by congruence. subst tvs'. assert (E : JObj vs' = JObj vs) by (eapply member_fun; eauto). assert (vs' = vs) by congruence. subst vs'.
    destruct (Forall2_in_r _ _ _ F (v, t) Hi) as [[v' b] [Hb [E1 (st & H1 & H2)]]]. cbn in *. subst v'. exists b, st. auto.
  Qed.

  Lemma reads_in_state v d p : in_state i v d p <-> exists st x, state_of inv v st /\ In (d, x) st /\ In p (strings x).
  Proof using Hw Hr.
    pose proof (rd_versions _ _ _ _ Hr) as (vs & tvs & Hv & Et & F & _). split.
    - intros (vs' & b & st & l & E & Hb & Es & Hd & Hp). assert (vs' = tvs) by congruence. subst vs'.
      destruct (reads_version_block vs tvs v b Hv Et Hb) as (jb & js & H1 & H2 & H3). rewrite (rb_state _ _ _ H3) in Es. apply Some_inv in Es. subst st.
      assert (Hb' : block_has (typed js) d p) by (exists l; auto). apply typed_has in Hb' as [x [Hx Hpx]]. exists js, x. split; [|auto].
      exists vs, jb. split; [auto|]. split; [auto|]. apply H2.
    - intros (st & x & (vs' & b & Hv' & Hb & Hs) & Hx & Hp). assert (E : JObj vs' = JObj vs) by (eapply member_fun; eauto).
      assert (vs' = vs) by congruence. subst vs'. destruct (Forall2_in_l _ _ _ F (v, b) Hb) as [[v' t] [Hi [E1 (st' & H1 & H2)]]]. cbn in *. subst v'.
      assert (Hwb : json_wf b).
      { assert (Wv : json_wf (JObj vs)) by (eapply member_wf; eauto). apply json_wf_obj in Wv as [_ Wv]. rewrite Forall_forall in Wv. exact (Wv (v, b) Hb). }
      assert (E2 : JObj st' = JObj st) by (eapply member_fun; [exact Hwb|apply H1|exact Hs]). assert (st' = st) by congruence. subst st'.
      exists tvs, t, (typed st), (strings x). split; [auto|]. split; [auto|]. split; [apply H2|]. split; [|auto].
      apply in_map_iff. exists (d, x). auto.
  Qed.

  Lemma reads_resolves v p c : resolves i v p c <-> content_file inv v p c.
  Proof using Hw Ho Hr.
    unfold resolves, content_file. split.
    - intros [d [H1 H2]]. apply reads_in_state in H1 as (st & x & H1 & H3 & H4). apply reads_stored in H2 as (y & H5 & H6).
      exists st, (f_manifest f), d, x, y. split; [auto|]. split; [apply reads_manifest_member|]. auto.
    - intros (st & man & d & x & y & H1 & H2 & H3 & H4 & H5 & H6). exists d. split; [apply reads_in_state; eauto|].
      apply reads_stored. exists y. split; [|auto]. assert (E : JObj man = JObj (f_manifest f)) by (eapply member_fun; eauto using reads_manifest_member). congruence.
  Qed.

  Lemma reads_is_version v : is_version i v <-> In v (f_versions f).
  Proof using Hr.
    pose proof (rd_versions _ _ _ _ Hr) as (vs & tvs & Hv & Et & F & P).
    assert (E : map fst tvs = map fst vs). { clear -F. induction F as [|? ? ? ? [H _] F IH]; [reflexivity|]. cbn. congruence. }
    split.
    - intros (vs' & b & E' & Hb). assert (vs' = tvs) by congruence. subst vs'. eapply Permutation_in; [exact P|]. rewrite <- E. now apply (in_map fst) in Hb.
    - intros Hi. apply (Permutation_in _ (Permutation_sym P)) in Hi. rewrite <- E in Hi. apply in_map_iff in Hi as [[v' b] [<- Hb]]. exists tvs, b. auto.
  Qed.

  Lemma reads_dicts : dicts_ok i.
  Proof using Hw Ho Hr.
    pose proof (rd_versions _ _ _ _ Hr) as (vs & tvs & Hv & Et & F & P). split; [|split].
    - intros m Em. rewrite (rd_manifest _ _ _ _ Hr) in Em. apply Some_inv in Em. subst m. rewrite typed_keys.
      pose proof (member_wf _ _ _ Hw reads_manifest_member) as W. now apply json_wf_obj in W.
    - intros vs' E. assert (vs' = tvs) by congruence. subst vs'.
      assert (Ek : map fst tvs = map fst vs). { clear -F. induction F as [|? ? ? ? [H _] F IH]; [reflexivity|]. cbn. congruence. }
      rewrite Ek. pose proof (member_wf _ _ _ Hw Hv) as W. now apply json_wf_obj in W.
    - intros vs' v b st E Hb Es. assert (vs' = tvs) by congruence. subst vs'.
      destruct (reads_version_block vs tvs v b Hv Et Hb) as (jb & js & H1 & H2 & H3). rewrite (rb_state _ _ _ H3) in Es. apply Some_inv in Es. subst st.
      rewrite typed_keys. assert (Hwb : json_wf jb).
      { assert (Wv : json_wf (JObj vs)) by (eapply member_wf; eauto). apply json_wf_obj in Wv as [_ Wv]. rewrite Forall_forall in Wv. exact (Wv (v, jb) H1). }
      assert (Ws : json_wf (JObj js)) by (eapply member_wf; [exact Hwb|apply H2]). now apply json_wf_obj in Ws.
  Qed.

  Lemma reads_unique v : unique_paths i v.
  Proof using Hw Ho Hr.
    intros vs' b st E Hb Es. pose proof (rd_versions _ _ _ _ Hr) as (vs & tvs & Hv & Et & F & P).
    assert (vs' = tvs) by congruence. subst vs'.
    destruct (reads_version_block vs tvs v b Hv Et Hb) as (jb & js & H1 & H2 & H3). rewrite (rb_state _ _ _ H3) in Es. apply Some_inv in Es. subst st.
    rewrite typed_paths. apply H2.
  Qed.

  (** Digests of the states are digests of the manifest, written the same. *)
  Lemma reads_state_digest v d l : In (d, l) (state i v) -> exists c cs, In (d, c :: cs) (manifest i).
  Proof using Hw Ho Hr.
    unfold state, versiondata. destruct (dget v (versions_block i)) as [t|] eqn:E; [|intros []]. unfold versions_block in E.
    pose proof (rd_versions _ _ _ _ Hr) as (vs & tvs & Hv & Et & F & P). rewrite Et in E. cbn [or_empty] in E. apply dget_In in E.
    destruct (reads_version_block vs tvs v t Hv Et E) as (jb & js & H1 & H2 & H3). rewrite (rb_state _ _ _ H3). cbn [or_empty].
    intros Hi. unfold typed in Hi. apply in_map_iff in Hi as [[d' x] [Ed Hx]]. cbn in Ed. assert (d' = d) by congruence. subst d'.
    destruct H2 as (_ & _ & _ & _ & (_ & Hman & _)). destruct (Hman d x Hx) as (p & ps & Hp).
    unfold manifest. rewrite (rd_manifest _ _ _ _ Hr). cbn [or_empty]. exists p, (strings (JArr ps)).
    assert (Es : strings (JArr (JStr p :: ps)) = p :: strings (JArr ps)) by reflexivity. rewrite <- Es.
    apply in_map_iff. exists (d, JArr (JStr p :: ps)). auto.
  Qed.
End Reads.

(** ** normalize_digests *)

Lemma ddel_split {A} k (v : A) a b : ~ In k (keys a) -> ddel k (a ++ (k, v) :: b) = a ++ b.
Proof.
  induction a as [|[k' x] a IH]; intros H; cbn [app ddel]; [now rewrite str_eqb_refl|].
  destruct (str_eqb_spec k k') as [->|E]; [exfalso; apply H; now left|]. f_equal. apply IH. intros K. apply H. now right.
Qed.

Section Normalize.
  Variable norm : str -> str.
  Hypothesis norm_idem : forall d, norm (norm d) = norm d.
  Let step (m : block) (d : str) : block :=
    match dget d m with Some files => dset (norm d) files (ddel d m) | None => m end.

  Lemma rename_keys ds : NoDup ds -> (forall d, In d ds -> norm d <> d) ->
    forall m : block, NoDup (keys m) -> incl ds (keys m) ->
    (forall a b, In a (keys m) -> In b (keys m) -> norm a = norm b -> a = b) ->
    Permutation (fold_left step ds m) (map (fun kv => (if str_in (fst kv) ds then norm (fst kv) else fst kv, snd kv)) m).
  Proof using norm_idem.
    induction ds as [|x ds IH]; intros Hnd Hch m Hk Hi Hinj.
    - cbn [fold_left str_in existsb]. rewrite <- (map_id m) at 1. erewrite map_ext; [apply Permutation_refl|]. intros [k l]. reflexivity.
    - inversion Hnd as [|? ? Hx Hnd']; subst. cbn [fold_left]. set (m1 := step m x).
      assert (Hxk : In x (keys m)) by (apply Hi; now left). unfold keys in Hxk. apply in_map_iff in Hxk as [[x' l] [E Hxl]]. cbn in E. subst x'.
      apply in_split in Hxl as (a & b & Em).
      assert (Ka : ~ In x (keys a) /\ ~ In x (keys b) /\ NoDup (keys (a ++ b))).
      { rewrite Em in Hk. unfold keys in *. rewrite map_app in *. cbn [map fst] in Hk. pose proof (NoDup_remove_1 _ _ _ Hk). pose proof (NoDup_remove_2 _ _ _ Hk) as N2.
        rewrite in_app_iff in N2. tauto. }
      destruct Ka as (Ka & Kb & Kab).
      assert (Kn : ~ In (norm x) (keys (a ++ b))).
      { intros H. assert (norm x = x); [|apply (Hch x); [now left|auto]]. apply Hinj.
        - rewrite Em. unfold keys in *. rewrite map_app in *. cbn [map]. apply in_app_iff in H. apply in_app_iff. cbn. tauto.
        - apply Hi. now left.
        - apply norm_idem. }
      assert (Em1 : m1 = (a ++ b) ++ [(norm x, l)]).
      { unfold m1, step. assert (Hg : dget x m = Some l) by (apply In_dget; [auto|rewrite Em; apply in_or_app; right; now left]). rewrite Hg.
        rewrite Em at 1. rewrite ddel_split by auto. now apply dset_new. }
      assert (Km1 : forall y, In y (keys m1) <-> In y (keys (a ++ b)) \/ y = norm x).
      { intros y. rewrite Em1. unfold keys. rewrite map_app, in_app_iff. cbn. intuition. }
      assert (Sub : forall y, In y (keys (a ++ b)) -> In y (keys m) /\ y <> x).
      { intros y Hy. unfold keys in *. rewrite map_app in *. apply in_app_iff in Hy. rewrite Em, map_app. split; [apply in_app_iff; cbn; tauto|].
        intros ->. tauto. }
      eapply Permutation_trans; [apply IH|].
      + auto.
      + intros d Hd. apply Hch. now right.
      + rewrite Em1. unfold keys. rewrite map_app. cbn [map fst]. eapply Permutation_NoDup; [apply Permutation_cons_append|]. constructor; auto.
      + intros d Hd. apply Km1. left. assert (Hdm : In d (keys m)) by (apply Hi; now right). rewrite Em in Hdm. unfold keys in *. rewrite map_app in *.
        apply in_app_iff in Hdm. apply in_app_iff. cbn in Hdm. destruct Hdm as [Hdm|[<-|Hdm]]; auto. contradiction.
      + intros y z Hy Hz E. apply Km1 in Hy, Hz. destruct Hy as [Hy| ->], Hz as [Hz| ->]; auto.
        * apply Hinj; auto; now apply Sub.
        * exfalso. rewrite norm_idem in E. destruct (Sub y Hy) as [Hy1 Hy2]. apply Hy2. apply Hinj; auto. apply Hi. now left.
        * exfalso. rewrite norm_idem in E. destruct (Sub z Hz) as [Hz1 Hz2]. apply Hz2. apply Hinj; auto. apply Hi. now left.
      + rewrite Em1, Em, !map_app. cbn [map fst snd].
        assert (N1 : str_in (norm x) ds = false). { apply str_in_false. intros H. apply (Hch (norm x)); [now right|apply norm_idem]. }
        assert (N2 : str_in x (x :: ds) = true) by (apply str_in_true; now left). rewrite N1, N2.
        assert (Same : forall c, (forall y, In y (keys c) -> y <> x) -> map (fun kv : str * list str => (if str_in (fst kv) ds then norm (fst kv) else fst kv, snd kv)) c =
                  map (fun kv => (if str_in (fst kv) (x :: ds) then norm (fst kv) else fst kv, snd kv)) c).
        { intros c Hc. apply map_ext_in. intros [k y] Hy. cbn [fst snd]. assert (k <> x) by (apply Hc; now apply (in_map fst) in Hy).
          assert (Eq : str_in k (x :: ds) = str_in k ds).
          { destruct (str_in_spec k ds) as [H1|H1]; [apply str_in_true; now right|]. apply str_in_false. intros [?|?]; [congruence|contradiction]. }
          now rewrite Eq. }
        rewrite (Same a), (Same b).
        * rewrite <- app_assoc. apply Permutation_app_head. apply Permutation_sym, Permutation_cons_append.
        * intros y Hy ->. contradiction.
        * intros y Hy ->. contradiction.
  Qed.
End Normalize.

Lemma lower_idem s : lower (lower s) = lower s.
Proof.
  unfold lower. rewrite map_map. apply map_ext. intros c. unfold lower_char.
  destruct ((65 <=? c)%N && (c <=? 90)%N) eqn:E; [|now rewrite E].
  apply andb_prop in E as [E1 E2]. apply N.leb_le in E1, E2. destruct (N.leb_spec (c + 32) 90); [lia|]. now rewrite andb_false_r.
Qed.

Lemma normalize_block_perm alg b : NoDup (keys b) -> (forall d e, In d (keys b) -> In e (keys b) -> normalized_digest d alg = normalized_digest e alg -> d = e) ->
  Permutation (normalize_block alg b) (map (fun kv => (normalized_digest (fst kv) alg, snd kv)) b).
Proof.
  intros Hn Hi. unfold normalize_block. set (norm := fun d => normalized_digest d alg).
  assert (Idem : forall d, norm (norm d) = norm d).
  { intros d. unfold norm, normalized_digest. destruct (str_in alg _); [reflexivity|apply lower_idem]. }
  eapply Permutation_trans; [apply (rename_keys norm Idem)|].
  - apply NoDup_filter. exact Hn.
  - intros d Hd E. apply filter_In in Hd as [_ Hd]. fold (norm d) in Hd. rewrite E, str_eqb_refl in Hd. discriminate.
  - exact Hn.
  - intros d Hd. apply filter_In in Hd. tauto.
  - exact Hi.
  - erewrite map_ext_in; [apply Permutation_refl|]. intros [k l] Hk. cbn [fst snd].
    destruct (str_in_spec k (filter (fun d => negb (str_eqb d (normalized_digest d alg))) (keys b))) as [H|H]; [reflexivity|].
    f_equal. destruct (str_eqb_spec k (normalized_digest k alg)) as [E|E]; [auto|]. exfalso. apply H. apply filter_In. split; [now apply (in_map fst) in Hk|].
    destruct (str_eqb_spec k (normalized_digest k alg)); [contradiction|reflexivity].
Qed.

Lemma normalize_block_has alg b : NoDup (keys b) -> (forall d e, In d (keys b) -> In e (keys b) -> normalized_digest d alg = normalized_digest e alg -> d = e) ->
  NoDup (keys (normalize_block alg b)) /\
  forall e p, block_has (normalize_block alg b) e p <-> exists d, block_has b d p /\ e = normalized_digest d alg.
Proof.
  intros Hn Hi. pose proof (normalize_block_perm alg b Hn Hi) as P. split.
  - unfold keys. eapply Permutation_NoDup; [apply Permutation_map, Permutation_sym, P|]. rewrite map_map. cbn [fst].
    clear P. unfold keys in *. rewrite <- (map_map fst (fun k => normalized_digest k alg)).
    revert Hn Hi. generalize (map fst b). induction l as [|x l IH]; intros Hn Hi; [constructor|]. cbn [map]. inversion Hn as [|? ? H1 H2]; subst.
    constructor; [|apply IH; auto; intros d e Hd He; apply Hi; now right]. intros H. apply in_map_iff in H as [y [E Hy]].
    assert (y = x) by (apply Hi; auto; [now right|now left]). congruence.
  - intros e p. unfold block_has. split.
    + intros [l [H1 H2]]. apply (Permutation_in _ P) in H1. apply in_map_iff in H1 as [[d l'] [E H1]]. cbn in E. exists d. split; [exists l'; split; [auto|congruence]|congruence].
    + intros [d [[l [H1 H2]] ->]]. exists l. split; [|auto]. apply (Permutation_in _ (Permutation_sym P)). apply in_map_iff. exists (d, l). auto.
Qed.

Lemma normalize_states alg vdirs : NoDup vdirs -> forall i, dicts_ok i -> (forall v, In v vdirs -> is_version i v) ->
  (forall v, In v vdirs -> NoDup (keys (normalize_block alg (state i v)))) ->
  let i' := fold_left (fun i v => match vb_state (versiondata i v) with
                             | Some s => set_state v (normalize_block alg s) i
                             | None => i
                             end) vdirs i in
  dicts_ok i' /\ same_rest i i' /\ manifest i' = manifest i /\ i_manifest i' = i_manifest i /\ i_alg i' = i_alg i /\
  forall v, state i' v = if str_in v vdirs then normalize_block alg (state i v) else state i v.
Proof.
  induction vdirs as [|v vdirs IH]; intros Hnd i Hd Hv Hk; cbv zeta; cbn [fold_left].
  { split; [auto|]. split; [now apply same_rest_refl|]. auto. }
  inversion Hnd as [|? ? Hnv Hnd']; subst.
  set (i1 := match vb_state (versiondata i v) with Some s => set_state v (normalize_block alg s) i | None => i end).
  assert (St1 : forall w, state i1 w = if str_eqb w v then normalize_block alg (state i v) else state i w).
  { intros w. unfold i1. destruct (vb_state (versiondata i v)) as [s|] eqn:E.
    - rewrite state_set_state by (apply Hv; now left). unfold state at 2. rewrite E. reflexivity.
    - destruct (str_eqb_spec w v) as [->|]; [|reflexivity]. unfold state. rewrite E. reflexivity. }
  assert (G : dicts_ok i1 /\ same_rest i i1 /\ manifest i1 = manifest i /\ i_manifest i1 = i_manifest i /\ i_alg i1 = i_alg i).
  { specialize (Hk v (or_introl eq_refl)). unfold state in Hk. unfold i1. destruct (vb_state (versiondata i v)) as [s|] eqn:E.
    - cbn [or_empty] in Hk. split; [now apply dicts_set_state|]. split; [now apply same_rest_set_state|]. split; [apply manifest_set_state|].
      unfold set_state, update_version. destruct (dget v (versions_block i)); auto.
    - split; [auto|]. split; [now apply same_rest_refl|]. auto. }
  destruct G as (G1 & G2 & G3 & G4 & G5). destruct (IH Hnd' i1 G1) as (K1 & K2 & K3 & K4 & K5 & K6).
  - intros w Hw. apply G2. apply Hv. now right.
  - intros w Hw. rewrite St1. destruct (str_eqb_spec w v) as [->|]; [contradiction|]. apply Hk. now right.
  - split; [auto|]. split; [eapply same_rest_trans; eauto|]. do 3 (split; [congruence|]). intros w. rewrite K6, !St1.
    destruct (str_eqb_spec w v) as [->|E].
    + assert (E1 : str_in v vdirs = false) by now apply str_in_false. assert (E2 : str_in v (v :: vdirs) = true) by (apply str_in_true; now left).
      now rewrite E1, E2.
    + assert (Eq : str_in w (v :: vdirs) = str_in w vdirs); [|now rewrite Eq].
      destruct (str_in_spec w vdirs) as [H1|H1]; [apply str_in_true; now right|]. apply str_in_false. intros [?|?]; [congruence|contradiction].
Qed.

Definition norm_injective (alg : str) (b : block) : Prop :=
  forall d e, In d (keys b) -> In e (keys b) -> normalized_digest d alg = normalized_digest e alg -> d = e.

Theorem normalize_correct alg i i' r : dicts_ok i -> numbered_versions i -> norm_injective alg (manifest i) ->
  (forall v, norm_injective alg (state i v)) -> normalize_digests alg i = (i', r) ->
  r = Ok tt /\ dicts_ok i' /\ same_rest i i' /\
  (forall v e p, in_state i' v e p <-> exists d, in_state i v d p /\ e = normalized_digest d alg) /\
  (forall e c, stored i' e c <-> exists d, stored i d c /\ e = normalized_digest d alg) /\
  Permutation (manifest i') (map (fun kv => (normalized_digest (fst kv) alg, snd kv)) (manifest i)) /\
  (forall v, is_version i v -> Permutation (state i' v) (map (fun kv => (normalized_digest (fst kv) alg, snd kv)) (state i v))).
Proof.
  intros Hd Hn Hm Hs E. unfold normalize_digests in E.
  set (i1 := match i_manifest i with Some m => set_manifest (normalize_block alg m) i | None => i end) in E.
  destruct (normalize_block_has alg (manifest i) (dicts_manifest i Hd) Hm) as [Nm Bm].
  assert (M1 : manifest i1 = normalize_block alg (manifest i)) by (unfold i1, manifest; destruct (i_manifest i) eqn:Em; [reflexivity|now rewrite Em]).
  assert (V1 : i_versions i1 = i_versions i) by (unfold i1; destruct (i_manifest i); reflexivity).
  assert (D1 : dicts_ok i1).
  { unfold i1. destruct (i_manifest i) as [m|] eqn:Em; [|auto]. apply dicts_set_manifest; auto. unfold manifest in Nm. rewrite Em in Nm. exact Nm. }
  assert (R1 : same_rest i i1) by (unfold i1; destruct (i_manifest i); [now apply same_rest_set_manifest|now apply same_rest_refl]).
  assert (S1 : forall v, state i1 v = state i v) by (intros v; unfold state, versiondata, versions_block; now rewrite V1).
  assert (I1 : forall v, is_version i1 v <-> is_version i v) by (intros v; unfold is_version; now rewrite V1).
  assert (N1 : numbered_versions i1) by (intros v Hv; apply Hn, I1, Hv).
  destruct (version_directories_total i1 N1) as [vdirs Ev]. rewrite Ev in E.
  destruct (version_directories_spec i1 vdirs N1 Ev) as [A _].
  assert (ND : NoDup vdirs).
  { apply version_directories_ok in Ev as [P _]. eapply Permutation_NoDup; [apply Permutation_sym, P|]. now apply dicts_versions. }
  destruct (normalize_states alg vdirs ND i1 D1) as (K1 & K2 & K3 & K4 & K5 & K6).
  - intros v Hv. now apply A.
  - intros v _. rewrite S1. apply (normalize_block_has alg (state i v) (dicts_state i v Hd) (Hs v)).
  - match type of E with (?x, ?y) = (_, _) => assert (Ei : i' = x) by congruence; assert (Er : r = y) by congruence end. clear E. subst r. rewrite <- Ei in *.
    split; [reflexivity|]. split; [auto|]. split; [eapply same_rest_trans; eauto|]. split; [|split; [|split]].
    + intros v e p. rewrite in_state_iff by auto. rewrite K6, S1. destruct (str_in_spec v vdirs) as [H|H].
      * rewrite (proj2 (normalize_block_has alg (state i v) (dicts_state i v Hd) (Hs v))).
        split; intros [d [H1 H2]]; exists d; (split; [|auto]); apply in_state_iff; auto.
      * assert (No : forall d q, ~ in_state i v d q).
        { intros d q (vs & b & st & l & H1 & H2 & _). apply H, A, I1. exists vs, b. auto. }
        split; [intros H1; exfalso; apply (No e p); now apply in_state_iff|]. intros [d [H1 _]]. exfalso. now apply (No d p).
    + intros e c. rewrite stored_iff, K3, M1, Bm. split; intros [d [H1 H2]]; exists d; (split; [|auto]); now apply stored_iff.
    + rewrite K3, M1. apply normalize_block_perm; [now apply dicts_manifest|exact Hm].
    + intros v Hv. rewrite K6, S1. assert (Hin : str_in v vdirs = true) by (apply str_in_true, A, I1, Hv). rewrite Hin.
      apply normalize_block_perm; [now apply dicts_state|apply Hs].
Qed.

(** Valid inventories satisfy the hypotheses. *)
Lemma reads_norm_manifest R inv f i : obeys R inv f -> reads R inv f i -> norm_injective (f_alg f) (manifest i).
Proof.
  intros Ho Hr d e Hd He E. destruct Ho as (_ & _ & (_ & Ha) & _ & (_ & _ & Hdist & _) & _).
  unfold manifest in *. rewrite (rd_manifest _ _ _ _ Hr) in *. cbn [or_empty] in *. unfold keys in *. rewrite typed_keys in *.
  apply in_map_iff in Hd as [[d' x] [<- Hd]]. apply in_map_iff in He as [[e' y] [<- He]]. cbn [fst] in *.
  assert (Hne : ~ In (f_alg f) [`"sha512-spec-ex"; `"sha256-spec-ex"]).
  { destruct Ha as [<-|[<-|[]]]; intros H; apply str_in_true in H; vm_compute in H; discriminate. }
  destruct Hdist as [H|H]; [contradiction|]. apply (H d' x e' y); auto. apply lower_iff. unfold normalized_digest in E.
  assert (Ef : str_in (f_alg f) [`"sha512-spec-ex"; `"sha256-spec-ex"] = false) by now apply str_in_false. now rewrite Ef in E.
Qed.

Lemma reads_norm_state R inv f i v : json_wf inv -> obeys R inv f -> reads R inv f i -> norm_injective (f_alg f) (state i v).
Proof.
  intros Hw Ho Hr d e Hd He E. assert (G : forall x, In x (keys (state i v)) -> In x (keys (manifest i))).
  { intros x Hx. apply in_map_iff in Hx as [[x' l] [<- Hx]]. destruct (reads_state_digest R inv f i Hw Ho Hr v x' l Hx) as (c & cs & H).
    now apply (in_map fst) in H. }
  apply (reads_norm_manifest R inv f i Ho Hr); auto.
Qed.
