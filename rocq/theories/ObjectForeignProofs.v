(** Reading a carefully written inventory of other software and updating its object (C64). *)
From Coq Require Import Permutation Sorted.
From Verif Require Import Base Unicode Regex Utf8 Json PyJson JsonTextModel JsonTextSpec JsonTextProofs JsonFileProofs Log DigestModel LayoutModel LayoutProofs
  ObjectUtilsModel ObjectUtilsProofs InventorySpec InventoryValidatorModel InventoryValidatorProofs InventoryRulesProofs
  InventoryModel InventoryOpsSpec InventoryOpsProofs NewVersionModel NewVersionProofs NewVersionOpsProofs VersionNumberProofs InventoryParseProofs ParseModel
  ContentPathProofs TextFile PathModel FsModel FsSpec FsProofs FswModel FswSpec FswProofs FswCopyProofs ValidatorSpec ValidatorBasicProofs ObjectModel ObjectSpec ObjectInvProofs ObjectRulesProofs
  ObjectParseProofs ObjectAddProofs ContentNameProofs ObjectGrowProofs ObjectStartProofs ObjectCopyProofs ObjectWriteProofs ObjectSourceProofs ObjectFactsProofs NamasteSpec ValidatorVersionProofs ObjectMadeProofs ObjectIntactProofs ObjectExtendProofs FsStepProofs NamasteModel NamasteProofs ObjectStoreProofs ObjectCreateProofs ValidatorModel ValidatorIntactProofs ObjectUpdateProofs ObjectNextProofs ObjectDigestProofs ObjectVersionProofs ValidatorIntactProofs InventoryReadingProofs OtherSpec ObjectOtherProofs.

(** ** Writing the new version *)

(** ** The record read from the JSON *)

Lemma ebind_inv {A B} (x : exc A) (g : A -> exc B) b : ebind x g = Ok b -> exists a, x = Ok a /\ g a = Ok b.
Proof. apply ebind_ok. Qed.

Lemma inventory_of_inv j i : inventory_of_json j = Ok i -> exists d, j = JObj d /\
  opt_member string_of_json (`"contentDirectory") d = Ok (i_cdir i) /\
  opt_member (entries_of_json vblock_of_json) (`"versions") d = Ok (i_versions i) /\
  opt_member (entries_of_json block_of_json) (`"fixity") d = Ok (i_fixity i) /\
  i_other i = without [`"id"; `"type"; `"digestAlgorithm"; `"head"; `"contentDirectory"; `"manifest"; `"versions"; `"fixity"] d.
Proof.
  unfold inventory_of_json. intros E. apply ebind_inv in E as (d & Ed & E). destruct j; try discriminate Ed. apply Ok_inv in Ed. subst d0. exists d. split; [reflexivity|].
  do 8 (apply ebind_inv in E as (? & ? & E)). apply Ok_inv in E. subst i. cbn. auto.
Qed.
Lemma vblock_of_inv b t : vblock_of_json b = Ok t -> exists d, b = JObj d /\ vb_other t = without [`"created"; `"message"; `"user"; `"state"] d.
Proof.
  unfold vblock_of_json. intros E. apply ebind_inv in E as (d & Ed & E). destruct b; try discriminate Ed. apply Ok_inv in Ed. subst d0. exists d. split; [reflexivity|].
  do 4 (apply ebind_inv in E as (? & ? & E)). apply Ok_inv in E. subst t. reflexivity.
Qed.
Lemma opt_member_inv {A} (g : json -> exc A) k d y : opt_member g k d = Ok y ->
  match y with None => dget k d = None | Some a => exists x, dget k d = Some x /\ g x = Ok a end.
Proof.
  unfold opt_member. destruct (dget k d) as [x|]; [|intros E; apply Ok_inv in E; now subst]. intros E. apply ebind_inv in E as (a & Ea & E). apply Ok_inv in E. subst y. eauto.
Qed.
Lemma entries_inv {A} (g : json -> exc A) j l : entries_of_json g j = Ok l -> exists d, j = JObj d /\ Forall2 (fun kv y => fst y = fst kv /\ g (snd kv) = Ok (snd y)) d l.
Proof.
  unfold entries_of_json. intros E. apply ebind_inv in E as (d & Ed & E). destruct j; try discriminate Ed. apply Ok_inv in Ed. subst d0. exists d. split; [reflexivity|].
  apply emap_ok in E. eapply Forall2_imp; [|exact E]. intros [k x] [k' y] H. cbn in *. apply ebind_inv in H as (a & Ha & H). apply Ok_inv in H. injection H as <- <-. auto.
Qed.
Lemma without_nil ks (d : dict json) : (forall k x, In (k, x) d -> In k ks) -> without ks d = [].
Proof.
  intros H. unfold without. induction d as [|[k x] d IH]; [reflexivity|]. cbn [filter fst].
  destruct (str_in_spec k ks) as [_|N]; [|exfalso; apply N, (H k x); now left]. cbn [negb]. apply IH. intros k' x' Hi. apply (H k' x'). now right.
Qed.
Lemma member_str_text j k s : member j k (JStr s) -> text_in s j.
Proof. intros (d & -> & Hi). eapply TI_val; [exact Hi|constructor]. Qed.
Lemma member_text j k x s : member j k x -> text_in s x -> text_in s j.
Proof. intros (d & -> & Hi) Ht. eapply TI_val; eauto. Qed.
Lemma listed_text b p : In p (listed b) -> text_in p (JObj b).
Proof.
  unfold listed. rewrite in_flat_map. intros ([d x] & Hi & Hp). cbn [snd] in Hp. eapply TI_val; [exact Hi|]. destruct x; try contradiction. cbn [strings] in Hp.
  apply in_flat_map in Hp as (y & Hy & Hp). eapply TI_arr; [exact Hy|]. destruct y; try contradiction. destruct Hp as [<-|[]]. constructor.
Qed.

Lemma elements_no_slash p es : elements p es -> Forall (fun e => ~ In slash e) es.
Proof. induction 1; constructor; auto. Qed.
Lemma elements_join p es : elements p es -> es <> [] /\ p = join [slash] es.
Proof. intros E. split; [destruct E; discriminate|]. apply elements_split in E. subst es. symmetry. apply join_split. Qed.
Lemma plain_path_names p : plain_path p -> exists r, r <> [] /\ Forall fname r /\ p = join [PathModel.slash] r.
Proof.
  intros (es & E & P). pose proof (elements_no_slash _ _ E) as N. destruct (elements_join _ _ E) as [H1 ->]. exists es. split; [auto|]. split; [|reflexivity].
  rewrite Forall_forall in *. intros e He. destruct (P e He) as (A & B & C). pose proof (N e He). repeat split; auto.
Qed.

Ltac same_member := match goal with A : member ?j ?k ?x, B : member ?j ?k ?y, W : json_wf ?j |- ?x = ?y => exact (member_fun j k x y W A B) end.

Section Careful.
  Variables (j : json) (f : facts) (i : inventory).
  Hypothesis Hw : json_wf j.
  Hypothesis Ca : careful j f.
  Hypothesis Ei : inventory_of_json j = Ok i.
  Let n := List.length (f_versions f).

  Lemma careful_reads : reads within_limits j f i.
  Proof using All. destruct (reads_valid within_limits j f Hw (ca_rules _ _ Ca)) as (i' & E & R). rewrite Ei in E. apply Ok_inv in E. now subst. Qed.
  Lemma careful_coded : obeys as_coded j f.
  Proof using All. apply within_limits_coded, Ca. Qed.
  Lemma coded_reads : reads as_coded j f i.
  Proof using All. destruct (reads_valid as_coded j f Hw careful_coded) as (i' & E & R). rewrite Ei in E. apply Ok_inv in E. now subst. Qed.

  Lemma careful_versions : f_versions f = names None n /\ (1 <= n)%nat.
  Proof using All.
    pose proof (ca_names _ _ Ca) as S. split; [exact (version_sequence_names _ _ S)|]. destruct S as [S _]. unfold n. destruct (f_versions f); [congruence|]. cbn. lia.
  Qed.

  Lemma typed_in b d l : In (d, l) (typed b) -> exists x, In (d, x) b /\ l = strings x.
  Proof using. unfold typed. rewrite in_map_iff. intros ([d' x] & E & Hi). cbn in E. injection E as <- <-. eauto. Qed.
  Lemma typed_paths_of b : paths_of (typed b) = listed b.
  Proof using. unfold paths_of, typed, listed. rewrite flat_map_concat_map, map_map, <- flat_map_concat_map. reflexivity. Qed.

  (** The blocks of the versions *)
  Lemma careful_block vs v t : i_versions i = Some vs -> In (v, t) vs ->
    exists jvs b st, member j (`"versions") (JObj jvs) /\ In (v, b) jvs /\ json_wf b /\ block_rule within_limits f b st /\ reads_block b st t /\ vblock_of_json b = Ok t.
  Proof using All.
    intros Hv Hi. destruct (inventory_of_inv _ _ Ei) as (d & Ej & _ & Ev & _). rewrite Hv in Ev. apply opt_member_inv in Ev as (x & Hx & Ev).
    apply entries_inv in Ev as (jvs & -> & F). destruct (Forall2_in_r _ _ _ F (v, t) Hi) as ([v' b] & Hb & E1 & E2). cbn in E1, E2. subst v'.
    assert (M : member j (`"versions") (JObj jvs)) by (exists d; split; [auto|now apply dget_In]).
    assert (Wb : json_wf b).
    { assert (Wv : json_wf (JObj jvs)) by (eapply member_wf; eauto). apply json_wf_obj in Wv as [_ Wv]. rewrite Forall_forall in Wv. exact (Wv (v, b) Hb). }
    pose proof (ca_rules _ _ Ca) as (_ & _ & _ & _ & _ & _ & _ & jvs' & (M' & _) & Hbl & _).
    assert (E : JObj jvs' = JObj jvs) by same_member. injection E as ->.
    destruct (Hbl v b Hb) as [st Hst]. destruct (vblock_of_json_ok within_limits f b st Wb Hst) as (t' & E3 & R). assert (t' = t) by congruence. subst t'.
    exists jvs, b, st. auto 10.
  Qed.

  Lemma block_text v jvs b s : member j (`"versions") (JObj jvs) -> In (v, b) jvs -> text_in s b -> text s.
  Proof using All. intros M Hb Ht. apply (ca_text _ _ Ca). eapply member_text; [exact M|]. eapply TI_val; eauto. Qed.

  Lemma careful_block_ok vs v t : i_versions i = Some vs -> In (v, t) vs -> block_ok t.
  Proof using All.
    intros Hv Hi. destruct (careful_block vs v t Hv Hi) as (jvs & b & st & M & Hb & Wb & Br & Rb & Et). destruct Br as ((c & Hc & Rc) & Hm & Hu & Hst & _). constructor.
    - destruct (rb_created _ _ _ Rb) as (c' & Mc & E). assert (X : JStr c' = JStr c) by same_member. injection X as ->. exists c. split; [auto|].
      split; [now apply rfc3339_coded|]. eapply block_text; eauto. eapply member_str_text; eauto.
    - intros m E. pose proof (rb_message _ _ _ Rb) as Mm. rewrite E in Mm. eapply block_text; eauto. eapply member_str_text; eauto.
    - intros u E. pose proof (rb_user _ _ _ Rb) as Mu. rewrite E in Mu. assert (Wu : json_wf (JObj u)) by (eapply member_wf; eauto). pose proof Wu as Wu'. apply json_wf_obj in Wu' as [Nu _].
      destruct Hu as [L|(u' & Mu' & (nm & Mn) & Ha)]; [exfalso; exact (L _ Mu)|]. assert (X : u' = JObj u) by same_member. subst u'.
      split; [auto|]. split; [destruct Mn as (u0 & E0 & Hn); injection E0 as <-; eauto|].
      intros k x Hk. assert (Mk : member (JObj u) k x) by (exists u; auto). pose proof (ca_users _ _ Ca jvs v b _ k x M Hb Mu Mk) as K. split; [auto|].
      assert (Tx : forall s, text_in s x -> text s) by (intros s Hs; eapply block_text; eauto; eapply member_text; [exact Mu|]; eapply member_text; eauto).
      destruct K as [<-|[<-|[]]].
      + assert (X : x = JStr nm) by same_member. subst x. exists nm. split; [auto|]. apply Tx. constructor.
      + destruct Ha as [L|[a Ma]]; [exfalso; exact (L _ Mk)|]. assert (X : x = JStr a) by same_member. subst x. exists a. split; [auto|]. apply Tx. constructor.
    - destruct (vblock_of_inv _ _ Et) as (d & -> & ->). apply without_nil. intros k x Hk. apply (ca_blocks _ _ Ca jvs v (JObj d) k x); auto. exists d. auto.
  Qed.

  Lemma hex_lower alg d : (exists n, digest_size alg n) -> r_digest within_limits alg d -> Forall lower_hex d -> lower_digest alg d.
  Proof using.
    intros [k Hk] [(k' & H1 & H2 & _)|[He _]] Hl.
    - exists k'. auto.
    - exfalso. destruct He as [<-|[<-|[]]]; inversion Hk.
  Qed.
  Lemma alg_size alg : In alg [`"sha512"; `"sha256"] -> exists k, digest_size alg k.
  Proof using. intros [<-|[<-|[]]]; eexists; constructor. Qed.

  Lemma good_listed b : (forall p, In p (listed b) -> plain_path p /\ text p) -> NoDup (listed b) -> (forall p q, In p (listed b) -> In q (listed b) -> ~ above p q) -> good_paths (paths_of (typed b)).
  Proof using.
    intros H1 H2 H3. rewrite typed_paths_of. constructor; auto. intros p Hp. destruct (H1 p Hp) as [Pp Tp]. destruct (plain_path_names p Pp) as (r & R1 & R2 & R3). exists r. auto.
  Qed.

  Theorem careful_sound : sound (f_alg f) (f_spec f) n i.
  Proof using All.
    pose proof careful_reads as R. destruct careful_versions as [En Hn]. pose proof (ca_rules _ _ Ca) as O.
    pose proof O as ((Hid & Hid') & (t & Ht & Et & Hsp) & (Halg & Halgs) & Hc & Hm & Hh & Hf & jvs & (Mv & _ & _) & Hbl & Hus).
    assert (Eman : manifest i = typed (f_manifest f)) by (unfold manifest; now rewrite (rd_manifest _ _ _ _ R)).
    destruct Hm as (Mm & Md & _ & Mp & Mn & Ma).
    assert (Cp : forall p, In p (listed (f_manifest f)) -> exists v r, In v (names None n) /\ r <> [] /\ Forall fname r /\ p = v ++ slash :: f_cdir f ++ slash :: join [PathModel.slash] r).
    { intros p Hp. destruct (Mp p Hp) as (_ & v & rest & Hv & -> & (Pr & _)). destruct (plain_path_names _ Pr) as (r & R1 & R2 & ->). exists v, r. rewrite <- En. auto. }
    assert (Fc : fname (f_cdir f) /\ text (f_cdir f)).
    { unfold content_directory_rule in Hc. destruct (f_cdir_set f).
      - destruct Hc as (Mc & C1 & C2 & C3 & C4). split; [repeat split; auto|]. apply (ca_text _ _ Ca). eapply member_str_text; eauto.
      - destruct Hc as [_ ->]. split; [now apply fname_b_ok|]. cbn. repeat split; try lia; unfold high_surrogate; lia. }
    assert (Jp : forall v r, r <> [] -> v ++ slash :: f_cdir f ++ slash :: join [PathModel.slash] r = join [PathModel.slash] (v :: f_cdir f :: r)).
    { intros v r Hr. rewrite !join_cons by (auto; discriminate). reflexivity. }
    constructor.
    - exists (f_id f). split; [apply R|]. split; [auto|]. apply (ca_text _ _ Ca). eapply member_str_text; eauto.
    - destruct (rd_type _ _ _ _ R) as (t' & E & Mt). rewrite E. assert (X : JStr t' = JStr t) by same_member. injection X as ->. f_equal. exact Et.
    - exact Hsp.
    - apply R.
    - exact Halgs.
    - rewrite (rd_cdir _ _ _ _ R). exact Fc.
    - split; [auto|]. pose proof (ca_count _ _ Ca). fold n in H. lia.
    - destruct (rd_head _ _ _ _ R) as (h & before & E1 & E2). rewrite E1. f_equal. rewrite En in E2. destruct n as [|m] eqn:Em; [lia|].
      rewrite names_S in E2. apply app_inj_tail in E2 as [_ E2]. rewrite <- E2. f_equal. lia.
    - destruct (inventory_of_inv _ _ Ei) as (d & Ej & _ & _ & _ & ->). apply without_nil. intros k x Hk. apply (ca_members _ _ Ca k x). exists d. auto.
    - destruct (rd_versions _ _ _ _ R) as (vs & tvs & _ & E & F & P). exists tvs. split; [auto|]. rewrite <- En.
      assert (Ek : keys tvs = map fst vs). { clear -F. unfold keys. induction F as [|? ? ? ? [H _] F IH]; [reflexivity|]. cbn. congruence. }
      now rewrite Ek.
    - intros vs v tb Hv Hi. split; [eapply careful_block_ok; eauto|]. destruct (careful_block vs v tb Hv Hi) as (jvs' & b & st & M & Hb & Wb & Br & Rb & Eb).
      exists (typed st). split; [apply Rb|]. destruct Br as (_ & _ & _ & Ms & (S1 & S2 & S3 & S4 & S5)). rewrite Eman. constructor.
      + unfold keys. rewrite typed_keys. assert (Ws : json_wf (JObj st)) by (eapply member_wf; eauto). now apply json_wf_obj in Ws.
      + intros d l Hd. apply typed_in in Hd as (x & Hx & _). destruct (S2 d x Hx) as (p & ps & Hp). exists p, (strings (JArr ps)). unfold typed. apply in_map_iff.
        exists (d, JArr (JStr p :: ps)). auto.
      + apply good_listed; auto. intros p Hp. split; [auto|]. eapply block_text; eauto. eapply member_text; [exact Ms|]. now apply listed_text.
    - eexists. apply R.
    - rewrite Eman. unfold keys. rewrite typed_keys. assert (Ws : json_wf (JObj (f_manifest f))) by (eapply member_wf; eauto). now apply json_wf_obj in Ws.
    - intros d l Hd. rewrite Eman in Hd. apply typed_in in Hd as (x & Hx & _). apply hex_lower; [now apply alg_size|now apply (Md d x)|now apply (ca_digests _ _ Ca d x)].
    - rewrite Eman. apply good_listed; auto. intros p Hp. split.
      + destruct (Cp p Hp) as (v & r & Hv & R1 & R2 & ->). rewrite Jp by auto. apply names_plain; [|discriminate]. constructor; [|constructor; [apply Fc|auto]].
        apply In_vn in Hv as (k & _ & ->). apply vn_fname.
      + apply (ca_text _ _ Ca). eapply member_text; [exact Mm|]. now apply listed_text.
    - rewrite Eman, typed_paths_of, (rd_cdir _ _ _ _ R). intros p Hp. destruct (Cp p Hp) as (v & r & Hv & R1 & R2 & E). exists v, r. split; [auto|]. split; [auto|]. split; [auto|].
      rewrite Jp in E by auto. split; [|auto]. intros c Hc' Hnl. apply (ca_newline _ _ Ca p Hp). rewrite E, <- Jp by auto. apply in_or_app. right. right. apply in_or_app. right. right.
      clear -Hc' Hnl. induction r as [|x r IH]; [destruct Hc'|]. destruct r as [|y r].
      + destruct Hc' as [<-|[]]. exact Hnl.
      + rewrite join_cons by discriminate. destruct Hc' as [<-|Hc']; apply in_or_app; [now left|right]. right. now apply IH.
    - intros d c cs Hd. rewrite Eman in Hd. apply typed_in in Hd as (x & Hx & E). destruct (Md d x Hx) as [_ [l ->]]. destruct l as [|c' l]; [discriminate E|].
      destruct (Hus d (JStr c') (map JStr l)) as (v & b & st & y & Hb & Ms & Hy); [exact Hx|].
      assert (Sv : state_of j v st) by (exists jvs, b; auto). pose proof (ca_states _ _ Ca v st d y Sv Hy) as Ne. destruct (strings y) as [|p ps] eqn:Ey; [congruence|].
      exists v, p. apply (reads_in_state _ _ _ _ Hw R). exists st, y. rewrite Ey. split; [auto|]. split; [auto|]. now left.
    - intros fx Efx. destruct (inventory_of_inv _ _ Ei) as (d & Ej & _ & _ & Ef & _). rewrite Efx in Ef. apply opt_member_inv in Ef as (x & Hx & Ef). apply entries_inv in Ef as (jfx & -> & F).
      assert (M : member j (`"fixity") (JObj jfx)) by (exists d; split; [auto|now apply dget_In]).
      assert (Wf : json_wf (JObj jfx)) by (eapply member_wf; eauto). pose proof Wf as Wf'. apply json_wf_obj in Wf' as [Nf Wf'].
      assert (Ek : keys fx = keys jfx). { clear -F. unfold keys. induction F as [|? ? ? ? [H _] F IH]; [reflexivity|]. cbn. congruence. }
      split; [now rewrite Ek|]. intros a b Hb. destruct (Forall2_in_r _ _ _ F (a, b) Hb) as ([a' y] & Hy & E1 & E2). cbn in E1, E2. subst a'.
      destruct Hf as [L|(jfx' & M' & Hx')]; [exfalso; exact (L _ M)|]. assert (X : JObj jfx' = JObj jfx) by same_member. injection X as ->.
      destruct (Hx' a y Hy) as (_ & block & -> & Bl & _). rewrite (block_of_json_ok block) in E2 by (intros k z Hz; now apply (Bl k z)). apply Ok_inv in E2. subst b.
      destruct (ca_fixity _ _ Ca jfx a block M Hy) as [Sz Lo]. split; [|split; [auto|]].
      + unfold keys. rewrite typed_keys. rewrite Forall_forall in Wf'. pose proof (Wf' _ Hy) as Wb. now apply json_wf_obj in Wb.
      + intros d' l Hd. apply typed_in in Hd as (z & Hz & ->). rewrite Eman, typed_paths_of. split; [|now apply (Bl d' z)]. apply hex_lower; [auto|now apply (Bl d' z)|now apply (Lo d' z)].
  Qed.

  (** What the inventory says *)
  Theorem careful_says : says j f i.
  Proof using All.
    pose proof careful_reads as R. pose proof (ca_rules _ _ Ca) as O. constructor.
    - intros v p. unfold has_path, in_version. split.
      + intros (st & Hs & Hp). apply listed_lists in Hp as (d & x & Hx & Hp). exists d. apply (reads_in_state _ _ _ _ Hw R). eauto.
      + intros [d Hd]. apply (reads_in_state _ _ _ _ Hw R) in Hd as (st & x & Hs & Hx & Hp). exists st. split; [auto|]. apply listed_lists. exists d, x. auto.
    - intros v p c. symmetry. exact (reads_resolves _ _ _ _ Hw O R v p c).
    - intros v d. unfold has_digest, state_key. split.
      + intros (st & x & Hs & Hx). pose proof (ca_states _ _ Ca v st d x Hs Hx) as Ne. destruct (strings x) as [|p ps] eqn:E; [congruence|].
        assert (Is : in_state i v d p) by (apply (reads_in_state _ _ _ _ Hw R); exists st, x; rewrite E; split; [auto|]; split; [auto|]; now left).
        destruct Is as (vs & b & s & l & H1 & H2 & H3 & H4 & _). exists s, l. split; [exists vs, b; auto|auto].
      + intros (s & l & (vs & b & Hv & Hb & Hs) & Hl). destruct (careful_block vs v b Hv Hb) as (jvs & jb & st & M & Hj & Wb & Br & Rb & _).
        rewrite (rb_state _ _ _ Rb) in Hs. apply Some_inv in Hs. subst s. apply typed_in in Hl as (x & Hx & _). exists st, x. split; [|auto]. exists jvs, jb. split; [auto|]. split; [auto|]. apply Br.
    - intros d p. rewrite (reads_stored _ _ _ _ R). unfold lists. reflexivity.
    - rewrite (rd_id _ _ _ _ R). reflexivity.
    - symmetry. apply R.
    - destruct (inventory_of_inv _ _ Ei) as (d & Ej & Ec & _). apply opt_member_inv in Ec. pose proof O as (_ & _ & _ & Hc & _). unfold content_directory_rule in Hc.
      destruct (i_cdir i) as [c|]; destruct (f_cdir_set f); try reflexivity.
      + destruct Ec as (x & Hx & _). destruct Hc as [L _]. exfalso. apply (L x). exists d. split; [auto|now apply dget_In].
      + destruct Hc as [(d' & Ed & Hi) _]. rewrite Ej in Ed. injection Ed as <-. assert (Nd : NoDup (keys d)) by (rewrite Ej in Hw; now apply json_wf_obj in Hw).
        apply (In_dget _ _ _ Nd) in Hi. congruence.
  Qed.

  Lemma careful_fixed x d p : fixed i x d p -> fixity_lists j x d p /\ In p (listed (f_manifest f)) /\ exists z, digest_size x z.
  Proof using All.
    intros (fx & b & Efx & Hb & (l & Hl & Hp)). destruct (so_fixity _ _ _ _ careful_sound fx Efx) as [_ S]. destruct (S x b Hb) as (_ & Sz & Sl).
    assert (Fl : fixity_lists j x d p).
    { destruct (inventory_of_inv _ _ Ei) as (d0 & Ej & _ & _ & Ef & _). rewrite Efx in Ef. apply opt_member_inv in Ef as (y & Hy & Ef). apply entries_inv in Ef as (jfx & -> & F).
      destruct (Forall2_in_r _ _ _ F (x, b) Hb) as ([x' y] & Hy' & E1 & E2). cbn in E1, E2. subst x'. apply entries_inv in E2 as (block & -> & F2).
      destruct (Forall2_in_r _ _ _ F2 (d, l) Hl) as ([d' z] & Hz & E3 & E4). cbn in E3, E4. subst d'. exists jfx, block. split; [exists d0; split; [auto|now apply dget_In]|]. split; [auto|].
      exists z. split; [auto|]. destruct z; try discriminate E4. cbn [strings_of_json] in E4. apply emap_ok in E4. destruct (Forall2_in_r _ _ _ E4 p Hp) as (y & Hy1 & Ey).
      destruct y; try discriminate Ey. apply Ok_inv in Ey. subst s. cbn [strings]. apply in_flat_map. exists (JStr p). split; [auto|now left]. }
    split; [auto|]. split; [|auto]. exact (fixity_listed _ _ _ _ _ careful_coded Hw Fl).
  Qed.

  Lemma careful_parse : parse_inventory_json j = Ok (i, f_spec f).
  Proof using All.
    pose proof careful_coded as Ho. unfold parse_inventory_json.
    assert (Hh : head_rule j f) by apply Ho. destruct Hh as (h & before & Hm & Hb).
    assert (E : snd (iv_validate false DEFAULT_SPEC_VERSION None j) = Ok (accepted f h, true)).
    { apply iv_validate_iff; [auto|]. exists f, h, before. split; [exact Ho|]. split; [exact Logic.I|]. auto. }
    rewrite E. cbn [ebind negb]. rewrite Ei. cbn [ebind]. cbn [accepted iv_digest_algorithm iv_spec_version].
    rewrite (sound_normal _ _ _ _ careful_sound). reflexivity.
  Qed.
End Careful.

(** ** Starting and writing the new version *)

Lemma intact_unchecked H w h sd rb root f hd : intact H true w h sd rb root f hd -> intact H false w h sd rb root f hd.
Proof.
  assert (S : forall d a b, sidecar H true w h d a b -> sidecar H false w h d a b) by (intros d a b [H1 _]; split; [auto|discriminate]).
  intros [I1 I2 I3 I4 I5 I6 (V1 & V2 & V3 & V4) I8 I9 I10]. constructor; auto.
  split; [|split; [|split; auto]].
  - intros Hi. destruct (V1 Hi) as [A B]. auto.
  - intros v Hv Hne Hi. destruct (V2 v Hv Hne Hi) as (b & j & fv & A & B & C & D). exists b, j, fv. split; [auto|]. split; [auto|]. auto.
Qed.

Lemma parse_at w h rb root i s : tree w -> Forall fname h -> look w (h ++ [inv_name]) = Some (EFile rb) -> json_load rb = Ok root ->
  (exists d, root = JObj d) -> parse_inventory_json root = Ok (i, s) -> parse_inventory w h = Ok (i, s).
Proof.
  intros Tw Fh Hl Hj [d Ed] Hp. unfold parse_inventory.
  assert (Hr : fs_read w h INVENTORY_FILENAME = Ok rb).
  { apply fs_read_look. assert (E : at_path h INVENTORY_FILENAME = h ++ [inv_name]) by exact (at_path_one h inv_name Fh fname_inv). now rewrite E. }
  rewrite Hr. cbn [ebind]. rewrite Hj. cbn [ebind]. rewrite Ed in *. exact Hp.
Qed.

Section Update.
  Variables (H : hashfn) (c : object) (e : env) (w : node) (h : place) (sd : str) (rb : bytes) (root : json) (f : facts) (hd sp path : str) (m : vmeta) (abort : bool).
  Hypothesis HH : hash_ok H.
  Hypothesis Tw : tree w.
  Hypothesis I : intact H true w h sd rb root f hd.
  Hypothesis Ca : careful root f.
  Hypothesis Old : forall v j fv, In v (f_versions f) -> inventory_of w h hd v j fv -> lists_paths j /\ no_later (f_spec fv) (f_spec f).
  Hypothesis Sd : no_later (f_spec f) sd.
  Hypothesis Cn : forall x, f_cdir f <> `"inventory.json" ++ x.
  Hypothesis Uc : update_call c e w sp path m h.
  Hypothesis Al : o_alg c = f_alg f.
  Let n := List.length (f_versions f).
  Let src := dest_of (e_cwd e) sp.
  Let x := add_version_with_content H c e (Some path) (Some sp) (Some m) abort.

  Lemma other_head : hd = vn n.
  Proof using All.
    destruct (in_inventory _ _ _ _ _ _ _ _ _ I) as [_ Hj]. pose proof (json_load_wf _ _ Hj) as Hw. destruct (reads_valid within_limits root f Hw (ca_rules _ _ Ca)) as (i & Ei & R).
    pose proof (in_rules _ _ _ _ _ _ _ _ _ I) as O. assert (Hh : head_rule root f) by apply O. destruct Hh as (h' & before & Mh & Eb).
    pose proof (in_head _ _ _ _ _ _ _ _ _ I) as Mh'. assert (X : JStr h' = JStr hd) by same_member. injection X as ->.
    destruct (careful_versions root f i Hw Ca Ei) as [En Hn]. fold n in En, Hn. rewrite En in Eb. destruct n as [|k]; [lia|]. rewrite names_S in Eb. apply app_inj_tail in Eb as [_ E]. rewrite <- E. unfold vn. f_equal. lia.
  Qed.

  (** The files in the manifests of earlier inventories are in that of the root inventory. *)
  Lemma earlier_listed v j fv : In v (f_versions f) -> inventory_of w h hd v j fv -> incl (listed (f_manifest fv)) (listed (f_manifest f)).
  Proof using All.
    intros Hv Hi. destruct (Old v j fv Hv Hi) as [Lp _]. destruct Hi as (Hne & b & [Hb Hj] & Ho). pose proof (json_load_wf _ _ Hj) as Wj.
    destruct (in_versions _ _ _ _ _ _ _ _ _ I) as (_ & V2 & _). destruct (V2 v Hv Hne) as (b' & j' & fv' & [Hb' Hj'] & Ho' & _ & _ & _ & _ & (_ & _ & Pa) & _).
    { unfold has_inventory. cbn [app] in Hb. rewrite Hb. discriminate. }
    assert (b' = b) by congruence. subst b'. assert (j' = j) by congruence. subst j'. assert (fv' = fv) by exact (facts_unique _ _ _ Wj Ho' Ho). subst fv'. clear Hb' Hj' Ho'.
    destruct (in_inventory _ _ _ _ _ _ _ _ _ I) as [_ Hjr]. pose proof (json_load_wf _ _ Hjr) as Wr.
    pose proof (in_rules _ _ _ _ _ _ _ _ _ I) as (_ & _ & _ & _ & (Mr & _) & _).
    destruct Ho as (_ & _ & _ & _ & (Mm & Md & _) & _ & _ & vs & (Mv & _ & Pv) & _ & Us).
    intros p Hp. apply listed_lists in Hp as (d & x0 & Hx & Hp). destruct (Md d x0 Hx) as [_ [l El]]. subst x0. destruct l as [|c0 l]; [destruct Hp|].
    destruct (Us d (JStr c0) (map JStr l) Hx) as (u & bu & st & y & Hbu & Ms & Hy). assert (Su : state_of j u st) by (exists vs, bu; auto).
    pose proof (Lp u st d y Su Hy) as Ne. destruct (strings y) as [|p0 ps] eqn:Ey; [congruence|].
    assert (Hu : In u (f_versions fv)) by (apply (Permutation_in _ Pv); apply in_map_iff; exists (u, bu); auto).
    destruct (Pa u Hu) as [_ Pc]. assert (Cf : content_file j u p0 p).
    { exists st, (f_manifest fv), d, y, (JArr (map JStr (c0 :: l))). split; [auto|]. split; [auto|]. split; [auto|]. split; [rewrite Ey; now left|]. auto. }
    apply Pc in Cf as (st' & man & d' & x' & y' & _ & Mman & _ & _ & Hy' & Hp').
    assert (E : JObj man = JObj (f_manifest f)) by same_member. injection E as ->. apply listed_lists. exists d', y'. auto.
  Qed.

  (** The paths and digests are those of the files. *)
  Let files_listed (F : list (place * bytes)) (d p : str) : Prop := exists es b, In (es, b) F /\ p = J es /\ d = H (f_alg f) b.

  Theorem other_update : exists F, files_at w src F /\
    let unchanged := forall d p, version_lists root hd d p <-> files_listed F d p in
    ((abort = true /\ unchanged /\ result x w = Ok None /\ after x w = w) \/
     (~ (abort = true /\ unchanged) /\ exists i', result x w = Ok (Some i') /\ tree (after x w) /\
       intact H true (after x w) h sd (json_dumps (json_of_inventory i')) (sort_json (json_of_inventory i')) (facts_of (f_alg f) (`"1.1") (S n) i') (vn (S n)) /\
       i_head i' = Some (vn (S n)) /\
       (forall d p, in_state i' (vn (S n)) d p <-> files_listed F d p) /\
       (forall v d p, In v (f_versions f) -> (in_state i' v d p <-> version_lists root v d p)) /\
       (forall v r, In v (f_versions f) -> look (after x w) (h ++ v :: r) = look w (h ++ v :: r)))).
  Proof using All.
    pose proof other_head as Ehd. assert (Old' : forall v j fv, In v (f_versions f) -> inventory_of w h hd v j fv ->
      incl (listed (f_manifest fv)) (listed (f_manifest f)) /\ no_later (f_spec fv) (f_spec f)).
    { intros v j fv Hv Hi. split; [exact (earlier_listed v j fv Hv Hi)|]. now apply (Old v j fv). }
    subst hd. destruct (in_inventory _ _ _ _ _ _ _ _ _ I) as [Hinv Hj]. change (look w (h ++ [inv_name]) = Some (EFile rb)) in Hinv.
    pose proof (json_load_wf _ _ Hj) as Hw. destruct (reads_valid within_limits root f Hw (ca_rules _ _ Ca)) as (i & Ei & _).
    pose proof (careful_sound root f i Hw Ca Ei) as So. fold n in So. destruct (careful_versions root f i Hw Ca Ei) as [En Hn]. fold n in En, Hn.
    pose proof (careful_says root f i Hw Ca Ei) as Sy.
    assert (Hd : look w h = Some EDir) by (apply (look_above w h inv_name []); rewrite Hinv; discriminate).
    pose proof (look_fnames_root w h Tw Hd) as Fh.
    assert (Ecd : content_directory_to_use i = f_cdir f) by (symmetry; apply Sy).
    pose proof (uc_source _ _ _ _ _ _ _ Uc) as Sk. fold src in Sk. destruct (uc_url _ _ _ _ _ _ _ Uc) as [Hu' Hu]. pose proof (uc_place _ _ _ _ _ _ _ Uc) as Eh.
    set (i1 := kept (o_fixity c) i). pose proof (sound_kept _ _ _ (o_fixity c) i So) as So1. fold i1 in So1.
    destruct (kept_fields (o_fixity c) i) as (E1 & E2 & E3 & E4 & E5 & E6 & E7 & E8). fold i1 in E1, E2, E3, E4, E5, E6, E7, E8.
    assert (Hcount : (N.of_nat (S n) <= 99999)%N) by (pose proof (ca_count _ _ Ca) as X; fold n in X; lia).
    (* the start *)
    destruct (next_start (f_alg f) (f_spec f) n i1 (as_dict (e_now e) m) (o_norm c) (o_forward_delta c) (o_dedupe c) false (Some (f_alg f)) So1 Hcount (meta_block _ _ (uc_meta _ _ _ _ _ _ _ Uc))) as (i0 & E & Nf).
    cbv iota in Nf. pose proof (nf_sound _ _ _ _ _ _ Nf) as Si0.
    set (nv0 := mk_nv i0 (o_norm c) (o_forward_delta c) (o_dedupe c) (Some (f_alg f)) []).
    assert (Start : let y := start_new_version H c e (Some path) (Some sp) (Some (o_alg c)) (o_fixity c) (Some m) false in
      result y w = Ok (h, src, nv0) /\ after y w = w).
    { intros y. pose proof Hd as Hh. rewrite Eh in Hh. destruct (open_there (e_cwd e) path w Hu Hh) as [P1 P2]. fold (dest_of (e_cwd e) path) in P1. rewrite <- Eh in P1.
      destruct (open_obj_catch e path false w) as (Q1 & Q2 & _). pose proof (Q2 _ P1) as Q3. rewrite P2 in Q1.
      unfold y, start_new_version. rewrite (result_seq _ _ w h Q3), (after_seq _ _ w h Q3), Q1.
      rewrite result_read, after_read. cbv beta. cbn [or_empty].
      assert (V : snd (validate_object H (mkVconf false (o_lax c) DEFAULT_SPEC_VERSION (e_sizes e)) w (e_cwd e) path 0) = Ok true).
      { unfold validate_object. rewrite P1. apply (validate_opened_iff H (mkVconf false (o_lax c) DEFAULT_SPEC_VERSION (e_sizes e)) w h 0 (uc_lax _ _ _ _ _ _ _ Uc) Tw Hd). split; [auto|]. eexists _, _, _, _, _. apply intact_unchecked. exact I. }
      change (match Some path with Some d => d | None => [] end) with path. rewrite V. cbn [negb].
      rewrite result_read, after_read. cbv beta.
      assert (Pa : parse_inventory w h = Ok (i, f_spec f)).
      { eapply parse_at; eauto; [|exact (careful_parse root f i Hw Ca Ei)]. destruct (inventory_of_inv _ _ Ei) as (d & Ed & _). eauto. }
      rewrite Pa. cbn [ebind fst].
      assert (Ss : start_inventory_change H (Some (o_alg c)) (o_fixity c) w h i = Ok (i1, Some (f_alg f))).
      { apply start_same; [apply So|right; now rewrite Al|apply So]. }
      rewrite Ss. cbn [fst snd].
      pose proof (sk_dir _ _ _ Sk) as Hd'. destruct (open_there (e_cwd e) sp w Hu' Hd') as [R1 R2]. fold (dest_of (e_cwd e) sp) in R1. fold src in R1.
      unfold open_src_fs. rewrite (result_seq _ _ w src R1), (after_seq _ _ w src R1), R2. rewrite result_read, after_read. cbv beta.
      assert (Env : next_version i1 DEFAULT_SPEC_VERSION (metadata_dict e (Some m)) (o_norm c) (o_forward_delta c) (o_dedupe c) false (Some (f_alg f)) = Ok nv0) by exact E.
      rewrite Env. split; reflexivity. }
    cbv zeta in Start. destruct Start as [R A].
    (* the files *)
    assert (Ec : content_directory_to_use i0 = content_directory_to_use i1) by (unfold content_directory_to_use; now rewrite (nf_cdir _ _ _ _ _ _ Nf)).
    assert (Ec0 : content_directory_to_use i1 = content_directory_to_use i) by (unfold content_directory_to_use; now rewrite E5).
    assert (Eman : manifest i0 = manifest i1) by (unfold manifest; now rewrite (nf_manifest _ _ _ _ _ _ Nf)).
    destruct (from_srcdir_grow H (f_alg f) (`"1.1") (S n) i0 (o_norm c) (o_forward_delta c) (o_dedupe c) (Some (f_alg f)) w src nv0 HH (uc_norm _ _ _ _ _ _ _ Uc)) as (F & nv & Ef & Fa & G).
    { intros p Hp. rewrite Eman in Hp. destruct (so_content _ _ _ _ So1 p Hp) as (v & r & Hv & _ & Hf & _ & ->). exists v, r. rewrite Ec. replace (S n - 1)%nat with n by lia. auto. }
    { intros d p Hs. apply (nf_state _ _ _ _ _ _ Nf) in Hs as [(vs & b & st & l & Hvs & Hb & _)|[_ (l & [] & _)]].
      destruct (so_versions _ _ _ _ So1) as (vs' & Hvs' & P). assert (vs' = vs) by congruence. subst vs'.
      assert (Hi : In (version_fmt None (N.of_nat (S n))) (names None n)) by (apply (Permutation_in _ P); apply in_map_iff; eexists; split; [|exact Hb]; reflexivity).
      now apply not_next in Hi. }
    { exact Tw. }
    { exact Sk. }
    { now apply growing_start. }
    destruct (copied_exists _ _ _ _ _ _ _ _ _ _ _ G) as [K Kc]. change (version_fmt None (N.of_nat (S n))) with (vn (S n)) in Kc.
    pose proof (files_names w src F Tw (sk_dir _ _ _ Sk) Fa) as Nm. pose proof (proj1 Fa) as Nd.
    assert (Fs : Forall fname src) by (apply (look_fnames w); [auto|rewrite (sk_dir _ _ _ Sk); discriminate]).
    assert (Hs : forall s r b, In (s, (r, b)) K -> look w (at_path src s) = Some (EFile b)).
    { intros s0 r b Hi. destruct (cp_each _ _ _ _ _ _ Kc _ _ _ Hi) as (es & r' & Hie & -> & _). destruct (Nm _ _ Hie) as [_ Fe]. rewrite at_path_join by auto. now apply (proj2 Fa). }
    assert (A1' : content_directory_to_use i0 <> inv_name) by (rewrite Ec, Ec0, Ecd; intros X; apply (Cn []); rewrite app_nil_r; exact X).
    assert (A2' : content_directory_to_use i0 <> side_name (f_alg f)) by (rewrite Ec, Ec0, Ecd; intros X; apply (Cn (`"." ++ f_alg f)); exact X).
    assert (Hno : look w (h ++ [vn (S n)]) = None).
    { destruct (look w (h ++ [vn (S n)])) as [en|] eqn:Een; [|reflexivity]. exfalso. pose proof (in_root _ _ _ _ _ _ _ _ _ I (vn (S n)) en Een) as Re. destruct (vn_starts (S n)) as [q Eq].
      destruct en; cbn [root_entry] in Re.
      - rewrite Eq in Re. destruct Re as [X|[X|[X|[]]]]; discriminate X.
      - rewrite En in Re. destruct Re as [X|[X|[X _]]]; [|rewrite Eq in X; discriminate X|rewrite Eq in X; discriminate X]. apply In_vn in X as (k & Hk & X). apply vn_inj in X. lia.
      - exact Re. }
    assert (Hside : exists b, look w (h ++ [side_name (f_alg f)]) = Some (EFile b)).
    { destruct (in_sidecar _ _ _ _ _ _ _ _ _ I) as [_ X]. destruct (X eq_refl) as (sb & _ & _ & _ & X1 & _). exists sb. exact X1. }
    pose proof (write_other_ok H w h src n rb (f_alg f) (`"1.1") i0 (o_norm c) (o_forward_delta c) (o_dedupe c) F nv K HH Tw Fh Hd Hno Hinv Hside G Kc A1' A2' Hs) as W.
    cbv zeta in W. destruct W as (Rw & Tw' & Wv & Wo & Wi & Ws & Wd & Wr). set (w' := after (write_new_version H (f_alg f) h src nv) w) in *.
    pose proof (gw_rest _ _ _ _ _ _ _ _ _ _ _ G) as Rest.
    (* the old versions in the new inventory *)
    assert (Nn : forall v, In v (names None n) -> v <> version_fmt None (N.of_nat (S n))) by (intros v Hv; now apply not_next).
    destruct (so_versions _ _ _ _ So) as (vs & Hvs & _). destruct (so_versions _ _ _ _ Si0) as (vs' & Hvs' & _).
    assert (Hvs1 : i_versions i1 = Some vs) by now rewrite E7.
    assert (Gs : forall v d p, In v (names None n) -> (in_state (nv_inv nv) v d p <-> in_state i v d p)).
    { intros v d p Hv. rewrite (gw_state _ _ _ _ _ _ _ _ _ _ _ G), (nf_state _ _ _ _ _ _ Nf). assert (X : in_state i1 v d p <-> in_state i v d p) by (unfold in_state; now rewrite E7). rewrite X.
      split; [|auto]. intros [[?|[X1 _]]|[X1 _]]; auto; now apply Nn in Hv. }
    assert (Gk : forall v d, In v (names None n) -> (state_key (nv_inv nv) v d <-> state_key i v d)).
    { intros v d Hv. assert (Sb : forall y, state_block (nv_inv nv) v y <-> state_block i v y).
      { intros y. rewrite (gw_others _ _ _ _ _ _ _ _ _ _ _ G v y (Nn v Hv)). unfold state_block. rewrite Hvs, Hvs'. split; intros (vs0 & vb & X & Hi & Hx); apply Some_inv in X; subst vs0.
        - apply (nf_blocks _ _ _ _ _ _ Nf vs vs' v vb Hvs1 Hvs') in Hi as [Hi|[X _]]; [eauto|now apply Nn in Hv].
        - exists vs', vb. split; [auto|]. split; [|auto]. apply (nf_blocks _ _ _ _ _ _ Nf vs vs' v vb Hvs1 Hvs'). auto. }
      unfold state_key. split; intros (y & l & Hy & Hl); exists y, l; (split; [now apply Sb|auto]). }
    assert (Gst : forall d y, stored (nv_inv nv) d y <-> stored i d y \/ exists r b, In (r, b) (map snd K) /\ y = J r /\ d = H (f_alg f) b).
    { intros d y. rewrite (gw_stored _ _ _ _ _ _ _ _ _ _ _ G). assert (X : stored i0 d y <-> stored i d y) by (unfold stored; rewrite (nf_manifest _ _ _ _ _ _ Nf), E6; reflexivity). rewrite X. clear X. split.
      - intros [?|(es & b & H1 & H2 & ->)]; [auto|]. right. destruct (copied_bytes (S n) i0 (o_norm c) F nv K Kc Nm Nd es b y H1 H2) as (r & Hi & ->). exists r, b. split; [|auto]. apply in_map_iff. exists (J es, (r, b)). auto.
      - intros [?|(r & b & Hi & -> & ->)]; [auto|]. right. apply in_map_iff in Hi as ([s rb'] & X & Hi). cbn [snd] in X. subst rb'. destruct (cp_each _ _ _ _ _ _ Kc _ _ _ Hi) as (es & r' & Hf & -> & _).
        exists es, b. split; [auto|]. split; [|auto]. rewrite (cp_files _ _ _ _ _ _ Kc). apply in_map_iff. exists (J es, (r, b)). auto. }
    assert (Gf : forall y d p, fixed (nv_inv nv) y d p -> fixed i y d p).
    { intros y d p X. apply (rest_fixed _ _ y d p Rest) in X. apply (fixed_kept (o_fixity c)). fold i1. unfold fixed in *. now rewrite <- (nf_fixity _ _ _ _ _ _ Nf). }
    assert (GK : forall r b, In (r, b) (map snd K) -> Forall fname r /\ exists r', r' <> [] /\ r = vn (S n) :: content_directory_to_use i :: r').
    { rewrite <- Ec0, <- Ec. apply (copied_facts (o_norm c) (vn (S n)) (content_directory_to_use i0) F (nv_copy nv) K); [apply vn_fname|apply Si0|exact Kc|apply G]. }
    assert (Gid : i_id (nv_inv nv) = i_id i) by (destruct Rest as (X & _); rewrite X, (nf_id _ _ _ _ _ _ Nf); exact E1).
    assert (Gcd : i_cdir (nv_inv nv) = i_cdir i) by (destruct Rest as (_ & _ & _ & _ & X & _); rewrite X, (nf_cdir _ _ _ _ _ _ Nf); exact E5).
    assert (New : intact H true w' h sd (json_dumps (json_of_inventory (nv_inv nv))) (sort_json (json_of_inventory (nv_inv nv))) (facts_of (f_alg f) (`"1.1") (S n) (nv_inv nv)) (vn (S n))).
    { apply (other_intact H w w' h sd (f_alg f) (`"1.1") n rb root f i (nv_inv nv) (map snd K)); auto.
      - exact (careful_fixed root f i Hw Ca Ei).
      - apply G.
      - rewrite Ecd. exact Cn. }
    (* the whole *)
    destruct (sound_diff _ _ _ nv (gw_sound _ _ _ _ _ _ _ _ _ _ _ G) Hn) as (r & Er & Hr).
    assert (Ls : forall v d p, version_lists root v d p <-> in_state i v d p).
    { intros v d p. symmetry. exact (reads_in_state within_limits root f i Hw (careful_reads root f i Hw Ca Ei) v d p). }
    assert (Gn : forall d p, in_state (nv_inv nv) (vn (S n)) d p <-> files_listed F d p).
    { intros d p. rewrite (gw_state _ _ _ _ _ _ _ _ _ _ _ G), (nf_state _ _ _ _ _ _ Nf). split.
      - intros [[Hst|(_ & l & [] & _)]|(_ & ?)]; auto. exfalso. assert (V : is_version i1 (vn (S n))) by (destruct Hst as (vs0 & b & st & l & ? & ? & _); exists vs0, b; auto).
        apply (sound_is_version _ _ _ _ _ So1), In_vn in V as (k & Hk & Ek). apply vn_inj in Ek. lia.
      - intros ?. right. split; [reflexivity|auto]. }
    assert (Same : (forall d p, version_lists root (vn n) d p <-> files_listed F d p) <-> r = []).
    { rewrite Hr. assert (Hin : In (vn n) (names None n)) by (apply In_vn; exists n; split; [lia|auto]).
      split; intros S d p; [rewrite Gn, (Gs _ _ _ Hin), <- S, Ls; reflexivity|rewrite Ls, <- (Gs _ _ _ Hin), <- Gn, S; reflexivity]. }
    assert (Keep : forall v r, In v (f_versions f) -> look w' (h ++ v :: r) = look w (h ++ v :: r)).
    { intros v q Hv. rewrite En in Hv. apply In_vn in Hv as (k & Hk & ->). destruct (vn_starts k) as [z Ez]. apply Wr.
      - intros X. apply vn_inj in X. lia.
      - rewrite Ez. discriminate.
      - rewrite Ez. discriminate. }
    assert (Old2 : forall v d p, In v (f_versions f) -> (in_state (nv_inv nv) v d p <-> version_lists root v d p)) by (intros v d p Hv; rewrite Ls; apply Gs; now rewrite <- En).
    assert (Hhd : i_head (nv_inv nv) = Some (vn (S n))) by exact (so_head _ _ _ _ (gw_sound _ _ _ _ _ _ _ _ _ _ _ G)).
    exists F. split; [exact Fa|]. cbv zeta.
    unfold x, add_version_with_content. rewrite (result_seq _ _ w _ R), (after_seq _ _ w _ R), A.
    rewrite result_read, after_read. cbv beta. rewrite Ef. rewrite result_read, after_read. cbv beta. rewrite Er. cbn [ebind].
    rewrite Al. destruct abort; cbv iota.
    - destruct r as [|r0 r].
      + left. split; [auto|]. split; [now apply Same|]. split; reflexivity.
      + right. split; [intros [_ X]; apply Same in X; discriminate|]. exists (nv_inv nv). rewrite (result_seq _ _ w _ Rw), (after_seq _ _ w _ Rw). split; [reflexivity|]. split; [exact Tw'|]. split; [exact New|]. auto.
    - right. split; [intros [X _]; discriminate|]. exists (nv_inv nv). rewrite (result_seq _ _ w _ Rw), (after_seq _ _ w _ Rw). split; [reflexivity|]. split; [exact Tw'|]. split; [exact New|]. auto.
  Qed.
End Update.
