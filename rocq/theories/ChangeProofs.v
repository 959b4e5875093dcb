(** Changing the digest algorithm of any object (C40): object.py:443-505. *)
From Coq Require Import Permutation Sorted.
From Verif Require Import Properties_Names Properties_InventoryValidator.
From Verif Require Import Base Unicode Regex Utf8 Json PyJson JsonTextModel JsonTextSpec JsonTextProofs JsonFileProofs Log DigestModel LayoutModel LayoutProofs
  ObjectUtilsModel ObjectUtilsProofs InventorySpec InventoryValidatorModel InventoryValidatorProofs InventoryRulesProofs
  InventoryModel InventoryOpsSpec InventoryOpsProofs NewVersionModel NewVersionProofs NewVersionOpsProofs VersionNumberProofs InventoryParseProofs ParseModel
  ContentPathProofs TextFile PathModel FsModel FsSpec FsProofs FswModel FswSpec FswProofs FswCopyProofs ValidatorSpec ValidatorBasicProofs ObjectModel ObjectSpec ObjectInvProofs ObjectRulesProofs
  ObjectParseProofs ObjectAddProofs ContentNameProofs ObjectGrowProofs ObjectStartProofs ObjectCopyProofs ObjectWriteProofs ObjectSourceProofs ObjectFactsProofs NamasteSpec ValidatorVersionProofs ObjectMadeProofs ObjectIntactProofs ObjectExtendProofs FsStepProofs NamasteModel NamasteProofs ObjectStoreProofs ObjectCreateProofs ValidatorModel ValidatorIntactProofs ObjectUpdateProofs ObjectNextProofs ObjectDigestProofs ObjectVersionProofs ObjectExtractProofs ObjectHistoryProofs ObjectExamples UpdateSpec ParseProofs OpenProofs.

(** ** Opened inventories *)

Section Opened.
  Variables (w : node) (h : place) (i : inventory) (s : str) (inv : json) (i0 : inventory) (f : facts).
  Hypothesis O : open_at w h i s inv i0 f.

  Lemma open_versions : exists vs, i_versions i = Some vs /\ NoDup (keys vs).
  Proof using O.
    pose proof (oa_opened _ _ _ _ _ _ _ O) as Op. destruct (reads_valid as_coded inv f (oa_wf _ _ _ _ _ _ _ O) (oa_obeys _ _ _ _ _ _ _ O)) as (i0' & E0 & Hr).
    rewrite (oa_read _ _ _ _ _ _ _ O) in E0. apply Ok_inv in E0. subst i0'. pose proof (rd_head _ _ _ _ Hr) as (hd & before & _ & Ef).
    assert (V : is_version i0 hd) by (apply (reads_is_version as_coded inv f i0 Hr); rewrite Ef; apply in_or_app; right; now left).
    destruct (op_rest _ _ _ Op) as (_ & _ & _ & _ & _ & _ & _ & A & _). apply A in V as (vs & b & E & _). exists vs. split; [auto|].
    destruct (op_dicts _ _ _ Op) as (_ & D & _). now apply D.
  Qed.

  Lemma open_is_version v : is_version i v <-> In v (f_versions f).
  Proof using O.
    pose proof (oa_opened _ _ _ _ _ _ _ O) as Op. destruct (reads_valid as_coded inv f (oa_wf _ _ _ _ _ _ _ O) (oa_obeys _ _ _ _ _ _ _ O)) as (i0' & E0 & Hr).
    rewrite (oa_read _ _ _ _ _ _ _ O) in E0. apply Ok_inv in E0. subst i0'. rewrite <- (reads_is_version as_coded inv f i0 Hr v). destruct (op_rest _ _ _ Op) as (_ & _ & _ & _ & _ & _ & _ & A & _). apply A.
  Qed.

  Lemma open_head : exists v before, i_head i = Some v /\ f_versions f = before ++ [v].
  Proof using O.
    pose proof (oa_opened _ _ _ _ _ _ _ O) as Op. destruct (reads_valid as_coded inv f (oa_wf _ _ _ _ _ _ _ O) (oa_obeys _ _ _ _ _ _ _ O)) as (i0' & E0 & Hr).
    rewrite (oa_read _ _ _ _ _ _ _ O) in E0. apply Ok_inv in E0. subst i0'. pose proof (rd_head _ _ _ _ Hr) as (hd & before & E & Ef). exists hd, before. split; [|auto].
    destruct (op_rest _ _ _ Op) as (_ & _ & _ & A4 & _). congruence.
  Qed.

  Lemma open_state v : is_version i v -> exists st, state_of inv v st /\ state_rule as_coded f st /\
    Permutation (state i v) (map (fun kv => (lower (fst kv), strings (snd kv))) st).
  Proof using O.
    pose proof (oa_obeys _ _ _ _ _ _ _ O) as (_ & _ & _ & _ & _ & _ & _ & vs & (Hv & _ & Hp) & Hb & _). intros V. apply open_is_version in V.
    apply (Permutation_in _ (Permutation_sym Hp)), in_map_iff in V as ([v' b] & E & Hi). cbn in E. subst v'. destruct (Hb v b Hi) as (st & _ & _ & _ & Hs & Hr).
    assert (St : state_of inv v st) by (exists vs, b; auto). exists st. split; [auto|]. split; [auto|]. exact (op_state _ _ _ (oa_opened _ _ _ _ _ _ _ O) v st St).
  Qed.

  Lemma open_manifest : Permutation (manifest i) (map (fun kv => (lower (fst kv), strings (snd kv))) (f_manifest f)).
  Proof using O.
    pose proof (oa_obeys _ _ _ _ _ _ _ O) as (_ & _ & _ & _ & (Hm & _) & _). exact (op_manifest _ _ _ (oa_opened _ _ _ _ _ _ _ O) _ Hm).
  Qed.

  Lemma state_some v d l : In (d, l) (state i v) -> is_version i v.
  Proof using.
    unfold state, versiondata. destruct (dget v (versions_block i)) as [b|] eqn:E; [|intros []]. intros _. apply is_version_iff. eauto.
  Qed.

  Lemma open_digest v d l : In (d, l) (state i v) -> exists c cs, In (d, c :: cs) (manifest i).
  Proof using O.
    intros Hi. destruct (open_state v (state_some v d l Hi)) as (st & _ & (_ & Hm & _) & P). pose proof (Permutation_in _ P Hi) as Hi'. apply in_map_iff in Hi' as ([k x] & E & Hx).
    cbn [fst snd] in E. injection E as <- _. destruct (Hm k x Hx) as (p & ps & Hp). exists p, (strings (JArr ps)).
    apply (Permutation_in _ (Permutation_sym open_manifest)), in_map_iff. exists (k, JArr (JStr p :: ps)). split; [reflexivity|auto].
  Qed.

  Lemma open_logical v p : in_version i v p -> plain_path p.
  Proof using O.
    intros [d Hs]. apply in_state_iff in Hs as [l [Hi Hp]]; [|exact (op_dicts _ _ _ (oa_opened _ _ _ _ _ _ _ O))]. destruct (open_state v (state_some v d l Hi)) as (st & _ & (_ & _ & Hl & _) & P).
    pose proof (Permutation_in _ P Hi) as Hi'. apply in_map_iff in Hi' as ([k x] & E & Hx). cbn [fst snd] in E. injection E as _ <-. apply Hl. apply in_flat_map. exists (k, x). auto.
  Qed.

  Lemma open_content d c : stored i d c -> content_path as_coded f c.
  Proof using O.
    intros (m & l & Em & Hi & Hc). assert (Hi' : In (d, l) (manifest i)) by (unfold manifest; now rewrite Em). apply (Permutation_in _ open_manifest), in_map_iff in Hi' as ([k x] & E & Hx).
    cbn [fst snd] in E. injection E as _ <-. pose proof (oa_obeys _ _ _ _ _ _ _ O) as (_ & _ & _ & _ & (_ & _ & _ & Hp & _) & _). apply Hp. apply in_flat_map. exists (k, x). auto.
  Qed.
End Opened.

(** ** The digests of a manifest under another algorithm *)

Definition fnew_of (H : hashfn) (a : str) (w : node) (h : place) (m : block) (d : str) : str :=
  match dget d m with
  | Some (c :: _) => match ObjectModel.fs_digest H a w h c with Ok x => x | Raise _ => [] end
  | _ => []
  end.

Lemma new_manifest_inv H a w h m : forall A B R,
  efold (fun acc kv => let* d := new_digest H a w h (snd kv) in Ok (dset (fst kv) d (fst acc), dset d (snd kv) (snd acc))) m (A, B) = Ok R ->
  forall d l, In (d, l) m -> exists x, new_digest H a w h l = Ok x.
Proof.
  induction m as [|[d l] m IH]; intros A B R E d' l' Hi; [destruct Hi|]. cbn [efold] in E. apply ebind_ok in E as [acc [E1 E2]]. cbn [fst snd] in E1. apply ebind_ok in E1 as [x [Ex E1]]. apply Ok_inv in E1. subst acc.
  destruct Hi as [Hi|Hi]; [injection Hi as <- <-; eauto|]. eapply IH; eauto.
Qed.

Lemma new_digest_head H a w h l x : new_digest H a w h l = Ok x -> exists c r, l = c :: r /\ ObjectModel.fs_digest H a w h c = Ok x.
Proof.
  unfold new_digest. destruct l as [|c r]; [discriminate|]. intros E. apply ebind_ok in E as [y [E1 E]]. apply ebind_ok in E as [? [_ E]]. apply Ok_inv in E. subst y. eauto.
Qed.


Lemma change_fixity_fields old a types i : let i2 := change_fixity old a types i in
  i_versions i2 = i_versions i /\ i_head i2 = i_head i /\ i_manifest i2 = i_manifest i /\ i_alg i2 = i_alg i /\ i_id i2 = i_id i /\ i_cdir i2 = i_cdir i /\ i_type i2 = i_type i.
Proof.
  unfold change_fixity. destruct types as [l|].
  - destruct (i_fixity i); cbn; repeat split; reflexivity.
  - destruct (negb _ && negb _); [|repeat split; reflexivity]. unfold add_fixity_type. cbn. repeat split; reflexivity.
Qed.

(** What one inventory says about versions is what another one says. *)
Definition same_versions (i j : inventory) : Prop :=
  (forall v, is_version j v <-> is_version i v) /\ (forall v p, in_version j v p <-> in_version i v p) /\ (forall v p c, resolves j v p c <-> resolves i v p c).

Lemma remap_same f L i j vs : i_versions i = Some vs -> i_versions j = Some (remap_versions f L vs) -> incl (keys vs) L ->
  i_manifest j = Some (remap f (manifest i)) ->
  (forall d d', In d (keys (manifest i)) -> In d' (keys (manifest i)) -> f d = f d' -> d = d') ->
  (forall v d p, in_state i v d p -> In d (keys (manifest i))) ->
  same_versions i j.
Proof.
  intros Ev Ej HL Em Hf Hk.
  assert (St : forall v d p, in_state j v d p <-> exists d0, d = f d0 /\ in_state i v d0 p).
  { intros v d p. split.
    - intros (vs' & b & st & l & E1 & E2 & E3 & E4 & E5). rewrite Ej in E1. apply Some_inv in E1. subst vs'.
      apply in_map_iff in E2 as ([v0 b0] & E & Hb). cbn [fst snd] in E. injection E as -> <-.
      assert (Hl : str_in v L = true) by (apply str_in_true, HL; now apply (in_map fst) in Hb). rewrite Hl in E3. cbn in E3. apply Some_inv in E3. subst st.
      apply In_remap in E4 as (d0 & -> & E4). exists d0. split; [auto|]. destruct (vb_state b0) as [st|] eqn:Es; [|destruct E4]. exists vs, b0, st, l. auto.
    - intros (d0 & -> & vs' & b & st & l & E1 & E2 & E3 & E4 & E5). rewrite Ev in E1. apply Some_inv in E1. subst vs'.
      assert (Hl : str_in v L = true) by (apply str_in_true, HL; now apply (in_map fst) in E2).
      exists (remap_versions f L vs), (remap_version f b), (remap f st), l. split; [auto|]. split; [apply in_map_iff; exists (v, b); cbn [fst snd]; rewrite Hl; auto|]. cbn. rewrite E3. split; [reflexivity|]. split; [apply In_remap; eauto|auto]. }
  assert (Sto : forall d c, stored j d c <-> exists d0, d = f d0 /\ stored i d0 c).
  { intros d c. rewrite !stored_iff. split.
    - intros (l & Hi & Hc). unfold manifest in Hi at 1. rewrite Em in Hi. cbn [or_empty] in Hi. apply In_remap in Hi as (d0 & -> & Hi). exists d0. split; [auto|]. apply stored_iff. exists l. auto.
    - intros (d0 & -> & Hs). apply stored_iff in Hs as (l & Hi & Hc). exists l. split; [|auto]. unfold manifest at 1. rewrite Em. cbn [or_empty]. apply In_remap. eauto. }
  split; [|split].
  - intros v. split.
    + intros (vs' & b & E1 & E2). rewrite Ej in E1. apply Some_inv in E1. subst vs'. apply in_map_iff in E2 as ([v0 b0] & E & Hb). cbn [fst snd] in E. injection E as -> _. exists vs, b0. auto.
    + intros (vs' & b & E1 & E2). rewrite Ev in E1. apply Some_inv in E1. subst vs'. exists (remap_versions f L vs). eexists. split; [auto|]. apply in_map_iff. exists (v, b). split; [reflexivity|auto].
  - intros v p. split.
    + intros [d Hd]. apply St in Hd as (d0 & _ & Hd). exists d0. exact Hd.
    + intros [d Hd]. exists (f d). apply St. eauto.
  - intros v p c. split.
    + intros (d & H1 & H2). apply St in H1 as (d1 & -> & H1). apply Sto in H2 as (d2 & E & H2). exists d1. split; [auto|]. assert (d1 = d2); [|now subst].
      apply Hf; auto; [eapply Hk; eauto|]. apply stored_iff in H2 as (l & Hi & _). now apply (in_map fst) in Hi.
    + intros (d & H1 & H2). exists (f d). split; [apply St|apply Sto]; eauto.
Qed.

Lemma remap_more f L i j vs : dicts_ok i -> (forall v, unique_paths i v) -> i_versions i = Some vs -> i_versions j = Some (remap_versions f L vs) ->
  i_manifest j = Some (remap f (manifest i)) ->
  (forall d d', In d (keys (manifest i)) -> In d' (keys (manifest i)) -> f d = f d' -> d = d') ->
  (forall v b d l, In (v, b) vs -> In (d, l) (or_empty (vb_state b)) -> In d (keys (manifest i))) ->
  dicts_ok j /\ (forall v, unique_paths j v) /\ forall c, (exists d, stored j d c) <-> exists d, stored i d c.
Proof.
  intros (D1 & D2 & D3) Hu Ev Ej Em Hf Hk.
  assert (Inj : forall l, incl l (keys (manifest i)) -> NoDup l -> NoDup (map f l)).
  { induction l as [|x l IH]; intros Hl Hn; [constructor|]. inversion Hn. subst. cbn [map]. constructor; [|apply IH; [intros y Hy; apply Hl; now right|auto]].
    intros Hi. apply in_map_iff in Hi as (y & Ey & Hy). apply Hf in Ey; [subst; auto|apply Hl; now right|apply Hl; now left]. }
  assert (St : forall v b st, In (v, b) (remap_versions f L vs) -> vb_state b = Some st -> exists b0, In (v, b0) vs /\ (st = remap f (or_empty (vb_state b0)) \/ vb_state b0 = Some st)).
  { intros v b st Hi Es. apply in_map_iff in Hi as ([v0 b0] & E & Hb). cbn [fst snd] in E. destruct (str_in v0 L) eqn:El; injection E as -> <-; exists b0; split; auto.
    left. cbn in Es. congruence. }
  split; [split; [|split]|split].
  - intros m E. rewrite Em in E. apply Some_inv in E. subst m. change (map fst (remap f (manifest i))) with (keys (remap f (manifest i))). rewrite remap_keys. apply Inj; [apply incl_refl|].
    destruct (i_manifest i) as [m|] eqn:E; [unfold manifest; rewrite E; now apply D1|unfold manifest; rewrite E; constructor].
  - intros vs' E. rewrite Ej in E. apply Some_inv in E. subst vs'. assert (Ef : map fst (remap_versions f L vs) = map fst vs) by (unfold remap_versions; rewrite map_map; apply map_ext; intros [v b]; reflexivity). rewrite Ef. now apply D2.
  - intros vs' v b st E Hi Es. rewrite Ej in E. apply Some_inv in E. subst vs'. destruct (St v b st Hi Es) as (b0 & Hb & [-> |E0]); [|eapply D3; eauto].
    destruct (vb_state b0) as [st0|] eqn:E0; [|constructor]. cbn [or_empty]. change (map fst (remap f st0)) with (keys (remap f st0)). rewrite remap_keys. apply Inj; [|eapply (D3 vs v b0); eauto].
    intros d Hd. apply in_map_iff in Hd as ([d1 l1] & Ed & Hd). cbn in Ed. subst d1. apply (Hk v b0 d l1 Hb). now rewrite E0.
  - intros v vs' b st E Hi Es. rewrite Ej in E. apply Some_inv in E. subst vs'. destruct (St v b st Hi Es) as (b0 & Hb & [-> |E0]); [|eapply Hu; eauto].
    unfold remap. rewrite map_map. cbn [snd]. destruct (vb_state b0) as [st0|] eqn:E0; [|constructor]. eapply (Hu v vs b0); eauto.
  - intros c. split; intros [d Hs]; apply stored_iff in Hs as (l & Hi & Hc).
    + unfold manifest in Hi. rewrite Em in Hi. cbn [or_empty] in Hi. apply In_remap in Hi as (d0 & _ & Hi). exists d0. apply stored_iff. exists l. auto.
    + exists (f d). apply stored_iff. exists l. split; [|auto]. unfold manifest. rewrite Em. cbn [or_empty]. apply In_remap. eauto.
Qed.

Theorem change_keeps H w h i s inv i0 f da types i3 o : open_at w h i s inv i0 f ->
  (match da with Some a => a | None => f_alg f end <> f_alg f -> kept_apart H (match da with Some a => a | None => f_alg f end) w h i) ->
  start_inventory_change H da types w h i = Ok (i3, o) ->
  same_versions i i3 /\ o = Some (f_alg f) /\ i_head i3 = i_head i /\ i_alg i3 = Some (match da with Some a => a | None => f_alg f end) /\
  i_cdir i3 = i_cdir i /\ dicts_ok i3 /\ (forall v, unique_paths i3 v) /\ forall c, (exists d, stored i3 d c) <-> exists d, stored i d c.
Proof.
  intros O Ka E. pose proof (oa_opened _ _ _ _ _ _ _ O) as Op. unfold start_inventory_change in E. rewrite (oa_alg _ _ _ _ _ _ _ O) in E.
  set (a := match da with Some a => a | None => f_alg f end) in *. set (i2 := change_fixity (f_alg f) a types (set_alg (Some a) i)) in E.
  destruct (change_fixity_fields (f_alg f) a types (set_alg (Some a) i)) as (F1 & F2 & F3 & F4 & _ & F5 & _). fold i2 in F1, F2, F3, F4, F5. cbn in F1, F2, F3, F4, F5.
  apply ebind_ok in E as [i3' [E E']]. apply Ok_inv in E'. injection E' as -> <-.
  assert (Em : manifest i2 = manifest i) by (unfold manifest; now rewrite F3).
  destruct (open_versions _ _ _ _ _ _ _ O) as (vs & Ev & Nv). assert (Ev2 : i_versions i2 = Some vs) by now rewrite F1.
  destruct (str_eqb_spec a (f_alg f)) as [Ea|Hne].
  { apply Ok_inv in E. subst i3. assert (Sto : forall d c, stored (set_manifest (manifest i2) i2) d c <-> stored i d c).
    { intros d c. rewrite !stored_iff. unfold manifest at 1. cbn [i_manifest set_manifest or_empty]. rewrite Em. reflexivity. }
    assert (St : forall v d p, in_state (set_manifest (manifest i2) i2) v d p <-> in_state i v d p).
    { intros v d p. unfold in_state. cbn [i_versions set_manifest]. rewrite F1. reflexivity. }
    split; [|split; [auto|split; [auto|split; [auto|split; [auto|split; [|split]]]]]].
    2:{ destruct (op_dicts _ _ _ Op) as (D1 & D2 & D3). split; [|split].
        - intros m E. cbn in E. apply Some_inv in E. subst m. rewrite Em. exact (dicts_manifest i (op_dicts _ _ _ Op)).
        - intros vs' E. cbn in E. rewrite F1 in E. now apply D2.
        - intros vs' v b st E. cbn in E. rewrite F1 in E. now apply D3. }
    2:{ intros v vs' b st E. cbn in E. rewrite F1 in E. exact (op_unique _ _ _ Op v vs' b st E). }
    2:{ intros c. split; intros [d Hd]; exists d; now apply Sto. }
    split; [|split].
    - intros v. unfold is_version. cbn [i_versions set_manifest]. rewrite F1. reflexivity.
    - intros v p. unfold in_version. split; intros [d Hd]; exists d; now apply St.
    - intros v p c. unfold resolves. split; intros (d & H1 & H2); exists d; (split; [now apply St|now apply Sto]). }
  specialize (Ka Hne). unfold change_digests in E. apply ebind_ok in E as [[O1 M1] [E1 E]]. apply ebind_ok in E as [L [EL E]]. apply ebind_ok in E as [i4 [E4 E]]. apply Ok_inv in E.
  rewrite Em in E1. set (g := fnew_of H a w h (manifest i)).
  pose proof (dicts_manifest i (op_dicts _ _ _ Op)) as Nm.
  assert (Hd : forall d l, In (d, l) (manifest i) -> new_digest H a w h l = Ok (g d)).
  { intros d l Hi. destruct (new_manifest_inv H a w h (manifest i) [] [] _ E1 d l Hi) as [x Hx]. rewrite Hx. f_equal. destruct (new_digest_head _ _ _ _ _ _ Hx) as (c & r & -> & Ec).
    unfold g, fnew_of. rewrite (In_dget d (c :: r) (manifest i) Nm Hi), Ec. reflexivity. }
  assert (Hg : forall d d', In d (keys (manifest i)) -> In d' (keys (manifest i)) -> g d = g d' -> d = d').
  { intros d d' K1 K2 Eg. apply in_map_iff in K1 as ([d1 l1] & E1' & I1). apply in_map_iff in K2 as ([d2 l2] & E2' & I2). cbn in E1', E2'. subst d1 d2.
    pose proof (Hd _ _ I1) as N1. pose proof (Hd _ _ I2) as N2. destruct (new_digest_head _ _ _ _ _ _ N1) as (c1 & r1 & -> & D1). destruct (new_digest_head _ _ _ _ _ _ N2) as (c2 & r2 & -> & D2).
    unfold ObjectModel.fs_digest in D1, D2. apply ebind_ok in D1 as [b1 [R1 D1]]. apply ebind_ok in D2 as [b2 [R2 D2]]. apply file_digest_iff in D1, D2. rewrite <- Eg in D2.
    eapply (Ka d c1 b1 d' c2 b2); eauto; apply stored_iff; eexists; (split; [eassumption|now left]). }
  rewrite (new_manifest_ok H a w h g (manifest i) Hd Nm Hg) in E1. apply Ok_inv in E1. injection E1 as <- <-.
  assert (HO : forall d, In d (keys (manifest i)) -> dget d (map (fun kv => (fst kv, g (fst kv))) (manifest i)) = Some (g d)).
  { intros d Hi. apply In_dget; [unfold keys; rewrite map_map; exact Nm|]. apply in_map_iff in Hi as ([d1 l1] & E' & Hi). cbn in E'. subst d1. apply in_map_iff. exists (d, l1). auto. }
  apply version_directories_ok in EL as [PL _]. assert (Ek : keys (versions_block i2) = keys vs) by (unfold versions_block; now rewrite Ev2). rewrite Ek in PL.
  assert (Hkey : forall v d l, In (d, l) (state i v) -> In d (keys (manifest i))).
  { intros v d l Hi. destruct (open_digest _ _ _ _ _ _ _ O v d l Hi) as (c & cs & Hc). now apply (in_map fst) in Hc. }
  assert (Hst : forall v b, In (v, b) vs -> state i v = or_empty (vb_state b)).
  { intros v b Hb. unfold state, versiondata, versions_block. rewrite Ev. cbn [or_empty]. now rewrite (In_dget v b vs Nv Hb). }
  rewrite (states_go g _ L i2 vs Ev2 Nv (Permutation_NoDup (Permutation_sym PL) Nv)) in E4.
  2:{ intros v Hv. exact (Permutation_in _ PL Hv). }
  2:{ intros v b _ Hb. rewrite <- (Hst v b Hb). apply new_state_ok.
      - intros d l Hi. apply HO. eapply Hkey; eauto.
      - exact (dicts_state i v (op_dicts _ _ _ Op)).
      - intros d d' K1 K2. apply in_map_iff in K1 as ([d1 l1] & E1' & I1). apply in_map_iff in K2 as ([d2 l2] & E2' & I2). cbn in E1', E2'. subst d1 d2. apply Hg; eapply Hkey; eauto. }
  apply Ok_inv in E4. subst i4 i3. split; [|split; [auto|split; [auto|split; [auto|split; [auto|]]]]].
  2:{ apply (remap_more g L i _ vs (op_dicts _ _ _ Op) (op_unique _ _ _ Op) Ev); [reflexivity|reflexivity|exact Hg|]. intros v b d l Hb. rewrite <- (Hst v b Hb). apply Hkey. }
  apply (remap_same g L i _ vs Ev).
  - reflexivity.
  - intros v Hv. exact (Permutation_in _ (Permutation_sym PL) Hv).
  - reflexivity.
  - exact Hg.
  - intros v d p Hs. apply in_state_iff in Hs as [l [Hi _]]; [|exact (op_dicts _ _ _ Op)]. eapply Hkey; eauto.
Qed.

(** ** The version that is added *)

Lemma sorted_last (vs : list str) ns : forall v, Forall2 numbered vs ns -> StronglySorted N.le ns -> last_opt vs = Some v ->
  exists n, numbered v n /\ Forall (fun m => (m <= n)%N) ns.
Proof.
  intros v F S E. destruct vs as [|x t _] using rev_ind; [discriminate|]. rewrite last_opt_app in E. apply Some_inv in E. subst x.
  apply Forall2_app_inv_l in F as (n1 & n2 & F1 & F2 & ->). inversion F2 as [|a n b l Hn Hl]. subst. inversion Hl. subst. exists n. split; [auto|].
  clear F1 F2. induction n1 as [|m n1 IH]; cbn [app] in *; [constructor; [lia|constructor]|]. inversion S as [|a b S1 S2]. subst. constructor; [|auto].
  rewrite Forall_forall in S2. apply S2. apply in_or_app. right. now left.
Qed.

Lemma emap_numbered vs ns ns' : Forall2 numbered vs ns -> emap parse_version_directory vs = Ok ns' -> ns' = ns.
Proof.
  intros F. revert ns'. induction F as [|v n vs ns Hn F IH]; intros ns' E; cbn [emap] in E; [now apply Ok_inv in E|].
  unfold numbered in Hn. rewrite Hn in E. cbn [ebind] in E. apply ebind_ok in E as [r [Er E]]. apply Ok_inv in E. subst ns'. f_equal. auto.
Qed.

(** The next version is a new one. *)
Lemma next_new i v : numbered_versions i -> next_directory i None = Ok v -> ~ is_version i v.
Proof.
  intros Hn E Hv. unfold next_directory in E. apply ebind_ok in E as [vs [Ev E]]. apply ebind_ok in E as [ns' [En E]].
  destruct (version_directories_spec i vs Hn Ev) as [Hi (ns0 & Fn & _)]. apply version_directories_ok in Ev as [_ (ns & F & S)]. apply (emap_numbered _ _ _ F) in En. subst ns'.
  apply Hi in Hv as Hv'. destruct (Forall2_in_l _ _ _ F v Hv') as (m & Hm & Nm). destruct (Forall2_in_l _ _ _ Fn v Hv') as (m' & _ & Nm').
  assert (m' = m) by (apply number_parse in Nm'; unfold numbered in Nm; congruence). subst m'.
  assert (M0 : forall l a, In m l -> (m <= fold_left N.max l a)%N).
  { assert (G : forall l a b, (a <= b)%N -> (a <= fold_left N.max l b)%N) by (induction l as [|x l IH]; intros a b Hab; cbn; [auto|apply IH; lia]).
    induction l as [|x l IH]; intros a Hx; [destruct Hx|]. cbn. destruct Hx as [->|Hx]; [apply G; lia|auto]. }
  destruct Nm' as (_ & Nz & Hlen). specialize (M0 ns 0%N Hm). destruct (N.eqb_spec (fold_left N.max ns 0%N) 0) as [Ez|_]; [lia|].
  destruct (last_opt vs) as [x|] eqn:El; [|discriminate]. destruct (sorted_last vs ns x F S El) as (n & Hx & Hmax).
  rewrite Forall_forall in Hmax. specialize (Hmax m Hm). pose proof (C01_parse_next x v n E Hx Hlen) as P. unfold numbered in Nm. rewrite P in Nm. apply Ok_inv in Nm. lia.
Qed.

Record next_of (i : inventory) (carry : bool) (nv : new_version) (v : str) : Prop := {
  nx_head : i_head (nv_inv nv) = Some v;
  nx_new : ~ is_version i v;
  nx_versions : forall x, is_version (nv_inv nv) x <-> is_version i x \/ x = v;
  nx_state : forall x d p, is_version i x -> (in_state (nv_inv nv) x d p <-> in_state i x d p);
  nx_added : forall d p, in_state (nv_inv nv) v d p <-> carry = true /\ exists h, i_head i = Some h /\ in_state i h d p;
  nx_manifest : i_manifest (nv_inv nv) = i_manifest i;
  nx_alg : i_alg (nv_inv nv) = i_alg i;
  nx_fixity : i_fixity (nv_inv nv) = i_fixity i;
  nx_copy : nv_copy nv = []
}.

Lemma next_keeps i spec md norm fd dd carry old nv : dicts_ok i -> numbered_versions i -> (forall b, md = Some b -> vb_state b = None) ->
  next_version i spec md norm fd dd carry old = Ok nv -> exists v, next_of i carry nv v.
Proof.
  intros Di Hn Hmd E. unfold next_version in E. apply ebind_ok in E as [i1 [E1 E]].
  assert (F : i_versions i1 = i_versions i /\ i_manifest i1 = i_manifest i /\ i_head i1 = i_head i /\ i_alg i1 = i_alg i /\ i_fixity i1 = i_fixity i).
  { destruct (spec_version i) as [s|]; [|discriminate]. destruct (str_eqb spec s); [apply Ok_inv in E1; subst; auto|].
    destruct (str_ltb spec s); [discriminate|]. apply Ok_inv in E1. subst i1. repeat split; reflexivity. }
  destruct F as (F1 & F2 & F3 & F4 & F5). set (st := if carry then match i_head i1 with Some h => state i1 h | None => [] end else []) in E.
  destruct (add_version None md (Some st) None i1) as [i2 [v|e]] eqn:Ea; [|discriminate]. apply Ok_inv in E. subst nv. exists v.
  unfold add_version in Ea. destruct (next_directory i1 None) as [u|e] eqn:En; [|discriminate]. injection Ea as Ei ->.
  assert (En' : next_directory i None = Ok v) by (unfold next_directory, version_directories, versions_block in *; now rewrite F1 in En).
  pose proof (next_new i v Hn En') as Nv. set (b := match md with Some b => b | None => empty_vblock end) in Ei.
  assert (Ev : i_versions i2 = Some (dset v (with_state st b) (versions_block i))) by (subst i2; cbn; unfold versions_block; now rewrite F1).
  pose proof (dicts_versions i Di) as Nk. assert (Nk' : NoDup (keys (dset v (with_state st b) (versions_block i)))) by now apply NoDup_dset.
  assert (Hin : forall x y, In (x, y) (dset v (with_state st b) (versions_block i)) <-> (x <> v /\ In (x, y) (versions_block i)) \/ (x = v /\ y = with_state st b)).
  { intros x y. split.
    - intros Hi. apply (In_dget x y _ Nk') in Hi. rewrite dget_dset in Hi. destruct (str_eqb_spec x v) as [->|Hx]; [right; apply Some_inv in Hi; auto|left; split; [auto|now apply dget_In]].
    - intros [[Hx Hi]|[-> ->]]; apply dget_In; rewrite dget_dset; [|now rewrite str_eqb_refl]. destruct (str_eqb_spec x v); [congruence|]. now apply In_dget. }
  constructor; cbn [nv_inv nv_copy].
  - subst i2. reflexivity.
  - exact Nv.
  - intros x. rewrite !is_version_keys. assert (Ek : versions_block i2 = dset v (with_state st b) (versions_block i)) by (unfold versions_block at 1; now rewrite Ev). rewrite Ek.
    split.
    + intros Hi. apply in_map_iff in Hi as ([x' y] & Ex & Hi). cbn in Ex. subst x'. apply Hin in Hi as [[_ Hi]|[-> _]]; [left; now apply (in_map fst) in Hi|now right].
    + intros [Hi|Ex].
      * apply in_map_iff in Hi as ([x' y] & Ex & Hi). cbn in Ex. subst x'. destruct (str_eqb_spec x v) as [->|Hx].
        -- apply in_map_iff. exists (v, with_state st b). split; [reflexivity|]. apply Hin. now right.
        -- apply in_map_iff. exists (x, y). split; [reflexivity|]. apply Hin. left. auto.
      * subst x. apply in_map_iff. exists (v, with_state st b). split; [reflexivity|]. apply Hin. now right.
  - intros x d p Hx. assert (Hxv : x <> v) by (intros ->; auto). split.
    + intros (vs & y & s & l & G1 & G2 & G3). rewrite Ev in G1. apply Some_inv in G1. subst vs. apply Hin in G2 as [[_ G2]|[G2 _]]; [|congruence].
      unfold versions_block in G2. destruct (i_versions i) as [vs|] eqn:Evs; [|destruct G2]. exists vs, y, s, l. auto.
    + intros (vs & y & s & l & G1 & G2 & G3). eexists _, y, s, l. split; [exact Ev|]. split; [|exact G3]. apply Hin. left. split; [auto|]. unfold versions_block. now rewrite G1.
  - intros d p. split.
    + intros (vs & y & s & l & G1 & G2 & G3 & G4 & G5). rewrite Ev in G1. apply Some_inv in G1. subst vs. apply Hin in G2 as [[Hc _]|[_ ->]]; [congruence|].
      cbn in G3. apply Some_inv in G3. subst s. unfold st in G4. destruct carry; [|destruct G4]. split; [auto|]. rewrite F3 in G4. destruct (i_head i) as [h|]; [|destruct G4]. exists h. split; [auto|].
      apply in_state_iff; [auto|]. unfold state, versiondata, versions_block in *. rewrite F1 in G4. exists l. auto.
    + intros (-> & h & Eh & Hs). apply in_state_iff in Hs as [l [G4 G5]]; [|auto]. eexists _, (with_state st b), st, l. split; [exact Ev|]. split; [apply Hin; now right|]. split; [reflexivity|]. split; [|auto].
      unfold st. rewrite F3, Eh. unfold state, versiondata, versions_block in *. now rewrite F1.
  - subst i2. cbn. exact F2.
  - subst i2. cbn. exact F4.
  - subst i2. cbn. exact F5.
  - reflexivity.
Qed.

(** ** start_new_version *)

Lemma seq_ok {A B} (x : io A) (k : A -> io B) w r : result (ibind x k) w = Ok r -> exists a, result x w = Ok a /\ result (k a) (after x w) = Ok r /\ after (ibind x k) w = after (k a) (after x w).
Proof. intros E. pose proof E as E0. rewrite ibind_result in E. destruct (result x w) as [a|e] eqn:Ex; [|discriminate]. exists a. split; [auto|]. split; [auto|]. now apply after_seq. Qed.

Lemma openfs_still cwd d ok w : after (fsw_openfs cwd d false ok) w = w.
Proof.
  unfold fsw_openfs. destruct (match split_url d with None => _ | Some mp => mp end) as [method path]. destruct (str_eqb method _); [|reflexivity].
  rewrite after_read. destruct (fs_isdir _ _ _); reflexivity.
Qed.
Lemma open_obj_still e d w : after (open_obj_fs e d false) w = w.
Proof.
  unfold open_obj_fs. destruct d as [d|]; [|reflexivity]. pose proof (openfs_still (e_cwd e) d true w) as E. unfold after in *.
  destruct (fsw_openfs (e_cwd e) d false true w) as [s [a|[]]]; exact E.
Qed.
Lemma open_src_still e d w : after (open_src_fs e d) w = w.
Proof. destruct d as [d|]; [apply openfs_still|reflexivity]. Qed.

Lemma start_inv H c e objdir srcdir da types metadata carry w h src nv :
  result (start_new_version H c e objdir srcdir da types metadata carry) w = Ok (h, src, nv) ->
  exists i s i3 o, result (open_obj_fs e objdir false) w = Ok h /\ result (open_src_fs e srcdir) w = Ok src /\
    snd (validate_object H (mkVconf false (o_lax c) DEFAULT_SPEC_VERSION (e_sizes e)) w (e_cwd e) (or_empty objdir) 0) = Ok true /\
    parse_inventory w h = Ok (i, s) /\ start_inventory_change H da types w h i = Ok (i3, o) /\
    next_version i3 DEFAULT_SPEC_VERSION (metadata_dict e metadata) (o_norm c) (o_forward_delta c) (o_dedupe c) carry o = Ok nv /\
    after (start_new_version H c e objdir srcdir da types metadata carry) w = w.
Proof.
  intros E. unfold start_new_version in E |- *. apply seq_ok in E as (h' & E1 & E & A1). rewrite open_obj_still in E, A1. rewrite A1. clear A1.
  rewrite result_read in E. rewrite after_read. destruct (snd (validate_object _ _ _ _ _ _)) as [ok|] eqn:Ev; [|discriminate]. destruct ok; [|discriminate]. cbn [negb] in *.
  rewrite result_read in E. rewrite after_read. destruct (parse_inventory w h') as [[i s]|] eqn:Ep; [|discriminate]. cbn [ebind fst] in *.
  destruct (start_inventory_change H da types w h' i) as [[i3 o]|] eqn:Es; [|discriminate]. apply seq_ok in E as (src' & E2 & E & A2). rewrite open_src_still in E, A2. rewrite A2. clear A2.
  rewrite result_read in E. rewrite after_read. cbn [fst snd] in *. destruct (next_version _ _ _ _ _ _ _ _) as [nv'|] eqn:En; [|discriminate]. apply Ok_inv in E. injection E as <- <- <-.
  exists i, s, i3, o. repeat split; auto.
Qed.
