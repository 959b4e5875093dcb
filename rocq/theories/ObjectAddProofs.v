(** Adding the files of a source directory to a sound inventory (C34-C36, C39). *)
From Coq Require Import Permutation Sorted.
From Verif Require Import Base Unicode Regex Utf8 Json PyJson JsonTextModel JsonTextSpec JsonTextProofs JsonFileProofs Log DigestModel LayoutModel
  ObjectUtilsModel ObjectUtilsProofs InventorySpec InventoryValidatorModel InventoryValidatorProofs InventoryRulesProofs
  InventoryModel InventoryOpsSpec InventoryOpsProofs NewVersionModel NewVersionProofs VersionNumberProofs InventoryParseProofs ParseModel
  ContentPathProofs TextFile PathModel FsModel FsSpec FsProofs ValidatorBasicProofs ObjectModel ObjectSpec ObjectInvProofs ObjectRulesProofs ObjectParseProofs.

(** ** One more path *)

Lemma good_paths_cons p ps : good_paths ps -> ~ In p ps -> (exists r, r <> [] /\ Forall fname r /\ p = join [PathModel.slash] r /\ text p) ->
  (forall q, In q ps -> ~ above p q /\ ~ above q p) -> good_paths (p :: ps).
Proof.
  intros [H1 H2 H3] Hp Hr Ha. constructor.
  - intros q [<-|Hq]; auto.
  - now constructor.
  - intros q1 q2 [<-|Hq1] [<-|Hq2]; auto.
    + intros [r E]. apply (f_equal (@List.length N)) in E. rewrite app_length in E. cbn in E. lia.
    + apply Ha; auto.
    + apply Ha; auto.
Qed.

Lemma append_In b k x d l : NoDup (keys b) -> In (d, l) (append_to k x b) ->
  (d = k /\ exists l0, l = l0 ++ [x] /\ (l0 = [] \/ In (d, l0) b)) \/ (d <> k /\ In (d, l) b).
Proof.
  intros Hn Hi. unfold append_to in Hi.
  assert (Hn' : forall y, NoDup (keys (dset k y b))) by (intros y; now apply NoDup_dset).
  destruct (dget k b) as [l0|] eqn:E; apply In_dget in Hi; auto; rewrite dget_dset in Hi.
  - destruct (str_eqb_spec d k) as [->|Hne].
    + left. split; [auto|]. exists l0. injection Hi as <-. split; [auto|]. right. now apply dget_In.
    + right. split; [auto|]. now apply dget_In.
  - destruct (str_eqb_spec d k) as [->|Hne].
    + left. split; [auto|]. exists []. injection Hi as <-. auto.
    + right. split; [auto|]. now apply dget_In.
Qed.
Lemma append_keep b k x d c cs : NoDup (keys b) -> In (d, c :: cs) b -> exists cs', In (d, c :: cs') (append_to k x b).
Proof.
  intros Hn Hi. pose proof (In_dget _ _ _ Hn Hi) as Hg. unfold append_to. destruct (str_eqb_spec d k) as [->|Hne].
  - rewrite Hg. exists (cs ++ [x]). apply dget_In. now rewrite dget_dset_same.
  - exists cs. destruct (dget k b); apply dget_In; now rewrite dget_dset_other.
Qed.
Lemma append_new b k x : NoDup (keys b) -> exists c cs, In (k, c :: cs) (append_to k x b).
Proof.
  intros Hn. unfold append_to. destruct (dget k b) as [[|c cs]|] eqn:E.
  - exists x, []. apply dget_In. now rewrite dget_dset_same.
  - exists c, (cs ++ [x]). apply dget_In. now rewrite dget_dset_same.
  - exists x, []. apply dget_In. now rewrite dget_dset_same.
Qed.
Lemma append_keys b k x : NoDup (keys b) -> NoDup (keys (append_to k x b)).
Proof. intros Hn. unfold append_to. destruct (dget k b); now apply NoDup_dset. Qed.

(** ** One more file in the head version *)

Definition add_step (h d p : str) (oc : option str) (i : inventory) : inventory :=
  let i1 := set_state h (append_to d p (state i h)) i in
  match oc with Some c => set_manifest (append_to d c (manifest i)) i1 | None => i1 end.

Lemma set_state_versions h s i vs b : i_versions i = Some vs -> dget h vs = Some b ->
  set_state h s i = set_versions (dset h (with_state s b) vs) i.
Proof. intros Hv Hb. unfold set_state, update_version, versions_block. rewrite Hv. cbn [or_empty]. now rewrite Hb. Qed.

Lemma dset_others {A} k (x : A) d k' x' : k' <> k -> (In (k', x') (dset k x d) <-> In (k', x') d).
Proof.
  intros Hk. induction d as [|[k0 x0] d IH]; cbn [dset].
  - cbn [In]. split; [intros [E|[]]; congruence|intros []].
  - destruct (str_eqb_spec k k0) as [<-|Hne]; cbn [In]; [|now rewrite IH].
    split; intros [E|Hi]; auto; congruence.
Qed.

(** The state of version v. *)
Definition state_block (i : inventory) (v : str) (s : block) : Prop :=
  exists vs b, i_versions i = Some vs /\ In (v, b) vs /\ vb_state b = Some s.

Lemma set_state_others h s i v x : v <> h -> (state_block (set_state h s i) v x <-> state_block i v x).
Proof.
  intros Hv. unfold state_block, set_state, update_version, versions_block. destruct (i_versions i) as [vs|] eqn:E; cbn [or_empty].
  - destruct (dget h vs) as [b|] eqn:Eb; [|now rewrite E]. cbn [set_versions i_versions]. split.
    + intros (vs' & b' & Ev & Hb & Hs). apply Some_inv in Ev. subst vs'. apply dset_others in Hb; [|auto]. eauto.
    + intros (vs' & b' & Ev & Hb & Hs). apply Some_inv in Ev. subst vs'. exists (dset h (with_state s b) vs), b'. split; [auto|]. split; [|auto]. now apply dset_others.
  - cbn [dget]. now rewrite E.
Qed.
Lemma add_step_others h d p oc i v x : v <> h -> (state_block (add_step h d p oc i) v x <-> state_block i v x).
Proof. intros Hv. unfold add_step. destruct oc; [|now apply set_state_others]. rewrite <- (set_state_others h (append_to d p (state i h)) i v x Hv). reflexivity. Qed.

(** No list of paths is empty. *)
Definition full_block (b : block) : Prop := forall d l, In (d, l) b -> l <> [].
Definition full (i : inventory) : Prop := full_block (manifest i) /\ forall v s, state_block i v s -> full_block s.

Lemma In_dset_either {A} k (x : A) d k' x' : In (k', x') (dset k x d) -> (k' = k /\ x' = x) \/ In (k', x') d.
Proof.
  induction d as [|[k0 x0] d IH]; cbn [dset].
  - intros [E|[]]. left. split; congruence.
  - destruct (str_eqb_spec k k0) as [->|_]; intros [E|Hi]; [left; split; congruence|right; now right|right; now left|]. destruct (IH Hi); [auto|right; now right].
Qed.
Lemma append_full k x b : full_block b -> full_block (append_to k x b).
Proof.
  intros Fb d l Hi. unfold append_to in Hi. destruct (dget k b) as [l0|]; apply In_dset_either in Hi as [[_ ->]|Hi]; eauto; [|discriminate]. destruct l0; discriminate.
Qed.
Lemma set_state_full h s i : full_block (manifest i) -> full_block s -> (forall v x, v <> h -> state_block i v x -> full_block x) ->
  (forall vs, i_versions i = Some vs -> NoDup (keys vs)) -> full (set_state h s i).
Proof.
  intros F1 F2 F3 Nd. split; [now rewrite manifest_set_state|]. intros v x Hx. destruct (str_eqb_spec v h) as [->|Hv]; [|apply (set_state_others h s i v x Hv) in Hx; eauto].
  destruct Hx as (vs & b & E1 & E2 & E3). unfold set_state, update_version in E1. destruct (i_versions i) as [vs0|] eqn:Ev.
  - unfold versions_block in E1. rewrite Ev in E1. cbn [or_empty] in E1. destruct (dget h vs0) as [b0|] eqn:Eb.
    + cbn [set_versions i_versions] in E1. apply Some_inv in E1. subst vs.
      assert (Nd' : NoDup (keys (dset h (with_state s b0) vs0))) by (apply NoDup_dset; eauto).
      pose proof (In_dget _ _ _ Nd' E2) as E4. rewrite dget_dset_same in E4. apply Some_inv in E4. subst b. cbn in E3. apply Some_inv in E3. now subst x.
    + rewrite Ev in E1. apply Some_inv in E1. subst vs. exfalso. apply dget_None in Eb. apply Eb. apply in_map_iff. exists (h, b). auto.
  - unfold versions_block in E1. rewrite Ev in E1. cbn [or_empty dget] in E1. congruence.
Qed.
Lemma step_full h d p oc i : (forall vs, i_versions i = Some vs -> NoDup (keys vs)) -> full i -> full (add_step h d p oc i).
Proof.
  intros Nd [F1 F2]. assert (Fs : full_block (state i h)).
  { intros x l Hi. unfold state, versiondata, versions_block in Hi. destruct (i_versions i) as [vs|] eqn:Ev; cbn [or_empty] in Hi; [|destruct Hi].
    destruct (dget h vs) as [b|] eqn:Eb; [|destruct Hi]. destruct (vb_state b) as [st|] eqn:Es; cbn [or_empty] in Hi; [|destruct Hi].
    apply (F2 h st) with (d := x); [|auto]. exists vs, b. split; [auto|]. split; [now apply dget_In|auto]. }
  assert (F : full (set_state h (append_to d p (state i h)) i)).
  { apply set_state_full; auto; [now apply append_full|]. intros v x _ Hx. eauto. }
  unfold add_step. destruct oc as [c|]; [|exact F]. destruct F as [G1 G2]. split; [|exact G2]. cbn [set_manifest manifest]. unfold manifest at 1. cbn [set_manifest i_manifest or_empty]. now apply append_full.
Qed.

Lemma sound_head_block alg spec n i : sound alg spec n i -> exists vs b st,
  i_versions i = Some vs /\ dget (version_fmt None (N.of_nat n)) vs = Some b /\ vb_state b = Some st /\ state i (version_fmt None (N.of_nat n)) = st /\ NoDup (keys vs).
Proof.
  intros So. destruct (so_versions _ _ _ _ So) as (vs & Hv & P). pose proof (so_range _ _ _ _ So) as [R1 _].
  assert (Hn : NoDup (keys vs)) by (eapply Permutation_NoDup; [apply Permutation_sym, P|apply names_NoDup]).
  assert (Hh : In (version_fmt None (N.of_nat n)) (keys vs)).
  { apply (Permutation_in _ (Permutation_sym P)). apply In_names. exists (n - 1)%nat. split; [lia|]. f_equal. lia. }
  destruct (dget (version_fmt None (N.of_nat n)) vs) as [b|] eqn:Eb; [|apply dget_None in Eb; contradiction].
  pose proof (dget_In _ _ _ Eb) as Hb. destruct (so_blocks _ _ _ _ So vs _ b Hv Hb) as (_ & st & Hs & _). exists vs, b, st.
  split; [auto|]. split; [auto|]. split; [auto|]. split; [|auto]. unfold state, versiondata, versions_block. rewrite Hv. cbn [or_empty]. rewrite Eb, Hs. reflexivity.
Qed.

Section Step.
  Variables (alg spec : str) (n : nat) (i : inventory) (d p : str) (oc : option str).
  Notation h := (version_fmt None (N.of_nat n)).
  Hypothesis So : sound alg spec n i.
  Hypothesis Hd : lower_digest alg d.
  Hypothesis Hp : exists r, r <> [] /\ Forall fname r /\ p = join [PathModel.slash] r /\ text p.
  Hypothesis Hnew : ~ In p (logical_paths i h).
  Hypothesis Hap : forall q, In q (logical_paths i h) -> ~ above p q /\ ~ above q p.
  Hypothesis Hoc : match oc with
    | Some c => content_name n (content_directory_to_use i) c /\ text c /\ ~ In c (content_paths i) /\
        (forall q, In q (content_paths i) -> ~ above c q /\ ~ above q c)
    | None => exists c cs, In (d, c :: cs) (manifest i)
    end.

  Lemma step_manifest : manifest (add_step h d p oc i) = match oc with Some c => append_to d c (manifest i) | None => manifest i end.
  Proof using. clear Hoc. unfold add_step. destruct oc; [reflexivity|apply manifest_set_state]. Qed.

  Lemma step_paths : exists l, Permutation (paths_of (manifest (add_step h d p oc i))) (l ++ paths_of (manifest i)) /\
    l = match oc with Some c => [c] | None => [] end.
  Proof using So.
    clear Hoc.
    rewrite step_manifest. destruct oc as [c|]; eexists; (split; [|reflexivity]); [|reflexivity]. cbn [app].
    apply paths_append_to, (so_keys _ _ _ _ So).
  Qed.
  Lemma step_In_paths q : In q (paths_of (manifest (add_step h d p oc i))) <-> oc = Some q \/ In q (paths_of (manifest i)).
  Proof using So.
    clear Hoc.
    destruct step_paths as (l & P & El). split.
    - intros Hq. apply (Permutation_in _ P) in Hq. rewrite El in Hq. destruct oc as [c|]; [destruct Hq as [<-|Hq]; auto|auto].
    - intros Hq. apply (Permutation_in _ (Permutation_sym P)). rewrite El. destruct Hq as [->|Hq]; [now left|apply in_or_app; auto].
  Qed.

  Lemma step_keeps e c cs : In (e, c :: cs) (manifest i) -> exists cs', In (e, c :: cs') (manifest (add_step h d p oc i)).
  Proof using So.
    clear Hoc.
    intros Hi. rewrite step_manifest. destruct oc; [|eauto]. apply (append_keep _ _ _ _ _ cs); [apply (so_keys _ _ _ _ So)|auto].
  Qed.

  Lemma step_sound : sound alg spec n (add_step h d p oc i).
  Proof using All.
    destruct (sound_head_block _ _ _ _ So) as (vs & b & st & Hv & Hb & Hs & Es & Nv).
    assert (Kst : NoDup (keys st)). { destruct (so_blocks _ _ _ _ So vs h b Hv (dget_In _ _ _ Hb)) as (_ & st' & Hs' & G). assert (st' = st) by congruence. subst. apply (sg_keys _ _ _ G). }
    set (b' := with_state (append_to d p st) b).
    assert (Ei : i_versions (add_step h d p oc i) = Some (dset h b' vs)).
    { unfold add_step. rewrite (set_state_versions h _ i vs b Hv Hb), Es. destruct oc; reflexivity. }
    assert (Er : forall A (f : inventory -> A), (forall m vs' i', f (set_manifest m i') = f i' /\ f (set_versions vs' i') = f i') -> f (add_step h d p oc i) = f i).
    { intros A f Hf. unfold add_step. rewrite (set_state_versions h _ i vs b Hv Hb). destruct oc; [rewrite (proj1 (Hf _ [] _))|]; apply (proj2 (Hf [] _ _)). }
    assert (Ec : content_directory_to_use (add_step h d p oc i) = content_directory_to_use i) by (apply Er; intros; split; reflexivity).
    assert (Km : NoDup (keys (manifest (add_step h d p oc i)))).
    { rewrite step_manifest. destruct oc; [apply append_keys|]; apply (so_keys _ _ _ _ So). }
    assert (Hdm : exists c cs, In (d, c :: cs) (manifest (add_step h d p oc i))).
    { rewrite step_manifest. destruct oc; [apply append_new, (so_keys _ _ _ _ So)|exact Hoc]. }
    assert (Nv' : NoDup (keys (dset h b' vs))) by now apply NoDup_dset.
    assert (Gst : forall st0, state_good alg (manifest i) st0 -> state_good alg (manifest (add_step h d p oc i)) st0).
    { intros st0 [G1 G2 G3]. constructor; auto. intros e l He. destruct (G2 e l He) as (c & cs & Hc). destruct (step_keeps e c cs Hc) as [cs' Hc']. eauto. }
    constructor.
    - rewrite (Er _ i_id) by (intros; split; reflexivity). exact (so_id _ _ _ _ So).
    - rewrite (Er _ i_type) by (intros; split; reflexivity). exact (so_type _ _ _ _ So).
    - exact (so_spec _ _ _ _ So).
    - rewrite (Er _ i_alg) by (intros; split; reflexivity). exact (so_alg _ _ _ _ So).
    - exact (so_algs _ _ _ _ So).
    - rewrite Ec. exact (so_cdir _ _ _ _ So).
    - exact (so_range _ _ _ _ So).
    - rewrite (Er _ i_head) by (intros; split; reflexivity). exact (so_head _ _ _ _ So).
    - rewrite (Er _ i_other) by (intros; split; reflexivity). exact (so_other _ _ _ _ So).
    - exists (dset h b' vs). split; [exact Ei|]. destruct (so_versions _ _ _ _ So) as (vs0 & Hv0 & P). assert (vs0 = vs) by congruence. subst vs0.
      rewrite keys_dset. assert (E : dmem h vs = true) by (apply dmem_true; apply dget_In_key in Hb; auto). now rewrite E.
    - intros vs0 v b0 Hv0 Hb0. rewrite Ei in Hv0. apply Some_inv in Hv0. subst vs0. apply In_dget in Hb0; [|auto]. rewrite dget_dset in Hb0.
      destruct (str_eqb_spec v h) as [->|Hne].
      + apply Some_inv in Hb0. subst b0. destruct (so_blocks _ _ _ _ So vs h b Hv (dget_In _ _ _ Hb)) as (Bb & st' & Hs' & G). assert (st' = st) by congruence. subst st'.
        split; [destruct Bb; constructor; auto|]. exists (append_to d p st). split; [reflexivity|]. destruct (Gst st G) as [G1 G2 G3]. constructor.
        * now apply append_keys.
        * intros e l He. apply append_In in He; [|auto]. destruct He as [(-> & _)|(_ & He)]; [exact Hdm|eauto].
        * eapply good_paths_perm; [apply Permutation_sym, paths_append_to; auto|]. unfold logical_paths in Hnew, Hap. rewrite Es in Hnew, Hap.
          apply good_paths_cons; auto.
      + apply dget_In in Hb0. destruct (so_blocks _ _ _ _ So vs v b0 Hv Hb0) as (Bb & st' & Hs' & G). split; [auto|]. exists st'. auto.
    - destruct (so_manifest _ _ _ _ So) as [m Hm]. unfold add_step. destruct oc; [eexists; reflexivity|]. rewrite (set_state_versions h _ i vs b Hv Hb). exists m. exact Hm.
    - exact Km.
    - intros e l He. rewrite step_manifest in He. destruct oc; [|eapply so_digests; eauto]. apply append_In in He; [|apply (so_keys _ _ _ _ So)].
      destruct He as [(-> & _)|(_ & He)]; [exact Hd|eapply so_digests; eauto].
    - destruct step_paths as (l & P & El). eapply good_paths_perm; [apply Permutation_sym, P|]. rewrite El. destruct oc as [c|]; [|apply (so_paths _ _ _ _ So)].
      destruct Hoc as ((v & r & Iv & Hr & Fr & Nr & ->) & Tc & Nc & Ac). cbn [app]. apply good_paths_cons; [apply (so_paths _ _ _ _ So)|auto| |auto].
      exists (v :: content_directory_to_use i :: r). split; [discriminate|]. split; [|auto]. constructor; [now apply (names_fname n)|]. constructor; [apply (so_cdir _ _ _ _ So)|auto].
    - intros q Hq. rewrite Ec. apply step_In_paths in Hq as [E|Hq]; [|now apply (so_content _ _ _ _ So)]. rewrite E in Hoc. apply Hoc.
    - intros e c cs He.
      assert (Old : (exists v q, in_state i v e q) -> exists v q, in_state (add_step h d p oc i) v e q).
      { intros (v & q & vs0 & b0 & st0 & l & H1 & H2 & H3 & H4 & H5). assert (vs0 = vs) by congruence. subst vs0. destruct (str_eqb_spec v h) as [->|Hne].
        - assert (b0 = b). { apply In_dget in H2; [congruence|auto]. } subst b0. assert (st0 = st) by congruence. subst st0. exists h, q, (dset h b' vs), b', (append_to d p st).
          assert (Hq : block_has (append_to d p st) e q) by (apply append_to_has; [auto|]; left; exists l; auto). destruct Hq as (l' & Hl' & Hq).
          exists l'. split; [exact Ei|]. split; [apply dget_In, dget_dset_same|]. auto.
        - exists v, q, (dset h b' vs), b0, st0, l. split; [exact Ei|]. split; [|auto]. apply dget_In. rewrite dget_dset_other by auto. now apply In_dget. }
      assert (New : exists v q, in_state (add_step h d p oc i) v d q).
      { assert (Hq : block_has (append_to d p st) d p) by (apply append_to_has; auto). destruct Hq as (l' & Hl' & Hq).
        exists h, p, (dset h b' vs), b', (append_to d p st), l'. split; [exact Ei|]. split; [apply dget_In, dget_dset_same|]. auto. }
      rewrite step_manifest in He. destruct oc as [c0|]; [|apply Old; eapply so_used; eauto]. apply append_In in He; [|apply (so_keys _ _ _ _ So)].
      destruct He as [(-> & _)|(_ & He)]; [exact New|apply Old; eapply so_used; eauto].
    - intros fx Hf. rewrite (Er _ i_fixity) in Hf by (intros; split; reflexivity). destruct (so_fixity _ _ _ _ So fx Hf) as [F1 F2]. split; [auto|].
      intros a bl Hbl. destruct (F2 a bl Hbl) as (G1 & G2 & G3). split; [auto|]. split; [auto|]. intros e l He. destruct (G3 e l He) as [K1 K2]. split; [auto|].
      intros q Hq. apply step_In_paths. right. now apply K2.
  Qed.

  Lemma step_in_state v e q : in_state (add_step h d p oc i) v e q <-> in_state i v e q \/ (v = h /\ e = d /\ q = p).
  Proof using So.
    clear Hoc.
    destruct (sound_head_block _ _ _ _ So) as (vs & b & st & Hv & Hb & Hs & Es & Nv).
    assert (Kst : NoDup (keys st)). { destruct (so_blocks _ _ _ _ So vs h b Hv (dget_In _ _ _ Hb)) as (_ & st' & Hs' & G). assert (st' = st) by congruence. subst. apply (sg_keys _ _ _ G). }
    set (b' := with_state (append_to d p st) b).
    assert (Ei : i_versions (add_step h d p oc i) = Some (dset h b' vs)).
    { unfold add_step. rewrite (set_state_versions h _ i vs b Hv Hb), Es. destruct oc; reflexivity. }
    split.
    - intros (vs0 & b0 & st0 & l & H1 & H2 & H3 & H4 & H5). rewrite Ei in H1. apply Some_inv in H1. subst vs0. apply In_dget in H2; [|now apply NoDup_dset]. rewrite dget_dset in H2.
      destruct (str_eqb_spec v h) as [->|Hne].
      + apply Some_inv in H2. subst b0. apply Some_inv in H3. subst st0. assert (Hq : block_has (append_to d p st) e q) by (exists l; auto). apply append_to_has in Hq; [|auto].
        destruct Hq as [(l' & Hl' & Hq)|[-> ->]]; [|auto]. left. exists vs, b, st, l'. repeat (split; [auto; now apply dget_In|]). auto.
      + left. exists vs, b0, st0, l. repeat (split; [auto; now apply dget_In|]). auto.
    - intros [(vs0 & b0 & st0 & l & H1 & H2 & H3 & H4 & H5)|(-> & -> & ->)].
      + assert (vs0 = vs) by congruence. subst vs0. destruct (str_eqb_spec v h) as [->|Hne].
        * assert (b0 = b). { apply In_dget in H2; [congruence|auto]. } subst b0. assert (st0 = st) by congruence. subst st0.
          assert (Hq : block_has (append_to d p st) e q) by (apply append_to_has; [auto|]; left; exists l; auto). destruct Hq as (l' & Hl' & Hq).
          exists (dset h b' vs), b', (append_to d p st), l'. split; [exact Ei|]. split; [apply dget_In, dget_dset_same|]. auto.
        * exists (dset h b' vs), b0, st0, l. split; [exact Ei|]. split; [|auto]. apply dget_In. rewrite dget_dset_other by auto. now apply In_dget.
      + assert (Hq : block_has (append_to d p st) d p) by (apply append_to_has; auto). destruct Hq as (l' & Hl' & Hq).
        exists (dset h b' vs), b', (append_to d p st), l'. split; [exact Ei|]. split; [apply dget_In, dget_dset_same|]. auto.
  Qed.
  Lemma step_stored e c : stored (add_step h d p oc i) e c <-> stored i e c \/ (e = d /\ oc = Some c).
  Proof using So.
    clear Hoc.
    rewrite !stored_iff, step_manifest. destruct oc as [c0|].
    - rewrite append_to_has by apply (so_keys _ _ _ _ So). intuition congruence.
    - split; [auto|]. intros [?|[_ E]]; [auto|discriminate].
  Qed.
End Step.
