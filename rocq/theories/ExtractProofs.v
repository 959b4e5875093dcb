(** Extracting versions and single files of any object (C43, C44): object.py:677-785. *)
From Coq Require Import Permutation Sorted.
From Verif Require Import Properties_Names Properties_InventoryValidator.
From Verif Require Import Base Unicode Regex Utf8 Json PyJson JsonTextModel JsonTextSpec JsonTextProofs JsonFileProofs Log DigestModel LayoutModel LayoutProofs
  ObjectUtilsModel ObjectUtilsProofs InventorySpec InventoryValidatorModel InventoryValidatorProofs InventoryRulesProofs
  InventoryModel InventoryOpsSpec InventoryOpsProofs NewVersionModel NewVersionProofs NewVersionOpsProofs VersionNumberProofs InventoryParseProofs ParseModel
  ContentPathProofs TextFile PathModel FsModel FsSpec FsProofs FswModel FswSpec FswProofs FswCopyProofs ValidatorSpec ValidatorBasicProofs ObjectModel ObjectSpec ObjectInvProofs ObjectRulesProofs
  ObjectParseProofs ObjectAddProofs ContentNameProofs ObjectGrowProofs ObjectStartProofs ObjectCopyProofs ObjectWriteProofs ObjectSourceProofs ObjectFactsProofs NamasteSpec ValidatorVersionProofs ObjectMadeProofs ObjectIntactProofs ObjectExtendProofs FsStepProofs NamasteModel NamasteProofs ObjectStoreProofs ObjectCreateProofs ValidatorModel ValidatorIntactProofs ObjectUpdateProofs ObjectNextProofs ObjectDigestProofs ObjectVersionProofs ObjectExtractProofs ObjectHistoryProofs ObjectExamples UpdateSpec ParseProofs OpenProofs ChangeProofs FrameProofs UpdateProofs ExtractSpec.


(** ** What is opened *)

Lemma setup_inv w h version i v : extract_setup w h version = Ok (i, v) ->
  exists s, parse_inventory w h = Ok (i, s) /\ is_version i v /\ ((version = `"head" /\ i_head i = Some v) \/ (version <> `"head" /\ v = version)).
Proof.
  unfold extract_setup. intros E. apply ebind_ok in E as [[i' s] [Ep E]]. cbn [fst] in E. destruct (parse_opened _ _ _ _ Ep) as (inv & i0 & f & O).
  destruct (str_eqb_spec version (`"head")) as [->|N].
  - apply ebind_ok in E as [v' [Eh E]]. apply Ok_inv in E. injection E as <- <-. exists s. split; [auto|].
    destruct (open_head _ _ _ _ _ _ _ O) as (v & before & Ev & Ef). unfold head_of in Eh. rewrite Ev in Eh. apply Ok_inv in Eh. subst v'.
    split; [|auto]. apply (open_is_version _ _ _ _ _ _ _ O). rewrite Ef. apply in_or_app. right. now left.
  - apply ebind_ok in E as [l [El E]]. destruct (str_in version l) eqn:Ei; [|discriminate]. apply Ok_inv in E. injection E as <- <-. exists s. split; [auto|]. split; [|auto].
    apply str_in_true in Ei. apply version_directories_ok in El as [P _]. apply is_version_keys. exact (Permutation_in _ P Ei).
Qed.

Lemma setup_ok w h i s : parse_inventory w h = Ok (i, s) ->
  (exists v, i_head i = Some v /\ extract_setup w h (`"head") = Ok (i, v)) /\
  (forall v, is_version i v -> v <> `"head" -> extract_setup w h v = Ok (i, v)) /\
  (forall v, ~ is_version i v -> v <> `"head" -> extract_setup w h v = Raise ObjectException).
Proof.
  intros Ep. destruct (parse_opened _ _ _ _ Ep) as (inv & i0 & f & O). unfold extract_setup. rewrite Ep. cbn [ebind fst].
  assert (Vd : exists l, version_directories i = Ok l /\ forall v, In v l <-> is_version i v).
  { pose proof (op_numbered _ _ _ (oa_opened _ _ _ _ _ _ _ O)) as Hn. destruct (version_directories_total i Hn) as [l El]. exists l. split; [auto|].
    intros v. apply version_directories_ok in El as [P _]. rewrite is_version_keys. split; apply Permutation_in; [auto|now apply Permutation_sym]. }
  destruct Vd as (l & El & Hl). split; [|split].
  - change (str_eqb (`"head") (`"head")) with true. cbv iota. destruct (open_head _ _ _ _ _ _ _ O) as (v & before & Ev & Ef). exists v. split; [auto|]. unfold head_of. now rewrite Ev.
  - intros v Hv Hn. apply str_eqb_neq in Hn. rewrite Hn, El. cbn [ebind]. apply Hl in Hv. apply str_in_true in Hv. now rewrite Hv.
  - intros v Hv Hn. apply str_eqb_neq in Hn. rewrite Hn, El. cbn [ebind]. destruct (str_in v l) eqn:Ei; [|auto]. apply str_in_true, Hl in Ei. contradiction.
Qed.

(** ** Where an extraction writes *)

Lemma crash_read {A} (f : node -> exc A) w w' : crash (iread f) w w' -> w' = w.
Proof. intros Cr. now apply crash_none in Cr. Qed.
Lemma entry_dir_dec (o : option entry) : {o = Some EDir} + {o <> Some EDir}.
Proof. destruct o as [[b| |]|]; (now left) || (right; discriminate). Qed.

Definition below (dst q : place) : Prop := exists y, y <> [] /\ q = dst ++ y.

Lemma dest_fnames e d : Forall fname (e_cwd e) -> Forall fname (dest_of (e_cwd e) d).
Proof. intros Fc. apply at_path_fnames. unfold base_of. destruct (startswith _ _); [constructor|auto]. Qed.

Lemma dest_acts e w d : Forall fname (e_cwd e) -> look w (e_cwd e) = Some EDir -> tree w ->
  acts_at (fun q => q = dest_of (e_cwd e) d /\ look w q = None) (open_destination e d) w.
Proof.
  intros Fc Hc Tw. set (dst := dest_of (e_cwd e) d). destruct (dest_split (e_cwd e) d Fc) as (pd & k & E1 & E2 & E3 & E0 & E4). set (P := at_path (base_of (e_cwd e) pd) pd) in *. fold dst in E3, E4.
  assert (FP : Forall fname P) by (apply at_path_fnames; unfold base_of; destruct (startswith _ _); [constructor|auto]).
  assert (E5 : (fname k /\ dst = P ++ [k]) \/ exists y, e_cwd e = dst ++ y).
  { destruct (fname_dec k) as [Fk|Fk]; [left; split; [auto|]; rewrite <- E3; now apply at_path_one|right].
    destruct E4 as [[? _]|[z Ez]]; [contradiction|]. rewrite <- E3. unfold at_path. rewrite (split_on_single _ k) by auto. rewrite resolve_fix by auto. cbn [fold_left]. unfold resolve_step.
    destruct (str_eqb_spec k []) as [->|N1]; cbn [orb]; [exists z; now rewrite rev_involutive|]. destruct (str_eqb_spec k (`".")) as [->|N2]; [exists z; now rewrite rev_involutive|].
    destruct (str_eqb_spec k (`"..")) as [->|N3]; [|exfalso; apply Fk; split; auto]. destruct P as [|c P0] using rev_ind; [now exists (e_cwd e)|]. rewrite rev_app_distr. cbn [rev app tl]. rewrite rev_involutive.
    exists (c :: z). rewrite Ez, <- app_assoc. reflexivity. }
  unfold open_destination. rewrite E1. apply acts_bind; [apply acts_none, open_obj_none|]. intros pr Hp.
  assert (A0 : after (open_obj_fs e (Some pd) false) w = w) by (unfold after; now rewrite open_obj_none). rewrite A0.
  assert (Ep : pr = P /\ look w P = Some EDir).
  { destruct (look w P) as [[b| |]|] eqn:El.
    2:{ destruct (open_there (e_cwd e) pd w E2 El) as [R1 _]. destruct (open_obj_catch e pd false w) as (_ & O2 & _). rewrite (O2 _ R1) in Hp. apply Ok_inv in Hp. auto. }
    all: exfalso; destruct (open_missing e pd w E2) as [R _]; [unfold P in El; unfold dest_of; rewrite El; discriminate|]; rewrite R in Hp; discriminate. }
  destruct Ep as [-> HP]. apply acts_bind; [apply acts_read|]. intros dd Hd. rewrite after_iread. apply acts_bind.
  - destruct dd.
    + apply acts_bind; [apply acts_read|]. intros l _. destruct l; [apply acts_ret|apply acts_raise].
    + apply acts_makedir; auto. intros q r Eq Hq. rewrite E3 in Eq. destruct E5 as [[Fk Ed]|[z Ez]].
      * split; [|auto]. rewrite Ed in Eq. destruct (app_prefix_cases P [k] q r Eq) as [[x Ex]|(x & Ex & Ey)].
        -- exfalso. rewrite Ex in HP. destruct x as [|c x]; [rewrite app_nil_r in HP; congruence|]. rewrite (look_above w q c x) in Hq; [discriminate|rewrite HP; discriminate].
        -- destruct x as [|c x]; [exfalso; rewrite app_nil_r in Ex; subst q; congruence|]. destruct x as [|c' x]; [|destruct r; discriminate]. cbn in Ey. injection Ey as <- _. now rewrite Ed.
      * exfalso. rewrite result_iread in Hd. apply Ok_inv in Hd. assert (X : fs_isdir w P k = true) by (apply fs_isdir_look; rewrite E3; apply (above_dir w dst z Tw); rewrite <- Ez; exact Hc). congruence.
  - intros _ _. apply acts_ret.
Qed.

Section Writing.
  Variables (w0 : node) (h dst : place) (i : inventory) (v : str).
  Hypothesis Op : exists s, parse_inventory w0 h = Ok (i, s).
  Hypothesis Fd : Forall fname dst.

  Lemma dir_above w q : look w dst = Some EDir -> look w q = None -> forall r a, dst ++ a = q ++ r -> below dst q.
  Proof using.
    clear Op Fd. intros Hd Hq r a E. destruct (app_prefix_cases dst a q r E) as [[x Ex]|(x & Ex & Ey)].
    - exfalso. rewrite Ex in Hd. destruct x as [|c x]; [rewrite app_nil_r in Hd; congruence|]. rewrite (look_above w q c x) in Hq; [discriminate|rewrite Hd; discriminate].
    - exists x. split; [|auto]. intros ->. rewrite app_nil_r in Ex. congruence.
  Qed.

  Lemma one_acts f p w : in_version i v p -> tree w -> look w dst = Some EDir -> acts_at (below dst) (extract_one h dst f p) w.
  Proof using Op Fd.
    intros Hp Tw Hd. destruct Op as [s Ep]. destruct (parse_opened _ _ _ _ Ep) as (inv & i0 & g & O). pose proof (open_logical _ _ _ _ _ _ _ O v p Hp) as Pl.
    destruct (plain_path_names p Pl) as (r & Nr & Fr & ->). unfold extract_one. apply acts_bind.
    - destruct (snoc_case r Nr) as (a & k & ->). apply Forall_app in Fr as [Fa Fk]. inversion Fk as [|? ? Fk' _]; subst.
      apply acts_makedirs; auto. intros q x E Hq. rewrite (dirname_place dst a k Fd Fa Fk') in E. exact (dir_above w q Hd Hq x a E).
    - intros _ _. apply acts_copyfile; [auto|]. rewrite (at_path_join dst r Fd Fr). exists r. auto.
  Qed.

  Lemma state_acts w : tree w -> look w dst = Some EDir -> acts_at (below dst) (iter (extract_entry h dst i) (state i v)) w.
  Proof using Op Fd.
    intros Tw Hd. set (Jv := fun w => tree w /\ look w dst = Some EDir). assert (Di : dicts_ok i) by (destruct Op as [s Ep]; destruct (parse_opened _ _ _ _ Ep) as (inv & i0 & g & O); apply (op_dicts _ _ _ (oa_opened _ _ _ _ _ _ _ O))).
    apply (acts_iter (below dst) Jv); [|split; auto]. intros [d l] u Hi [Tu Hu].
    assert (A : acts_at (below dst) (extract_entry h dst i (d, l)) u).
    { unfold extract_entry. cbn [fst snd]. apply acts_bind; [apply acts_read|]. intros f _. rewrite after_iread. apply (acts_iter (below dst) Jv); [|split; auto].
      intros p u' Hp [Tu' Hu']. assert (A1 : acts_at (below dst) (extract_one h dst f p) u') by (apply one_acts; auto; exists d; apply in_state_iff; auto; exists l; auto).
      split; [exact A1|]. split; [exact (acts_tree _ _ _ Tu' A1)|exact (acts_dir _ _ _ _ Tu' A1 Hu')]. }
    split; [exact A|]. split; [exact (acts_tree _ _ _ Tu A)|exact (acts_dir _ _ _ _ Tu A Hu)].
  Qed.
End Writing.

(** Nothing is written outside of the destination, and nothing that was there is changed; at no moment. *)
Theorem extract_crash e objdir version d w w' : tree w -> Forall fname (e_cwd e) -> look w (e_cwd e) = Some EDir ->
  crash (extract e objdir version d) w w' -> let dst := dest_of (e_cwd e) d in
  (forall q, (forall y, q <> dst ++ y) -> look w' q = look w q) /\ (forall q en, look w q = Some en -> look w' q = Some en).
Proof.
  intros Tw Fc Hc Cr dst. assert (Same : w' = w -> (forall q, (forall y, q <> dst ++ y) -> look w' q = look w q) /\ (forall q en, look w q = Some en -> look w' q = Some en)) by (intros ->; auto).
  unfold extract in Cr. apply crash_bind in Cr as [Cr|(h & Eh & Cr)]; [apply Same; exact (crash_none _ _ _ (open_obj_none e objdir w) Cr)|].
  assert (A0 : after (open_obj_fs e objdir false) w = w) by (unfold after; now rewrite open_obj_none). rewrite A0 in Cr.
  apply crash_bind in Cr as [Cr|([i v] & Es & Cr)]; [apply Same; exact (crash_read _ _ _ Cr)|]. rewrite after_iread in Cr. rewrite result_iread in Es.
  destruct (setup_inv _ _ _ _ _ Es) as (s & Ep & Hv & _). pose proof (dest_acts e w d Fc Hc Tw) as Ad. fold dst in Ad.
  assert (K1 : forall u, crash (open_destination e d) w u -> (forall q, q <> dst -> look u q = look w q) /\ (forall q en, look w q = Some en -> look u q = Some en)).
  { intros u Cu. split; [intros q Hq|intros q en Hq; rewrite <- Hq]; apply (crash_other _ _ _ _ _ Tw Ad Cu); intros [? ?]; congruence. }
  apply crash_bind in Cr as [Cr|(ds & Ed & Cr)].
  - destruct (K1 _ Cr) as [K2 K3]. split; [|exact K3]. intros q Hq. apply K2. intros ->. apply (Hq []). now rewrite app_nil_r.
  - destruct (open_dest e w d Fc Hc Tw) as (O1 & O2 & O3 & O4 & O5). fold dst in O1, O2, O3, O4, O5.
    assert (Free : ds = dst /\ look (after (open_destination e d) w) dst = Some EDir /\ forall r, r <> [] -> look w (dst ++ r) = None).
    { destruct (look w dst) as [en|] eqn:El.
      - destruct en as [b| |].
        + exfalso. destruct O5 as [R _]; try discriminate. congruence.
        + assert (Em : forall r, r <> [] -> look w (dst ++ r) = None).
          { intros r Hr. destruct (look w (dst ++ r)) eqn:Er; [|auto]. exfalso. destruct (O2 eq_refl) as [R _]; [exists r; split; [auto|rewrite Er; discriminate]|]. congruence. }
          destruct (O1 eq_refl Em) as [R A]. rewrite A. split; [congruence|]. auto.
        + exfalso. destruct O5 as [R _]; try discriminate. congruence.
      - assert (Em : forall r, r <> [] -> look w (dst ++ r) = None) by (intros r Hr; apply look_below_leaf; [auto|rewrite El; discriminate]).
        destruct (entry_dir_dec (look w (removelast dst))) as [Hr|Hr].
        + destruct (O3 eq_refl Hr) as [R C]. split; [congruence|]. split; [exact (changes_at _ _ _ _ C)|auto].
        + exfalso. destruct (O4 eq_refl Hr) as [R _]. congruence. }
    destruct Free as (-> & Hd & Em). destruct (K1 _ (crash_done _ w)) as [K2 K3]. pose proof (acts_tree _ _ _ Tw Ad) as T1.
    assert (Cr' : (forall q, ~ below dst q -> look w' q = look (after (open_destination e d) w) q)).
    { intros q Hq. apply crash_bind in Cr as [Cr|(? & ? & Cr)].
      - exact (crash_other _ _ _ _ _ T1 (state_acts w h dst i v (ex_intro _ s Ep) (dest_fnames e d Fc) _ T1 Hd) Cr Hq).
      - rewrite (crash_read _ _ _ Cr). exact (acts_other _ _ _ _ T1 (state_acts w h dst i v (ex_intro _ s Ep) (dest_fnames e d Fc) _ T1 Hd) Hq). }
    split.
    + intros q Hq. rewrite Cr'; [|intros (y & _ & E); exact (Hq y E)]. apply K2. intros ->. apply (Hq []). now rewrite app_nil_r.
    + intros q en Hq. rewrite Cr'; [auto|]. intros (y & Ny & ->). rewrite Em in Hq by auto. discriminate.
Qed.

(** ** When an extraction is refused *)

Theorem extract_refuses e path version d w : tree w -> Forall fname (e_cwd e) -> look w (e_cwd e) = Some EDir ->
  let dst := dest_of (e_cwd e) d in let x := extract e path version d in
  (look w dst <> None -> (look w dst = Some EDir -> exists r, r <> [] /\ look w (dst ++ r) <> None) -> (exists er, result x w = Raise er) /\ after x w = w) /\
  (forall h i s, result (open_obj_fs e path false) w = Ok h -> parse_inventory w h = Ok (i, s) ->
    (version <> `"head" -> ~ is_version i version -> result x w = Raise ObjectException /\ after x w = w) /\
    (version = `"head" \/ is_version i version -> look w dst = Some EDir -> (exists r, r <> [] /\ look w (dst ++ r) <> None) -> result x w = Raise ObjectException /\ after x w = w)).
Proof.
  intros Tw Fc Hc dst x. destruct (open_dest e w d Fc Hc Tw) as (O1 & O2 & O3 & O4 & O5). fold dst in O1, O2, O3, O4, O5.
  assert (A0 : after (open_obj_fs e path false) w = w) by (unfold after; now rewrite open_obj_none).
  assert (Go : forall h, result (open_obj_fs e path false) w = Ok h -> forall er, extract_setup w h version = Raise er -> result x w = Raise er /\ after x w = w).
  { intros h Eh er Er. unfold x, extract. rewrite (result_seq _ _ w h Eh), (after_seq _ _ w h Eh), A0. rewrite result_read, after_read. cbv beta. rewrite Er. auto. }
  assert (Go2 : forall h iv, result (open_obj_fs e path false) w = Ok h -> extract_setup w h version = Ok iv -> forall er, result (open_destination e d) w = Raise er -> after (open_destination e d) w = w -> result x w = Raise er /\ after x w = w).
  { intros h [i v] Eh Ev er Er Ea. unfold x, extract. rewrite (result_seq _ _ w h Eh), (after_seq _ _ w h Eh), A0. rewrite result_read, after_read. cbv beta. rewrite Ev. cbv beta iota.
    match goal with |- result (ibind ?y ?f) _ = _ /\ _ => destruct (result_fail y f w er Er) as [F1 F2] end. rewrite F1, F2, Ea. auto. }
  split.
  - intros N1 N2. assert (Bad : (exists er, result (open_destination e d) w = Raise er) /\ after (open_destination e d) w = w).
    { destruct (entry_dir_dec (look w dst)) as [Hd|Hd]; [destruct (O2 Hd (N2 Hd)); eauto|destruct (O5 N1 Hd); eauto]. }
    destruct Bad as [[er B1] B2]. destruct (result (open_obj_fs e path false) w) as [h|er'] eqn:Eh.
    + destruct (extract_setup w h version) as [iv|er'] eqn:Ev.
      * destruct (Go2 h iv eq_refl Ev er B1 B2); eauto.
      * destruct (Go h eq_refl er' Ev); eauto.
    + unfold x, extract. match goal with |- (exists _, result (ibind ?y ?f) _ = _) /\ _ => destruct (result_fail y f w er' Eh) as [F1 F2] end. rewrite F1, F2, A0. eauto.
  - intros h i s Eh Ep. destruct (setup_ok _ _ _ _ Ep) as ((v & _ & S1) & S2 & S3). split.
    + intros Hn Hv. exact (Go h Eh _ (S3 _ Hv Hn)).
    + intros Hv Hd Hr. destruct (O2 Hd Hr) as [B1 B2]. destruct (str_eqb_spec version (`"head")) as [Ev|Nv].
      * subst version. exact (Go2 h _ Eh S1 _ B1 B2).
      * destruct Hv as [Hv|Hv]; [contradiction|]. exact (Go2 h _ Eh (S2 _ Hv Nv) _ B1 B2).
Qed.

(** ** Extracting a version of any object *)

Lemma first_path i d c cs : dicts_ok i -> In (d, c :: cs) (manifest i) -> first_content_path i d = Ok c /\ stored i d c.
Proof.
  intros Di Hi. unfold first_content_path. destruct Di as (Dm & _). split.
  - rewrite (In_dget d (c :: cs) (manifest i)); [reflexivity| |exact Hi]. unfold manifest in *. destruct (i_manifest i) as [m|]; [now apply Dm|constructor].
  - apply stored_iff. exists (c :: cs). split; [exact Hi|now left].
Qed.

Theorem extract_files e path version d w h i s v : tree w -> Forall fname (e_cwd e) -> look w (e_cwd e) = Some EDir ->
  no_url path -> h = dest_of (e_cwd e) path -> look w h = Some EDir ->
  parse_inventory w h = Ok (i, s) -> extract_setup w h version = Ok (i, v) ->
  (forall d c, stored i d c -> exists b, fs_read w h c = Ok b) ->
  (forall p q, in_version i v p -> in_version i v q -> ~ above p q) ->
  dest_free w (dest_of (e_cwd e) d) ->
  let dst := dest_of (e_cwd e) d in let x := extract e (Some path) version d in
  exists L m, result x w = Ok m /\ from_inventory empty_vmeta i (Some v) = Ok m /\ holds (after x w) dst L /\ NoDup (map fst L) /\
    (forall r b, In (r, b) L -> r <> [] /\ Forall fname r /\ exists c, resolves i v (J r) c /\ fs_read w h c = Ok b) /\
    (forall p, in_version i v p -> exists r b, In (r, b) L /\ p = J r).
Proof.
  intros Tw Fc Hc Hu -> Hh Ep Es Hf Ha Df dst x. set (h := dest_of (e_cwd e) path) in *. destruct (parse_opened _ _ _ _ Ep) as (inv & i0 & f & O).
  destruct (setup_inv _ _ _ _ _ Es) as (_ & _ & Hv & _). pose proof (oa_opened _ _ _ _ _ _ _ O) as Op. pose proof (op_dicts _ _ _ Op) as Di.
  assert (Fm : exists m, from_inventory empty_vmeta i (Some v) = Ok m).
  { unfold from_inventory. apply is_version_iff in Hv as Hv'. destruct Hv' as [b Hb]. destruct Hv as (vs & b' & Ev & _). unfold versions_block in Hb. rewrite Ev in *. cbn [or_else or_empty] in *. rewrite Hb. eauto. }
  destruct Fm as [m Em].
  assert (Nd : NoDup (paths_of (state i v))).
  { pose proof (op_unique _ _ _ Op v) as U. apply is_version_iff in Hv as Hv'. destruct Hv' as [b Hb]. unfold state, versiondata. rewrite Hb. destruct (vb_state b) as [st|] eqn:Est; [|constructor].
    unfold versions_block in Hb. destruct (i_versions i) as [vs|] eqn:Ev; [|discriminate]. cbn [or_empty] in *. apply dget_In in Hb. specialize (U vs b st Ev Hb Est). unfold paths_of. now rewrite flat_map_concat_map. }
  destruct (plan_exists w h i (fun d b => exists c, stored i d c /\ fs_read w h c = Ok b) (state i v)) as (L & Pl & El & Nl).
  { intros dg l Hi. destruct (open_digest _ _ _ _ _ _ _ O v dg _ Hi) as (c & cs & Hm). destruct (first_path i dg c cs Di Hm) as [F1 F2].
    destruct (Hf dg c F2) as [b Hb]. exists c, b. split; [auto|]. split; [now apply fs_read_look|eauto]. }
  { intros p Hp. apply plain_path_names. apply (open_logical _ _ _ _ _ _ _ O v). apply In_paths_of in Hp as [dg Hd]. exists dg. now apply in_state_iff. }
  assert (Lv : forall r b, In (r, b) L -> in_version i v (J r)).
  { intros r b Hi. destruct (Nl r b Hi) as (_ & _ & dg & Hb & _). exists dg. now apply in_state_iff. }
  destruct (extract_ok e w path version d i v L m Fc Hc Tw Hu Hh Es Pl) as (R1 & R2 & _ & _); auto.
  { intros r b Hi. destruct (Nl r b Hi) as (? & ? & _). auto. }
  { rewrite <- El in Nd. apply (NoDup_map_inv J). rewrite map_map. exact Nd. }
  { intros r b r' b' y H1 H2 Ey. destruct y as [|c y]; [auto|exfalso]. apply (Ha (J r) (J r') (Lv _ _ H1) (Lv _ _ H2)). exists (J (c :: y)). rewrite Ey. destruct (Nl r b H1) as (Rn & _). now apply join_app. }
  exists L, m. split; [exact R1|]. split; [exact Em|]. split; [exact R2|]. split; [rewrite <- El in Nd; apply (NoDup_map_inv J); rewrite map_map; exact Nd|]. split.
  - intros r b Hi. destruct (Nl r b Hi) as (? & ? & dg & Hb & c & Hc1 & Hc2). split; [auto|]. split; [auto|]. exists c. split; [|auto]. exists dg. split; [now apply in_state_iff|auto].
  - intros p [dg Hp]. apply in_state_iff in Hp; auto. assert (Hi : In p (paths_of (state i v))) by (apply In_paths_of; eauto). rewrite <- El in Hi. apply in_map_iff in Hi as ([r b] & E & Hi). cbn in E. eauto.
Qed.

(** ** Extracting one file *)

Lemma open_create_gen e w d : Forall fname (e_cwd e) -> tree w -> no_url d ->
  let dst := dest_of (e_cwd e) d in let x := open_obj_fs e (Some d) true in
  ((result x w = Raise ObjectException /\ after x w = w) \/
   (result x w = Ok dst /\ ((look w dst <> None /\ after x w = w) \/ (look w dst = None /\ changes w (after x w) dst (Some EDir))))) /\
  (forall p k, d = p ++ k -> (p = [] \/ last_opt p = Some PathModel.slash) -> ~ In PathModel.slash k -> look w (at_path (base_of (e_cwd e) d) p) = Some EDir -> result x w = Ok dst).
Proof.
  intros Fc Tw Hu dst x. destruct (split_place (e_cwd e) d Fc) as (pd & k & E1 & E2 & E3 & E4 & _ & p & Ed & Hp & Ep). unfold dst, dest_of in *. set (B := base_of (e_cwd e) d) in *.
  assert (FB : Forall fname B) by (unfold B, base_of; destruct (startswith _ _); [constructor|auto]). set (P := at_path B pd) in *. assert (FP : Forall fname P) by now apply at_path_fnames.
  destruct (open_obj_catch e d true w) as (O1 & O2 & O3). fold x in O1, O2, O3.
  assert (Ex : fsw_openfs (e_cwd e) d true true = (do _ <- iread (fun w => if fs_isdir w B pd then Ok tt else Raise FileNotFoundError) ;; do e0 <- iread (fun w => Ok (fs_exists w P k)) ;; (if e0 : bool then iret tt else fs_makedir P k) ;; iret (at_path P k))).
  { unfold fsw_openfs. rewrite split_url_none by auto. cbv beta iota. rewrite E1. change (str_eqb (`"file") (`"file")) with true. cbv iota. change (if startswith [PathModel.slash] pd then [] else e_cwd e) with (base_of (e_cwd e) pd). rewrite E2. reflexivity. }
  rewrite Ex in O1, O2, O3. rewrite result_read in O2, O3. rewrite after_read in O1. cbv beta in O1, O2, O3.
  destruct (fs_isdir w B pd) eqn:Ei; [|split; [left; split; [now apply O3|now rewrite O1]|]; intros p0 k0 Ed0 Hp0 Hk0 Hd0; exfalso; rewrite Ed in Ed0; destruct (noslash_unique _ _ _ _ Ed0 Hp Hp0 E4 Hk0) as [<- _]; rewrite <- Ep in Hd0; apply fs_isdir_look in Hd0; congruence].
  match goal with |- (_ \/ ?b) /\ _ => enough (G : b) by (split; [right; exact G|]; intros; exact (proj1 G)) end. apply fs_isdir_look in Ei. fold P in Ei.
  rewrite result_read in O2. rewrite after_read in O1. cbv beta in O1, O2. rewrite E3 in O1, O2.
  destruct (fs_exists w P k) eqn:Ee.
  - apply fs_exists_look in Ee. rewrite E3 in Ee. split; [now apply O2|]. left. split; [auto|]. now rewrite O1.
  - apply fs_exists_false in Ee. rewrite E3 in Ee. assert (Fk : fname k).
    { destruct (fname_dec k) as [Fk|Fk]; [auto|exfalso]. assert (Px : exists y, P = at_path P k ++ y).
      { unfold at_path. rewrite (split_on_single _ k) by auto. rewrite resolve_fix by auto. cbn [fold_left]. unfold resolve_step.
        destruct (str_eqb_spec k []) as [->|N1]; cbn [orb]; [exists []; now rewrite rev_involutive, app_nil_r|]. destruct (str_eqb_spec k (`".")) as [->|N2]; [exists []; now rewrite rev_involutive, app_nil_r|].
        destruct (str_eqb_spec k (`"..")) as [->|N3]; [|exfalso; apply Fk; split; auto]. generalize P. intros Q. destruct Q as [|c P0] using rev_ind; [now exists []|]. rewrite rev_app_distr. cbn [rev app tl]. rewrite rev_involutive. now exists [c]. }
      destruct Px as [y Ey]. rewrite E3 in Ey. rewrite Ey in Ei. rewrite (above_dir w _ y Tw Ei) in Ee. discriminate. }
    rewrite (at_path_one P k FP Fk) in E3. rewrite <- E3 in Ee |- *. destruct (makedir_one w P k FP Fk Ei Ee) as [R C]. rewrite (result_seq _ _ w tt R) in O2. rewrite (after_seq _ _ w tt R) in O1.
    split; [apply O2; now rewrite <- E3|]. right. split; [auto|]. rewrite O1. exact C.
Qed.
Lemma open_create e w d : Forall fname (e_cwd e) -> tree w -> no_url d ->
  let dst := dest_of (e_cwd e) d in let x := open_obj_fs e (Some d) true in
  (result x w = Raise ObjectException /\ after x w = w) \/
  (result x w = Ok dst /\ ((look w dst <> None /\ after x w = w) \/ (look w dst = None /\ changes w (after x w) dst (Some EDir)))).
Proof. intros Fc Tw Hu dst x. exact (proj1 (open_create_gen e w d Fc Tw Hu)). Qed.

Lemma open_usable e w d dst : Forall fname (e_cwd e) -> tree w -> usable_place (e_cwd e) w d dst -> result (open_obj_fs e (Some d) true) w = Ok dst.
Proof.
  intros Fc Tw [Hu Ed (p & k & -> & Hp & N)]. assert (Hk : k = [] \/ fname k) by (destruct N as [[? _]|[? _]]; auto).
  destruct (path_parts (e_cwd e) p k Fc Hp Hk) as (p' & Es & Ea & Eb). unfold dest_of in Ed. set (B := base_of (e_cwd e) (p ++ k)) in *.
  assert (FB : Forall fname B) by (unfold B, base_of; destruct (startswith _ _); [constructor|auto]). set (P := at_path B p) in *. assert (FP : Forall fname P) by now apply at_path_fnames.
  assert (HP : look w P = Some EDir).
  { destruct Hk as [->|Fk].
    - destruct N as [[[F _] _]|[_ Hd]]; [now contradiction F|]. rewrite app_nil_r in Ed. fold P in Ed. now rewrite <- Ed.
    - rewrite (path_whole B p k Hp Fk FB) in Ed. fold P in Ed. rewrite Ed in N. rewrite List.removelast_last in N. destruct N as [(_ & _ & Hd)|(_ & Hd)]; [auto|]. apply (parent_above w P k). rewrite Hd. discriminate. }
  destruct (open_create_gen e w (p ++ k) Fc Tw Hu) as [_ G]. unfold dest_of in G. rewrite Ed. apply (G p k); auto. destruct Hk as [->|Fk]; [intros []|apply Fk].
Qed.

Lemma find_file_spec i p st : (forall d l, In (d, l) st -> exists c, first_content_path i d = Ok c) ->
  (~ In p (paths_of st) /\ find_file i p st = Raise ObjectException) \/ (exists d c, block_has st d p /\ first_content_path i d = Ok c /\ find_file i p st = Ok c).
Proof.
  induction st as [|[d l] st IH]; intros Hf; [left; split; [intros []|reflexivity]|]. cbn [find_file]. destruct (Hf d l (or_introl eq_refl)) as [c Hc]. rewrite Hc. cbn [ebind].
  unfold paths_of in *. cbn [flat_map snd]. destruct (str_in_spec p l) as [Hi|Hi].
  - right. exists d, c. split; [exists l; split; [now left|auto]|auto].
  - destruct IH as [[N E]|(d' & c' & (l' & B1 & B2) & B3 & B4)]; [intros; eapply Hf; right; eauto| |].
    + left. split; [|auto]. rewrite in_app_iff. intros [F|F]; auto.
    + right. exists d', c'. split; [exists l'; split; [now right|auto]|auto].
Qed.

Lemma find_opened w h i s v p : parse_inventory w h = Ok (i, s) ->
  (in_version i v p -> exists d c, in_state i v d p /\ stored i d c /\ find_file i p (state i v) = Ok c) /\
  (~ in_version i v p -> find_file i p (state i v) = Raise ObjectException).
Proof.
  intros Ep. destruct (parse_opened _ _ _ _ Ep) as (inv & i0 & f & O). pose proof (op_dicts _ _ _ (oa_opened _ _ _ _ _ _ _ O)) as Di.
  assert (Hin : in_version i v p <-> In p (paths_of (state i v))).
  { rewrite In_paths_of. split; intros [d Hd]; exists d; now apply in_state_iff. }
  destruct (find_file_spec i p (state i v)) as [[N E]|(d & c & B1 & B2 & B3)].
  - intros d l Hi. destruct (open_digest _ _ _ _ _ _ _ O v d l Hi) as (c & cs & Hm). destruct (first_path i d c cs Di Hm) as [F1 _]. eauto.
  - split; [intros F; apply Hin in F; contradiction|auto].
  - assert (Hs : in_state i v d p) by now apply in_state_iff. split; [intros _; exists d, c; split; [auto|]; split; [|auto]|intros F; exfalso; apply F; now exists d].
    destruct B1 as (l & Hi & _). destruct (open_digest _ _ _ _ _ _ _ O v d l Hi) as (c0 & cs & Hm). destruct (first_path i d c0 cs Di Hm) as [F1 F2]. rewrite F1 in B2. apply Ok_inv in B2. now subst c0.
Qed.

Lemma basename_last p k : last_part p k -> path_basename p = k.
Proof.
  intros [Hk [->|[a ->]]]; unfold path_basename.
  - change k with ([] ++ k) at 1. rewrite rsplit_app; auto.
  - change (a ++ PathModel.slash :: k) with (a ++ [PathModel.slash] ++ k). rewrite app_assoc, rsplit_app; auto. right. apply last_opt_app.
Qed.
Lemma last_part_names r k : Forall fname (r ++ [k]) -> last_part (J (r ++ [k])) k.
Proof.
  intros F. apply Forall_app in F as [_ Fk]. apply Forall_inv in Fk. split; [apply Fk|]. destruct r as [|x r]; [now left|right]. exists (J (x :: r)). rewrite J_snoc by discriminate. now rewrite <- app_assoc.
Qed.

Theorem extract_file_done e path version d p w h i s v : tree w -> Forall fname (e_cwd e) ->
  result (open_obj_fs e path false) w = Ok h -> parse_inventory w h = Ok (i, s) -> extract_setup w h version = Ok (i, v) ->
  let dst := dest_of (e_cwd e) d in let x := extract_file e path version d p in
  (* the logical path is not there *)
  (no_url d -> ~ in_version i v p -> result x w = Raise ObjectException /\ forall q, q <> dst \/ look w dst <> None -> look (after x w) q = look w q) /\
  (* the logical path is there *)
  (usable_place (e_cwd e) w d dst -> forall dg k, in_state i v dg p -> (forall c, stored i dg c -> exists b, fs_read w h c = Ok b) -> last_part p k -> file_place w (dst ++ [k]) ->
   (forall c, stored i dg c -> at_path h c <> dst ++ [k]) ->
   exists m b c, result x w = Ok m /\ from_inventory empty_vmeta i (Some v) = Ok m /\ stored i dg c /\ fs_read w h c = Ok b /\ look (after x w) (dst ++ [k]) = Some (EFile b) /\
     look (after x w) dst = Some EDir /\ forall q, q <> dst -> q <> dst ++ [k] -> look (after x w) q = look w q).
Proof.
  intros Tw Fc Eh Ep Es dst x. destruct (find_opened w h i s v p Ep) as [F1 F2]. destruct (setup_inv _ _ _ _ _ Es) as (_ & _ & Hv & _).
  assert (A0 : after (open_obj_fs e path false) w = w) by (unfold after; now rewrite open_obj_none).
  assert (Ex : result x w = result (do dst <- open_obj_fs e (Some d) true ;; do f <- iread (fun _ => find_file i p (state i v)) ;; fsw_copyfile h f dst (path_basename p) ;; iread (fun _ => from_inventory empty_vmeta i (Some v))) w /\
    after x w = after (do dst <- open_obj_fs e (Some d) true ;; do f <- iread (fun _ => find_file i p (state i v)) ;; fsw_copyfile h f dst (path_basename p) ;; iread (fun _ => from_inventory empty_vmeta i (Some v))) w).
  { unfold x, extract_file. rewrite (result_seq _ _ w h Eh), (after_seq _ _ w h Eh), A0. rewrite result_read, after_read. cbv beta. rewrite Es. split; reflexivity. }
  destruct Ex as [X1 X2]. set (y := open_obj_fs e (Some d) true) in *. split.
  - intros Hu Hn. specialize (F2 Hn). destruct (open_create e w d Fc Tw Hu) as [[R A]|[R C]]; fold dst y in R |- *.
    + fold y in A. match type of X1 with _ = result (ibind _ ?f) _ => destruct (result_fail y f w _ R) as [G1 G2] end. rewrite X1, X2, G1, G2, A. auto.
    + fold dst y in C. rewrite (result_seq y _ w dst R) in X1. rewrite (after_seq y _ w dst R) in X2. rewrite result_read in X1. rewrite after_read in X2. cbv beta in X1, X2. rewrite F2 in X1, X2. rewrite X1, X2. split; [auto|].
      intros q Hq. destruct C as [[_ ->]|[N C]]; [auto|]. apply (changes_other _ _ _ _ _ C). destruct Hq as [Hq|Hq]; [auto|contradiction].
  - intros Up dg k Hs Hr Hk Hfp Hne. pose proof (open_usable e w d dst Fc Tw Up) as R. fold y in R.
    destruct (open_create e w d Fc Tw (up_url _ _ _ _ Up)) as [[R' _]|[_ C]]; [fold y in R'; congruence|]. fold dst y in C.
    destruct (parse_opened _ _ _ _ Ep) as (inv & i0 & f & O). pose proof (oa_opened _ _ _ _ _ _ _ O) as Op. pose proof (op_dicts _ _ _ Op) as Di.
    destruct (F1 (ex_intro _ dg Hs)) as (dg' & c & Hs' & Hst & Ef). assert (dg' = dg).
    { pose proof (op_unique _ _ _ Op v) as U. apply unique_paths_iff in U; [|auto]. unfold logical_paths in U. apply (in_state_iff _ _ _ _ Di) in Hs, Hs'. exact (paths_unique _ _ _ _ U Hs' Hs). }
    subst dg'. destruct (Hr c Hst) as [b Hb]. assert (Fd : Forall fname dst) by now apply dest_fnames.
    assert (Fk : fname k).
    { destruct (plain_path_names p (open_logical _ _ _ _ _ _ _ O v p (ex_intro _ dg Hs))) as (r & Nr & Fr & Er). destruct (snoc_case r Nr) as (a & k' & ->).
      pose proof (basename_last _ _ (last_part_names a k' Fr)) as B1. rewrite <- Er in B1. pose proof (basename_last _ _ Hk) as B2. assert (Ek : k = k') by congruence. rewrite Ek. apply Forall_app in Fr as [_ Fr]. apply Forall_inv in Fr. exact Fr. }
    assert (Hw1 : look (after y w) dst = Some EDir /\ (forall q, q <> dst -> look (after y w) q = look w q) /\ (forall q, look w q <> None -> look (after y w) q = look w q)).
    { destruct C as [[N ->]|[N C]].
      - split; [|auto]. destruct (up_free _ _ _ _ Up) as (? & ? & _ & _ & [(_ & F & _)|(_ & F)]); [congruence|auto].
      - split; [exact (changes_at _ _ _ _ C)|]. split; [intros q Hq; exact (changes_other _ _ _ _ _ C Hq)|]. intros q Hq. apply (changes_other _ _ _ _ _ C). intros ->. contradiction. }
    destruct Hw1 as (W1 & W2 & W3). set (w1 := after y w) in *. assert (Hkd : dst ++ [k] <> dst) by (intros E; rewrite <- (app_nil_r dst) in E at 2; apply app_inv_head in E; discriminate).
    apply fs_read_look in Hb as Hl. destruct (copyfile_ok w1 h c dst k b) as [R1 C1].
    { rewrite W3; [auto|rewrite Hl; discriminate]. }
    { rewrite (at_path_one dst k Fd Fk). auto. }
    { rewrite (at_path_one dst k Fd Fk). unfold fresh_place. rewrite List.removelast_last. destruct Hfp as [Hn|[b' Hb']].
      - left. split; [destruct dst; discriminate|]. split; [auto|]. now rewrite W2.
      - right. exists b'. now rewrite W2. }
    rewrite (at_path_one dst k Fd Fk) in C1. rewrite (basename_last _ _ Hk) in X1, X2.
    rewrite (result_seq y _ w dst R) in X1. rewrite (after_seq y _ w dst R) in X2. fold w1 in X1, X2. rewrite result_read in X1. rewrite after_read in X2. cbv beta in X1, X2. rewrite Ef in X1, X2.
    rewrite (result_seq _ _ w1 tt R1) in X1. rewrite (after_seq _ _ w1 tt R1) in X2. rewrite result_iread in X1. rewrite after_iread in X2.
    assert (Fm : exists m, from_inventory empty_vmeta i (Some v) = Ok m).
    { unfold from_inventory. apply is_version_iff in Hv as Hv'. destruct Hv' as [vb Hvb]. destruct Hv as (vs & b' & Ev & _). unfold versions_block in Hvb. rewrite Ev in *. cbn [or_else or_empty] in *. rewrite Hvb. eauto. }
    destruct Fm as [m Em]. exists m, b, c. rewrite X1, X2. split; [auto|]. split; [auto|]. split; [auto|]. split; [auto|]. split; [exact (changes_at _ _ _ _ C1)|].
    split; [rewrite (changes_other _ _ _ _ _ C1); auto|]. intros q Q1 Q2. rewrite (changes_other _ _ _ _ _ C1) by auto. auto.
Qed.

Lemma open_create_acts e w d : Forall fname (e_cwd e) -> tree w -> no_url d -> acts_at (fun q => q = dest_of (e_cwd e) d /\ look w q = None) (open_obj_fs e (Some d) true) w.
Proof.
  intros Fc Tw Hu. set (dst := dest_of (e_cwd e) d). assert (A : acts_at (fun q => q = dst /\ look w q = None) (fsw_openfs (e_cwd e) d true true) w).
  { destruct (split_place (e_cwd e) d Fc) as (pd & k & E1 & E2 & E3 & E4 & _). unfold dst, dest_of in *. set (B := base_of (e_cwd e) d) in *.
    assert (FB : Forall fname B) by (unfold B, base_of; destruct (startswith _ _); [constructor|auto]). set (P := at_path B pd) in *. assert (FP : Forall fname P) by now apply at_path_fnames.
    unfold fsw_openfs. rewrite split_url_none by auto. cbv beta iota. rewrite E1. change (str_eqb (`"file") (`"file")) with true. cbv iota. change (if startswith [PathModel.slash] pd then [] else e_cwd e) with (base_of (e_cwd e) pd). rewrite E2. fold P.
    apply acts_bind; [apply acts_read|]. intros u Ru. rewrite after_iread. rewrite result_iread in Ru. destruct (fs_isdir w B pd) eqn:Ei; [|discriminate]. apply fs_isdir_look in Ei. fold P in Ei.
    apply acts_bind; [apply acts_read|]. intros ex Rx. rewrite after_iread. rewrite result_iread in Rx. apply Ok_inv in Rx. apply acts_bind; [|intros; apply acts_ret].
    destruct ex; [apply acts_ret|]. apply fs_exists_false in Rx. apply acts_makedir; auto. intros q r Eq Hq.
    destruct (fname_dec k) as [Fk|Fk].
    all: try (rewrite (at_path_one P k FP Fk) in Eq, E3; rewrite <- E3; split; [|exact Hq]; destruct (app_prefix_cases P [k] q r Eq) as [[x Ex]|(x & Ex & Ey)];
      [exfalso; rewrite Ex in Ei; destruct x as [|c x]; [rewrite app_nil_r in Ei; congruence|]; rewrite (look_above w q c x) in Hq; [discriminate|rewrite Ei; discriminate]
      |destruct x as [|c x]; [exfalso; rewrite app_nil_r in Ex; subst q; congruence|]; destruct x as [|c' x]; [|destruct r; discriminate]; cbn in Ey; injection Ey as <- _; exact Ex]).
    all: exfalso; assert (Px : exists y, P = at_path P k ++ y) by
      (unfold at_path; rewrite (split_on_single _ k) by auto; rewrite resolve_fix by auto; cbn [fold_left]; unfold resolve_step;
        destruct (str_eqb_spec k []) as [->|N1]; cbn [orb]; [exists []; now rewrite rev_involutive, app_nil_r|]; destruct (str_eqb_spec k (`".")) as [->|N2]; [exists []; now rewrite rev_involutive, app_nil_r|];
        destruct (str_eqb_spec k (`"..")) as [->|N3]; [|exfalso; apply Fk; split; auto]; generalize P; intros Q; destruct Q as [|c P0] using rev_ind; [now exists []|]; rewrite rev_app_distr; cbn [rev app tl]; rewrite rev_involutive; now exists [c]).
    all: destruct Px as [y Ey]; rewrite Ey in Ei; rewrite (above_dir w _ y Tw Ei) in Rx; discriminate. }
  unfold acts_at in *. assert (E : fst (open_obj_fs e (Some d) true w) = fst (fsw_openfs (e_cwd e) d true true w)) by (unfold open_obj_fs; destruct (fsw_openfs (e_cwd e) d true true w) as [st [a|[]]]; reflexivity).
  rewrite E. exact A.
Qed.

(** At no moment is anything but the file, and the directory if it was not there, changed. *)
Theorem extract_file_crash e path version d p w w' : tree w -> Forall fname (e_cwd e) -> no_url d ->
  crash (extract_file e path version d p) w w' -> let dst := dest_of (e_cwd e) d in
  forall q, (q = dst -> look w q <> None) -> (forall k, last_part p k -> q <> dst ++ [k]) -> look w' q = look w q.
Proof.
  intros Tw Fc Hu Cr dst q Hq Hk. unfold extract_file in Cr. apply crash_bind in Cr as [Cr|(h & Eh & Cr)]; [now rewrite (crash_none _ _ _ (open_obj_none e path w) Cr)|].
  assert (A0 : after (open_obj_fs e path false) w = w) by (unfold after; now rewrite open_obj_none). rewrite A0 in Cr.
  apply crash_bind in Cr as [Cr|([i v] & Es & Cr)]; [now rewrite (crash_read _ _ _ Cr)|]. rewrite after_iread in Cr. rewrite result_iread in Es.
  destruct (setup_inv _ _ _ _ _ Es) as (s & Ep & Hv & _). destruct (find_opened w h i s v p Ep) as [F1 F2].
  assert (Fd : Forall fname dst) by now apply dest_fnames.
  pose proof (open_create_acts e w d Fc Tw Hu) as Ay. fold dst in Ay.
  apply crash_bind in Cr as [Cr|(ds & Ed & Cr)].
  - apply (crash_other _ _ _ _ _ Tw Ay Cr). intros [-> F]. exact (Hq eq_refl F).
  - assert (Eo : look (after (open_obj_fs e (Some d) true) w) q = look w q) by (apply (acts_other _ _ _ _ Tw Ay); intros [-> F]; exact (Hq eq_refl F)).
    destruct (open_create e w d Fc Tw Hu) as [[R _]|[R _]]; [congruence|]. rewrite R in Ed. apply Ok_inv in Ed. subst ds. fold dst in Cr.
    set (w1 := after (open_obj_fs e (Some d) true) w) in *. pose proof (acts_tree _ _ _ Tw Ay) as T1. fold w1 in T1. rewrite <- Eo.
    apply crash_bind in Cr as [Cr|(c & Ec & Cr)]; [now rewrite (crash_read _ _ _ Cr)|]. rewrite after_iread in Cr. rewrite result_iread in Ec.
    assert (Hp : in_version i v p).
    { destruct (parse_opened _ _ _ _ Ep) as (inv & i0 & f & O). destruct (str_in_spec p (paths_of (state i v))) as [Hi|Hi].
      - apply In_paths_of in Hi as [dg Hd]. exists dg. apply in_state_iff; [apply (op_dicts _ _ _ (oa_opened _ _ _ _ _ _ _ O))|auto].
      - rewrite F2 in Ec; [discriminate|]. intros [dg Hd]. apply Hi. apply In_paths_of. exists dg. apply in_state_iff; [apply (op_dicts _ _ _ (oa_opened _ _ _ _ _ _ _ O))|auto]. }
    assert (Hb : exists k, fname k /\ last_part p k).
    { destruct (parse_opened _ _ _ _ Ep) as (inv & i0 & f & O). destruct (plain_path_names p (open_logical _ _ _ _ _ _ _ O v p Hp)) as (r & Nr & Fr & Er). destruct (snoc_case r Nr) as (a & k & ->).
      exists k. rewrite Er. split; [|now apply last_part_names]. apply Forall_app in Fr as [_ Fr]. apply Forall_inv in Fr. exact Fr. }
    destruct Hb as (k & Fk & Hl). rewrite (basename_last _ _ Hl) in Cr.
    assert (Ac : acts_at (fun q => q = dst ++ [k]) (fsw_copyfile h c dst k) w1) by (apply acts_copyfile; [auto|now apply at_path_one]).
    apply crash_bind in Cr as [Cr|(? & ? & Cr)]; [exact (crash_other _ _ _ _ _ T1 Ac Cr (Hk k Hl))|]. rewrite (crash_read _ _ _ Cr). exact (acts_other _ _ _ _ T1 Ac (Hk k Hl)).
Qed.
