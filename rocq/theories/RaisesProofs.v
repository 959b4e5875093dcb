(** Validation of an orderly object raises no exception. *)
From Verif Require Import Base Unicode Regex Utf8 Json PyJson TextFile Log LogProofs InventorySpec WarningSpec PathModel FsModel FsSpec FswModel FswSpec.
From Verif Require Import DigestModel LayoutProofs ObjectUtilsModel NamasteModel NamasteSpec NamasteProofs InventoryValidatorModel InventoryValidatorProofs InventoryRulesProofs InventoryPriorProofs InventorySafeProofs.
From Verif Require Import ValidatorModel ValidatorSpec RaisesSpec.
From Verif Require Import FsProofs FswProofs FswCopyProofs ValidatorBasicProofs ValidatorVersionProofs ValidatorContentProofs WarningProofs.

(** ** Regular inventories *)

Lemma path_lists_arrays d : path_lists (JObj d) -> arrays_of_strings d.
Proof. intros (d' & E & H) k l Hi. injection E as <-. destruct (H _ _ Hi) as (l' & El & F). now injection El as <-. Qed.
Lemma regular_shaped j : regular j -> well_shaped j.
Proof.
  intros (A & B & C & D & E). split; [exact A|]. split; [exact B|]. split; [intros man Hm; apply path_lists_arrays, C, Hm|]. split.
  - intros vs v b Hv Hi. destruct (D vs v b Hv Hi) as (D1 & _ & D2). split; [exact D1|]. intros st Hs. apply path_lists_arrays, D2, Hs.
  - intros fx alg block Hf Hi. destruct (E _ Hf) as (d & Ed & K). injection Ed as <-. apply path_lists_arrays, (K _ _ Hi).
Qed.

Lemma strings_of l : Forall is_string l -> exists ss, l = map JStr ss.
Proof. induction 1 as [|x l [s ->] _ [ss ->]]; [now exists []|]. now exists (s :: ss). Qed.

Lemma emap_all {A B} (f : A -> exc B) l : (forall a, In a l -> exists b, f a = Ok b) -> exists r, emap f l = Ok r.
Proof.
  induction l as [|a l IH]; intros H; [exists []; reflexivity|]. destruct (H a (or_introl eq_refl)) as [b Eb].
  destruct IH as [r Er]; [intros; apply H; now right|]. exists (b :: r). cbn [emap]. rewrite Eb. cbn [ebind]. rewrite Er. reflexivity.
Qed.
Lemma efold_all {A S} (P : S -> Prop) (f : S -> A -> exc S) l : (forall s a, P s -> In a l -> exists s', f s a = Ok s' /\ P s') ->
  forall s, P s -> exists s', efold f l s = Ok s' /\ P s'.
Proof.
  induction l as [|a l IH]; intros H s Hs; [exists s; split; [reflexivity|auto]|]. destruct (H s a Hs (or_introl eq_refl)) as (s1 & E & H1).
  cbn [efold]. rewrite E. cbn [ebind]. apply IH; [intros; apply H; auto; now right|exact H1].
Qed.

Lemma str_list_ok l : Forall is_string l -> exists ss, str_list (JArr l) = Ok ss.
Proof. intros F. rewrite Forall_forall in F. cbn [str_list]. apply emap_all. intros a Ha. destruct (F a Ha) as [s ->]. eauto. Qed.

Lemma digest_paths_ok b : path_lists b -> exists l, digest_paths b = Ok l.
Proof.
  intros (d & -> & K). unfold digest_paths. cbn [block_items ebind].
  destruct (emap_all (fun kv : str * json => let* ps := path_items (snd kv) in Ok (map (fun p => (fst kv, p)) ps)) d) as [r Er].
  - intros [k x] Hi. destruct (K k x Hi) as (l & -> & F). cbn [fst snd].
    assert (E : exists ps, path_items (JArr l) = Ok ps).
    { unfold path_items. cbn [py_iter ebind].
      destruct (emap_all (fun x => if hashable x then Ok (match x with JStr s => [s] | _ => [] end) else Raise TypeError) l) as [ll El];
        [|rewrite El; cbn [ebind]; eauto]. rewrite Forall_forall in F. intros a Ha. destruct (F a Ha) as [s ->]. cbn [hashable]. eauto. }
    destruct E as [ps ->]. cbn [ebind]. eauto.
  - rewrite Er. cbn [ebind]. eauto.
Qed.

Lemma known_digest H alg b : known_algorithm alg -> exists x, file_digest H alg b = Ok x.
Proof.
  intros [Hn|[<-|[<-|[]]]].
  - exists (H alg b). apply file_digest_iff. left. auto.
  - eexists. apply file_digest_iff. right; left. split; reflexivity.
  - eexists. apply file_digest_iff. right; right. split; reflexivity.
Qed.

(** What is known of the attributes after InventoryValidator.validate. *)
Lemma iv_attributes s f j st b : snd (iv_validate false s f j) = Ok (st, b) ->
  (exists a, iv_digest_algorithm st = JStr a /\ In a [`"sha512"; `"sha256"]) /\ iv_content_directory st <> `".".
Proof.
  unfold iv_validate. intros H.
  assert (C : exists b, snd (validate_body false s f j) = Ok (st, b)).
  { destruct (validate_body false s f j) as [l [[st' []]|e]]; cbn [snd] in *; try discriminate; apply Ok_inv in H; injection H as -> _; eauto. }
  clear H b. destruct C as [b C]. unfold validate_body in C. cbn zeta in C. apply snd_bind in C as (id & _ & C). apply snd_bind in C as (spec & _ & C).
  apply snd_bind in C as (alg & Ea & C). destruct alg as [alg|].
  2:{ cbn in C. apply Ok_inv in C. injection C as <- _. split; [eexists; split; [reflexivity|cbn; auto]|discriminate]. }
  apply snd_bind in C as (cd & Ecd & C). apply snd_bind in C as ([[st' a] u] & E & C).
  assert (K : st' = st).
  { destruct (iv_all_versions st'); [cbn in C; apply Ok_inv in C; now injection C|]. apply snd_bind in C as ([] & _ & C). cbn in C. apply Ok_inv in C. now injection C. }
  subst st'. clear C.
  assert (K : iv_digest_algorithm st = alg /\ iv_content_directory st = fst cd).
  { unfold validate_blocks in E. apply snd_bind in E as (c1 & _ & E). apply snd_bind in E as (m & _ & E). cbn zeta in E.
    apply snd_bind in E as (c2 & _ & E). apply snd_bind in E as ([all used] & _ & E). apply snd_bind in E as (c3 & _ & E).
    apply snd_bind in E as (hd & _ & E). cbn [wret snd] in E. apply Ok_inv in E. injection E as <- _ _. split; reflexivity. }
  destruct K as [-> ->]. clear E. split.
  - unfold validate_digest_algorithm in Ea. cbv zeta in Ea. apply snd_bind in Ea as (c & _ & E).
    destruct c; cbn [negb] in E.
    + apply snd_bind in E as (x & _ & E). destruct (json_eq_str x (`"sha512")).
      * cbn in E. apply Ok_inv, Some_inv in E. subst alg. eexists. split; [reflexivity|cbn; auto].
      * destruct (json_eq_str x (`"sha256")) eqn:E2.
        -- apply snd_bind in E as ([] & _ & E). cbn in E. apply Ok_inv, Some_inv in E. subst alg. apply json_eq_str_iff in E2. subst x.
           eexists. split; [reflexivity|cbn; auto].
        -- apply snd_bind in E as ([] & _ & E). cbn in E. apply Ok_inv in E. discriminate.
    + apply snd_bind in E as ([] & _ & E). cbn in E. apply Ok_inv, Some_inv in E. subst alg. eexists. split; [reflexivity|cbn; auto].
  - unfold validate_content_directory in Ecd. cbv zeta in Ecd. apply snd_bind in Ecd as (c & _ & E). destruct c; cbn [negb] in E.
    + apply snd_bind in E as (x & _ & E).
      assert (D : forall code, snd (werror code ;! wret (DEFAULT_CONTENT_DIRECTORY, false)) = Ok cd -> fst cd <> `".").
      { intros code D. cbn in D. apply Ok_inv in D. subst cd. discriminate. }
      destruct x as [| | | |t| |]; try exact (D _ E). destruct (char_in 47 t); [exact (D _ E)|].
      destruct (str_in t [`"."; `".."]) eqn:Et; [exact (D _ E)|]. cbn in E. apply Ok_inv in E. subst cd. cbn [fst]. intros ->. discriminate Et.
    + cbn in E. apply Ok_inv in E. subst cd. discriminate.
Qed.

(** ** An inventory as prior version of another *)

Lemma regular_state j v : json_wf j -> regular j -> (exists x, block_of j v x) ->
  exists st, version_state j v = Ok st /\ path_lists (JObj st) /\ exists d, version_block j v = Ok d.
Proof.
  intros Hw R (x & vs & Hv & Hi). destruct R as (_ & _ & _ & R & _). destruct (R vs v x Hv Hi) as ((d & ->) & (st & Hs) & P).
  specialize (P st Hs). pose proof P as (sd & -> & _).
  destruct (member_py _ _ _ Hw Hv) as [_ E1].
  assert (Hwv : json_wf (JObj vs)).
  { destruct Hv as (d0 & -> & Hd0). apply json_wf_obj in Hw as [_ Hw]. rewrite Forall_forall in Hw. exact (Hw _ Hd0). }
  assert (Hm : member (JObj vs) v (JObj d)) by (exists vs; auto).
  destruct (member_py _ _ _ Hwv Hm) as [_ E2].
  assert (Hwd : json_wf (JObj d)).
  { apply json_wf_obj in Hwv as [_ Hwv]. rewrite Forall_forall in Hwv. exact (Hwv _ Hi). }
  destruct (member_py _ _ _ Hwd Hs) as [_ E3].
  exists sd. unfold version_state, version_block. rewrite E1. cbn [ebind]. rewrite E2. cbn [ebind]. rewrite E3. cbn [ebind]. eauto.
Qed.

Lemma regular_map j v : json_wf j -> regular j -> (exists x, block_of j v x) -> exists m, get_logical_path_map j v = Ok m.
Proof.
  intros Hw R Hb. destruct (regular_state j v Hw R Hb) as (st & Es & (sd & Esd & P) & _). injection Esd as <-.
  destruct R as (_ & (man & Hm) & Pm & _). pose proof (Pm man Hm) as (md & -> & Pm'). destruct (member_py _ _ _ Hw Hm) as [_ E1].
  unfold get_logical_path_map. rewrite Es. cbn [ebind]. rewrite E1. cbn [ebind].
  match goal with |- exists m, efold ?f _ _ = _ => destruct (efold_all (fun _ => True) f st) with (s := @nil (str * list str)) as (m & Em & _) end; [|exact I|eauto].
  intros s [k x] _ Hi. cbn [fst snd]. destruct (dget k md) as [files|] eqn:E; [|eauto].
  destruct (Pm' k files (dget_In _ _ _ E)) as (l & -> & F). destruct (str_list_ok l F) as [ss ->]. cbn [ebind].
  destruct (P k x Hi) as (l' & -> & F'). destruct (str_list_ok l' F') as [ss' ->]. cbn [ebind]. eauto.
Qed.

Lemma subset_In a b x : subset a b = true -> In x a -> In x b.
Proof. unfold subset. rewrite forallb_forall. intros H Hx. apply str_in_true. auto. Qed.

Lemma prior_safe j st j' st' : json_wf j -> json_wf j' -> regular j -> regular j' ->
  (forall v, In v (iv_all_versions st) -> exists x, block_of j v x) -> (forall v, In v (iv_all_versions st') -> exists x, block_of j' v x) ->
  safe (validate_as_prior_version j st j' st').
Proof.
  intros Hw Hw' R R' B B'. unfold validate_as_prior_version.
  assert (K : safe (if negb (proper_subset (iv_all_versions st') (iv_all_versions st)) then werror (`"E066a")
     else wfold (prior_version_check j st j' st') (iv_all_versions st') tt)).
  { destruct (proper_subset (iv_all_versions st') (iv_all_versions st)) eqn:Ep; cbn [negb]; [|apply safe_error].
    unfold proper_subset in Ep. apply andb_true_iff in Ep as [Ep _]. apply safe_wfold_any. intros [] v Hv.
    specialize (B' v Hv). specialize (B v (subset_In _ _ _ Ep Hv)). clear Ep Hv. unfold prior_version_check.
    destruct (regular_state j v Hw R B) as (s1 & E1 & _ & d1 & D1). destruct (regular_state j' v Hw' R' B') as (s2 & E2 & _ & d2 & D2).
    destruct (regular_map j v Hw R B) as [m1 M1]. destruct (regular_map j' v Hw' R' B') as [m2 M2].
    apply safe_bind; [apply safe_if; [|apply safe_ret]|intros _ _].
    { unfold compare_states_for_version. rewrite E1, E2. apply safe_bind; [eapply safe_lift; reflexivity|intros z0 Ea; apply Ok_inv in Ea; subst z0].
      apply safe_bind; [eapply safe_lift; reflexivity|intros z0 Ea; apply Ok_inv in Ea; subst z0]. apply safe_wfold_any. intros; sf. }
    apply safe_bind; [|intros _ _].
    { rewrite M1, M2. apply safe_bind; [eapply safe_lift; reflexivity|intros z0 Ea; apply Ok_inv in Ea; subst z0].
      apply safe_bind; [eapply safe_lift; reflexivity|intros z0 Ea; apply Ok_inv in Ea; subst z0]. cbv zeta.
      destruct (subset (keys m2) (keys m1)) eqn:S1; cbn [negb orb]; [|sf]. destruct (subset (keys m1) (keys m2)); cbn [negb]; [|sf].
      apply safe_wfold_any. intros [] [k x] Hi. cbn [fst snd]. destruct (dget k m1) as [y|] eqn:Ey; [sf|].
      apply dget_None in Ey. exfalso. apply Ey. eapply subset_In; [exact S1|]. apply in_map_iff. exists (k, x). auto. }
    unfold compare_metadata. rewrite D1, D2. apply safe_bind; [eapply safe_lift; reflexivity|intros z0 Ea; apply Ok_inv in Ea; subst z0].
    apply safe_bind; [eapply safe_lift; reflexivity|intros z0 Ea; apply Ok_inv in Ea; subst z0]. apply safe_wfold_any. intros; sf. }
  destruct K as [[] K]. match goal with |- safe (match ?x with _ => _ end) => destruct x as [l [[]|e]] end; cbn [snd] in K; [|discriminate].
  eexists. reflexivity.
Qed.

(** ** An orderly object *)

(** the algorithms under which digests were recorded *)
Definition algs_known (m : digests_of_files) : Prop := forall p algs a ds, dget p m = Some algs -> In (a, ds) algs -> known_algorithm a.
Lemma add_known alg x m p : known_algorithm alg -> algs_known m -> algs_known (add_digest alg x m p).
Proof.
  intros Ka Hm p' algs a ds. unfold add_digest. rewrite dget_dset. destruct (str_eqb_spec p' p) as [->|Hne]; [|apply Hm].
  intros E. apply Some_inv in E. subst algs. intros Hi. apply In_dset in Hi as [[-> _]|Hi]; [exact Ka|].
  destruct (dget p m) as [l|] eqn:E; [|destruct Hi]. eapply Hm; eauto.
Qed.
Lemma adds_known alg (g : str -> str) l : known_algorithm alg -> forall m, algs_known m ->
  algs_known (fold_left (fun m (dp : str * str) => add_digest alg (g (fst dp)) m (snd dp)) l m).
Proof. intros Ka. induction l as [|x l IH]; intros m Hm; cbn [fold_left]; [exact Hm|]. apply IH. now apply add_known. Qed.
Lemma standard_known a : In a [`"sha512"; `"sha256"] -> known_algorithm a.
Proof. intros [<-|[<-|[]]]; left; eexists; constructor. Qed.

Lemma fixity_blocks j : json_wf j -> regular j ->
  (exists d, j = JObj d) /\
  (py_in (`"fixity") j = Ok false \/
   exists fx, py_in (`"fixity") j = Ok true /\ py_getitem (`"fixity") j = Ok (JObj fx) /\
     forall alg block, In (alg, block) fx -> known_algorithm alg /\ exists l, digest_paths block = Ok l).
Proof.
  intros Hw ((d & ->) & _ & _ & _ & F). split; [eauto|]. rewrite py_in_obj. unfold dmem. destruct (dget (`"fixity") d) as [fx|] eqn:E; [right|left; reflexivity].
  destruct (F fx) as (fd & -> & K); [exists d; split; [auto|now apply dget_In]|]. exists fd. split; [reflexivity|]. split; [cbn [py_getitem]; now rewrite E|].
  intros alg block Hi. destruct (K _ _ Hi) as [K1 K2]. split; [exact K1|]. now apply digest_paths_ok.
Qed.

Lemma record_fixity_ok j m : json_wf j -> regular j -> algs_known m -> exists m', record_fixity j m = Ok m' /\ algs_known m'.
Proof.
  intros Hw R Hm. unfold record_fixity. destruct (fixity_blocks j Hw R) as (_ & [E|(fx & E & E2 & K)]); rewrite E; cbn [ebind negb]; [eauto|].
  rewrite E2. cbn [ebind block_items]. apply (efold_all algs_known); [|exact Hm]. intros s [alg block] Hs Hi. destruct (K _ _ Hi) as (K1 & l & El).
  cbn [fst snd]. rewrite El. cbn [ebind]. eexists. split; [reflexivity|]. now apply (adds_known alg (fun d => normalized_digest d alg)).
Qed.

Lemma lift_bind {A B} (a : A) (f : A -> wexc B) : snd (wbind (wlift (Ok a)) f) = snd (f a).
Proof. reflexivity. Qed.
Lemma read_text_exn b e : read_text b = Raise e -> e = UnicodeDecodeError.
Proof. unfold read_text. destruct (utf8_decode b); [discriminate|]. now injection 1. Qed.
Lemma digest_exn H w h f a b e : fs_read w h f = Ok b -> fs_digest H w h f a = Raise e -> e = ValueError.
Proof.
  intros E. unfold fs_digest. rewrite E. cbn [ebind]. unfold file_digest. rewrite !file_digest_blocks_ok by apply BUFSIZE_pos.
  repeat (match goal with |- context [if ?x then _ else _] => destruct x end; [discriminate|]). now injection 1.
Qed.

Lemma check_manifest_safe j a m : json_wf j -> regular j -> In a [`"sha512"; `"sha256"] -> algs_known m ->
  safe (check_manifest (JStr a) j m) /\ forall m', snd (check_manifest (JStr a) j m) = Ok m' -> algs_known m'.
Proof.
  intros Hw R Ha Hm. destruct R as ((d & ->) & (man & Hman) & P & _). destruct (digest_paths_ok man (P man Hman)) as [l El].
  destruct (member_py _ _ _ Hw Hman) as [E1 E2].
  assert (K : snd (check_manifest (JStr a) (JObj d) m) = Ok (fold_left (fun m dp => add_digest a (normalized_digest (fst dp) a) m (snd dp)) l m)).
  { unfold check_manifest. rewrite E1, lift_bind. cbn [negb]. rewrite E2, lift_bind, El, lift_bind.
    destruct (forallb (fun p => str_in p (map snd l)) (keys m)); reflexivity. }
  split; [eexists; exact K|]. intros m' E. rewrite K in E. apply Ok_inv in E. subst m'.
  apply (adds_known a (fun d => normalized_digest d a)); [now apply standard_known|exact Hm].
Qed.

Section Orderly.
  Variable H : hashfn.
  Variable c : vconf.
  Hypothesis Hlax : vc_lax_digests c = false.
  Variable w : node.
  Variable h : place.
  Hypothesis Hw : tree w.
  Hypothesis Ho : orderly w h.

  Lemma hfn : Forall fname h.
  Proof using Hw Ho. eapply look_fnames_root; [exact Hw|apply Ho]. Qed.

  (** The places of inventory files. *)
  Definition inv_file_at (f : str) (dir : place) : Prop :=
    (List.length dir <= 1)%nat /\ at_path h f = h ++ dir ++ [`"inventory.json"] /\
    forall alg, In alg [`"sha512"; `"sha256"] -> at_path h (f ++ `"." ++ alg) = h ++ dir ++ [`"inventory.json." ++ alg].

  Lemma root_file : inv_file_at INVENTORY_FILENAME [].
  Proof using Hw Ho.
    split; [cbn; lia|]. split; [apply at_path_one; [apply hfn|apply fname_b_ok; reflexivity]|].
    intros alg [<-|[<-|[]]]; apply at_path_one; (apply hfn || (apply fname_b_ok; reflexivity)).
  Qed.

  Lemma inventory_safe f dir spec : inv_file_at f dir -> fs_exists w h f = true ->
    safe (validate_inventory c w h f spec) /\
    forall j st, snd (validate_inventory c w h f spec) = Ok (Some (j, st)) ->
      json_wf j /\ regular j /\ exists b, snd (iv_validate false spec None j) = Ok (st, b).
  Proof using Hlax Hw Ho.
    intros (Hd & Hp & _) Hx. apply fs_exists_look in Hx. rewrite Hp in Hx. destruct (look w (h ++ dir ++ [`"inventory.json"])) as [e|] eqn:El; [|tauto].
    destruct (or_inventories _ _ Ho dir e Hd El) as (b & -> & K).
    assert (Er : fs_read w h f = Ok b) by (apply fs_read_look; now rewrite Hp).
    unfold validate_inventory. rewrite Er, Hlax. cbn [ebind]. destruct K as [E|(j & E & R)]; rewrite E.
    - split; [sf|]. intros j st E'. cbn in E'. apply Ok_inv in E'. discriminate.
    - pose proof (json_load_wf _ _ E) as Hj. destruct (well_shaped_safe spec None j Hj (regular_shaped j R)) as [[st b'] Es]. split.
      + apply safe_bind; [eexists; exact Es|]. intros [? ?] _. sf.
      + intros j' st' E'. apply snd_bind in E' as ([st2 b2] & E1 & E'). cbn in E'. apply Ok_inv, Some_inv in E'. injection E' as <- <-. eauto.
  Qed.

  Lemma digest_safe f dir b a : inv_file_at f dir -> look w (at_path h f) = Some (EFile b) -> In a [`"sha512"; `"sha256"] ->
    safe (validate_inventory_digest H c w h f (JStr a)).
  Proof using Hw Ho.
    intros (Hd & Hp & Hs) Hb Ha. unfold validate_inventory_digest. cbv zeta. destruct (fs_exists w h (f ++ `"." ++ a)) eqn:Ex; cbn [negb]; [|sf].
    unfold validate_inventory_digest_match. destruct (vc_check_digests c); cbn [negb]; [|sf].
    destruct (re_match re_sidecar_name _) as [m|]; [|sf].
    apply fs_exists_look in Ex. rewrite (Hs a Ha) in Ex. destruct (look w (h ++ dir ++ [`"inventory.json." ++ a])) as [e|] eqn:El; [|tauto].
    destruct (or_sidecars _ _ Ho dir a e Hd Ha El) as (sb & ->).
    assert (Er : fs_read w h (f ++ `"." ++ a) = Ok sb) by (apply fs_read_look; now rewrite (Hs a Ha)).
    unfold read_inventory_digest, fs_read_text. rewrite Er. cbn [ebind].
    destruct (read_text sb) as [text|e] eqn:Et.
    - cbn [ebind]. destruct (re_match re_sidecar (readline text)) as [m'|]; cbn [ebind]; [|sf].
      destruct (str_eqb (group_or_nil 2 m') INVENTORY_FILENAME); cbn [ebind]; [|sf].
      destruct (fs_digest H w h f (group_or_nil 1 m)) as [x|e] eqn:Ed; cbn [ebind]; [destruct (str_eqb x (group_or_nil 1 m')); sf|].
      apply digest_exn with (b := b) in Ed; [|now apply fs_read_look]. subst e. sf.
    - cbn [ebind]. apply read_text_exn in Et. subst e. sf.
  Qed.

  Lemma version_file v : fname v -> inv_file_at (path_join v INVENTORY_FILENAME) [v].
  Proof using Hw Ho.
    intros Hv. split; [cbn; lia|]. split; [now apply inv_place; [apply hfn|]|]. intros alg Ha. now apply sidecar_place; [apply hfn| |].
  Qed.
  Lemma file_there f dir : inv_file_at f dir -> fs_exists w h f = true -> exists b, look w (at_path h f) = Some (EFile b).
  Proof using Hw Ho.
    intros (Hd & Hp & _) Hx. apply fs_exists_look in Hx. rewrite Hp in *. destruct (look w (h ++ dir ++ [`"inventory.json"])) as [e|] eqn:El; [|tauto].
    destruct (or_inventories _ _ Ho dir e Hd El) as (b & -> & _). eauto.
  Qed.

  (** ** Versions *)

  Variable root : json.
  Variable st : iv.
  Variable spec : str.
  Hypothesis Hrw : json_wf root.
  Hypothesis Hrr : regular root.
  Hypothesis Hst : exists b, snd (iv_validate false spec None root) = Ok (st, b).
  Hypothesis Hrx : fs_exists w h INVENTORY_FILENAME = true.

  Let ri := mkRoot root st spec.

  Definition prior_ok (o : option vistate) : Prop :=
    match o with None => True | Some s => algs_known (vi_manifest s) /\ algs_known (vi_fixity s) end.

  Lemma alg_known : exists a, iv_digest_algorithm st = JStr a /\ In a [`"sha512"; `"sha256"].
  Proof using Hst. destruct Hst as [b E]. now apply iv_attributes in E. Qed.

  Lemma version_dir_safe last s v : fname v -> prior_ok (Some s) ->
    safe (validate_version_dir H c w h ri last s v) /\ forall o, snd (validate_version_dir H c w h ri last s v) = Ok o -> prior_ok o.
  Proof using Hlax Hw Ho Hrw Hrr Hst Hrx.
    intros Hv Hs. unfold validate_version_dir. destruct (fs_exists w h (path_join v INVENTORY_FILENAME)) eqn:Ex; cbn [negb].
    2:{ split; [sf|]. intros o E. cbn in E. apply Ok_inv in E. now subst o. }
    destruct (file_there _ _ (version_file v Hv) Ex) as [vb Evb]. destruct (file_there _ _ root_file Hrx) as [rb Erb].
    destruct alg_known as (a & Ea & Ha).
    match goal with |- safe (wbind ?X ?G) /\ _ => set (x := X); set (g := G) end.
    assert (K : safe x /\ forall o, snd x = Ok o -> match o with None => True | Some (s', _) => prior_ok (Some s') end).
    { unfold x. destruct (str_eqb v last).
      - cbn [ri ri_iv ri_spec]. rewrite Ea. rewrite (files_identical_ok _ _ _ _ _ _ _ Evb Erb). split.
        + apply safe_bind; [eapply safe_lift; reflexivity|]. intros same _. apply safe_bind; [|intros _ _; sf].
          destruct same; [|sf]. eapply digest_safe; [apply (version_file v Hv)|exact Evb|exact Ha].
        + intros o E. apply snd_bind in E as (same & _ & E). apply snd_bind in E as ([] & _ & E). cbn in E. apply Ok_inv in E. subst o. exact Hs.
      - destruct (inventory_safe _ _ (ri_spec ri) (version_file v Hv) Ex) as [S1 S2]. cbn [ri ri_iv ri_spec ri_inventory] in *.
        assert (M : forall j st', snd (validate_inventory c w h (path_join v INVENTORY_FILENAME) spec) = Ok (Some (j, st')) ->
          exists a', iv_digest_algorithm st' = JStr a' /\ In a' [`"sha512"; `"sha256"] /\
          safe (check_manifest (JStr a') j (vi_manifest s)) /\ (forall m, snd (check_manifest (JStr a') j (vi_manifest s)) = Ok m -> algs_known m) /\
          safe (validate_as_prior_version root st j st') /\ exists pf, record_fixity j (vi_fixity s) = Ok pf /\ algs_known pf).
        { intros j st' E. destruct (S2 j st' E) as (Wj & Rj & b' & Ej). destruct (iv_attributes _ _ _ _ _ Ej) as ((a' & Ea' & Ha') & _).
          exists a'. split; [exact Ea'|]. split; [exact Ha'|]. destruct Hs as [Hm Hf]. destruct (check_manifest_safe j a' _ Wj Rj Ha' Hm) as [M1 M2].
          split; [exact M1|]. split; [exact M2|]. split; [|now apply record_fixity_ok]. destruct Hst as [b0 E0].
          apply prior_safe; auto; intros v' Hv'; [eapply iv_listed in E0; [|exact Hv']|eapply iv_listed in Ej; [|exact Hv']]; tauto. }
        split.
        + apply safe_bind; [exact S1|]. intros [[j st']|] E; [|sf]. destruct (M _ _ E) as (a' & -> & Ha' & M1 & M2 & M3 & pf & M4 & M5). cbv zeta.
          apply safe_bind; [eapply digest_safe; [apply (version_file v Hv)|exact Evb|exact Ha']|intros _ _].
          apply safe_bind; [sf|intros sc _]. apply safe_bind; [|intros _ _].
          { unfold check_id. destruct (truthy (iv_id st)); [|sf]. destruct (S2 j st' E) as (Wj & ((d & ->) & _) & _).
            apply safe_in_get; [sf|]. intros; sf. }
          apply safe_bind; [unfold check_content_directory; sf|intros _ _]. apply safe_bind; [exact M1|intros pm _].
          apply safe_bind; [exact M3|intros _ _]. rewrite M4. apply safe_bind; [eapply safe_lift; reflexivity|intros; sf].
        + intros o E. apply snd_bind in E as (o1 & E1 & E). destruct o1 as [[j st']|]; [|cbn in E; apply Ok_inv in E; now subst o].
          destruct (M _ _ E1) as (a' & Ea' & Ha' & M1 & M2 & M3 & pf & M4 & M5). rewrite Ea' in E. cbv zeta in E.
          apply snd_bind in E as ([] & _ & E). apply snd_bind in E as (sc & _ & E). apply snd_bind in E as ([] & _ & E). apply snd_bind in E as ([] & _ & E).
          apply snd_bind in E as (pm & Em & E). apply snd_bind in E as (u & _ & E). rewrite M4, lift_bind in E. cbn in E. apply Ok_inv in E. subst o.
          split; [exact (M2 _ Em)|exact M5]. }
    destruct K as [K1 K2]. unfold g. split.
    - apply safe_bind; [exact K1|]. intros [[s' t]|] _; sf.
    - intros o E. apply snd_bind in E as (o1 & E1 & E). specialize (K2 _ E1). destruct o1 as [[s' t]|]; [|cbn in E; apply Ok_inv in E; now subst o].
      apply snd_bind in E as ([] & _ & E). cbn in E. apply Ok_inv in E. subst o. exact K2.
  Qed.

  Lemma versions_safe : safe (validate_version_inventories H c w h ri (iv_all_versions st)) /\
    forall o, snd (validate_version_inventories H c w h ri (iv_all_versions st)) = Ok o -> prior_ok o.
  Proof using Hlax Hw Ho Hrw Hrr Hst Hrx.
    unfold validate_version_inventories. cbv zeta. assert (P0 : prior_ok (Some (mkVis [] [] [] (`"1.0")))) by (split; intros ? ? ? ? E; discriminate E).
    destruct (last_opt (iv_all_versions st)) as [last|]; [|split; [sf|intros o E; cbn in E; apply Ok_inv in E; now subst o]].
    apply (safe_wfold prior_ok); [exact P0|]. intros s v Hs Hv. destruct s as [s|]; cbn [unless_aborted].
    - apply version_dir_safe; [|exact Hs]. destruct Hst as [b E]. eapply iv_listed in E; [|exact Hv]. apply E.
    - split; [sf|]. intros o E. cbn in E. apply Ok_inv in E. now subst o.
  Qed.

  (** ** Content *)

  Definition is_file (p : str) : Prop := exists b, fs_read w h p = Ok b.

  Lemma content_safe v sc seen : fname v -> Forall is_file seen ->
    safe (check_version_content w h (iv_content_directory st) sc seen v) /\
    forall s, snd (check_version_content w h (iv_content_directory st) sc seen v) = Ok s -> Forall is_file s.
  Proof using Hw Ho Hst.
    intros Hv Hs. destruct Hst as [b0 E0]. destruct (iv_attributes _ _ _ _ _ E0) as (_ & Hdot).
    pose proof hfn as Hh. assert (Hat : at_path h v = h ++ [v]) by (now apply at_path_one).
    assert (K : forall l, fs_ls w h v = Ok l ->
      safe (wfold (check_version_entry w h (iv_content_directory st) (dget v sc) v) (map fst l) seen) /\
      forall s, snd (wfold (check_version_entry w h (iv_content_directory st) (dget v sc) v) (map fst l) seen) = Ok s -> Forall is_file s).
    { intros l El. apply (safe_wfold (Forall is_file)); [exact Hs|]. intros s e Hs' He. unfold check_version_entry. cbv zeta.
      assert (Q : snd (wret s) = Ok s) by reflexivity.
      match goal with |- context [if ?x then _ else _] => destruct x end; [split; [sf|]; intros s' E; apply Ok_inv in E; now subst s'|].
      destruct (str_eqb_spec (os_relpath e v) (iv_content_directory st)) as [Ee|_].
      - assert (C : exists k m, fname k /\ iv_content_directory st = k /\ get w (h ++ [v; k]) = Ok m).
        { unfold fs_ls in El. rewrite Hat in El. destruct (get w (h ++ [v])) as [n|] eqn:Eg; [|discriminate]. cbn [ebind] in El.
          destruct n as [fb|d|]; apply Ok_inv in El; subst l; cbn [map fst] in He.
          - destruct He as [<-|[]]. rewrite relpath_same in Ee by auto. congruence.
          - rewrite map_map in He. cbn [fst] in He. apply in_map_iff in He as ([k m] & <- & Hi). cbn [fst] in Ee.
            assert (Hk : fname k).
            { pose proof (keys_fnames w _ d Hw Eg) as F. rewrite Forall_forall in F. apply F. apply in_map_iff. now exists (k, m). }
            rewrite relpath_child in Ee by auto. exists k, m. split; [exact Hk|]. split; [auto|].
            change [v; k] with ([v] ++ [k]). rewrite app_assoc. eapply get_child; eauto.
          - destruct He as [<-|[]]. rewrite relpath_same in Ee by auto. congruence. }
        destruct C as (k & m & Hk & Ek & Eg). rewrite Ek.
        assert (Hb : Forall fname [v; k]) by (constructor; [auto|constructor; [auto|constructor]]).
        destruct (walk_content_ok w h [v; k] m Hw Hh ltac:(discriminate) Hb Eg) as (files & _ & F2 & F3).
        rewrite <- (path_join_two v k) in F3 by auto. split.
        + apply safe_bind; [eexists; exact F3|]. intros fs _. sf. destruct fs; sf.
        + intros s' E. apply snd_bind in E as (fs & E1 & E). rewrite F3 in E1. apply Ok_inv in E1. subst fs.
          apply snd_bind in E as ([] & _ & E). cbn in E. apply Ok_inv in E. subst s'. apply Forall_forall. intros p Hp.
          change (In p (add_files files s)) in Hp. apply In_add_files in Hp as [Hp|Hp]; [rewrite Forall_forall in Hs'; auto|].
          apply F2 in Hp as (r & Hr & Hlf & ->). pose proof (leaf_fnames _ _ Hw Hlf) as Hf. apply Forall_app in Hf as [_ Hf].
          destruct Hlf as [Hl1 Hl2]. assert (Hno := or_plain _ _ Ho ([v; k] ++ r)). unfold at_root in Hno.
          destruct (look w (h ++ [v; k] ++ r)) as [[fb| |]|] eqn:El2; try congruence. exists fb. apply fs_read_look. now rewrite at_path_join.
      - destruct (fs_isdir w h e); (split; [sf|]; intros s' E; cbn in E; apply Ok_inv in E; now subst s'). }
    unfold check_version_content, wcatch_missing. destruct (fs_ls w h v) as [l|e] eqn:El.
    - destruct (K l eq_refl) as [[s Es] K2]. specialize (K2 s Es).
      rewrite lift_bind, Es. split; [exists s; rewrite lift_bind; exact Es|]. intros s' E. rewrite lift_bind in E. rewrite Es in E. apply Ok_inv in E. now subst s'.
    - assert (e = FileNotFoundError).
      { unfold fs_ls in El. rewrite Hat in El. rewrite get_app in El. destruct (proj1 (look_dir w h) (or_dir _ _ Ho)) as [d Ed]. rewrite Ed in El.
        cbn [get] in El. destruct (dget v d) as [[| |]|]; cbn [ebind] in El; try discriminate. now injection El. }
      subst e. cbn. split; [exists seen; reflexivity|]. intros s' E. apply Ok_inv in E. now subst s'.
  Qed.

  Lemma additional_safe p known m code : is_file p -> algs_known m -> safe (check_additional_digests H w h p known m code).
  Proof using.
    intros [b Hb] Hm. unfold check_additional_digests. destruct (dget p m) as [algs|] eqn:E; [|sf]. apply safe_wfold_any.
    intros k [a ds] Hi. cbn [fst snd]. apply safe_bind.
    - destruct (dget a k); [sf|]. unfold fs_digest. rewrite Hb. cbn [ebind]. destruct (known_digest H a b (Hm _ _ _ _ E Hi)) as [x Ex].
      eapply safe_lift. exact Ex.
    - intros x _. apply safe_bind; [|intros; sf]. apply safe_wfold_any. intros; sf.
  Qed.

  Lemma all_content_safe prior : prior_ok (Some prior) -> safe (validate_content H c w h ri (iv_all_versions st) prior).
  Proof using Hw Ho Hst Hrw Hrr.
    intros [Pm Pf]. unfold validate_content. cbn [ri ri_iv ri_inventory].
    destruct (safe_wfold (Forall is_file) (check_version_content w h (iv_content_directory st) (vi_sidecars prior)) (iv_all_versions st) []) as [S1 S2].
    { constructor. }
    { intros s v Hs Hv. apply content_safe; [|exact Hs]. destruct Hst as [b E]. eapply iv_listed in E; [|exact Hv]. apply E. }
    apply safe_bind; [exact S1|]. intros seen Es. specialize (S2 seen Es).
    assert (Fx : safe (root_fixity root seen) /\ forall m, snd (root_fixity root seen) = Ok m -> algs_known m).
    { unfold root_fixity. assert (N : algs_known []) by (intros ? ? ? ? E; discriminate E).
      destruct (fixity_blocks root Hrw Hrr) as (_ & [E|(fx & E & E2 & K)]); rewrite E.
      - split; [apply safe_bind; [eapply safe_lift; reflexivity|]; intros z0 Ez; apply Ok_inv in Ez; subst z0; cbn [negb]; sf|].
        intros m Em. rewrite lift_bind in Em. cbn in Em. apply Ok_inv in Em. now subst m.
      - rewrite E2. cbn [block_items].
        pose (f := fun (m : digests_of_files) (ab : str * json) =>
             let! items := wlift (digest_paths (snd ab)) in
             wfold (fun m (dp : str * str) => if str_in (snd dp) seen then wret (add_digest (fst ab) (fst dp) m (snd dp))
                                else werror (`"E093b") ;! wret m) items m).
        destruct (safe_wfold algs_known f fx []) as [Q1 Q2]; [exact N| |].
        + intros m [alg block] Hm Hi. destruct (K _ _ Hi) as (Ka & l & El). unfold f. cbn [fst snd]. rewrite El.
          pose (f2 := fun m (dp : str * str) => if str_in (snd dp) seen then wret (add_digest alg (fst dp) m (snd dp))
                                else werror (`"E093b") ;! wret m).
          destruct (safe_wfold algs_known f2 l m) as [Q1 Q2]; [exact Hm| |].
          * intros m' [x p] Hm' _. unfold f2. cbn [fst snd]. destruct (str_in p seen).
            -- split; [sf|]. intros m2 E'. cbn in E'. apply Ok_inv in E'. subst m2. now apply add_known.
            -- split; [sf|]. intros m2 E'. cbn in E'. apply Ok_inv in E'. now subst m2.
          * split; [apply safe_bind; [eapply safe_lift; reflexivity|]; intros z0 Ez; apply Ok_inv in Ez; subst z0; exact Q1|].
            intros m2 Em. rewrite lift_bind in Em. now apply Q2.
        + split.
          * do 3 (apply safe_bind; [eapply safe_lift; reflexivity|]; intros ? Ez; apply Ok_inv in Ez; subst; cbn [negb block_items]). exact Q1.
          * intros m Em. rewrite lift_bind in Em. cbn [negb] in Em. rewrite lift_bind in Em. cbn [block_items] in Em. rewrite lift_bind in Em. exact (Q2 _ Em). }
    destruct Fx as [Fx1 Fx2]. apply safe_bind; [exact Fx1|]. intros fixity Ef. specialize (Fx2 _ Ef).
    destruct Hrr as ((d & Ed) & (man & Hman) & P & _). destruct (member_py _ _ _ Hrw Hman) as [E1 E2]. rewrite E1, E2.
    apply safe_bind; [eapply safe_lift; reflexivity|]. intros z0 Ez. apply Ok_inv in Ez. subst z0. apply safe_bind; [|intros [|? ?] _; sf].
    apply safe_bind; [eapply safe_lift; reflexivity|]. intros z0 Ez. apply Ok_inv in Ez. subst z0.
    destruct (digest_paths_ok man (P man Hman)) as [l El]. rewrite El.
    apply safe_bind; [eapply safe_lift; reflexivity|]. intros z0 Ez. apply Ok_inv in Ez. subst z0.
    destruct alg_known as (a & -> & Ha).
    apply (safe_wfold (Forall is_file)); [exact S2|]. intros rem [x p] Hr _. unfold check_file.
    destruct (str_in p rem) eqn:Ep; cbn [negb].
    2:{ split; [sf|]. intros s E. cbn in E. apply Ok_inv in E. now subst s. }
    apply str_in_true in Ep. pose proof (proj1 (Forall_forall _ _) Hr p Ep) as Hp. pose proof Hp as [b Hb].
    assert (Fl : Forall is_file (filter (fun y => negb (str_eqb p y)) rem)).
    { apply Forall_forall. intros y Hy. apply filter_In in Hy as [Hy _]. rewrite Forall_forall in Hr. auto. }
    split; [|intros s E; apply snd_bind in E as (u & _ & E); cbn in E; apply Ok_inv in E; now subst s].
    apply safe_bind; [|intros; sf]. destruct (vc_check_digests c); [|sf].
    apply safe_bind.
    { unfold fs_digest. rewrite Hb. cbn [ebind]. destruct (known_digest H a b (standard_known a Ha)) as [y Ey]. eapply safe_lift. exact Ey. }
    intros y _. apply safe_bind; [sf|intros _ _]. apply safe_bind; [now apply additional_safe|intros k1 _].
    apply safe_bind; [now apply additional_safe|intros k2 _]. apply safe_bind; [now apply additional_safe|intros k3 _]. sf.
  Qed.
End Orderly.

(** ** The whole *)

Lemma declarations_safe c w h namastes : tree w -> orderly w h -> find_namastes w h (`"0") [] 10 = Ok namastes ->
  safe (check_declarations c w h namastes).
Proof.
  intros Hw Ho Hf. pose proof (hfn w h Hw Ho) as Hh.
  assert (K : forall s n, In n namastes -> safe (check_declaration w h s n)).
  { intros s n Hn. unfold check_declaration. destruct (declared_version n) as [v|] eqn:Ev; [|sf].
    destruct (match s with None => true | Some s0 => str_gt v s0 end); [|sf]. apply safe_bind; [|intros ok _; sf].
    apply declared_version_iff in Ev as [Hv En].
    assert (Hp : at_path h (path_join [] (filename n)) = h ++ [filename n]).
    { rewrite at_path_name by (rewrite En; now apply decl_fname). now rewrite at_path_nil. }
    unfold content_ok, check_content. destruct (str_eqb (tvalue n) []); [eapply safe_lift; reflexivity|].
    destruct (proj1 (look_dir w h) (or_dir _ _ Ho)) as [d Hg].
    assert (Hl : look w (h ++ [filename n]) <> None).
    { assert (Hg' : get w (at_path h []) = Ok (Dir d)) by now rewrite at_path_nil.
      rewrite (find_namastes_ok w h d [] (`"0") 10 Hw ltac:(unfold walkable; discriminate) Hg') in Hf. cbv zeta in Hf.
      destruct (Nat.ltb _ _); [discriminate|]. apply Ok_inv in Hf. subst namastes.
      assert (Hi : In (filename n) (keys d)).
      { apply in_map_iff in Hn as (f & <- & Hn). apply In_isort in Hn. apply filter_In in Hn as [Hn Hst]. apply startswith_app in Hst as [t ->].
        unfold filename, tvalue. cbn [n_d n_tvalue]. rewrite skipn_app, skipn_all, Nat.sub_diag. exact Hn. }
      apply (dir_names w h d Hw Hg) in Hi. exact Hi. }
    destruct (look w (h ++ [filename n])) as [e|] eqn:El; [|tauto]. rewrite En in El.
    destruct (or_declarations _ _ Ho v e Hv El) as (b & text & -> & Et).
    assert (Er : fs_read_text w h (path_join [] (filename n)) = Ok text).
    { unfold fs_read_text. rewrite (proj2 (fs_read_look w h _ b)) by (rewrite Hp, En; exact El). exact Et. }
    rewrite Er. cbn [ebind]. destruct (str_eqb (tvalue n) (content_to_tvalue text)); eapply safe_lift; reflexivity. }
  unfold check_declarations. destruct namastes as [|n r]; [sf|].
  apply safe_bind; [apply safe_wfold_any; intros; now apply K|]. intros [v|] _; sf.
Qed.

Lemma namastes_found w h : tree w -> orderly w h -> exists l, find_namastes w h (`"0") [] 10 = Ok l.
Proof.
  intros Hw Ho. destruct (proj1 (look_dir w h) (or_dir _ _ Ho)) as [d Hg]. assert (Hg' : get w (at_path h []) = Ok (Dir d)).
  { rewrite at_path_nil; [exact Hg|]. now apply hfn with (w := w). }
  rewrite (find_namastes_ok w h d [] (`"0") 10 Hw ltac:(unfold walkable; discriminate) Hg'). cbv zeta.
  pose proof (proj1 (few_length w h d (`"0") 10 Hw Hg) (or_few _ _ Ho)) as L. destruct (Nat.ltb_spec 10 (List.length (filter (startswith (`"0" ++ `"=")) (keys d)))); [lia|eauto].
Qed.

Lemma object_root_safe w h spec a vs ac : tree w -> orderly w h -> safe (validate_object_root w h spec (JStr a) vs ac).
Proof.
  intros Hw Ho. pose proof (hfn w h Hw Ho) as Hh. destruct (proj1 (look_dir w h) (or_dir _ _ Ho)) as [d Hg].
  unfold validate_object_root. cbv zeta. assert (E : fs_ls w h [] = Ok (map (fun kv => (fst kv, type_of (snd kv))) d)).
  { unfold fs_ls. rewrite at_path_nil, Hg by auto. reflexivity. }
  rewrite E. apply safe_bind; [eapply safe_lift; reflexivity|]. intros z0 Ez. apply Ok_inv in Ez. subst z0. apply safe_wfold_any.
  intros [] [k t] Hi. apply in_map_iff in Hi as ([k' m] & Ek & Hi). injection Ek as <- <-. unfold check_root_entry. cbn [fst snd].
  destruct m as [b|d'|]; cbn [type_of]; [sf| |sf]. destruct (str_in k' vs); [sf|]. destruct (str_eqb k' (`"logs")); [sf|].
  destruct (str_eqb_spec k' (`"extensions")) as [->|_]; [|destruct (re_match re_version_dir k'); sf].
  unfold validate_extensions_dir, fs_ls. rewrite at_path_one by (auto; apply fname_b_ok; reflexivity).
  rewrite (get_child w h d _ _ Hw Hg Hi). cbn [ebind]. apply safe_bind; [eapply safe_lift; reflexivity|]. intros l _. apply safe_wfold_any.
  intros [] [x t] _. cbn [fst snd]. destruct t; sf.
Qed.

Lemma safe_prefix {A B} (l : list Log.entry) (a : A) (f : A -> wexc B) : safe (f a) -> safe (wbind (l, Ok a) f).
Proof. intros [b E]. exists b. unfold wbind. cbn [fst snd]. destruct (f a) as [l' r]. cbn [snd] in *. exact E. Qed.

Theorem orderly_safe H c w h n : vc_lax_digests c = false -> tree w -> orderly w h -> safe (validate_opened H c w h n).
Proof.
  intros Hlax Hw Ho. unfold validate_opened. destruct (namastes_found w h Hw Ho) as [ns En]. rewrite En.
  apply safe_bind; [eapply safe_lift; reflexivity|]. intros z0 Ez. apply Ok_inv in Ez. subst z0.
  destruct (declarations_safe c w h ns Hw Ho En) as [spec Es]. destruct (check_declarations c w h ns) as [log r]. cbn [snd] in Es. subst r.
  destruct (fs_exists w h INVENTORY_FILENAME) eqn:Ex; cbn [negb]; [|eexists; reflexivity].
  assert (K : safe (validate_parts H c w h (n + num_errors log) spec ns)).
  { unfold validate_parts. destruct (inventory_safe c Hlax w h Hw Ho _ _ spec (root_file w h Hw Ho) Ex) as [S1 S2].
    destruct S1 as [o So]. destruct (validate_inventory c w h INVENTORY_FILENAME spec) as [l r] eqn:Ei. cbn [snd] in So, S2. subst r.
    destruct o as [[j st]|]; [|eexists; reflexivity]. destruct (S2 _ _ eq_refl) as (Wj & Rj & Hst). cbv zeta. apply safe_prefix.
    destruct (file_there w h Hw Ho _ _ (root_file w h Hw Ho) Ex) as [b Hb].
    destruct (alg_known j st spec Hst) as (a & Ea & Ha). rewrite Ea.
    apply safe_bind; [eapply (digest_safe H c w h Hw Ho _ _ b a (root_file w h Hw Ho) Hb Ha)|intros _ _].
    apply safe_bind; [now apply object_root_safe|intros _ _].
    destruct (versions_safe H c Hlax w h Hw Ho j st spec Wj Rj Hst Ex) as [V1 V2].
    apply safe_bind; [exact V1|]. intros [prior|] Ep; [|sf]. apply safe_if; [|sf].
    eapply all_content_safe; eauto. }
  destruct K as [[] K]. destruct (validate_parts H c w h (n + num_errors log) spec ns) as [l r]. cbn [snd] in K. subst r. eexists. reflexivity.
Qed.
