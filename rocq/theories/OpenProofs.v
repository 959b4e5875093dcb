(** Opened objects: what parse_inventory accepts (object.py:787-806). *)
From Coq Require Import Permutation Sorted.
From Verif Require Import Properties_InventoryValidator.
From Verif Require Import Base Unicode Regex Utf8 Json PyJson JsonTextModel JsonTextSpec JsonTextProofs JsonFileProofs Log DigestModel LayoutModel LayoutProofs
  ObjectUtilsModel ObjectUtilsProofs InventorySpec InventoryValidatorModel InventoryValidatorProofs InventoryRulesProofs
  InventoryModel InventoryOpsSpec InventoryOpsProofs NewVersionModel NewVersionProofs NewVersionOpsProofs VersionNumberProofs InventoryParseProofs ParseModel
  ContentPathProofs TextFile PathModel FsModel FsSpec FsProofs FswModel FswSpec FswProofs FswCopyProofs ValidatorSpec ValidatorBasicProofs ObjectModel ObjectSpec ObjectInvProofs ObjectRulesProofs
  ObjectParseProofs ObjectAddProofs ContentNameProofs ObjectGrowProofs ObjectStartProofs ObjectCopyProofs ObjectWriteProofs ObjectSourceProofs ObjectFactsProofs NamasteSpec ValidatorVersionProofs ObjectMadeProofs ObjectIntactProofs ObjectExtendProofs FsStepProofs NamasteModel NamasteProofs ObjectStoreProofs ObjectCreateProofs ValidatorModel ValidatorIntactProofs ObjectUpdateProofs ObjectNextProofs ObjectDigestProofs ObjectVersionProofs ObjectExtractProofs ObjectHistoryProofs ObjectExamples.

From Verif Require Import ParseProofs.

(** An inventory that parse_inventory returns is valid, and its versions have short names. *)
Lemma parsed_valid inv i s : parse_inventory_json inv = Ok (i, s) -> valid inv None DEFAULT_SPEC_VERSION.
Proof.
  unfold parse_inventory_json. intros E. apply ebind_ok in E as [[st ok] [E1 E2]]. destruct ok; [|discriminate]. exists st. exact E1.
Qed.

Lemma parsed_short inv i s : json_wf inv -> parse_inventory_json inv = Ok (i, s) -> short_names inv.
Proof.
  intros Hw E. destruct (parsed_valid _ _ _ E) as [st Hv]. pose proof (C22_attributes _ _ _ _ Hw Hv) as (f & Ho & _ & _ & Ealg & _).
  destruct (reads_valid as_coded inv f Hw Ho) as (i0 & E0 & Hr). unfold parse_inventory_json in E. rewrite Hv in E. cbn [ebind negb] in E. rewrite E0 in E. cbn [ebind] in E. rewrite Ealg in E.
  assert (V : exists l, version_directories i0 = Ok l).
  { unfold normalize_digests in E. set (i1 := match i_manifest i0 with Some m => set_manifest (normalize_block (f_alg f) m) i0 | None => i0 end) in E.
    assert (Ek : versions_block i1 = versions_block i0) by (unfold i1; destruct (i_manifest i0); reflexivity).
    destruct (version_directories i1) as [l|e] eqn:El; [|discriminate]. exists l. unfold version_directories in *. now rewrite Ek in El. }
  destruct V as [l V]. apply version_directories_ok in V as [P (ns & F & _)].
  intros vs v b Hm Hb. pose proof Ho as (_ & _ & _ & _ & _ & _ & _ & vs' & (Hv' & (wd & (_ & Hq) & _) & Hp) & _).
  assert (vs = vs') by (pose proof (member_fun _ _ _ _ Hw Hm Hv'); congruence). subst vs'.
  assert (Hf : In v (f_versions f)) by (apply (Permutation_in _ Hp); now apply (in_map fst) in Hb).
  assert (Hi : In v l) by (apply (Permutation_in _ (Permutation_sym P)), is_version_keys, (reads_is_version as_coded inv f i0 Hr); exact Hf).
  destruct (Forall2_in_l _ _ _ F v Hi) as (n & _ & Hn). unfold numbered in Hn. pose proof (parse_version_directory_correct v) as S. rewrite Hn in S.
  destruct S as (ds & nl & Ev & [_ Hd] & Hnl & Hl & _ & _). apply In_nth_error in Hf as [k Hk]. destruct (Hq k v Hk) as (ds' & Ev' & _ & Hd' & _).
  assert (Ed : ds ++ nl = ds' ++ []) by (rewrite app_nil_r; rewrite Ev in Ev'; cbn in Ev'; congruence).
  apply digits_nl_unique in Ed as [-> ->]; auto.
  - rewrite Ev, app_nil_r. cbn. lia.
  - now apply ascii_digits_digits.
  - now left.
Qed.

Record open_at (w : node) (h : place) (i : inventory) (s : str) (inv : json) (i0 : inventory) (f : facts) : Prop := {
  oa_file : exists b, fs_read w h INVENTORY_FILENAME = Ok b /\ json_load b = Ok inv;
  oa_wf : json_wf inv;
  oa_valid : valid inv None DEFAULT_SPEC_VERSION;
  oa_short : short_names inv;
  oa_obeys : obeys as_coded inv f;
  oa_alg : i_alg i = Some (f_alg f);
  oa_spec : s = f_spec f;
  oa_read : inventory_of_json inv = Ok i0;
  oa_opened : opened inv i0 i
}.

Theorem parse_opened w h i s : parse_inventory w h = Ok (i, s) -> exists inv i0 f, open_at w h i s inv i0 f.
Proof.
  unfold parse_inventory. intros E. apply ebind_ok in E as [b [Eb E]]. apply ebind_ok in E as [inv [Ej E]].
  pose proof (json_load_cases b) as Hw. rewrite Ej in Hw. assert (E' : parse_inventory_json inv = Ok (i, s)) by (destruct inv; (discriminate || exact E)). clear E.
  pose proof (parsed_valid _ _ _ E') as Hv. pose proof (parsed_short _ _ _ Hw E') as Hs.
  destruct (parse_correct inv Hw Hv Hs) as (i0 & i' & f & E0 & Ep & Ho & Ea & Op). rewrite E' in Ep. apply Ok_inv in Ep. injection Ep as <- ->.
  exists inv, i0, f. constructor; eauto.
Qed.
