(** Property C91: the configuration file of a layout, and the versions of the specification a
    storage root accepts. *)
From Verif Require Import Base Unicode Regex Utf8 Json PyJson JsonTextModel JsonTextSpec JsonFileProofs Log DigestModel LayoutModel InventoryModel ParseModel LayoutSpec Properties_Layout ContentPathProofs TextFile PathModel FsModel FsSpec FsProofs FsStepProofs FswModel FswSpec FswProofs FswCopyProofs
  NamasteModel NamasteSpec NamasteProofs Properties_Namaste UpdateSpec ChangeProofs FrameProofs Properties_Fsw ValidatorSpec ValidatorModel ValidatorBasicProofs ValidatorContentProofs ObjectModel ObjectSpec ObjectCopyProofs ObjectMadeProofs ObjectWriteProofs ObjectCreateProofs ObjectExamples Properties_Object
  StorageRootModel StorageRootSpec StorageRootProofs StorageRootRunProofs Properties_StorageRoot RootInitSpec RootInitProofs Properties_RootInit.
Import ListNotations.

Definition config_place_of (h : place) (l : layout) : place := h ++ [`"extensions"; LayoutModel.layout_name l; `"config.json"].

(** Whenever write_layout_params is stopped: all that was there is there unchanged, and nothing
    is new but the configuration file and the directories it is in. *)
Theorem C91_only : forall w h l w' q, tree w -> Forall fname h -> crash (write_layout_params h l) w w' ->
  (look w q <> None -> look w' q = look w q) /\
  (look w' q <> look w q -> exists r, config_place_of h l = q ++ r).
Proof.
  intros w h l w' q Tw Fh Cr.
  set (P := fun q => look w q = None /\ exists r, config_place_of h l = q ++ r).
  assert (A : acts_at P (write_layout_params h l) w).
  { unfold write_layout_params. destruct (layout_config l) as [c|]; [|apply acts_ret]. apply acts_bind; [apply acts_read|]. intros x Hx. rewrite after_iread in *. rewrite result_iread in Hx. apply Ok_inv in Hx.
    destruct x; [apply acts_raise|]. pose proof (fs_exists_false w h (config_file l)) as Fe. apply Fe in Hx. rewrite config_place in Hx by auto.
    assert (D : at_path h (path_dirname (config_file l)) = h ++ [`"extensions"; LayoutModel.layout_name l]).
    { assert (Ed : path_dirname (config_file l) = J [`"extensions"; LayoutModel.layout_name l]) by (destruct l; reflexivity). rewrite Ed. apply at_path_join; [exact Fh|].
      repeat constructor; try apply layout_name_fname; apply fname_b_ok; reflexivity. }
    assert (B : acts_at P (fs_makedirs h (path_dirname (config_file l)) false ;; fs_write_text h (config_file l) (json_print false 0 c)) w).
    { apply acts_bind.
      - apply acts_makedirs; auto. intros q0 r0 E N. split; [exact N|]. exists (r0 ++ [`"config.json"]). unfold config_place_of. rewrite app_assoc, <- E, D, <- app_assoc. reflexivity.
      - intros [] _. apply acts_write_text; [exact Fh|]. rewrite config_place by auto. split; [exact Hx|]. exists []. rewrite app_nil_r. reflexivity. }
    unfold acts_at in *. destruct ((fs_makedirs h (path_dirname (config_file l)) false ;; fs_write_text h (config_file l) (json_print false 0 c)) w) as [st [u|ex]]; exact B. }
  split.
  - intros Hq. apply (crash_other P _ _ _ _ Tw A Cr). intros [N _]. exact (Hq N).
  - intros Hq. destruct (strip q (config_place_of h l)) as [r|] eqn:Es; [apply strip_some in Es; eauto|]. exfalso. apply Hq. apply (crash_other P _ _ _ _ Tw A Cr). intros [_ [r E]]. rewrite E, strip_app in Es. discriminate.
Qed.
Print Assumptions C91_only.

(** A configuration that is there is not overwritten. *)
Theorem C91_refused : forall w h l, Forall fname h -> layout_config l <> None -> look w (config_place_of h l) <> None ->
  write_layout_params h l w = ([], Raise LayoutException).
Proof.
  intros w h l Fh Hc L. unfold write_layout_params. destruct (layout_config l) as [c|]; [|congruence]. unfold ibind, iread.
  assert (E : fs_exists w h (config_file l) = true) by (apply fs_exists_look; rewrite config_place by auto; exact L). rewrite E. reflexivity.
Qed.
Print Assumptions C91_refused.

(** What is written is read again, by every instance of the class, with the same parameters. *)
Theorem C91_read_again : forall H w h l cfg, hash_ok H -> tree w -> Forall fname h -> look w h = Some EDir ->
  layout_params_ok H l -> text_prefix (Some l) -> layout_config l = Some (JObj cfg) ->
  look w (h ++ [`"extensions"]) = None \/ look w (h ++ [`"extensions"]) = Some EDir -> look w (h ++ [`"extensions"; LayoutModel.layout_name l]) = None ->
  let x := write_layout_params h l in
  result x w = Ok tt /\ forall l0, LayoutModel.layout_name l0 = LayoutModel.layout_name l -> read_layout_params H (after x w) h l0 = Ok l.
Proof.
  intros H w h l cfg HH Tw Fh Hd Po Tp Ec He Hn x. set (d := [`"extensions"; LayoutModel.layout_name l]) in *.
  assert (Fd : Forall fname d) by (repeat constructor; try apply layout_name_fname; apply fname_b_ok; reflexivity).
  assert (Ed : path_dirname (config_file l) = J d) by (destruct l; reflexivity).
  assert (Pd : at_path h (path_dirname (config_file l)) = h ++ d) by (rewrite Ed; now apply at_path_join).
  assert (Pc : at_path h (config_file l) = (h ++ d) ++ [`"config.json"]) by (rewrite config_place by auto; rewrite <- app_assoc; reflexivity).
  assert (Nc : look w ((h ++ d) ++ [`"config.json"]) = None) by (apply look_below_leaf; [discriminate|now apply none_not_dir]).
  assert (Dt : dirs_to w (at_path h (path_dirname (config_file l)))).
  { rewrite Pd. intros q y E. destruct (app_eq_app _ _ _ _ E) as (m & [[E1 E2]|[E1 E2]]).
    - right. destruct m as [|c1 m]; [rewrite app_nil_r in E1; rewrite <- E1; exact Hd|]. apply (look_prefix_dir w h q (c1 :: m)); [rewrite Hd; discriminate|exact E1|discriminate].
    - rewrite E1. destruct m as [|c1 m]; [right; rewrite app_nil_r; exact Hd|]. unfold d in E2. injection E2 as <- E2. destruct m as [|c2 m]; [destruct He as [He|He]; [left|right]; exact He|].
      injection E2 as <- E2. destruct m as [|c3 m]; [left; exact Hn|discriminate E2]. }
  destruct (makedirs_ok w h (path_dirname (config_file l)) false) as [M1 M2]; [rewrite Pd; exact Hn|exact Dt|]. rewrite Pd in M2. set (m := fs_makedirs h (path_dirname (config_file l)) false) in *. set (w1 := after m w) in *.
  assert (Fr : fresh_place w1 (at_path h (config_file l))).
  { rewrite Pc. split; [destruct h; discriminate|]. rewrite List.removelast_last. split; [rewrite M2, strip_self; reflexivity|].
    rewrite M2. destruct (strip ((h ++ d) ++ [`"config.json"]) (h ++ d)) as [y|] eqn:Es; [apply strip_some in Es; apply (f_equal (@List.length _)) in Es; rewrite !app_length in Es; cbn in Es; clear -Es; lia|]. exact Nc. }
  destruct (json_binary_ok _ (config_writable H l _ Po Tp Ec)) as [Ew Jl].
  destruct (write_text_file w1 h (config_file l) _ _ (or_introl Fr) Ew) as [R2 C2]. set (y := fs_write_text h (config_file l) (json_print false 0 (JObj cfg))) in *.
  assert (X : result x w = Ok tt /\ after x w = after y w1).
  { unfold x, write_layout_params. rewrite Ec. rewrite result_read, after_read. assert (Ex : fs_exists w h (config_file l) = false) by (apply fs_exists_false; rewrite Pc; exact Nc). cbv beta. rewrite Ex. fold m y.
    assert (A1 : result (m ;; y) w = Ok tt) by (rewrite (result_seq m (fun _ => y) w tt M1); exact R2).
    assert (A2 : after (m ;; y) w = after y w1) by (rewrite (after_seq m (fun _ => y) w tt M1); reflexivity).
    rewrite <- A2. clear - A1. unfold result, after in *. destruct ((m ;; y) w) as [s0 r0]. cbn [fst snd] in *. rewrite A1. auto. }
  destruct X as [X1 X2]. split; [exact X1|]. intros l0 El0. apply layout_params_file; [exact Fh|]. cbv zeta. right. rewrite X2, El0. exists (json_print false 0 (JObj cfg)), cfg.
  split; [rewrite <- config_place by auto; exact (changes_at _ _ _ _ C2)|]. split; [exact Jl|]. apply (C09_config_roundtrip H l cfg l0 HH Po Ec El0).
Qed.
Print Assumptions C91_read_again.

(** The directory of the configuration must not be there: if it is, nothing is written, even
    when it is empty. *)
Lemma missing_dir : forall p n done, look n p = Some EDir -> FsModel.missing n done p = Ok [].
Proof.
  induction p as [|c p IH]; intros n done L.
  - destruct n; cbn in L; try discriminate; reflexivity.
  - rewrite look_cons in L. destruct n as [b|d|]; try discriminate. cbn [FsModel.missing]. destruct (dget c d) as [m|]; [|discriminate]. now apply IH.
Qed.
Theorem C91_directory : forall w h l, Forall fname h -> layout_config l <> None -> look w (h ++ [`"extensions"; LayoutModel.layout_name l]) = Some EDir ->
  write_layout_params h l w = ([], Raise LayoutException).
Proof.
  intros w h l Fh Hc L. destruct (look w (config_place_of h l)) eqn:Lc; [apply C91_refused; auto; rewrite Lc; discriminate|].
  unfold write_layout_params. destruct (layout_config l) as [c|]; [|congruence]. unfold iread.
  assert (E : fs_exists w h (config_file l) = false) by (apply fs_exists_false; rewrite config_place by auto; exact Lc).
  assert (D : at_path h (path_dirname (config_file l)) = h ++ [`"extensions"; LayoutModel.layout_name l]).
  { assert (Ed : path_dirname (config_file l) = J [`"extensions"; LayoutModel.layout_name l]) by (destruct l; reflexivity). rewrite Ed. apply at_path_join; [exact Fh|].
    repeat constructor; try apply layout_name_fname; apply fname_b_ok; reflexivity. }
  assert (M : fs_makedirs h (path_dirname (config_file l)) false w = ([], Raise OSError)) by (unfold fs_makedirs; rewrite D, missing_dir by exact L; reflexivity).
  set (y := fs_write_text h (config_file l) (json_print false 0 c)). set (m := fs_makedirs h (path_dirname (config_file l)) false) in *.
  assert (B : (m ;; y) w = ([], Raise OSError)) by (unfold ibind; rewrite M; reflexivity).
  fold y. fold m. unfold ibind at 1. rewrite E. cbv beta iota zeta. cbn [apply_all fold_left app]. rewrite B. reflexivity.
Qed.
Print Assumptions C91_directory.

(** A run that was stopped before the file was made can therefore not be repeated. *)
Definition ex_root_only : node := Dir [(`"r", Dir [])].
Definition ex_md5 : layout := L0003 (`"md5") 2 15.
Theorem C91_repeat_refuted : exists w h l w', tree w /\ result (write_layout_params h l) w = Ok tt /\ crash (write_layout_params h l) w w' /\
  look w' (config_place_of h l) = None /\ result (write_layout_params h l) w' = Raise LayoutException.
Proof.
  exists ex_root_only, [`"r"], ex_md5, (after (fs_makedirs [`"r"] (path_dirname (config_file ex_md5)) false) ex_root_only).
  split; [apply tree_b_ok; reflexivity|]. split; [vm_compute; reflexivity|]. split; [|split; vm_compute; reflexivity].
  exists (fst (fs_makedirs [`"r"] (path_dirname (config_file ex_md5)) false ex_root_only)). split; [|reflexivity].
  apply (cut_prefix (fst (fs_makedirs [`"r"] (path_dirname (config_file ex_md5)) false ex_root_only)) (fst (fs_write_text [`"r"] (config_file ex_md5) (match layout_config ex_md5 with Some c => json_print false 0 c | None => [] end) (after (fs_makedirs [`"r"] (path_dirname (config_file ex_md5)) false) ex_root_only)))).
Qed.
Print Assumptions C91_repeat_refuted.

Example C91_ex : let x := write_layout_params [`"r"] ex_md5 in let w' := after x ex_root_only in
  hash_ok toy_hash /\ tree ex_root_only /\ layout_params_ok toy_hash ex_md5 /\ text_prefix (Some ex_md5) /\ (exists cfg, layout_config ex_md5 = Some (JObj cfg)) /\
  look ex_root_only ([`"r"] ++ [`"extensions"]) = None /\ result x ex_root_only = Ok tt /\ read_layout_params toy_hash w' [`"r"] layout_0003_default = Ok ex_md5 /\
  write_layout_params [`"r"] (L0003 (`"sha256") 3 3) w' = ([], Raise LayoutException).
Proof.
  cbv zeta. split; [apply toy_hash_ok|]. split; [apply tree_b_ok; reflexivity|]. split; [eexists; vm_compute; intuition (try discriminate; try congruence; eauto)|]. split; [exact I|]. split; [eexists; reflexivity|]. repeat split; vm_compute; reflexivity.
Qed.

(** ** Versions of the specification *)
Definition supported (v : str) : Prop := v = `"1.0" \/ v = `"1.1".
Lemma supported_in v : str_in v SPEC_VERSIONS_SUPPORTED = true <-> supported v.
Proof. rewrite str_in_true. unfold supported. split; [intros [<-|[<-|[]]]; auto|intros [->| ->]; [left|right; left]; reflexivity]. Qed.

(** A version that is given is the one of the instance, and is one that is supported. *)
Theorem C91_version : forall root name lax v,
  match new_sroot root name lax v with
  | Ok s => s_spec s = v /\ s_root s = root /\ s_layout_name s = name /\ s_lax s = lax /\ forall t, v = Some t -> supported t
  | Raise e => e = StorageRootException [] /\ exists t, v = Some t /\ ~ supported t
  end.
Proof.
  intros root name lax [v|]; cbn [new_sroot]; [|repeat split; discriminate]. destruct (str_in v SPEC_VERSIONS_SUPPORTED) eqn:E.
  - apply supported_in in E. repeat split. intros t [= <-]. exact E.
  - split; [reflexivity|]. exists v. split; [reflexivity|]. intros S. apply supported_in in S. congruence.
Qed.
Print Assumptions C91_version.

(** check_spec_version keeps nothing but the version, and the instance has a supported one
    when it returns. *)
Theorem C91_check : forall v s w,
  check_spec_version v s w = ([], Ok (set_spec v s, Ok tt)) /\ (exists t, v = Some t /\ supported t) \/
  check_spec_version v s w = ([], Ok (set_spec (Some (`"1.1")) s, Ok tt)) /\ v = None /\ s_spec s = None \/
  check_spec_version v s w = ([], Ok (s, Raise (StorageRootException []))) /\ ((exists t, v = Some t /\ ~ supported t) \/ v = None /\ s_spec s <> None).
Proof.
  intros v s w. unfold check_spec_version. rewrite sget_ok. destruct v as [t|].
  - assert (X : match s_spec s with Some _ | None => Some t end = Some t) by (destruct (s_spec s); reflexivity). destruct (str_in t SPEC_VERSIONS_SUPPORTED) eqn:E.
    + left. split; [destruct (s_spec s); rewrite ?E; reflexivity|]. exists t. split; [reflexivity|]. now apply supported_in.
    + right. right. split; [destruct (s_spec s); rewrite ?E; reflexivity|]. left. exists t. split; [reflexivity|]. intros S. apply supported_in in S. congruence.
  - destruct (s_spec s) as [u|] eqn:Es.
    + right. right. split; [reflexivity|]. right. split; [reflexivity|discriminate].
    + right. left. split; [reflexivity|]. auto.
Qed.
Print Assumptions C91_check.

(** "Sets self.spec_version to spec_version if given and good, otherwise to the default" is not
    true of an instance that has a version already. *)
Theorem C91_default_refuted : exists s, new_sroot None None false (Some (`"1.0")) = Ok s /\ forall w, check_spec_version None s w = ([], Ok (s, Raise (StorageRootException []))).
Proof. eexists. split; [reflexivity|]. intros w. reflexivity. Qed.
Print Assumptions C91_default_refuted.

(** ** The parameters that a configuration holds *)
Definition holds (l : layout) (k : str) (v : json) : Prop :=
  match l with
  | L0002 | LFlatQuoted => False
  | L0003 a ts nt => k = `"extensionName" /\ v = JStr (`"0003-hash-and-id-n-tuple-storage-layout") \/ k = `"digestAlgorithm" /\ v = JStr a \/
                     k = `"tupleSize" /\ v = JInt ts \/ k = `"numberOfTuples" /\ v = JInt nt
  | LTupleTree ts => k = `"extensionName" /\ v = JStr (`"nnnn-tuple-tree-layout") \/ k = `"tupleSize" /\ v = JInt ts
  | LUuid p => k = `"extensionName" /\ v = JStr (`"nnnn-uuid-quadtree") \/ k = `"prefix" /\ v = JStr p
  end.
Theorem C91_config : forall l,
  (layout_config l = None <-> l = L0002 \/ l = LFlatQuoted) /\
  (forall j, layout_config l = Some j -> exists d, j = JObj d /\ NoDup (map fst d) /\ forall k v, In (k, v) d <-> holds l k v).
Proof.
  intro l. split; [destruct l; cbn; split; intro X; try discriminate X; auto; destruct X as [X|X]; discriminate X|]. intros j E.
  destruct l; try discriminate E; injection E as <-; eexists; (split; [reflexivity|]); (split; [repeat (constructor; [intro X; cbn [map fst In] in X; intuition discriminate|]); constructor|]);
    intros k v; cbn [In holds layout_name]; split; intro X; repeat (destruct X as [X|X]); try (injection X as <- <-); try (destruct X as [-> ->]); tauto.
Qed.
Print Assumptions C91_config.
