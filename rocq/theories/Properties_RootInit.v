(** C10: new storage roots. *)
From Verif Require Import Base Unicode Regex Utf8 Json PyJson JsonTextModel JsonTextSpec JsonFileProofs Log DigestModel LayoutModel InventoryModel ParseModel LayoutSpec Properties_Layout ContentPathProofs TextFile PathModel FsModel FsSpec FsProofs FswModel FswSpec FswProofs FswCopyProofs
  NamasteModel NamasteSpec NamasteProofs Properties_Namaste ChangeProofs FrameProofs Properties_Fsw ValidatorSpec ValidatorModel ValidatorBasicProofs ValidatorContentProofs ObjectModel ObjectSpec ObjectCopyProofs ObjectMadeProofs ObjectWriteProofs ObjectCreateProofs ObjectExamples Properties_Object
  StorageRootModel StorageRootSpec StorageRootProofs StorageRootRunProofs Properties_StorageRoot RootInitSpec RootInitProofs.

Section C10.
  Variables (H : hashfn) (e : env) (spec params : option str) (s : sroot) (w : node) (r : str).
  Let h := at_path (base_of (e_cwd e) r) r.
  Hypothesis Hash : hash_ok H.
  Hypothesis Tree : tree w.
  Hypothesis Cwd : Forall fname (e_cwd e).
  Hypothesis Local : no_url r.
  Hypothesis Root : s_root s = Some r.
  Hypothesis Fresh : s_layout s = None.

  Lemma init_ok lay v : chosen_layout H (s_layout_name s) params lay -> chosen_version spec (s_spec s) v -> text_prefix lay -> free_place (e_cwd e) w r ->
    exists w', run (initialize H e spec params) s w (set_fs (Some h) (set_spec (Some v) (set_layout lay s))) tt w' /\
      holds w' h (root_files v lay) /\ tree w' /\ (forall q, strip h q = None -> look w' q = look w q) /\ look w h = None.
  Proof.
    intros C V T P. set (s1 := set_spec (Some v) (set_layout lay s)).
    assert (Cw : match lay with Some l => match layout_config l with Some c => write_text (json_print false 0 c) = Ok (json_print false 0 c) | None => True end | None => True end).
    { destruct lay as [l|]; [|exact I]. destruct (layout_config l) as [c|] eqn:Ec; [|exact I]. destruct (chosen_ok H _ _ _ Hash C) as [[N|O] _]; [congruence|]. exact (proj1 (json_binary_ok c (config_writable H l c O T Ec))). }
    destruct (write_ok e s1 w r v lay Tree Cwd Local Root eq_refl (proj1 V) eq_refl) as (w' & R & A); [|exact Cw|exact P|].
    - intros ->. cbn. destruct (s_layout_name s) as [n|]; [|reflexivity]. destruct C as (l0 & l & _ & E & _). discriminate.
    - exists w'. split; [|exact A]. destruct R as [R1 R2]. rewrite initialize_steps. unfold run, result, after in *. rewrite (prepare_ok H spec params s lay v (write_step e) w Fresh (conj C V)). auto.
  Qed.

  (** It is made exactly if there is a directory with nothing of this name in it, and the
      layout, parameters and version are accepted. *)
  Theorem C10_succeeds : (forall lay, chosen_layout H (s_layout_name s) params lay -> text_prefix lay) ->
    ((exists s', result (initialize H e spec params s) w = Ok (s', Ok tt)) <->
     (exists lay, chosen_layout H (s_layout_name s) params lay) /\ (exists v, chosen_version spec (s_spec s) v) /\ free_place (e_cwd e) w r).
  Proof.
    intros T. split.
    - intros [s' E]. rewrite initialize_steps in E. destruct (prepare_inv _ _ _ _ _ _ _ _ Fresh E) as (lay & v & C & V). split; [eauto|]. split; [eauto|].
      unfold result in E. rewrite (prepare_ok H spec params s lay v (write_step e) w Fresh (conj C V)) in E. exact (write_inv e (set_spec (Some v) (set_layout lay s)) w s' r Tree Cwd Local Root E).
    - intros ([lay C] & [v V] & P). destruct (init_ok lay v C V (T lay C) P) as (w' & [R _] & _). eauto.
  Qed.

  Lemma chosen_layout_unique lay lay' : chosen_layout H (s_layout_name s) params lay -> chosen_layout H (s_layout_name s) params lay' -> lay = lay'.
  Proof.
    destruct (s_layout_name s) as [n|]; cbn [chosen_layout]; [|congruence]. intros (l0 & l & G & -> & P) (l0' & l' & G' & -> & P'). rewrite G in G'. apply Ok_inv in G'. subst l0'.
    destruct params as [p|]; [|congruence]. destruct P as (c & Ec & P), P' as (c' & Ec' & P'). rewrite Ec in Ec'. apply Ok_inv in Ec'. injection Ec' as <-. congruence.
  Qed.
  Lemma chosen_version_unique v v' : chosen_version spec (s_spec s) v -> chosen_version spec (s_spec s) v' -> v = v'.
  Proof. intros [_ [A|(A1 & A2 & A3)]] [_ [B|(B1 & B2 & B3)]]; congruence. Qed.

  (** Then there are its declaration, the description of the layout and the configuration of
      the layout if there are parameters, nothing else in it, and nothing else has changed. *)
  Theorem C10_written lay v s' : chosen_layout H (s_layout_name s) params lay -> chosen_version spec (s_spec s) v -> text_prefix lay ->
    result (initialize H e spec params s) w = Ok (s', Ok tt) ->
    let w' := after (initialize H e spec params s) w in
    s_spec s' = Some v /\ s_layout s' = lay /\ s_fs s' = Some h /\
    look w h = None /\ holds w' h (root_files v lay) /\ forall q, (forall x, q <> h ++ x) -> look w' q = look w q.
  Proof.
    intros C V T E w'. assert (P : free_place (e_cwd e) w r).
    { apply C10_succeeds; [|eauto]. intros lay' C'. now rewrite (chosen_layout_unique _ _ C' C). }
    destruct (init_ok lay v C V T P) as (w1 & [R1 R2] & A1 & A2 & A3 & A4). rewrite R1 in E. apply Ok_inv in E. injection E as <-. unfold w'. rewrite R2.
    split; [reflexivity|]. split; [reflexivity|]. split; [reflexivity|]. split; [exact A4|]. split; [exact A1|]. intros q Hq. apply A3. now apply strip_none.
  Qed.

  (** It has the structure of a storage root, with that layout. *)
  Theorem C10_structure s' : result (initialize H e spec params s) w = Ok (s', Ok tt) -> (forall t, s_layout s' <> Some (LTupleTree t)) -> text_prefix (s_layout s') ->
    let w' := after (initialize H e spec params s) w in
    exists v, s_spec s' = Some v /\ tree w' /\ holds w' h (root_files v (s_layout s')) /\ root_declared w' h v /\ layout_described H w' h (s_layout s').
  Proof.
    intros E Nt T w'. pose proof E as E0. rewrite initialize_steps in E0. destruct (prepare_inv _ _ _ _ _ _ _ _ Fresh E0) as (lay & v & C & V).
    assert (Hlay : s_layout s' = lay).
    { clear - E0 C V Fresh Root Tree Cwd Local. unfold result in E0. rewrite (prepare_ok H spec params s lay v (write_step e) w Fresh (conj C V)) in E0. set (s1 := set_spec (Some v) (set_layout lay s)) in *.
      change lay with (s_layout s1). assert (Nm : s_layout s1 = None -> s_layout_name s1 = None).
      { cbn. intros ->. destruct (s_layout_name s) as [n|]; [|reflexivity]. destruct C as (l0 & l & _ & E & _). discriminate. }
      clearbody s1. clear C V Root. unfold write_step in E0. rewrite sget_ok in E0. destruct (s_root s1) as [r0|]; [|discriminate]. destruct (path_split r0) as [p k].
      apply s_io_inv in E0 as (g & _ & E0). apply s_io_inv in E0 as (b & _ & E0). destruct b; [discriminate|]. apply s_io_inv in E0 as (u & _ & E0). apply s_io_inv in E0 as (h' & _ & E0).
      apply s_inv in E0 as (s2 & u2 & E1 & E0). unfold smodify, iret, result in E1. apply Ok_inv in E1. injection E1 as <-.
      assert (Le : s_layout (set_fs (Some h') s1) = s_layout s1 /\ s_layout_name (set_fs (Some h') s1) = s_layout_name s1) by (split; reflexivity). destruct Le as [Le1 Le2].
      set (s3 := set_fs (Some h') s1) in *. clearbody s3. rewrite <- Le1, <- Le2 in Nm. rewrite <- Le1.
      destruct (s_spec s1) as [v1|]; [|discriminate]. apply s_io_inv in E0 as (u3 & _ & E0). apply s_inv in E0 as (s4 & l & E1 & E0).
      assert (El : s4 = s3 /\ l = s_layout s3).
      { unfold the_layout, result in E1. rewrite sget_ok in E1. destruct (s_layout s3) as [l3|] eqn:E3; [injection E1 as <- <-; auto|]. rewrite (Nm eq_refl) in E1. injection E1 as <- <-. auto. }
      destruct El as [-> ->]. destruct (s_layout s3) as [l3|] eqn:E3; [|unfold sret, iret, result in E0; injection E0 as <-; exact E3].
      apply s_io_inv in E0 as (u4 & _ & E0). unfold sio, result in E0. cbn [snd] in E0. apply Ok_inv in E0. injection E0 as <- _. exact E3. }
    rewrite Hlay in *. destruct (C10_written lay v s' C V T E) as (S1 & S2 & S3 & A1 & A2 & A3). fold w' in A2, A3.
    assert (P : free_place (e_cwd e) w r) by (apply C10_succeeds; [intros lay' C'; now rewrite (chosen_layout_unique _ _ C' C)|eauto]).
    destruct (init_ok lay v C V T P) as (w1 & [_ Aw] & _ & Tw' & _). assert (Tw : tree w') by (unfold w'; rewrite Aw; exact Tw'). clear w1 Aw Tw'.
    assert (Fh : Forall fname h) by (apply at_path_fnames; unfold base_of; destruct (startswith _ r); [constructor|exact Cwd]).
    assert (Only : forall x e0, x <> [] -> look w' (h ++ x) = Some e0 -> exists y b, In (x ++ y, b) (root_files v lay)) by apply A2.
    assert (D : root_declared w' h v).
    { destruct V as [Hv _]. split; [exact Hv|]. split.
      - intros name. split.
        + intros [L [t ->]]. destruct (look w' (h ++ [`"0" ++ `"=" ++ t])) as [e0|] eqn:El; [|exfalso; apply L; exact El]. apply Only in El as (y & b & Hi); [|discriminate]. cbn [root_files In] in Hi.
          destruct Hi as [Hi|Hi]; [apply (f_equal fst) in Hi; apply (f_equal (hd [])) in Hi; exact (eq_sym Hi)|]. exfalso. destruct lay as [l|]; [|destruct Hi]. destruct Hi as [Hi|Hi]; [discriminate|]. destruct (layout_config l); [|destruct Hi]. destruct Hi as [Hi|[]]. discriminate.
        + intros ->. split; [|exists (`"ocfl_" ++ v); reflexivity]. intros X. pose proof (eq_trans (eq_sym X) (hl_files _ _ _ A2 [`"0=ocfl_" ++ v] (`"ocfl_" ++ v ++ [10%N]) (or_introl eq_refl))) as Y. discriminate Y.
      - exists (`"ocfl_" ++ v ++ [10]), (`"ocfl_" ++ v ++ [10]). split; [apply (hl_files _ _ _ A2); left; reflexivity|]. split; [destruct Hv as [<-|[<-|[]]]; reflexivity|]. destruct Hv as [<-|[<-|[]]]; (apply declares_iff; [discriminate|vm_compute; lia|vm_compute; intros [E1|[E1|[]]]; discriminate|reflexivity]). }
    assert (Ld : layout_described H w' h lay).
    { destruct lay as [l|].
      - destruct (chosen_ok H _ _ _ Hash C) as [Ok1 (n & l0 & _ & G & Nm)]. destruct (layout_json_text l) as [_ Lj].
        assert (G' : exists l1, get_layout (LayoutModel.layout_name l) = Ok l1 /\ LayoutModel.layout_name l1 = LayoutModel.layout_name l /\ (layout_config l = None -> l1 = l)).
        { destruct l as [|a ts nt| |ts|p]; try (eexists; split; [reflexivity|]; split; [reflexivity|]; intros X; (discriminate X || reflexivity)). exfalso. now apply (Nt ts). }
        destruct G' as (l1 & G1 & N1 & D1). eexists _, _, _, _, l1. split; [apply (hl_files _ _ _ A2); right; left; reflexivity|]. split; [exact Lj|]. split; [reflexivity|]. split; [reflexivity|]. split; [exact G1|]. cbv zeta. rewrite N1.
        destruct (layout_config l) as [c|] eqn:Ec.
        + right. destruct Ok1 as [X|Ok1]; [discriminate|]. assert (Cw : writable c) by (exact (config_writable H l c Ok1 T Ec)). destruct (json_binary_ok c Cw) as [_ Jl].
          assert (Ob : exists cfg, c = JObj cfg) by (destruct l; cbn [layout_config] in Ec; try discriminate Ec; injection Ec as <-; eauto). destruct Ob as [cfg ->]. exists (json_print false 0 (JObj cfg)), cfg. split; [apply (hl_files _ _ _ A2); right; cbn; rewrite Ec; right; left; reflexivity|]. split; [exact Jl|].
          apply (C09_config_roundtrip H l cfg l1 Hash Ok1 Ec N1).
        + left. split; [|symmetry; now apply D1]. match goal with |- look w' ?q = None => destruct (look w' q) as [e0|] eqn:El; [|reflexivity] end. exfalso. apply Only in El as (y & b & Hi); [|discriminate]. cbn [root_files In] in Hi. rewrite Ec in Hi. destruct Hi as [Hi|[Hi|[]]]; discriminate.
      - cbn [layout_described]. destruct (look w' (h ++ [`"ocfl_layout.json"])) as [e0|] eqn:El; [|reflexivity]. exfalso. apply Only in El as (y & b & Hi); [|discriminate]. destruct Hi as [Hi|[]]. discriminate. }
    exists v. auto.
  Qed.

  (** Opening it again, with any instance for the same root that has no other version of the
      specification: the structure is right, with the same version, and the same layout and
      parameters. For the tuple tree layout see below. *)
  Theorem C10_partial s' s2 : result (initialize H e spec params s) w = Ok (s', Ok tt) -> (forall t, s_layout s' <> Some (LTupleTree t)) -> text_prefix (s_layout s') ->
    s_root s2 = Some r -> s_layout s2 = None -> (s_spec s2 = None \/ s_spec s2 = s_spec s') ->
    let w' := after (initialize H e spec params s) w in
    exists s3, (use _ <- open_root_fs e ;; check_root_structure H) s2 w' = ([], Ok (s3, Ok true)) /\ s_spec s3 = s_spec s' /\ s_layout s3 = s_layout s'.
  Proof.
    intros E Nt T R2 L2 V2 w'. destruct (C10_structure s' E Nt T) as (v & S1 & Tw & A2 & D & Ld). fold w' in Tw, A2, D, Ld.
    rewrite (open_root_ok e (fun _ => check_root_structure H) s2 w' r Local R2) by (apply A2).
    destruct (structure_ok H w' h (set_fs (Some h) s2) v (s_layout s') Tw (hl_dir _ _ _ A2) eq_refl L2 D Ld) as [n En]; [cbn; rewrite <- S1; exact V2|].
    eexists. split; [exact En|]. rewrite S1. split; reflexivity.
  Qed.
End C10.
Print Assumptions C10_succeeds.
Print Assumptions C10_written.
Print Assumptions C10_structure.
Print Assumptions C10_partial.

Definition ex_new (name : option str) : sroot := mk_sroot (Some (`"d/r")) name None false None None None 0 0 0 [].
Definition ex_disk : node := Dir [(`"d", Dir [(`"x", File [1%N])])].
Definition ex_again (s : sroot) (w : node) := (use _ <- open_root_fs ex_env ;; check_root_structure toy_hash) s w.
Lemma ex_free : tree ex_disk /\ Forall fname (e_cwd ex_env) /\ no_url (`"d/r") /\ free_place (e_cwd ex_env) ex_disk (`"d/r").
Proof.
  split; [apply tree_b_ok; reflexivity|]. split; [constructor|]. split; [apply no_url_b_ok; reflexivity|]. exists (`"d/"), (`"r"). split; [reflexivity|]. split; [right; reflexivity|]. split; [apply fname_b_ok; reflexivity|]. split; reflexivity.
Qed.
Example C10_written_ex :
  let p := `"{""digestAlgorithm"": ""md5"", ""tupleSize"": 2, ""numberOfTuples"": 15}" in
  let x := initialize toy_hash ex_env (Some (`"1.0")) (Some p) (ex_new (Some (`"0003"))) in
  let w' := after x ex_disk in
  chosen_layout toy_hash (Some (`"0003")) (Some p) (Some (L0003 (`"md5") 2 15)) /\
  result x ex_disk = Ok (set_fs (Some [`"d"; `"r"]) (set_spec (Some (`"1.0")) (set_layout (Some (L0003 (`"md5") 2 15)) (ex_new (Some (`"0003"))))), Ok tt) /\
  look w' [`"d"; `"r"; `"0=ocfl_1.0"] = Some (EFile (`"ocfl_1.0" ++ [10%N])) /\
  look w' [`"d"; `"r"; `"extensions"; `"0003-hash-and-id-n-tuple-storage-layout"; `"config.json"] <> None.
Proof. cbv zeta. split; [exists layout_0003_default, (L0003 (`"md5") 2 15); split; [reflexivity|]; split; [reflexivity|]; eexists; split; vm_compute; reflexivity|]. split; [vm_compute; reflexivity|]. split; [vm_compute; reflexivity|vm_compute; discriminate]. Qed.
Example C10_partial_ex :
  let p := `"{""digestAlgorithm"": ""md5"", ""tupleSize"": 2, ""numberOfTuples"": 15}" in
  let w' := after (initialize toy_hash ex_env (Some (`"1.0")) (Some p) (ex_new (Some (`"0003")))) ex_disk in
  exists s3, ex_again (ex_new None) w' = ([], Ok (s3, Ok true)) /\ s_spec s3 = Some (`"1.0") /\ s_layout s3 = Some (L0003 (`"md5") 2 15).
Proof. eexists. split; [vm_compute; reflexivity|]. split; reflexivity. Qed.

(** The tuple tree layout writes a name that is not registered: a storage root with this
    layout can be made but not be opened again. *)
Theorem C10_tuple_tree_refuted : forall H, exists e s w s',
  let w' := after (initialize H e None None s) w in
  tree w /\ s_layout_name s = Some (`"nnnn-tuple-tree") /\ result (initialize H e None None s) w = Ok (s', Ok tt) /\ s_layout s' = Some (LTupleTree 2) /\
  forall s2, s_root s2 = s_root s -> s_spec s2 = None -> returned ((use _ <- open_root_fs e ;; check_root_structure H) s2 w') = Raise (StorageRootException (`"E071")).
Proof.
  intros H. exists ex_env, (ex_new (Some (`"nnnn-tuple-tree"))), ex_disk. eexists. split; [apply ex_free|]. split; [reflexivity|]. split; [vm_compute; reflexivity|]. split; [reflexivity|].
  intros [r n l lax v f lg a b c d] Hr Hv. cbn [s_root s_spec ex_new] in Hr, Hv. subst. vm_compute. reflexivity.
Qed.
Print Assumptions C10_tuple_tree_refuted.

(** A path that ends with "/", and a layout that has no parameters but is given some, are not
    accepted, the latter with an exception that is not documented. *)
Example C10_slash_ex : forall H, returned (initialize H ex_env None None (mk_sroot (Some (`"d/r/")) None None false None None None 0 0 0 []) ex_disk) = Raise FileNotFoundError.
Proof. intros H. vm_compute. reflexivity. Qed.
Example C10_no_params_ex : forall H, returned (initialize H ex_env None (Some (`"{}")) (ex_new (Some (`"0002"))) ex_disk) = Raise AttributeError.
Proof. intros H. vm_compute. reflexivity. Qed.
