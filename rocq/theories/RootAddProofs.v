(** How add proceeds (C48). *)
From Verif Require Import Base Unicode Regex Utf8 Json PyJson JsonTextModel JsonFileProofs Log DigestModel LayoutModel ContentPathProofs TextFile PathModel FsModel FsSpec FsProofs FsStepProofs FswModel FswSpec FswProofs FswCopyProofs CopyFrameProofs
  NamasteModel NamasteSpec NamasteProofs Properties_Fsw InventorySpec InventoryValidatorModel InventoryRulesProofs Properties_InventoryValidator InventoryExceptionProofs InventoryModel InventoryOpsSpec InventoryParseProofs ParseModel ParseProofs
  ValidatorSpec ValidatorModel ValidatorBasicProofs ValidatorContentProofs ObjectModel ObjectExamples OpenProofs Properties_Layout Properties_Object StorageRootModel StorageRootSpec StorageRootProofs StorageRootRunProofs Properties_StorageRoot Properties_RootList RootAddSpec.

Lemma identified_iff w p id : Forall fname p -> (exists i x, parse_inventory w p = Ok (i, x) /\ i_id i = Some id) <-> identified w p id.
Proof.
  intros Fp. assert (Ep : at_path p INVENTORY_FILENAME = p ++ [`"inventory.json"]) by (apply (at_path_join p [`"inventory.json"]); auto; constructor; [apply fname_b_ok; reflexivity|constructor]).
  assert (Hid : forall i s inv i0 f, open_at w p i s inv i0 f -> i_id i = Some (f_id f)).
  { intros i s inv i0 f O. destruct (reads_valid as_coded inv f (oa_wf _ _ _ _ _ _ _ O) (oa_obeys _ _ _ _ _ _ _ O)) as (i1 & E1 & Hr). rewrite (oa_read _ _ _ _ _ _ _ O) in E1. apply Ok_inv in E1. subst i1.
    destruct (op_rest _ _ _ (oa_opened _ _ _ _ _ _ _ O)) as (-> & _). apply (rd_id _ _ _ _ Hr). }
  split.
  - intros (i & x & E & E2). destruct (parse_opened _ _ _ _ E) as (inv & i0 & f & O). destruct (oa_file _ _ _ _ _ _ _ O) as (b & Rb & Jb).
    apply fs_read_look in Rb. rewrite Ep in Rb. rewrite (Hid _ _ _ _ _ O) in E2. injection E2 as <-.
    pose proof (oa_obeys _ _ _ _ _ _ _ O) as Ho. pose proof Ho as ((Hm & _) & _). pose proof Hm as (d & Ed & _).
    exists b, d. rewrite Ed in *. split; [exact Rb|]. split; [exact Jb|]. split; [split; [eauto|apply (oa_short _ _ _ _ _ _ _ O)]|exact Hm].
  - intros (b & d & L & Ej & [(f & Ho) Hs] & Hm). rewrite <- Ep in L. apply fs_read_look in L.
    assert (Epi : parse_inventory w p = parse_inventory_json (JObj d)) by (unfold parse_inventory; rewrite L; cbn [ebind]; rewrite Ej; reflexivity).
    pose proof (json_load_cases b) as Hw. rewrite Ej in Hw.
    assert (V : valid (JObj d) None DEFAULT_SPEC_VERSION) by (apply C22_exact; [exact Hw|]; exists f; split; [exact Ho|exact I]).
    destruct (parse_correct _ Hw V Hs) as (i0 & i & g & _ & E & _). rewrite <- Epi in E. destruct (parse_opened _ _ _ _ E) as (inv & i1 & g1 & O).
    exists i. eexists. split; [exact E|]. rewrite (Hid _ _ _ _ _ O). f_equal. destruct (oa_file _ _ _ _ _ _ _ O) as (b' & Rb & Jb). rewrite L in Rb. apply Ok_inv in Rb. subst b'. rewrite Ej in Jb. apply Ok_inv in Jb. subst inv.
    pose proof (oa_obeys _ _ _ _ _ _ _ O) as ((Hm' & _) & _). pose proof (member_fun _ _ _ _ Hw Hm Hm') as X. congruence.
Qed.

Lemma parsed_id w p i x : parse_inventory w p = Ok (i, x) -> exists id, i_id i = Some id.
Proof.
  intros E. destruct (parse_opened _ _ _ _ E) as (inv & i0 & f & O).
  destruct (reads_valid as_coded inv f (oa_wf _ _ _ _ _ _ _ O) (oa_obeys _ _ _ _ _ _ _ O)) as (i1 & E1 & Hr). rewrite (oa_read _ _ _ _ _ _ _ O) in E1. apply Ok_inv in E1. subst i1.
  destruct (op_rest _ _ _ (oa_opened _ _ _ _ _ _ _ O)) as (-> & _). rewrite (rd_id _ _ _ _ Hr). eauto.
Qed.

Lemma sfail_lift {A B} (g : exc A) y (f : A -> st B) s w : g = Raise y -> sbind (slift g) f s w = ([], Ok (s, Raise y)).
Proof. intros ->. apply sbind_raise. reflexivity. Qed.

Lemma layout_fun H w h a b : layout_described H w h a -> layout_described H w h b -> a = b.
Proof.
  destruct a as [l|], b as [l'|]; cbn; auto.
  - intros (b & d & n & t & l0 & A1 & A2 & A3 & A4 & A5 & A6) (b' & d' & n' & t' & l0' & B1 & B2 & B3 & B4 & B5 & B6).
    rewrite A1 in B1. injection B1 as <-. rewrite A2 in B2. apply Ok_inv in B2. injection B2 as <-. rewrite A3 in B3. injection B3 as <-. rewrite A5 in B5. apply Ok_inv in B5. subst l0'. f_equal.
    destruct A6 as [[X1 X2]|(c & cf & X1 & X2 & X3)], B6 as [[Y1 Y2]|(c' & cf' & Y1 & Y2 & Y3)]; cbn zeta in *.
    + congruence.
    + rewrite X1 in Y1. discriminate.
    + rewrite X1 in Y1. discriminate.
    + rewrite X1 in Y1. injection Y1 as <-. rewrite X2 in Y2. apply Ok_inv in Y2. injection Y2 as <-. rewrite X3 in Y3. now apply Ok_inv in Y3.
  - intros (b & d & n & t & l0 & A1 & _) A2. congruence.
  - intros A2 (b & d & n & t & l0 & A1 & _). congruence.
Qed.

Lemma open_src_ok {B} e (f : place -> st B) s w d : no_url d -> look w (at_path (base_of (e_cwd e) d) d) = Some EDir ->
  sbind (sio (open_obj_fs e (Some d) false)) f s w = f (at_path (base_of (e_cwd e) d) d) s w.
Proof.
  intros Hu Hl. apply sbind_ok. unfold sio.
  assert (E : fsw_openfs (e_cwd e) d false true w = ([], Ok (at_path (base_of (e_cwd e) d) d))).
  { unfold fsw_openfs. rewrite split_url_none by exact Hu. change (str_eqb (`"file") (`"file")) with true. cbv iota. apply fs_isdir_look in Hl. unfold base_of in *. unfold ibind, iread. destruct (fs_isdir w _ d) eqn:X; [reflexivity|]. exfalso. congruence. }
  unfold open_obj_fs. rewrite E. reflexivity.
Qed.
Lemma open_src_fails {B} e (f : place -> st B) s w d : no_url d -> look w (at_path (base_of (e_cwd e) d) d) <> Some EDir ->
  sbind (sio (open_obj_fs e (Some d) false)) f s w = ([], Ok (s, Raise ObjectException)).
Proof.
  intros Hu Hl. apply sbind_raise. unfold sio.
  assert (E : fsw_openfs (e_cwd e) d false true w = ([], Raise FileNotFoundError)).
  { unfold fsw_openfs. rewrite split_url_none by exact Hu. change (str_eqb (`"file") (`"file")) with true. cbv iota. unfold ibind, iread.
    destruct (fs_isdir w _ d) eqn:X; [|reflexivity]. apply fs_isdir_look in X. unfold base_of in Hl. contradiction. }
  unfold open_obj_fs. rewrite E. reflexivity.
Qed.

Section Add.
  Variables (H : hashfn) (id_encode : str -> str) (e : env) (s : sroot) (w : node) (r od : str).
  Let h := at_path (base_of (e_cwd e) r) r.
  Let src := at_path (base_of (e_cwd e) od) od.
  Hypothesis Tree : tree w.
  Hypothesis Local : no_url r.
  Hypothesis Local2 : no_url od.
  Hypothesis Root : s_root s = Some r.
  Hypothesis Fresh : s_layout s = None.

  (** what is left when everything is known *)
  Definition add_rest (id path : str) : st (str * str) := fun s1 w1 =>
    if fs_exists w1 h path then ([], Ok (s1, Raise (StorageRootException [])))
    else match fsw_copydir src [slash] h path w1 with
         | (l, Ok _) => (l, Ok (s1, Ok (id, path)))
         | (l, Raise _) => (l, Ok (s1, Raise (StorageRootException [])))
         end.

  Let tail (id path : str) : st (str * str) :=
    use h <- root_fs ;;
    use x <- sread (fun w => Ok (fs_exists w h path)) ;;
    if (x : bool) then sraise (StorageRootException [])
    else
      use _ <- (fun s w => match fsw_copydir src [slash] h path w with
                         | (l, Raise _) => (l, Ok (s, Raise (StorageRootException [])))
                         | (l, x) => (l, Ok (s, x))
                         end) ;;
      sret (id, path).
  Lemma tail_rest id path s1 : s_fs s1 = Some h -> tail id path s1 w = add_rest id path s1 w.
  Proof.
    intros F. unfold tail, add_rest. rewrite (root_fs_ok _ _ _ h F). rewrite (sread_ok _ _ _ _ (fs_exists w h path)) by reflexivity. destruct (fs_exists w h path); [reflexivity|].
    destruct (fsw_copydir src [slash] h path w) as [l [u|y]] eqn:E; unfold sbind, ibind; rewrite E; cbn; now rewrite app_nil_r.
  Qed.

  Let s1 lay n v := set_layout lay (set_layout_name n (set_spec (Some v) (set_fs (Some h) s))).

  Lemma path_ok id path l lay n v : look w h = Some EDir ->
    (lay = Some l \/ lay = None /\ exists m, n = Some m /\ get_layout m = Ok l) -> identifier_to_path H id_encode l id = Ok path ->
    exists s2, object_path H id_encode e id (s1 lay n v) w = ([], Ok (s2, Ok path)) /\ s_fs s2 = Some h.
  Proof.
    intros Hl Hlay Hp. unfold object_path. destruct Hlay as [-> |(-> & m & -> & G)].
    - assert (T : the_layout (s1 (Some l) n v) w = ([], Ok (s1 (Some l) n v, Ok (Some l)))) by (unfold the_layout; rewrite sget_ok; reflexivity).
      rewrite (sbind_ok _ _ _ _ _ _ T). rewrite (sbind_ok _ _ _ _ (s1 (Some l) n v) tt) by reflexivity. rewrite (sbind_ok _ _ _ _ _ _ T). rewrite Hp. eexists. split; [reflexivity|reflexivity].
    - set (s2 := set_layout (Some l) (s1 None (Some m) v)).
      assert (T : the_layout (s1 None (Some m) v) w = ([], Ok (s2, Ok (Some l)))) by (unfold the_layout; rewrite sget_ok; cbn [s_layout s1 set_layout set_layout_name s_layout_name]; rewrite G, slift_ok, smodify_ok; reflexivity).
      assert (T2 : the_layout s2 w = ([], Ok (s2, Ok (Some l)))) by (unfold the_layout; rewrite sget_ok; reflexivity).
      rewrite (sbind_ok _ _ _ _ _ _ T). rewrite (sbind_ok _ _ _ _ s2 tt) by reflexivity. rewrite (sbind_ok _ _ _ _ _ _ T2). rewrite Hp. eexists. split; reflexivity.
  Qed.

  Lemma path_fails id lay n v : look w h = Some EDir -> root_declared w h v -> layout_described H w h lay -> (lay = None -> n = s_layout_name s) ->
    (exists s2 y, object_path H id_encode e id (s1 lay n v) w = ([], Ok (s2, Raise y))) \/
    exists l path, layout_used H w h (s_layout_name s) l /\ identifier_to_path H id_encode l id = Ok path.
  Proof.
    intros Hl Hv Hd Hn. unfold object_path. destruct lay as [l|].
    - assert (T : the_layout (s1 (Some l) n v) w = ([], Ok (s1 (Some l) n v, Ok (Some l)))) by (unfold the_layout; rewrite sget_ok; reflexivity).
      rewrite (sbind_ok _ _ _ _ _ _ T). rewrite (sbind_ok _ _ _ _ (s1 (Some l) n v) tt) by reflexivity. rewrite (sbind_ok _ _ _ _ _ _ T).
      destruct (identifier_to_path H id_encode l id) as [path|y] eqn:E; [right; exists l, path; split; [now left|exact E]|left; eexists _, _; reflexivity].
    - rewrite (Hn eq_refl). destruct (s_layout_name s) as [m|] eqn:Em.
      + destruct (get_layout m) as [l|y] eqn:G.
        * set (s2 := set_layout (Some l) (s1 None (Some m) v)).
          assert (T : the_layout (s1 None (Some m) v) w = ([], Ok (s2, Ok (Some l)))) by (unfold the_layout; rewrite sget_ok; cbn [s_layout s1 set_layout set_layout_name s_layout_name]; rewrite G, slift_ok, smodify_ok; reflexivity).
          assert (T2 : the_layout s2 w = ([], Ok (s2, Ok (Some l)))) by (unfold the_layout; rewrite sget_ok; reflexivity).
          rewrite (sbind_ok _ _ _ _ _ _ T). rewrite (sbind_ok _ _ _ _ s2 tt) by reflexivity. rewrite (sbind_ok _ _ _ _ _ _ T2).
          destruct (identifier_to_path H id_encode l id) as [path|y] eqn:E; [right; exists l, path; split; [right; split; [exact Hd|exists m; auto]|exact E]|left; eexists _, _; reflexivity].
        * left. eexists _, _. apply sbind_raise. unfold the_layout. rewrite sget_ok. cbn [s_layout s1 set_layout set_layout_name s_layout_name]. apply sfail_lift. exact G.
      + left.
        assert (T : the_layout (s1 None None v) w = ([], Ok (s1 None None v, Ok None))) by (unfold the_layout; rewrite sget_ok; reflexivity).
        rewrite (sbind_ok _ _ _ _ _ _ T).
        destruct (structure_named H w h (s1 None None v) v None Tree Hl eq_refl eq_refl Hv Hd (or_intror eq_refl)) as (n' & E & En). rewrite (En eq_refl) in E. change (s_layout_name (s1 None None v)) with (@None str) in E.
        set (s2 := set_layout None (set_layout_name None (set_spec (Some v) (s1 None None v)))) in *.
        assert (T2 : the_layout s2 w = ([], Ok (s2, Ok None))) by (unfold the_layout; rewrite sget_ok; reflexivity).
        rewrite (sbind_ok _ _ _ _ s2 tt). 2:{ rewrite (open_root_ok e _ _ w r Local); [|exact Root|exact Hl]. change (at_path (base_of (e_cwd e) r) r) with h.
          change (set_fs (Some h) (s1 None None v)) with (s1 None None v). rewrite (sbind_ok _ _ _ _ _ _ E). reflexivity. }
        rewrite (sbind_ok _ _ _ _ _ _ T2). eexists _, _. reflexivity.
  Qed.

  Lemma add_ok id path : belongs H id_encode w h (s_layout_name s) (s_spec s) src id path ->
    exists s2, add H id_encode e od s w = add_rest id path s2 w.
  Proof.
    intros [Hl (v & Hv & Hs) Hsrc Hid (l & Hu & Hp)]. unfold add. rewrite (open_root_ok e _ s w r Local Root Hl). change (at_path (base_of (e_cwd e) r) r) with h.
    assert (X : exists lay n, check_root_structure H (set_fs (Some h) s) w = ([], Ok (s1 lay n v, Ok true)) /\ (lay = Some l \/ lay = None /\ exists m, n = Some m /\ get_layout m = Ok l)).
    { destruct Hu as [Hu|(Hu & m & Em & G)].
      - destruct (structure_named H w h (set_fs (Some h) s) v (Some l) Tree Hl eq_refl Fresh Hv Hu Hs) as (n & E & _). exists (Some l), n. split; [exact E|now left].
      - destruct (structure_named H w h (set_fs (Some h) s) v None Tree Hl eq_refl Fresh Hv Hu Hs) as (n & E & En). exists None, n. split; [exact E|]. right. split; [reflexivity|]. exists m. split; [|exact G]. rewrite (En eq_refl). exact Em. }
    destruct X as (lay & n & E & Hlay). rewrite (sbind_ok _ _ _ _ _ _ E). rewrite (open_src_ok e _ _ w od Local2 Hsrc). change (at_path (base_of (e_cwd e) od) od) with src.
    apply identified_iff in Hid as (i & x & Ei & Eid); [|eapply look_fnames; [exact Tree|rewrite Hsrc; discriminate]].
    rewrite (sread_ok _ _ _ _ (i, x)) by exact Ei. cbn [fst]. rewrite Eid, slift_ok. destruct (path_ok id path l lay n v Hl Hlay Hp) as (s2 & E2 & F2). rewrite (sbind_ok _ _ _ _ _ _ E2).
    exists s2. exact (tail_rest id path s2 F2).
  Qed.

  Lemma add_cases : (exists s2 y, add H id_encode e od s w = ([], Ok (s2, Raise y))) \/ exists id path, belongs H id_encode w h (s_layout_name s) (s_spec s) src id path.
  Proof.
    unfold add. assert (D1 : {look w h = Some EDir} + {look w h <> Some EDir}) by (destruct (look w h) as [[]|]; auto; right; discriminate).
    destruct D1 as [Hl|Hl]; [|left; eexists _, _; apply (open_root_fails e _ s w r Local Root Hl)].
    rewrite (open_root_ok e _ s w r Local Root Hl). change (at_path (base_of (e_cwd e) r) r) with h.
    destruct (structure_cases H w h (set_fs (Some h) s) Tree Hl eq_refl Fresh) as (s' & q & E & _ & Q).
    destruct q as [b|y]; [|left; eexists _, _; apply (sbind_raise _ _ _ _ _ _ _ E)]. destruct (Q b eq_refl) as (-> & v & lay & n & Hv & Hd & Hs & _). clear Q E.
    destruct (structure_named H w h (set_fs (Some h) s) v lay Tree Hl eq_refl Fresh Hv Hd Hs) as (n' & E & En). rewrite (sbind_ok _ _ _ _ _ _ E).
    assert (D2 : {look w src = Some EDir} + {look w src <> Some EDir}) by (destruct (look w src) as [[]|]; auto; right; discriminate).
    destruct D2 as [Hsrc|Hsrc]; [|left; eexists _, _; apply (open_src_fails e _ _ w od Local2 Hsrc)].
    rewrite (open_src_ok e _ _ w od Local2 Hsrc). change (at_path (base_of (e_cwd e) od) od) with src.
    destruct (parse_inventory w src) as [[i x]|y] eqn:Ei; [|left; eexists _, _; apply sread_raise; exact Ei].
    rewrite (sread_ok _ _ _ _ (i, x)) by exact Ei. cbn [fst]. destruct (parsed_id _ _ _ _ Ei) as [id Eid]. rewrite Eid, slift_ok.
    destruct (path_fails id lay n' v Hl Hv Hd En) as [(s2 & y & E2)|(l & path & Hu & Hp)]; [left; eexists _, _; apply (sbind_raise _ _ _ _ _ _ _ E2)|].
    right. exists id, path. split; [exact Hl|eauto|exact Hsrc| |eauto].
    apply identified_iff; [eapply look_fnames; [exact Tree|rewrite Hsrc; discriminate]|]. eauto.
  Qed.
End Add.
