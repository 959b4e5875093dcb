(** C72: objects made by this library, in storage roots. *)
From Coq Require Import Permutation.
From Verif Require Import Base Unicode Regex Utf8 Json PyJson JsonTextModel JsonFileProofs Log DigestModel LayoutModel LayoutSpec LayoutProofs ContentPathProofs TextFile PathModel FsModel FsSpec FsProofs FsStepProofs FswModel FswSpec FswProofs FswCopyProofs CopyFrameProofs
  NamasteModel NamasteSpec NamasteProofs Properties_Fsw InventorySpec InventoryValidatorModel InventoryRulesProofs InventoryOpsSpec InventoryParseProofs InventoryModel ParseModel ValidatorSpec ValidatorModel ValidatorBasicProofs ValidatorContentProofs ObjectModel ObjectExamples UpdateSpec
  ObjectMadeProofs ObjectIntactProofs ObjectExtendProofs ObjectHistoryProofs
  Properties_Layout Properties_Object StorageRootModel StorageRootSpec StorageRootProofs StorageRootRunProofs Properties_StorageRoot Properties_RootList RootAddSpec RootAddProofs Properties_RootAdd RootFillProofs RootInitSpec ObjectSpec Properties_RootInit Properties_RootFill IntactCopyProofs Properties_RootValid.
From Verif Require Properties_Validator.

(** The objects of this library have a file in each version directory. *)
Theorem C72_whole : forall H h sd P w l, hash_ok H -> history H h sd P w l -> uniform P \/ collision_free H P l -> whole H w h.
Proof.
  intros H h sd P w l HH Hi Hun. destruct (history_tracked H h sd P w l HH Hi Hun) as (alg & spec & ivs & C & T). pose proof (tr_made _ _ _ _ _ _ _ _ _ _ T) as M.
  pose proof (made_intact _ _ _ _ _ _ _ _ _ HH M true) as I. eexists _, _, _, _, _. split; [exact I|]. intros v Hv. apply In_vn in Hv as (k & Hk & ->).
  exists [inv_name]. eexists. change (h ++ [vn k; inv_name]) with (h ++ ([vn k] ++ [inv_name])). apply (hl_files _ _ _ (md_holds _ _ _ _ _ _ _ _ _ M)).
  unfold object_files. apply in_or_app. right. apply in_or_app. right. apply in_or_app. left. apply in_flat_map. exists k. split; [apply in_seq; lia|]. left. reflexivity.
Qed.
Print Assumptions C72_whole.

Section C72.
  Variables (H : hashfn) (id_encode : str -> str) (e : env) (s : sroot) (w : node) (r od : str).
  Let h := at_path (base_of (e_cwd e) r) r.
  Let src := at_path (base_of (e_cwd e) od) od.
  Let w' := after (add H id_encode e od s) w.
  Hypothesis Tree : tree w.
  Hypothesis Local : no_url r.
  Hypothesis Local2 : no_url od.
  Hypothesis Root : s_root s = Some r.
  Hypothesis Fresh : s_layout s = None.
  (** An object that was made by this library *)
  Variables (sd : str) (P : object -> Prop) (l : list (list (place * bytes))).
  Hypothesis Hash : hash_ok H.
  Hypothesis Made : history H src sd P w l.
  Hypothesis Collisions : uniform P \/ collision_free H P l.

  (** The whole of it is copied, directories as well, and it is again such an object. *)
  Theorem C72_same : forall s' id path, result (add H id_encode e od s) w = Ok (s', Ok (id, path)) ->
    (forall y, look w' (at_path h path ++ y) = look w (src ++ y)) /\ history H (at_path h path) sd P w' l.
  Proof.
    intros s' id path E. destruct (C48_exact H id_encode e s w r od Tree Local Local2 Root Fresh s' id path E) as (B & T & N & C3 & C4 & C5 & C6 & C7).
    fold h src in B, N, C3, C4, C5, C7. fold w' in T, C3, C4, C5, C6, C7. set (dst := at_path h path) in *.
    assert (X : forall y, look w' (dst ++ y) = look w (src ++ y)); [|split; [exact X|now apply (elsewhere H dst sd P src w w')]].
    destruct (history_tracked H src sd P w l Hash Made Collisions) as (alg & spec & ivs & C & Tr). pose proof (md_holds _ _ _ _ _ _ _ _ _ (tr_made _ _ _ _ _ _ _ _ _ _ Tr)) as Ho.
    assert (D : forall y, look w (src ++ y) = Some EDir -> look w' (dst ++ y) = Some EDir).
    { intros y L. assert (Y : exists c t b, look w (src ++ y ++ c :: t) = Some (EFile b)).
      { destruct y as [|c0 y].
        - destruct (be_id _ _ _ _ _ _ _ _ _ B) as (b & _ & Lb & _). exists (`"inventory.json"), [], b. exact Lb.
        - destruct (hl_only _ _ _ Ho (c0 :: y) EDir ltac:(discriminate) L) as ([|c t] & b & Hi); pose proof (hl_files _ _ _ Ho _ _ Hi) as Lb; [rewrite app_nil_r in Lb; rewrite L in Lb; discriminate|]. exists c, t, b. exact Lb. }
      destruct Y as (c & t & b & Lb). apply C3 in Lb. apply (look_above w' (dst ++ y) c t). rewrite <- app_assoc. rewrite Lb. discriminate. }
    intros y. destruct (look w (src ++ y)) as [[b| |]|] eqn:L.
    - now apply C3.
    - now apply D.
    - exfalso. assert (Hy : y <> []) by (intros ->; rewrite app_nil_r in L; rewrite (hl_dir _ _ _ Ho) in L; discriminate).
      destruct (hl_only _ _ _ Ho y EOther Hy L) as ([|c t] & b & Hi); pose proof (hl_files _ _ _ Ho _ _ Hi) as Lb; [rewrite app_nil_r in Lb; rewrite L in Lb; discriminate|].
      assert (Z : look w (src ++ y) = Some EDir) by (apply (look_above w (src ++ y) c t); rewrite <- app_assoc, Lb; discriminate). rewrite L in Z. discriminate.
    - destruct (look w' (dst ++ y)) as [[b| |]|] eqn:L'; [|destruct (C4 y L') as [Y|(c & t & b & Y)]|now apply C5 in L'|reflexivity]; exfalso.
      + apply C3 in L'. rewrite L in L'. discriminate.
      + rewrite Y, app_nil_r in L. rewrite (hl_dir _ _ _ Ho) in L. discriminate.
      + rewrite app_assoc in Y. assert (Z : look w (src ++ y) = Some EDir) by (apply (look_above w (src ++ y) c t); rewrite Y; discriminate). rewrite L in Z. discriminate.
  Qed.

  (** So it is valid there, and each version can be extracted from there, with the files that
      it was made from. *)
  Theorem C72_valid : forall s' id path cwd op v, result (add H id_encode e od s) w = Ok (s', Ok (id, path)) ->
    no_url op -> at_path h path = dest_of cwd op -> vc_lax_digests v = false ->
    snd (validate_object H v w' cwd op 0) = Ok true.
  Proof.
    intros s' id path cwd op v E Hu Ed Hl. destruct (C72_same s' id path E) as [_ Hi]. exact (C35_updated_valid_partial H _ sd P w' l v cwd op Hash Hi Collisions Hu Ed Hl).
  Qed.
  Theorem C72_extracted : forall s' id path k F e' op version d, result (add H id_encode e od s) w = Ok (s', Ok (id, path)) ->
    collision_free H P l -> nth_error l k = Some F -> version = vn (S k) \/ version = `"head" /\ S k = List.length l ->
    Forall fname (e_cwd e') -> look w' (e_cwd e') = Some EDir -> no_url op -> at_path h path = dest_of (e_cwd e') op ->
    dest_free w' (dest_of (e_cwd e') d) ->
    let x := extract e' (Some op) version d in
    (exists m, result x w' = Ok m) /\ holds (after x w') (dest_of (e_cwd e') d) F /\
    (forall q, (forall y, q <> dest_of (e_cwd e') d ++ y) -> look (after x w') q = look w' q).
  Proof.
    intros s' id path k F e' op version d E CF En Hv Fc Hc Hu Ed Df x. destruct (C72_same s' id path E) as [_ Hi].
    exact (C36_extracted_as_added_partial H _ sd P w' l k F e' op version d Hash Hi CF En Hv Fc Hc Hu Ed Df).
  Qed.
End C72.
Print Assumptions C72_same.
Print Assumptions C72_valid.
Print Assumptions C72_extracted.

(** The path of an object in a storage root: that of the root, a slash, and that in the
    root. *)
Theorem C72_path : forall cwd r rel, r <> [] -> Forall fname rel -> rel <> [] -> Forall fname (dest_of cwd r) ->
  at_path (dest_of cwd r) (J rel) = dest_of cwd (r ++ PathModel.slash :: J rel).
Proof.
  intros cwd r rel Hr Fr Nr Fd. rewrite (at_path_join (dest_of cwd r) rel Fd Fr). unfold dest_of, at_path.
  assert (Eb : base_of cwd (r ++ PathModel.slash :: J rel) = base_of cwd r) by (destruct r; [congruence|reflexivity]). rewrite Eb, split_on_app_gen, split_fnames, app_assoc by auto.
  unfold resolve at 2. rewrite fold_left_app, resolve_names by exact Fr. rewrite rev_app_distr, rev_involutive. reflexivity.
Qed.
Print Assumptions C72_path.

(** * A storage root with objects of this library *)

(** Objects that this library made are added; the storage root is valid after that. *)
Inductive stored_made (H : hashfn) (id_encode : str -> str) (e : env) (s : sroot) (h : place) (w0 : node) : list (str * str) -> node -> Prop :=
| smade_none : stored_made H id_encode e s h w0 [] w0
| smade_add l w od s' id path sd P m : stored_made H id_encode e s h w0 l w -> no_url od ->
    history H (at_path (base_of (e_cwd e) od) od) sd P w m -> uniform P \/ collision_free H P m ->
    result (add H id_encode e od s) w = Ok (s', Ok (id, path)) -> stored_made H id_encode e s h w0 (l ++ [(path, id)]) (after (add H id_encode e od s) w)
| smade_failed l w od s' x : stored_made H id_encode e s h w0 l w -> no_url od -> plain w (at_path (base_of (e_cwd e) od) od) ->
    result (add H id_encode e od s) w = Ok (s', Raise x) -> stored_made H id_encode e s h w0 l (after (add H id_encode e od s) w)
| smade_other l w w' : stored_made H id_encode e s h w0 l w -> tree w' -> (forall q, look w' (h ++ q) = look w (h ++ q)) -> stored_made H id_encode e s h w0 l w'.

Theorem C72_stored : forall H id_encode e spec params s1 s1' s w r a ts nt n,
  let h := at_path (base_of (e_cwd e) r) r in
  hash_ok H -> tree w -> Forall fname (e_cwd e) -> no_url r ->
  s_root s1 = Some r -> s_layout s1 = None -> result (initialize H e spec params s1) w = Ok (s1', Ok tt) ->
  s_layout s1' = Some (L0003 a ts nt) -> config_0003_ok a ts nt n -> (0 < nt)%Z ->
  s_root s = Some r -> s_layout s = None -> s_spec s = None \/ s_spec s = s_spec s1' ->
  forall l w', stored_made H id_encode e s h (after (initialize H e spec params s1) w) l w' ->
  forall sv lw me, s_root sv = Some r /\ s_fs sv = None /\ s_layout sv = None /\ s_spec sv = None /\ s_num_traversal_errors sv = 0%nat -> s_lax sv = false ->
  exists s', validate H e true true lw me sv w' = ([], Ok (s', Ok true)) /\ s_num_objects s' = List.length l /\ s_good_objects s' = List.length l.
Proof.
  intros H id_encode e spec params s1 s1' s w r a ts nt n h Hash T Cwd Lo R1 F1 Mk Ly Cf Tu R Fr V l w' St.
  refine (C71_stored H id_encode e spec params s1 s1' s w r a ts nt n Hash T Cwd Lo R1 F1 Mk Ly Cf Tu R Fr V l w' _). fold h.
  induction St as [|l w' od s' id path sd P m F IH Lo' Hi Hun E|l w' od s' x F IH Lo' Pl E|l w' w2 F IH T2 S2].
  - constructor.
  - eapply ssound_add; eauto. eapply C72_whole; eauto.
  - eapply ssound_failed; eauto.
  - eapply ssound_other; eauto.
Qed.
Print Assumptions C72_stored.

(** * Examples *)
Definition ex_updated_root : node := match ex_updated3 with Dir d => Dir (d ++ match ex_root [ex_layout_named (`"0002-flat-direct-storage-layout")] with Dir l => l | _ => [] end) | n => n end.
Lemma ex_updated_history : history toy_hash [`"o"] (`"1.1") ex_any ex_updated_root ex_files.
Proof.
  apply (elsewhere toy_hash [`"o"] (`"1.1") ex_any [`"o"] ex_updated3); [exact ex_history3|apply tree_b_ok; vm_compute; reflexivity|]. intros y. cbn [app].
  assert (E : get ex_updated_root [`"o"] = get ex_updated3 [`"o"]) by (vm_compute; reflexivity). change (`"o" :: y) with ([`"o"] ++ y). rewrite !look_app, E. reflexivity.
Qed.
Definition ex_add_updated : io (sroot * exc (str * str)) := add toy_hash (fun i => i) ex_env (`"o") ex_sroot.
Example C72_ex : returned (ex_add_updated ex_updated_root) = Ok (`"info:a", `"info:a") /\
  history toy_hash [`"r"; `"info:a"] (`"1.1") ex_any (after ex_add_updated ex_updated_root) ex_files /\
  holds (after (extract ex_env (Some (`"r/info:a")) (`"v2") (`"new")) (after ex_add_updated ex_updated_root)) [`"new"] (nth 1 ex_files []).
Proof.
  assert (T : tree ex_updated_root) by (apply tree_b_ok; vm_compute; reflexivity).
  assert (R : exists s', result ex_add_updated ex_updated_root = Ok (s', Ok (`"info:a", `"info:a"))) by (eexists; vm_compute; reflexivity). destruct R as [s' R].
  assert (No : no_url (`"r")) by (apply no_url_b_ok; reflexivity). assert (No2 : no_url (`"o")) by (apply no_url_b_ok; reflexivity).
  split; [vm_compute; reflexivity|].
  assert (Hi : history toy_hash [`"r"; `"info:a"] (`"1.1") ex_any (after ex_add_updated ex_updated_root) ex_files).
  { apply (C72_same toy_hash (fun i => i) ex_env ex_sroot ex_updated_root (`"r") (`"o") T No No2 eq_refl eq_refl (`"1.1") ex_any ex_files toy_hash_ok ex_updated_history (or_intror ex_collision_free) s' _ _ R). }
  split; [exact Hi|].
  apply (C36_extracted_as_added_partial toy_hash [`"r"; `"info:a"] (`"1.1") ex_any (after ex_add_updated ex_updated_root) ex_files 1 (nth 1 ex_files []) ex_env (`"r/info:a") (`"v2") (`"new"));
    [exact toy_hash_ok|exact Hi|exact ex_collision_free|reflexivity|left; reflexivity|constructor|reflexivity| |reflexivity|left; split; vm_compute; reflexivity].
  intros a b E. assert (X : forall n, (n <= 8)%nat -> firstn 3 (skipn n (`"r/info:a")) <> `"://") by (intros n Hn; do 9 (destruct n as [|n]; [discriminate|]); lia).
  apply (X (List.length a)).
  - apply (f_equal (@List.length N)) in E. rewrite !app_length in E. cbn in E. lia.
  - rewrite E, skipn_app, skipn_all, Nat.sub_diag. reflexivity.
Qed.
