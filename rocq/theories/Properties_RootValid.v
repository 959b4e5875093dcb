(** C70, C71: valid objects in storage roots. *)
From Coq Require Import Permutation.
From Verif Require Import Base Unicode Regex Utf8 Json PyJson JsonTextModel JsonFileProofs Log DigestModel LayoutModel LayoutSpec LayoutProofs ContentPathProofs TextFile PathModel FsModel FsSpec FsProofs FsStepProofs FswModel FswSpec FswProofs FswCopyProofs CopyFrameProofs
  NamasteModel NamasteSpec NamasteProofs Properties_Fsw InventorySpec InventoryValidatorModel InventoryRulesProofs InventoryOpsSpec InventoryParseProofs InventoryModel ParseModel ValidatorSpec ValidatorModel ValidatorBasicProofs ValidatorContentProofs ObjectModel ObjectExamples UpdateSpec
  Properties_Layout Properties_Object StorageRootModel StorageRootSpec StorageRootProofs StorageRootRunProofs Properties_StorageRoot Properties_RootList RootAddSpec RootAddProofs Properties_RootAdd RootFillProofs RootInitSpec ObjectSpec Properties_RootInit Properties_RootFill IntactCopyProofs.
From Verif Require Properties_Validator.

(** An object that is intact, digests included, and has files in each of its version
    directories. *)
Definition whole (H : hashfn) (w : node) (p : place) : Prop :=
  exists spec rb root f head, intact H true w p spec rb root f head /\
    forall v, In v (f_versions f) -> exists rel b, look w (p ++ v :: rel) = Some (EFile b).

Lemma sound_same H w w' h h' : (forall p, look w' (h' ++ p) = look w (h ++ p)) -> whole H w h -> whole H w' h'.
Proof.
  intros S (spec & rb & root & f & head & I & V). exists spec, rb, root, f, head. split; [now apply (intact_same H w w' h h')|]. intros v Hv. destruct (V v Hv) as (rel & b & L). exists rel, b. now rewrite S.
Qed.
Lemma sound_declared H w h : whole H w h -> single_declaration w h.
Proof.
  intros (spec & rb & root & f & head & I & _). destruct (in_declaration _ _ _ _ _ _ _ _ _ I) as (A & B & b & t & L & _). exists (`"0=ocfl_object_" ++ spec). split; [|split].
  - exists spec, []. split; [exact A|]. split; [now rewrite app_nil_r|exact Logic.I].
  - unfold ValidatorSpec.at_root in L. split; intros X; pose proof (eq_trans (eq_sym L) X) as Y; discriminate.
  - intros x [X _]. change (`"0=ocfl_object_" ++ spec) with (`"0" ++ `"=" ++ `"ocfl_object_" ++ spec). apply B. split; [exact X|]. now exists x.
Qed.
Lemma look_child_some w p c t : look w (p ++ c :: t) <> None -> look w (p ++ [c]) <> None.
Proof.
  intros L. destruct t as [|c' t]; [exact L|]. change (c :: c' :: t) with ([c] ++ c' :: t) in L. rewrite app_assoc in L. apply look_above in L. rewrite L. discriminate.
Qed.

(** * C70: a valid object that has been added is valid in the storage root *)
Section C70.
  Variables (H : hashfn) (id_encode : str -> str) (e : env) (s : sroot) (w : node) (r od : str).
  Let h := at_path (base_of (e_cwd e) r) r.
  Let src := at_path (base_of (e_cwd e) od) od.
  Let w' := after (add H id_encode e od s) w.
  Hypothesis Tree : tree w.
  Hypothesis Local : no_url r.
  Hypothesis Local2 : no_url od.
  Hypothesis Root : s_root s = Some r.
  Hypothesis Fresh : s_layout s = None.

  Theorem C70_sound : forall s' id path, result (add H id_encode e od s) w = Ok (s', Ok (id, path)) -> whole H w src -> whole H w' (at_path h path).
  Proof.
    intros s' id path E (spec & rb & root & f & head & I & V). destruct (C48_exact H id_encode e s w r od Tree Local Local2 Root Fresh s' id path E) as (B & T & N & C3 & C4 & C5 & C6 & C7).
    pose proof (proj1 (C48_when H id_encode e s w r od Tree Local Local2 Root Fresh id path) (ex_intro _ s' E)) as (_ & _ & _ & P).
    fold h src in B, N, C3, C4, C5, C7, P. fold w' in T, C3, C4, C5, C6, C7. set (dst := at_path h path) in *.
    assert (V' : forall v, In v (f_versions f) -> exists rel b, look w' (dst ++ v :: rel) = Some (EFile b)).
    { intros v Hv. destruct (V v Hv) as (rel & b & L). exists rel, b. now apply C3. }
    exists spec, rb, root, f, head. split; [|exact V']. apply (intact_copied H w w' src dst); auto.
    - intros p x Hp L. destruct x as [b| |]; [now apply C3| |now apply C5 in L]. destruct (C4 p L) as [X|(c & t & b & X)]; [congruence|]. rewrite app_assoc in X. apply (look_above w (src ++ p) c t). rewrite X. discriminate.
    - intros p L. destruct (P p L) as [b Lb]. rewrite Lb. now apply C3.
    - intros p k Hp L _. destruct (C4 p L) as [X|(c & t & b & X)]; [congruence|]. apply C3 in X. exists c. rewrite app_assoc in *. apply (look_child_some w' (dst ++ p) c t). rewrite X. discriminate.
    - intros v Hv. destruct (V v Hv) as (rel & b & L). destruct rel as [|c rel].
      + exfalso. destruct (in_directories _ _ _ _ _ _ _ _ _ I v Hv) as (X & _). unfold ValidatorSpec.at_root in X. rewrite X in L. discriminate.
      + apply C3 in L. change (v :: c :: rel) with ([v] ++ c :: rel) in L. rewrite app_assoc in L. apply (look_above w' (dst ++ [v]) c rel). rewrite L. discriminate.
  Qed.

  (** In terms of the validator *)
  Theorem C70_valid_partial : forall c s' id path, vc_lax_digests c = false -> vc_check_digests c = true ->
    result (add H id_encode e od s) w = Ok (s', Ok (id, path)) ->
    snd (validate_opened H c w src 0) = Ok true ->
    (forall spec rb root f head, intact H true w src spec rb root f head -> forall v, In v (f_versions f) -> exists rel b, look w (src ++ v :: rel) = Some (EFile b)) ->
    snd (validate_opened H c w' (at_path h path) 0) = Ok true.
  Proof.
    intros c s' id path Lx Ck E A V. destruct (C48_exact H id_encode e s w r od Tree Local Local2 Root Fresh s' id path E) as (B & T & N & C3 & _). fold h src in B, N, C3. fold w' in T, C3.
    pose proof (be_source _ _ _ _ _ _ _ _ _ B) as Hs. fold src in Hs. apply Properties_Validator.C30_exactly_intact in A as (_ & spec & rb & root & f & head & I); auto. rewrite Ck in I.
    assert (S : whole H w src) by (exists spec, rb, root, f, head; split; [exact I|now apply (V spec rb root f head)]).
    destruct (C70_sound s' id path E S) as (spec' & rb' & root' & f' & head' & I' & _).
    assert (D : look w' (at_path h path) = Some EDir).
    { destruct (in_inventory _ _ _ _ _ _ _ _ _ I') as [L _]. unfold ValidatorSpec.at_root in L. apply (look_above w' _ (`"inventory.json") []). cbn [app] in L. rewrite L. discriminate. }
    apply (proj2 (Properties_Validator.C30_exactly_intact H c w' (at_path h path) 0 Lx T D)). split; [reflexivity|]. rewrite Ck. exists spec', rb', root', f', head'. exact I'.
  Qed.
End C70.
Print Assumptions C70_sound.
Print Assumptions C70_valid_partial.

(** * C71: a storage root with valid objects only is valid *)

(** What happens to a storage root: sound objects are added, and what is not in it can change
    as it likes. *)
Section FilledSound.
  Variables (H : hashfn) (id_encode : str -> str) (e : env) (s : sroot) (h : place) (w0 : node) (k : nat).
  Inductive filled_sound : list (str * str) -> node -> Prop :=
  | fsound_none : filled_sound [] w0
  | fsound_add l w od s' id rel : filled_sound l w -> no_url od -> whole H w (at_path (base_of (e_cwd e) od) od) -> level k rel ->
      result (add H id_encode e od s) w = Ok (s', Ok (id, J rel)) -> filled_sound (l ++ [(J rel, id)]) (after (add H id_encode e od s) w)
  | fsound_failed l w od s' x : filled_sound l w -> no_url od -> plain w (at_path (base_of (e_cwd e) od) od) ->
      result (add H id_encode e od s) w = Ok (s', Raise x) -> filled_sound l (after (add H id_encode e od s) w)
  | fsound_other l w w' : filled_sound l w -> tree w' -> (forall q, look w' (h ++ q) = look w (h ++ q)) -> filled_sound l w'.
  Lemma sound_filled l w : filled_sound l w -> filled H id_encode e s h w0 k l w.
  Proof.
    intros F. induction F as [|l w od s' id rel F IH Lo Sd Lv E|l w od s' x F IH Lo P E|l w w' F IH T S].
    - constructor.
    - eapply filled_add; eauto. eapply sound_declared; eauto.
    - eapply filled_failed; eauto.
    - eapply filled_other; eauto.
  Qed.
End FilledSound.

Section C71.
  Variables (H : hashfn) (id_encode : str -> str) (e : env) (s : sroot) (w0 : node) (r : str) (k : nat) (v : str) (lay : layout).
  Let h := at_path (base_of (e_cwd e) r) r.
  Hypothesis Local : no_url r.
  Hypothesis Root : s_root s = Some r.
  Hypothesis Fresh : s_layout s = None.
  (** a storage root with a layout, no objects, and no files in extensions/ *)
  Hypothesis Tree : tree w0.
  Hypothesis Dir : look w0 h = Some EDir.
  Hypothesis Declared : root_declared w0 h v.
  Hypothesis Version : s_spec s = None \/ s_spec s = Some v.
  Hypothesis Described : layout_described H w0 h (Some lay).
  Hypothesis Empty : no_objects w0 h.
  Hypothesis Extensions : ~ has_files w0 (h ++ [`"extensions"]).
  Hypothesis Logged : s_log s <> None \/ known_extensions w0 h.

  Record good (l : list (str * str)) (w : node) : Prop := {
    gd_sound : forall rel, object_root w h rel -> whole H w (h ++ rel);
    gd_dirs : forall q, q <> [] -> hd [] q <> `"extensions" -> look w (h ++ q) = Some EDir -> exists rel t, object_root w h rel /\ (rel = q ++ t \/ q = rel ++ t);
    gd_extensions : ~ has_files w (h ++ [`"extensions"]) }.

  Lemma content_of l w : filled H id_encode e s h w0 k l w -> content H id_encode e s r k v lay l w.
  Proof. intros F. exact (filled_content H id_encode e s w0 r k v lay Local Root Fresh Tree Dir Declared Described Empty Logged l w F). Qed.
  Lemma level_of l w rel : filled H id_encode e s h w0 k l w -> object_root w h rel -> level k rel.
  Proof. intros F. apply (C69_exact H id_encode e s w0 r k v lay Local Root Fresh Tree Dir Declared Version Described Empty Logged l w F). Qed.

  Lemma filled_good l w : filled_sound H id_encode e s h w0 k l w -> good l w.
  Proof.
    intros F. induction F as [|l w od s' id rel F IH Lo Sd Lv E|l w od s' x F IH Lo P E|l w w' F IH T S].
    - split.
      + intros rel ((V1 & V2 & V3 & _) & _). now contradiction (Empty rel V1 V2).
      + intros q Q1 Q2 Q3. now contradiction (Empty q Q1 Q2).
      + exact Extensions.
    - pose proof (sound_filled _ _ _ _ _ _ _ _ _ F) as F0. pose proof (content_of l w F0) as C. pose proof (ct_tree _ _ _ _ _ _ _ _ _ _ C) as A1.
      pose proof (sound_filled _ _ _ _ _ _ _ _ _ (fsound_add H id_encode e s h w0 k l w od s' id rel F Lo Sd Lv E)) as F1.
      pose proof (C70_sound H id_encode e s w r od A1 Local Lo Root Fresh s' id (J rel) E Sd) as Snd.
      destruct (C48_exact H id_encode e s w r od A1 Local Lo Root Fresh s' id (J rel) E) as (B & T & N & C3 & C4 & C5 & C6 & C7).
      pose proof (proj1 (C48_when H id_encode e s w r od A1 Local Lo Root Fresh id (J rel)) (ex_intro _ s' E)) as (_ & _ & _ & P).
      pose proof Lv as (Fr & Lr & He & H0). assert (Nr : rel <> []) by (intros ->; discriminate). set (w' := after (add H id_encode e od s) w) in *. set (src := at_path (base_of (e_cwd e) od) od) in *.
      fold h in B, N, C3, C4, C5, C7, Snd. pose proof (ct_dir _ _ _ _ _ _ _ _ _ _ C) as A2. fold h in A2. assert (Fh : Forall fname h) by (eapply look_fnames; [exact A1|rewrite A2; discriminate]). assert (Ep : at_path h (J rel) = h ++ rel) by (now apply at_path_join).
      assert (Fd : findable w h rel).
      { split; [exact Nr|]. split; [exact He|]. intros q c t Eq Hq. apply (ct_free _ _ _ _ _ _ _ _ _ _ C); [exact Hq| |].
        - apply (f_equal (@List.length str)) in Eq. rewrite Lr, app_length in Eq. cbn in Eq. clear -Eq. change (list N) with str. lia.
        - destruct q as [|x q]; [congruence|]. rewrite Eq in He. exact He. }
      destruct (C68_found H id_encode e s w r od A1 Local Lo Root Fresh s' id (J rel) rel E Ep Fd (sound_declared _ _ _ Sd)) as (O1 & _ & _). fold h w' in O1.
      pose proof (be_source _ _ _ _ _ _ _ _ _ B) as Hsrc. rewrite Ep in N, C3, C4, C5, C7, Snd.
      assert (Same : forall q, (forall t, q <> rel ++ t) -> (forall t, rel <> q ++ t) -> look w' (h ++ q) = look w (h ++ q)).
      { intros q Q1 Q2. destruct (look w (h ++ q)) eqn:L; [rewrite C6 by (rewrite L; discriminate); exact L|]. apply (still_none w w' h rel C7 _ L).
        - intros u Eu. rewrite <- app_assoc in Eu. apply app_inv_head in Eu. exact (Q1 u Eu).
        - intros u Eu. rewrite <- app_assoc in Eu. apply app_inv_head in Eu. exact (Q2 u Eu). }
      split.
      + intros rel' O. destruct (proj1 (O1 rel') O) as [-> |O']; [exact Snd|]. apply (sound_same H w w' (h ++ rel')); [|now apply (gd_sound _ _ IH)].
        assert (Nq : rel' <> rel). { intros ->. destruct O' as ((_ & _ & L & _) & _). specialize (N []). rewrite app_nil_r, L in N. discriminate. }
        pose proof (level_of _ _ _ F0 O') as (_ & Lr' & _). intros p. rewrite <- !app_assoc. destruct p as [|c p].
        * rewrite app_nil_r. apply C6. destruct O' as ((_ & _ & L & _) & _). rewrite L. discriminate.
        * apply Same.
          -- intros t Et. apply Nq. assert (X : firstn (S k) (rel' ++ c :: p) = firstn (S k) (rel ++ t)) by (now rewrite Et). rewrite <- Lr' in X at 1. rewrite <- Lr in X. rewrite !firstn_app, !Nat.sub_diag, !firstn_all, !firstn_O, !app_nil_r in X. exact X.
          -- intros t Et. apply (f_equal (@List.length str)) in Et. rewrite !app_length, Lr, Lr' in Et. cbn in Et. clear -Et. change (list N) with str in *. lia.
      + intros q Q1 Q2 Q3. destruct (look w (h ++ q)) as [x|] eqn:L.
        * assert (K : look w' (h ++ q) = look w (h ++ q)) by (apply C6; rewrite L; discriminate). rewrite K in Q3. destruct (gd_dirs _ _ IH q Q1 Q2 Q3) as (rel' & t & O & D). exists rel', t. split; [apply O1; now right|exact D].
        * destruct (strip (h ++ rel) (h ++ q)) as [t|] eqn:S.
          -- apply strip_some in S. rewrite <- app_assoc in S. apply app_inv_head in S. exists rel, t. split; [apply O1; now left|now right].
          -- destruct (C7 (h ++ q) L) as [_ (t & Et)]; [rewrite Q3; discriminate|exact S|]. rewrite <- app_assoc in Et. apply app_inv_head in Et. exists rel, t. split; [apply O1; now left|now left].
      + intros (f & Lf). apply (gd_extensions _ _ IH). exists f. rewrite <- app_assoc in *. unfold leaf in *. rewrite Same in Lf; [exact Lf| |].
        * intros t Et. destruct rel as [|x rel0]; [congruence|]. injection Et as Ex _. apply He. cbn. symmetry. exact Ex.
        * intros t Et. rewrite Et in He. now apply He.
    - assert (Fl : filled H id_encode e s h w0 k l w) by (eapply sound_filled; eauto). rewrite (C48_failed H id_encode e s w r od (ct_tree _ _ _ _ _ _ _ _ _ _ (content_of l w Fl)) Local Lo Root Fresh s' x E P). exact IH.
    - assert (Lf : forall q, leaf w' (h ++ q) <-> leaf w (h ++ q)) by (intros q; unfold leaf; now rewrite S).
      assert (Hf : forall q, has_files w' (h ++ q) <-> has_files w (h ++ q)) by (intros q; unfold has_files; split; intros (f & L); exists f; rewrite <- app_assoc in *; now apply Lf).
      assert (Ob : forall rel, object_root w' h rel <-> object_root w h rel).
      { intros rel. unfold object_root, visited, single_declaration. rewrite S. split; intros ((V1 & V2 & V3 & V4) & (d & D1 & D2 & D3)); (split; [split; [exact V1|split; [exact V2|split; [exact V3|intros q c t E Hq X; apply (V4 q c t E Hq); now apply Hf]]]|]);
        exists d; (split; [exact D1|]); rewrite <- app_assoc in *; (split; [now apply Lf|]); intros t X; apply D3; rewrite <- app_assoc in *; now apply Lf. }
      split.
      + intros rel O. apply Ob in O. apply (sound_same H w w' (h ++ rel)); [|now apply (gd_sound _ _ IH)]. intros p. rewrite <- !app_assoc. apply S.
      + intros q Q1 Q2 Q3. rewrite S in Q3. destruct (gd_dirs _ _ IH q Q1 Q2 Q3) as (rel & t & O & D). exists rel, t. split; [now apply Ob|exact D].
      + rewrite Hf. apply IH.
  Qed.

  Lemma filled_tidy l w : filled_sound H id_encode e s h w0 k l w -> tidy w h.
  Proof.
    intros F. pose proof (filled_good l w F) as G. pose proof (content_of l w (sound_filled _ _ _ _ _ _ _ _ _ F)) as C. split; [|intros [_ X]; exact (gd_extensions _ _ G X)].
    intros q ((V1 & V2 & V3 & V4) & M). destruct (gd_dirs _ _ G q V1 V2 V3) as (rel & t & O & D). pose proof (level_of _ _ _ (sound_filled _ _ _ _ _ _ _ _ _ F) O) as (Fr & Lr & _).
    destruct D as [D|D].
    - destruct t as [|c t].
      + rewrite app_nil_r in D. rewrite D in O. destruct O as (_ & Sd). destruct M as [M|[_ M]]; [|contradiction]. destruct Sd as (d & _ & [L _] & _). rewrite <- app_assoc in L. now rewrite M in L.
      + destruct M as [M|[M _]].
        * destruct O as ((_ & _ & L & _) & _). rewrite D in L. assert (X : look w ((h ++ q) ++ [c]) <> None); [apply (look_child_some w (h ++ q) c t); rewrite <- app_assoc; intros Z; pose proof (eq_trans (eq_sym L) Z); discriminate|]. apply X. rewrite <- app_assoc. apply M.
        * apply (ct_free _ _ _ _ _ _ _ _ _ _ C q V1); auto. apply (f_equal (@List.length str)) in D. rewrite Lr, app_length in D. cbn in D. clear -D. change (list N) with str in *. lia.
    - destruct t as [|c t].
      + rewrite app_nil_r in D. rewrite <- D in O. destruct O as (_ & Sd). destruct M as [M|[_ M]]; [|contradiction]. destruct Sd as (d & _ & [L _] & _). rewrite <- app_assoc in L. now rewrite M in L.
      + destruct O as ((Nr & _) & (d & _ & L & _)). apply (V4 rel c t D Nr). exists d. exact L.
  Qed.

  (** A new instance finds the storage root and all its objects valid. *)
  Theorem C71_valid : forall l w, filled_sound H id_encode e s h w0 k l w ->
    forall sv lw me, s_root sv = Some r /\ s_fs sv = None /\ s_layout sv = None /\ s_spec sv = None /\ s_num_traversal_errors sv = 0%nat -> s_lax sv = false ->
    exists s', validate H e true true lw me sv w = ([], Ok (s', Ok true)) /\ s_num_objects s' = List.length l /\ s_good_objects s' = List.length l.
  Proof.
    intros l w F sv lw me Fr Lx. pose proof (sound_filled _ _ _ _ _ _ _ _ _ F) as F0. pose proof (filled_good l w F) as G. pose proof (content_of l w F0) as C. pose proof C as [A1 A2 A3 A4 A5 A6 A7 A8 A9 A11 A10].
    assert (Pl : tree w /\ no_url r /\ look w h = Some EDir) by (split; [exact A1|split; [exact Local|exact A2]]).
    assert (St : exists v lay, root_declared w h v /\ layout_described H w h lay) by (exists v, (Some lay); split; [exact A3|exact A4]).
    assert (Va : forall rel, object_root w h rel -> snd (validate_opened H (root_vconf e (s_lax sv) true) w (h ++ rel) 0) = Ok true).
    { intros rel O. destruct (gd_sound _ _ G rel O) as (spec & rb & root & f & head & I & _). apply Properties_Validator.C30_exactly_intact; [exact Lx|exact A1|apply O|]. split; [reflexivity|]. exists spec, rb, root, f, head. exact I. }
    destruct (proj2 (C50_partial H e true lw me w sv r Fr Pl) (conj St (conj (filled_tidy l w F) Va))) as (s' & R & Eq). exists s'. split; [exact R|].
    destruct (C50_counts H e true lw me w sv r Fr Pl s' true R St) as (l' & N & I & Nn & _). rewrite Eq, Nn.
    assert (X : List.length l' = List.length l); [|auto]. rewrite <- (map_length fst l). apply Permutation_length, NoDup_Permutation; [exact N|exact A10|]. intros p. rewrite I. split.
    - intros (rel & -> & O). apply A8 in O as (_ & _ & id & X). apply in_map_iff. exists (J rel, id). auto.
    - intros X. apply in_map_iff in X as ((p' & id) & Ep & X). cbn in Ep. subst p'. destruct (A7 p id X) as (rel & -> & Lv). exists rel. split; [reflexivity|]. apply A8. split; [apply Lv|]. split; [|eauto]. destruct Lv as (_ & Lv & _). intros ->. discriminate.
  Qed.
End C71.
Print Assumptions C71_valid.

(** A storage root made by initialize, with the layout 0003 and tuples, to which only valid
    objects have been added *)
Inductive stored_sound (H : hashfn) (id_encode : str -> str) (e : env) (s : sroot) (h : place) (w0 : node) : list (str * str) -> node -> Prop :=
| ssound_none : stored_sound H id_encode e s h w0 [] w0
| ssound_add l w od s' id path : stored_sound H id_encode e s h w0 l w -> no_url od -> whole H w (at_path (base_of (e_cwd e) od) od) ->
    result (add H id_encode e od s) w = Ok (s', Ok (id, path)) -> stored_sound H id_encode e s h w0 (l ++ [(path, id)]) (after (add H id_encode e od s) w)
| ssound_failed l w od s' x : stored_sound H id_encode e s h w0 l w -> no_url od -> plain w (at_path (base_of (e_cwd e) od) od) ->
    result (add H id_encode e od s) w = Ok (s', Raise x) -> stored_sound H id_encode e s h w0 l (after (add H id_encode e od s) w)
| ssound_other l w w' : stored_sound H id_encode e s h w0 l w -> tree w' -> (forall q, look w' (h ++ q) = look w (h ++ q)) -> stored_sound H id_encode e s h w0 l w'.

Section StoreSound.
  Variables (H : hashfn) (id_encode : str -> str) (e : env) (spec params : option str) (s1 s1' s : sroot) (w : node) (r a : str) (ts nt : Z) (n : nat).
  Let h := at_path (base_of (e_cwd e) r) r.
  Let w0 := after (initialize H e spec params s1) w.
  Hypothesis Hash : hash_ok H.
  Hypothesis Tree : tree w.
  Hypothesis Cwd : Forall fname (e_cwd e).
  Hypothesis Local : no_url r.
  (** the storage root is made, by an instance *)
  Hypothesis Root1 : s_root s1 = Some r.
  Hypothesis Fresh1 : s_layout s1 = None.
  Hypothesis Made : result (initialize H e spec params s1) w = Ok (s1', Ok tt).
  Hypothesis Layout : s_layout s1' = Some (L0003 a ts nt).
  Hypothesis Config : config_0003_ok a ts nt n.
  Hypothesis Tuples : (0 < nt)%Z.
  (** and used, by others *)
  Hypothesis Root : s_root s = Some r.
  Hypothesis Fresh : s_layout s = None.
  Hypothesis Version : s_spec s = None \/ s_spec s = s_spec s1'.

  Lemma made_extensions : ~ has_files w0 (h ++ [`"extensions"]).
  Proof.
    destruct (C10_structure H e spec params s1 w r Hash Tree Cwd Local Root1 Fresh1 s1' Made) as (v & _ & _ & Hh & _); [rewrite Layout; discriminate|rewrite Layout; exact Logic.I|].
    fold h w0 in Hh. rewrite Layout in Hh. intros (f & L1 & L2). rewrite <- app_assoc in L1, L2. destruct (look w0 (h ++ [`"extensions"] ++ [f])) as [x|] eqn:L; [|congruence].
    destruct (hl_only _ _ _ Hh [`"extensions"; f] x ltac:(discriminate) L) as (y & b & Hi). pose proof (hl_files _ _ _ Hh _ _ Hi) as Lb. cbn [root_files layout_config In] in Hi.
    destruct Hi as [Hi|[Hi|[Hi|[]]]]; apply (f_equal fst) in Hi; cbn [fst app] in Hi; try discriminate. apply (f_equal (@tl str)) in Hi. cbn [tl] in Hi. destruct y as [|c y]; [discriminate|].
    apply L2. rewrite <- L. apply (look_above w0 _ c y). rewrite <- app_assoc. intros Z. pose proof (eq_trans (eq_sym Lb) Z). discriminate.
  Qed.

  Theorem C71_stored : forall l w', stored_sound H id_encode e s h w0 l w' ->
    forall sv lw me, s_root sv = Some r /\ s_fs sv = None /\ s_layout sv = None /\ s_spec sv = None /\ s_num_traversal_errors sv = 0%nat -> s_lax sv = false ->
    exists s', validate H e true true lw me sv w' = ([], Ok (s', Ok true)) /\ s_num_objects s' = List.length l /\ s_good_objects s' = List.length l.
  Proof.
    intros l w' St. destruct (made H e spec params s1 s1' w r a ts nt Hash Tree Cwd Local Root1 Fresh1 Made Layout) as (v & T & Dr & D & S & L & No & Kn). fold w0 h in T, Dr, D, L, No, Kn.
    assert (V : s_spec s = None \/ s_spec s = Some v) by (rewrite <- S; exact Version).
    assert (F : filled_sound H id_encode e s h w0 (Z.to_nat nt) l w').
    { induction St as [|l w' od s' id path F IH Lo Sd E|l w' od s' x F IH Lo P E|l w' w2 F IH T2 S2].
      - constructor.
      - pose proof (filled_content H id_encode e s w0 r (Z.to_nat nt) v (L0003 a ts nt) Local Root Fresh T Dr D L No (or_intror Kn) l w' (sound_filled _ _ _ _ _ _ _ _ _ IH)) as C.
        pose proof (ct_tree _ _ _ _ _ _ _ _ _ _ C) as T'. pose proof (ct_described _ _ _ _ _ _ _ _ _ _ C) as L'.
        pose proof (proj1 (C48_when H id_encode e s w' r od T' Local Lo Root Fresh id path) (ex_intro _ s' E)) as (B & _).
        assert (Hp : identifier_to_path H id_encode (L0003 a ts nt) id = Ok path).
        { destruct (be_path _ _ _ _ _ _ _ _ _ B) as (l' & [Hu|(Hu & _)] & Hp); pose proof (layout_fun _ _ _ _ _ Hu L') as X; [injection X as X; rewrite X in Hp; exact Hp|discriminate]. }
        destruct (C69_level_0003 H id_encode a ts nt n id path Hash Config Tuples (identified_id _ _ _ (be_id _ _ _ _ _ _ _ _ _ B)) Hp) as (rel & Er & Lv). rewrite Er in *.
        eapply fsound_add; eauto.
      - eapply fsound_failed; eauto.
      - eapply fsound_other; eauto. }
    exact (C71_valid H id_encode e s w0 r (Z.to_nat nt) v (L0003 a ts nt) Local Root Fresh T Dr D V L No made_extensions (or_intror Kn) l w' F).
  Qed.
End StoreSound.
Print Assumptions C71_stored.

(** * Examples *)

(** A valid object with files in its only version directory is sound. *)
Lemma ex_sound w o c t b : tree w -> look w [o] = Some EDir ->
  snd (validate_opened toy_hash (Properties_Validator.ex_conf true) w [o] 0) = Ok true ->
  (forall name x, look w [o; name] = Some x -> x = EDir -> name = `"v1") ->
  look w (o :: `"v1" :: c :: t) = Some (EFile b) -> whole toy_hash w [o].
Proof.
  intros T D V Only L. apply Properties_Validator.C30_exactly_intact in V as (_ & spec & rb & root & f & head & I); auto. exists spec, rb, root, f, head. split; [exact I|]. intros v Hv.
  destruct (in_directories _ _ _ _ _ _ _ _ _ I v Hv) as (X & _). assert (E : v = `"v1") by (eapply Only; [exact X|reflexivity]). exists (c :: t), b. rewrite E. exact L.
Qed.
Lemma ex_only w o d : get w [o] = Ok (Dir d) -> forallb (fun kv => match snd kv with Dir _ => str_eqb (fst kv) (`"v1") | _ => true end) d = true ->
  forall name x, look w [o; name] = Some x -> x = EDir -> name = `"v1".
Proof.
  intros G A name x L Ex. subst x. unfold look in L. assert (Eg : get w [o; name] = match dget name d with Some m => Ok m | None => Raise FileNotFoundError end).
  { cbn [get] in *. destruct w as [|d0|]; try discriminate. destruct (dget o d0) as [m|]; [|discriminate]. apply Ok_inv in G. subst m. destruct (dget name d); reflexivity. }
  rewrite Eg in L. destruct (dget name d) as [m|] eqn:Ed; [|discriminate]. apply dget_In in Ed. rewrite forallb_forall in A. apply A in Ed. cbn in Ed. destruct m; try discriminate. now apply str_eqb_eq.
Qed.
Lemma ex_sound_o1 : whole toy_hash ex_add_before [`"o1"].
Proof.
  eapply (ex_sound _ _ (`"content") [`"a"]); [apply tree_b_ok; vm_compute; reflexivity|reflexivity|vm_compute; reflexivity| |vm_compute; reflexivity]. eapply ex_only; [vm_compute; reflexivity|vm_compute; reflexivity].
Qed.
Example C70_ex : whole toy_hash ex_add_before [`"o1"] /\ returned (ex_add (`"o1") ex_add_before) = Ok (`"info:b", `"623/a6f/666/info%3ab") /\
  snd (validate_opened toy_hash (Properties_Validator.ex_conf true) (after (ex_add (`"o1")) ex_add_before) [`"r"; `"623"; `"a6f"; `"666"; `"info%3ab"] 0) = Ok true.
Proof. split; [exact ex_sound_o1|]. split; vm_compute; reflexivity. Qed.

Example C71_ex : exists w2 s', stored_sound toy_hash (fun i => i) ex_env ex_sroot [`"r"] ex_store
    [(`"623/a6f/666/info%3ab", `"info:b"); (`"633/a6f/666/info%3ac", `"info:c")] w2 /\
  ex_validate ex_sroot w2 = ([], Ok (s', Ok true)) /\ s_num_objects s' = 2%nat /\ s_good_objects s' = 2%nat.
Proof.
  assert (T : tree ex_store) by (apply tree_b_ok; vm_compute; reflexivity).
  set (w1 := after (ex_add (`"o1")) ex_store). assert (T1 : tree w1) by (apply tree_b_ok; vm_compute; reflexivity).
  exists (after (ex_add (`"o2")) w1). eexists. split; [|split; [vm_compute; reflexivity|split; reflexivity]].
  eapply (ssound_add _ _ _ _ _ _ [(`"623/a6f/666/info%3ab", `"info:b")] w1).
  - eapply (ssound_add _ _ _ _ _ _ [] ex_store (`"o1")); [constructor|apply no_url_b_ok; reflexivity| |vm_compute; reflexivity].
    eapply (ex_sound ex_store (`"o1") (`"content") [`"a"]); [exact T|reflexivity|vm_compute; reflexivity| |vm_compute; reflexivity]. eapply ex_only; [vm_compute; reflexivity|vm_compute; reflexivity].
  - apply no_url_b_ok. reflexivity.
  - eapply (ex_sound w1 (`"o2") (`"content") [`"a"]); [exact T1|reflexivity|vm_compute; reflexivity| |vm_compute; reflexivity]. eapply ex_only; [vm_compute; reflexivity|vm_compute; reflexivity].
  - vm_compute. reflexivity.
Qed.

(** * A valid object that is not valid any more after it has been added *)

(** Empty version directories are allowed; they are not copied. *)
Definition ex_hollow_inventory : bytes := json_print false 0 (JObj [(`"digestAlgorithm", JStr (`"sha256")); (`"head", JStr (`"v1")); (`"id", JStr (`"info:e")); (`"manifest", JObj []);
  (`"type", JStr (`"https://ocfl.io/1.1/spec/#inventory")); (`"versions", JObj [(`"v1", JObj [(`"created", JStr (`"2020-01-01T00:00:00Z")); (`"message", JStr (`"m")); (`"state", JObj []); (`"user", JObj [(`"name", JStr (`"n")); (`"address", JStr (`"mailto:n@x.org"))])])])]).
Definition ex_hollow : node := Dir [(`"0=ocfl_object_1.1", File (`"ocfl_object_1.1" ++ [10%N])); (`"inventory.json", File ex_hollow_inventory);
  (`"inventory.json.sha256", File (toy_hash (`"sha256") ex_hollow_inventory ++ `" inventory.json" ++ [10%N])); (`"v1", Dir [])].
Theorem C70_empty_version_refuted : exists w s' id path, tree w /\
  snd (validate_opened toy_hash (Properties_Validator.ex_conf true) w [`"o1"] 0) = Ok true /\
  result (ex_add (`"o1")) w = Ok (s', Ok (id, path)) /\
  snd (validate_opened toy_hash (Properties_Validator.ex_conf true) (after (ex_add (`"o1")) w) (at_path [`"r"] path) 0) = Ok false.
Proof.
  exists (ex_both (ex_root [ex_layout_named (`"0002-flat-direct-storage-layout")]) [(`"o1", ex_hollow)]). eexists _, _, _.
  split; [apply tree_b_ok; vm_compute; reflexivity|]. split; [vm_compute; reflexivity|]. split; [vm_compute; reflexivity|]. vm_compute. reflexivity.
Qed.
Print Assumptions C70_empty_version_refuted.
