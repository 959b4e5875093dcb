(** C73, C74: what the scripts for validation report. *)
From Verif Require Import Base Unicode Regex Utf8 Json PyJson JsonTextModel JsonFileProofs Log DigestModel LayoutModel LayoutSpec LayoutProofs ContentPathProofs TextFile PathModel FsModel FsSpec FsProofs FsStepProofs FswModel FswSpec FswProofs FswCopyProofs CopyFrameProofs
  NamasteModel NamasteSpec NamasteProofs Properties_Fsw InventorySpec InventoryValidatorModel InventoryRulesProofs InventoryOpsSpec InventoryParseProofs InventoryModel ParseModel ValidatorSpec ValidatorModel ValidatorBasicProofs ValidatorContentProofs ObjectModel ObjectExamples UpdateSpec
  ObjectMadeProofs ObjectIntactProofs ObjectExtendProofs ObjectHistoryProofs
  Properties_Layout Properties_Object StorageRootModel StorageRootSpec StorageRootProofs StorageRootRunProofs Properties_StorageRoot Properties_RootList RootAddSpec RootAddProofs Properties_RootAdd RootFillProofs RootInitSpec ObjectSpec Properties_RootInit Properties_RootFill IntactCopyProofs Properties_RootValid.
From Verif Require Import ObjectExtractProofs ValidatorVersionProofs ValidatorIntactProofs RootInitProofs ToolModel.
From Verif Require Properties_Validator Properties_Namaste.

(** * C73 ocfl-validate.py *)

(** The path ends in a name: it is not empty, and its last part is not empty, . or .. *)
Definition named (p : str) : Prop := exists d k, p = d ++ k /\ (d = [] \/ last_opt d = Some PathModel.slash) /\ fname k.

Section Path.
  Variables (H : hashfn) (check : bool) (e : env) (w : node).
  (** What the place is that is taken for valid: an intact object; or a storage root with the
      right structure and nothing misplaced, the validation of whose objects ends without an
      exception; or a file with an inventory that obeys the rules. *)
  Definition valid_object_at (q : place) : Prop := look w q = Some EDir /\ exists spec rb root f head, intact H check w q spec rb root f head.
  Definition sound_root_at (q : place) : Prop :=
    look w q = Some EDir /\ (exists v lay, root_declared w q v /\ layout_described H w q lay) /\ tidy w q /\
    forall rel, object_root w q rel -> exists b, snd (validate_opened H (root_vconf e false check) w (q ++ rel) 0) = Ok b.
  Definition inventory_at_path (p : str) : Prop :=
    named p /\ exists b j f, look w (dest_of (e_cwd e) p) = Some (EFile b) /\ json_load b = Ok j /\ obeys as_coded j f.
  Definition accepted_path (p : str) : Prop :=
    valid_object_at (dest_of (e_cwd e) p) \/ sound_root_at (dest_of (e_cwd e) p) \/ inventory_at_path p.
End Path.

Lemma digits_spec v : In v [`"1.0"; `"1.1"] -> exists a b, NamasteSpec.digits a /\ NamasteSpec.digits b /\ v = a ++ `"." ++ b.
Proof.
  intros [<-|[<-|[]]]; [exists (`"1"), (`"0")|exists (`"1"), (`"1")]; (split; [|split; [|reflexivity]]); (split; [discriminate|repeat constructor]).
Qed.

Lemma object_first H check w q spec rb root f head : intact H check w q spec rb root f head -> first_declaration w q true /\ at_most 10 (tagged w q (`"0")).
Proof.
  intros I. destruct (in_declaration _ _ _ _ _ _ _ _ _ I) as (Hs & Ht & _). split.
  - exists (`"0=ocfl_object_" ++ spec). pose proof (proj2 (Ht _) eq_refl) as [L _]. split; [exact L|]. split.
    + destruct (digits_spec _ Hs) as (a & b & Da & Db & ->). exists a, b, []. split; [auto|]. split; [auto|]. split; [auto|]. rewrite app_nil_r. reflexivity.
    + intros other o Lo Ho. left. apply Ht. split; [exact Lo|]. destruct Ho as (a & b & nl & _ & _ & _ & ->). eexists. reflexivity.
  - intros l N F. destruct l as [|x [|y l]]; cbn; try lia. exfalso. inversion F as [|? ? Fx F']. inversion F' as [|? ? Fy _]. apply Ht in Fx, Fy. inversion N as [|? ? Nx _]. apply Nx. left. congruence.
Qed.
Lemma root_first w q v : root_declared w q v -> first_declaration w q false /\ at_most 10 (tagged w q (`"0")).
Proof.
  intros (Hs & Ht & _). split.
  - exists (`"0=ocfl_" ++ v). pose proof (proj2 (Ht _) eq_refl) as [L _]. split; [exact L|]. split.
    + destruct (digits_spec _ Hs) as (a & b & Da & Db & ->). exists a, b, []. split; [auto|]. split; [auto|]. split; [auto|]. rewrite app_nil_r. reflexivity.
    + intros other o Lo Ho. left. apply Ht. split; [exact Lo|]. destruct Ho as (a & b & nl & _ & _ & _ & ->). eexists. reflexivity.
  - intros l N F. destruct l as [|x [|y l]]; cbn; try lia. exfalso. inversion F as [|? ? Fx F']. inversion F' as [|? ? Fy _]. apply Ht in Fx, Fy. inversion N as [|? ? Nx _]. apply Nx. left. congruence.
Qed.

Lemma openfs_true cwd path w : no_url path -> result (fsw_openfs cwd path false true) w =
  if fs_isdir w (base_of cwd path) path then Ok (at_path (base_of cwd path) path) else Raise FileNotFoundError.
Proof.
  intros Hu. unfold fsw_openfs. rewrite split_url_none by auto. change (str_eqb (`"file") (`"file")) with true. cbv iota. unfold base_of. rewrite result_read. cbv beta.
  destruct (fs_isdir w _ path); reflexivity.
Qed.

(** The directory that path_split gives *)
Lemma split_parent cwd d k : ~ In PathModel.slash k -> d = [] \/ last_opt d = Some PathModel.slash -> no_url (d ++ k) ->
  exists pd, path_split (d ++ k) = (pd, k) /\ at_path (base_of cwd (d ++ k)) pd = at_path (base_of cwd (d ++ k)) d /\ base_of cwd pd = base_of cwd (d ++ k) /\ no_url pd.
Proof.
  intros Hs Hd Hu. rewrite path_split_name by auto. eexists. split; [reflexivity|]. destruct Hd as [->|Hd].
  - change (rstrip_slash []) with (@nil N). cbv iota. split; [reflexivity|]. split.
    + cbn [app]. unfold base_of. destruct k as [|c k]; [reflexivity|]. cbn [startswith]. destruct (N.eqb_spec PathModel.slash c); [subst; exfalso; apply Hs; now left|]. reflexivity.
    + intros a b E. destruct a; discriminate.
  - destruct d as [|c d']; [discriminate|]. destruct (rstrip_split (c :: d')) as [m Em]. destruct (rstrip_slash (c :: d')) as [|c' s] eqn:Er.
    + split; [reflexivity|]. split; [reflexivity|]. eapply no_url_prefix; exact Hu.
    + rewrite <- Er, at_path_rstrip. split; [reflexivity|]. rewrite Er. split.
      * unfold base_of. cbn [app] in Em. injection Em as <- Em. reflexivity.
      * eapply no_url_prefix. rewrite Em in Hu. rewrite <- app_assoc in Hu. exact Hu.
Qed.

Lemma base_fnames cwd p : Forall fname cwd -> Forall fname (base_of cwd p).
Proof. intros F. unfold base_of. destruct (startswith _ _); [constructor|auto]. Qed.

(** The place of a path and that of its last part in its directory *)
Lemma place_last base d k : d = [] \/ last_opt d = Some PathModel.slash -> fname k -> at_path base (d ++ k) = at_path base d ++ [k].
Proof.
  intros Hd Fk. rewrite <- (at_path_name _ d k Fk). f_equal. rewrite path_join_name by auto. destruct Hd as [->|Hd]; [reflexivity|]. now rewrite Hd, N.eqb_refl.
Qed.
Lemma place_dots base d k : d = [] \/ last_opt d = Some PathModel.slash -> ~ In PathModel.slash k -> ~ fname k ->
  exists y, at_path base d = at_path base (d ++ k) ++ y.
Proof.
  intros Hd Hs Fk. assert (R : at_path base (d ++ k) = rev (resolve_step (fold_left resolve_step (base ++ split_on PathModel.slash d) []) k)).
  { unfold at_path, resolve. destruct Hd as [->|Hd].
    - cbn [app]. rewrite (split_on_single _ k) by auto. rewrite !fold_left_app. reflexivity.
    - apply last_opt_some in Hd as [d' ->]. rewrite <- app_assoc. cbn [app]. rewrite !split_on_app_gen, (split_on_single _ k) by auto. rewrite !fold_left_app. reflexivity. }
  rewrite R. unfold at_path, resolve. set (acc := fold_left resolve_step _ _). unfold resolve_step.
  destruct (str_eqb_spec k []); [exists []; cbn [orb]; now rewrite app_nil_r|]. destruct (str_eqb_spec k (`".")); [exists []; cbn [orb]; now rewrite app_nil_r|].
  destruct (str_eqb_spec k (`"..")); [|exfalso; apply Fk; repeat split; auto]. cbn [orb]. destruct acc as [|x acc]; [exists []; reflexivity|]. exists [x]. reflexivity.
Qed.

(** Validation only reads. *)
Definition silent {A} (x : st A) : Prop := forall s w, exists s' q, x s w = ([], Ok (s', q)).
Lemma silent_bind {A B} (x : st A) (f : A -> st B) : silent x -> (forall a, silent (f a)) -> silent (sbind x f).
Proof.
  intros X F s w. destruct (X s w) as (s1 & [a|y] & E).
  - destruct (F a s1 w) as (s2 & q & E2). exists s2, q. now rewrite (sbind_ok _ _ _ _ _ _ E).
  - exists s1, (Raise y). now apply sbind_raise.
Qed.
Lemma silent_fold {A} (body : A -> str -> st A) l : (forall a p, silent (body a p)) -> forall a, silent (sfold body a l).
Proof.
  intros B. induction l as [|[p|c|c] l IH]; intros a; cbn [sfold].
  - intros s w. exists s, (Ok a). reflexivity.
  - apply silent_bind; auto.
  - apply silent_bind; auto. intros s w. eexists _, _. reflexivity.
  - apply silent_bind; auto. intros s w. unfold log_warning. rewrite sget_ok. destruct (s_log s); eexists _, _; reflexivity.
Qed.
Lemma silent_root_fs : silent root_fs.
Proof. intros s w. unfold root_fs. rewrite sget_ok. destruct (s_fs s); eexists _, _; reflexivity. Qed.
Lemma silent_read {A} (f : node -> exc A) : silent (sread f).
Proof. intros s w. unfold sread, sio, iread. eexists _, _. reflexivity. Qed.
Lemma silent_hierarchy H e vo check lw me : silent (validate_hierarchy H e vo check lw me).
Proof.
  unfold validate_hierarchy, for_objects. apply silent_bind; [apply silent_root_fs|]. intros h. apply silent_bind; [apply silent_read|]. intros f.
  apply silent_bind; [|intros a; apply silent_bind; intros; intros s w; eexists _, _; reflexivity]. apply silent_fold. intros [[n g] er] p. destruct (negb vo); [intros s w; eexists _, _; reflexivity|].
  apply silent_bind; [apply silent_root_fs|]. intros h'. apply silent_bind; [intros s w; eexists _, _; reflexivity|]. intros s0. apply silent_bind; [apply silent_read|]. intros [log ok] s w. eexists _, _. reflexivity.
Qed.

Section Root.
  Variables (H : hashfn) (e : env) (vo check lw : bool) (me : nat) (w : node) (s : sroot) (r : str).
  Let h := at_path (base_of (e_cwd e) r) r.
  Lemma silent_validate : s_root s = Some r -> s_layout s = None -> tree w -> no_url r -> look w h = Some EDir ->
    exists s' q, validate H e vo check lw me s w = ([], Ok (s', q)).
  Proof.
    intros F1 F3 T U L. unfold validate. rewrite smodify_ok, (open_root_ok e _ _ w r); auto. destruct (structure_cases H w h (set_fs (Some h) (set_log (Some []) s)) T L eq_refl F3) as (s2 & q & E & _).
    unfold scatch_root, ibind. fold h. rewrite E. cbn [fst snd apply_all fold_left]. destruct q as [b|x]; [|destruct x; eexists _, _; reflexivity].
    match goal with |- context [sbind ?x ?f s2 w] => destruct (silent_bind x f (silent_hierarchy H e vo check lw me)) with (s := s2) (w := w) as (s3 & q & E3) end.
    - intros a. apply silent_bind; [intros ? ?; eexists _, _; reflexivity|]. intros _. apply silent_bind; [intros ? ?; eexists _, _; reflexivity|]. intros s0 ? ?. eexists _, _. reflexivity.
    - rewrite E3. eexists _, _. reflexivity.
  Qed.
End Root.

Lemma at_most_cases w q : tree w -> look w q = Some EDir -> at_most 10 (tagged w q (`"0")) \/ ~ at_most 10 (tagged w q (`"0")).
Proof.
  intros T L. apply look_dir in L as (es & G). rewrite (few_length w q es (`"0") 10 T G). destruct (Nat.le_gt_cases (List.length (filter (startswith (`"0" ++ `"=")) (keys es))) 10); [now left|right; lia].
Qed.

Lemma path_inventory e w d k : tree w -> Forall fname (e_cwd e) -> no_url (d ++ k) -> fname k -> d = [] \/ last_opt d = Some PathModel.slash ->
  look w (dest_of (e_cwd e) (d ++ k)) <> None ->
  (object_validate_inventory e false w (d ++ k) = Ok true <->
   exists b j f, look w (dest_of (e_cwd e) (d ++ k)) = Some (EFile b) /\ json_load b = Ok j /\ obeys as_coded j f).
Proof.
  intros T Fc U Fk Hd L. destruct (split_parent (e_cwd e) d k ltac:(apply Fk) Hd U) as (pd & E1 & E2 & E3 & E4).
  pose proof (base_fnames (e_cwd e) (d ++ k) Fc) as Fb. set (base := base_of (e_cwd e) (d ++ k)) in *.
  assert (Q : dest_of (e_cwd e) (d ++ k) = at_path base d ++ [k]) by (unfold dest_of; fold base; now apply place_last). rewrite Q in *.
  assert (Ld : look w (at_path base d) = Some EDir) by (apply (look_above w _ k []); exact L).
  assert (K : at_path (at_path base d) k = at_path base d ++ [k]) by (refine (at_path_join _ [k] _ (Forall_cons _ Fk (Forall_nil _))); apply at_path_fnames; exact Fb).
  unfold object_validate_inventory. rewrite E1, openfs_true by auto. rewrite E3. assert (D : fs_isdir w base pd = true) by (apply fs_isdir_look; now rewrite E2). rewrite D, E2.
  set (c := mkVconf true false DEFAULT_SPEC_VERSION (e_sizes e)). assert (X : forall v, clean (validate_inventory c w (at_path base d) k DEFAULT_SPEC_VERSION) v <-> 
    exists b j f hd, v = Some (j, accepted f hd) /\ look w (at_path base d ++ [k]) = Some (EFile b) /\ json_load b = Ok j /\ obeys as_coded j f /\ member j (`"head") (JStr hd)).
  { intros v. rewrite <- K. split.
    - intros C. destruct v as [[j st]|]; [|now apply clean_validate_inventory_none in C]. apply clean_validate_inventory in C as (b & fa & hd & A1 & A2 & A3 & A4 & ->); [|reflexivity]. exists b, j, fa, hd. auto.
    - intros (b & j & f & hd & -> & A1 & A2 & A3 & A4). apply clean_validate_inventory; [reflexivity|]. exists b, f, hd. auto 10. }
  destruct (validate_inventory c w (at_path base d) k DEFAULT_SPEC_VERSION) as [log [v|x]]; split.
  - intros E. apply Ok_inv, Nat.eqb_eq, num_errors_0 in E. destruct (proj1 (X v) (conj eq_refl E)) as (b & j & f & hd & _ & A1 & A2 & A3 & _). exists b, j, f. auto.
  - intros (b & j & f & A1 & A2 & A3). destruct (obeys_head _ _ A3) as (hd & be & A4 & _). destruct (proj2 (X (Some (j, accepted f hd)))) as [_ Z]; [exists b, j, f, hd; auto|].
    cbn [fst] in Z. apply num_errors_0 in Z. now rewrite Z.
  - discriminate.
  - intros (b & j & f & A1 & A2 & A3). destruct (obeys_head _ _ A3) as (hd & be & A4 & _). destruct (proj2 (X (Some (j, accepted f hd)))) as [Z _]; [exists b, j, f, hd; auto|]. discriminate.
Qed.

Lemma path_dots message e w d k : tree w -> Forall fname (e_cwd e) -> no_url (d ++ k) -> ~ In PathModel.slash k -> ~ fname k -> d = [] \/ last_opt d = Some PathModel.slash ->
  look w (dest_of (e_cwd e) (d ++ k)) <> Some EDir ->
  exists text, find_path_type message w (e_cwd e) (d ++ k) = Ok text /\ ~ In text [`"object"; `"root"; `"file"].
Proof.
  intros T Fc U Hs Fk Hd L. destruct (split_parent (e_cwd e) d k Hs Hd U) as (pd & E1 & E2 & E3 & E4).
  unfold find_path_type. rewrite openfs_ok by auto. unfold dest_of in L. set (base := base_of (e_cwd e) (d ++ k)) in *.
  assert (D : fs_isdir w base (d ++ k) = false) by (destruct (fs_isdir w base (d ++ k)) eqn:D; auto; apply fs_isdir_look in D; contradiction). rewrite D, E1.
  set (parent := if str_eqb pd [] then `"." else pd).
  assert (P : at_path base parent = at_path base d /\ base_of (e_cwd e) parent = base /\ no_url parent).
  { unfold parent. destruct (str_eqb_spec pd []) as [->|_]; [|auto]. rewrite <- E2. split; [unfold at_path, resolve; now rewrite !fold_left_app|]. split; [exact E3|].
    intros a b E. destruct a as [|x a]; [discriminate|]. destruct a; discriminate. }
  destruct P as (P1 & P2 & P3). rewrite openfs_ok by auto. rewrite P2.
  assert (D2 : fs_isdir w base parent = false).
  { destruct (fs_isdir w base parent) eqn:D2; auto. exfalso. apply fs_isdir_look in D2. rewrite P1 in D2. destruct (place_dots base d k Hd Hs Fk) as [y Y]. rewrite Y in D2. apply L.
    destruct y as [|c y]; [now rewrite app_nil_r in D2|]. apply (look_above w _ c y). rewrite D2. discriminate. }
  rewrite D2. eexists. split; [reflexivity|]. intros [E|[E|[E|[]]]]; discriminate.
Qed.

Lemma named_unique d k p : ~ In PathModel.slash k -> d = [] \/ last_opt d = Some PathModel.slash -> p = d ++ k -> named p -> fname k.
Proof.
  intros Hs Hd E (d' & k' & E' & Hd' & Fk'). assert (path_split p = path_split p) as X by reflexivity. rewrite E in X at 1. rewrite E' in X. rewrite !path_split_name in X by (auto; apply Fk'). injection X as _ <-. exact Fk'.
Qed.

Theorem path_ok : forall H e a message w p,
  tree w -> Forall fname (e_cwd e) -> no_url p -> a_lax a = false ->
  (validate_path H e a message w p = Ok true <-> accepted_path H (negb (a_no_check a)) e w p).
Proof.
  intros H e a message w p T Fc U Lx. set (q := dest_of (e_cwd e) p). set (check := negb (a_no_check a)).
  assert (Dec : look w q = Some EDir \/ look w q <> Some EDir) by (destruct (look w q) as [[| |]|]; (now left) || (right; discriminate)).
  unfold validate_path. rewrite Lx. fold check. destruct Dec as [L|L].
  - (* a directory *)
    assert (NF : ~ inventory_at_path e w p) by (intros (_ & b & j & f & Lf & _); fold q in Lf; rewrite L in Lf; discriminate).
    destruct (at_most_cases w q T L) as [M|M].
    + destruct (Properties_Namaste.C58_directory (message p) w (e_cwd e) p T Fc U L M) as (Ho & Hr & text & Ht & Hf). rewrite Ht. cbn [ebind].
      assert (Ho' : text = `"object" <-> first_declaration w q true) by (etransitivity; [|exact Ho]; rewrite Ht; split; [now intros ->|apply Ok_inv]).
      assert (Hr' : text = `"root" <-> first_declaration w q false) by (etransitivity; [|exact Hr]; rewrite Ht; split; [now intros ->|apply Ok_inv]).
      destruct (str_eqb_spec text (`"object")) as [Eo|No].
      * destruct (Properties_Validator.C30_path H (mkVconf check false DEFAULT_SPEC_VERSION (e_sizes e)) w (e_cwd e) p 0 U) as [V _]. rewrite (V L).
        etransitivity; [exact (Properties_Validator.C30_exactly_intact H (mkVconf check false DEFAULT_SPEC_VERSION (e_sizes e)) w q 0 eq_refl T L)|]. cbn [vc_check_digests]. split.
        -- intros [_ I]. left. split; [exact L|exact I].
        -- intros [[_ I]|[(_ & (v & lay & D & _) & _)|I]]; [split; auto| |contradiction]. exfalso. apply root_first in D as [D _]. apply Hr' in D. rewrite Eo in D. discriminate.
      * assert (NO : ~ valid_object_at H check w q).
        { intros (_ & spec & rb & root & f & head & I). apply object_first in I as [D _]. apply Ho' in D. contradiction. }
        destruct (str_eqb_spec text (`"root")) as [Er|Nr].
        -- cbn [new_sroot ebind]. set (s := mk_sroot _ _ _ _ _ _ _ _ _ _ _). set (lw := negb (a_quiet a) && negb (a_very_quiet a)).
           assert (F : s_root s = Some p /\ s_fs s = None /\ s_layout s = None /\ s_spec s = None /\ s_num_traversal_errors s = 0%nat) by (repeat split; reflexivity).
           pose proof (Properties_StorageRoot.C50_answer H e check lw 100 w s p F (conj T (conj U L))) as C. destruct (silent_validate H e true check lw 100 w s p eq_refl eq_refl T U L) as (s' & r & E).
           fold check. unfold sresult. rewrite E. cbn [snd]. rewrite E in C. split.
           ++ intros ->. right. left. destruct (proj1 C (ex_intro _ s' eq_refl)) as (A & B & D). split; [exact L|]. split; [exact A|]. split; [exact B|exact D].
           ++ intros [A|[(_ & A & B & D)|A]]; try contradiction. destruct (proj2 C (conj A (conj B D))) as [s2 E2]. congruence.
        -- destruct (str_eqb_spec text (`"file")) as [E|_]; [contradiction|]. split; [discriminate|]. intros [A|[(_ & (v & lay & D & _) & _)|A]]; try contradiction. apply root_first in D as [D _]. apply Hr' in D. contradiction.
    + rewrite (Properties_Namaste.C58_too_many (message p) w (e_cwd e) p T Fc U L M). cbn [ebind]. split; [discriminate|].
      intros [(_ & spec & rb & root & f & head & I)|[(_ & (v & lay & D & _) & _)|A]]; [|apply root_first in D as [_ D]; contradiction|contradiction]. apply object_first in I as [_ I]. contradiction.
  - (* no directory *)
    assert (NO : ~ valid_object_at H check w q) by (intros [A _]; contradiction). assert (NR : ~ sound_root_at H check e w q) by (intros [A _]; contradiction).
    destruct (rsplit_ok p) as (d & k & Ep & Hs & Hd). unfold q in *. destruct (fname_dec k) as [Fk|Fk].
    + destruct (Properties_Namaste.C58_not_directory (message p) w (e_cwd e) d k T Fc ltac:(now rewrite <- Ep) Fk Hd ltac:(rewrite <- Ep; exact L)) as [A B]. rewrite <- Ep in A, B.
      destruct (look w (dest_of (e_cwd e) p)) as [x|] eqn:Lk.
      * assert (Ht : find_path_type (message p) w (e_cwd e) p = Ok (`"file")) by (apply A; change (Properties_Namaste.path_place (e_cwd e) p) with (dest_of (e_cwd e) p); rewrite Lk; discriminate).
        rewrite Ht. cbn [ebind]. change (str_eqb (`"file") (`"object")) with false. change (str_eqb (`"file") (`"root")) with false. change (str_eqb (`"file") (`"file")) with true. cbv iota.
        rewrite Ep. rewrite (path_inventory e w d k T Fc ltac:(now rewrite <- Ep) Fk Hd); [|rewrite <- Ep, Lk; discriminate]. rewrite <- Ep. split.
        -- intros (b & j & f & A1 & A2 & A3). right. right. split; [exists d, k; auto|]. exists b, j, f. auto.
        -- intros [A1|[A1|[_ A1]]]; try contradiction. exact A1.
      * destruct (B Lk) as (text & Ht & N). rewrite Ht. cbn [ebind]. cbn [In] in N. destruct (str_eqb_spec text (`"object")) as [E|_]; [subst; tauto|]. destruct (str_eqb_spec text (`"root")) as [E|_]; [subst; tauto|]. destruct (str_eqb_spec text (`"file")) as [E|_]; [subst; tauto|].
        split; [discriminate|]. intros [A1|[A1|(_ & b & j & f & A1 & _)]]; try contradiction. rewrite Lk in A1. discriminate.
    + destruct (path_dots (message p) e w d k T Fc ltac:(now rewrite <- Ep) Hs Fk Hd ltac:(now rewrite <- Ep)) as (text & Ht & N). rewrite <- Ep in Ht. rewrite Ht. cbn [ebind]. cbn [In] in N.
      destruct (str_eqb_spec text (`"object")) as [E|_]; [subst; tauto|]. destruct (str_eqb_spec text (`"root")) as [E|_]; [subst; tauto|]. destruct (str_eqb_spec text (`"file")) as [E|_]; [subst; tauto|].
      split; [discriminate|]. intros [A1|[A1|[A1 _]]]; try contradiction. exfalso. apply Fk. now apply (named_unique d k p).
Qed.

Theorem C73_exit : forall H e a message w paths,
  tree w -> Forall fname (e_cwd e) -> Forall no_url paths -> a_lax a = false ->
  (ocfl_validate_status H e a message w paths = 0%N <-> Forall (accepted_path H (negb (a_no_check a)) e w) paths).
Proof.
  intros H e a message w paths T Fc U Lx. unfold ocfl_validate_status, do_validation.
  assert (X : forall n g, (exists m, efold (fun (n : nat * nat) path => let* ok := validate_path H e a message w path in Ok (S (fst n), if (ok : bool) then S (snd n) else snd n)) paths (n, g) = Ok m /\
      (fst m - n = snd m - g /\ n <= fst m /\ g <= snd m)%nat) <-> Forall (accepted_path H (negb (a_no_check a)) e w) paths).
  { induction U as [|p ps Up U IH]; intros n g; [split; [constructor|intros _; exists (n, g); cbn; split; [reflexivity|lia]]|]. cbn [efold fst snd].
    pose proof (path_ok H e a message w p T Fc Up Lx) as P.
    assert (Y : forall n g m, efold (fun (n : nat * nat) path => let* ok := validate_path H e a message w path in Ok (S (fst n), if (ok : bool) then S (snd n) else snd n)) ps (n, g) = Ok m ->
      (n <= fst m /\ g <= snd m /\ snd m - g <= fst m - n)%nat).
    { clear. induction ps as [|p ps IH]; intros n g m E; cbn [efold] in E; [apply Ok_inv in E; subst; cbn; lia|]. apply ebind_ok in E as (x & E1 & E2). apply ebind_ok in E1 as (ok & _ & E1). apply Ok_inv in E1. subst x.
      cbn [fst snd] in E2. apply IH in E2. destruct ok; cbn in E2; lia. }
    destruct (validate_path H e a message w p) as [ok|x]; cbn [ebind].
    - split.
      + intros (m & E & A & B & C). pose proof (Y _ _ _ E) as (Y1 & Y2 & Y3). destruct ok; [|exfalso; lia]. constructor; [now apply P|]. apply (IH (S n) (S g)). exists m. split; [exact E|]. lia.
      + intros F. inversion F as [|? ? Fp Fs]. apply P in Fp. apply Ok_inv in Fp. subst ok. destruct (proj2 (IH (S n) (S g)) Fs) as (m & E & A). exists m. split; [exact E|]. lia.
    - split; [intros (m & E & _); discriminate|]. intros F. inversion F as [|? ? Fp Fs]. apply P in Fp. discriminate. }
  specialize (X 0%nat 0%nat). rewrite <- X. destruct (efold _ paths (0%nat, 0%nat)) as [m|x]; cbn [ebind exit_status].
  - destruct (Nat.eqb_spec (snd m) (fst m)); split; try discriminate; auto.
    + intros _. exists m. split; [reflexivity|]. lia.
    + intros (m' & E & A). apply Ok_inv in E. subst m'. lia.
  - split; [discriminate|intros (m & E & _); discriminate].
Qed.
Print Assumptions C73_exit.

Definition ex_args : validate_args := mk_validate_args false false false false.
Definition ex_world : node :=
  Dir [(`"r", Dir (ex_declaration ++ [(`"a", ex_good); (`"b", Dir [(`"c", ex_good)])])); (`"o", ex_good); (`"x", Dir []);
       (`"i.json", match get Properties_Validator.ex_object [`"o"; `"inventory.json"] with Ok n => n | Raise _ => Other end)].
Lemma ex_world_tree : tree ex_world. Proof. apply tree_b_ok. vm_compute. reflexivity. Qed.
Definition ex_paths : list str := [`"r"; `"o"; `"./i.json"; `"/r/a/"; `"r/../o"].
Lemma ex_paths_ok : Forall no_url ex_paths. Proof. repeat constructor; apply no_url_b_ok; reflexivity. Qed.
Example C73_exit_ex : ocfl_validate_status toy_hash ex_env ex_args (fun _ => []) ex_world ex_paths = 0%N /\
  Forall (accepted_path toy_hash true ex_env ex_world) ex_paths /\
  ocfl_validate_status toy_hash ex_env ex_args (fun _ => []) ex_world (ex_paths ++ [`"x"]) = 1%N.
Proof.
  assert (E : ocfl_validate_status toy_hash ex_env ex_args (fun _ => []) ex_world ex_paths = 0%N) by (vm_compute; reflexivity).
  split; [exact E|]. split; [|vm_compute; reflexivity].
  exact (proj1 (C73_exit toy_hash ex_env ex_args (fun _ => []) ex_world ex_paths ex_world_tree (Forall_nil _) ex_paths_ok eq_refl) E).
Qed.

(** The status is 0 although the only object of the storage root is not valid. *)
Definition ex_invalid : node := ex_root [(`"a", ex_bad)].
Theorem C73_root_refuted : exists w, tree w /\ object_root w [`"r"] [`"a"] /\
  snd (validate_opened toy_hash (root_vconf ex_env false true) w [`"r"; `"a"] 0) = Ok false /\
  forall message, ocfl_validate_status toy_hash ex_env ex_args message w [`"r"] = 0%N.
Proof.
  exists ex_invalid. split; [apply tree_b_ok; reflexivity|]. split; [|split; [vm_compute; reflexivity|intros m; vm_compute; reflexivity]].
  split.
  - split; [discriminate|]. split; [discriminate|]. split; [reflexivity|]. intros q c r E Hq. destruct q as [|a [|b q]]; try congruence; discriminate.
  - exists (`"0=ocfl_object_1.1"). split; [exists (`"1.1"), []; cbn; auto|]. split; [split; discriminate|]. intros t [Ht _].
    rewrite (look_child ex_invalid ([`"r"] ++ [`"a"]) [(`"0=ocfl_object_1.1", File (`"ocfl_object_1.1" ++ [10%N]))] _ eq_refl) in Ht. match type of Ht with option_map _ ?x <> None => destruct x as [m|] eqn:E end; [|now destruct Ht].
    apply dget_In in E. destruct E as [E|[]]. congruence.
Qed.
Print Assumptions C73_root_refuted.
(** Nor is anything said against no path at all. *)
Theorem C73_no_paths : forall H e a message w, ocfl_validate_status H e a message w [] = 0%N.
Proof. reflexivity. Qed.
Print Assumptions C73_no_paths.

(** * C74 the command validate of ocfl-root.py and of ocfl-object.py *)

Section C74.
  Variables (H : hashfn) (e : env) (r : str) (layout_name : option str) (lax quiet check : bool) (w : node).
  Let h := dest_of (e_cwd e) r.
  Hypothesis Place : tree w /\ no_url r /\ look w h = Some EDir.
  Let structure := exists v lay, root_declared w h v /\ layout_described H w h lay.

  (** With --validate-objects VALID is printed just for a storage root with the right
      structure, nothing misplaced and valid objects only. *)
  Theorem C74_root : ocfl_root_validate H e r layout_name lax quiet true check w = Ok true <->
    structure /\ tidy w h /\ forall rel, object_root w h rel -> snd (validate_opened H (root_vconf e lax check) w (h ++ rel) 0) = Ok true.
  Proof.
    destruct Place as (T & U & L). unfold ocfl_root_validate. cbn [new_sroot ebind]. set (s := mk_sroot _ _ _ _ _ _ _ _ _ _ _). unfold root_tool_validate.
    assert (F : s_root s = Some r /\ s_fs s = None /\ s_layout s = None /\ s_spec s = None /\ s_num_traversal_errors s = 0%nat) by (repeat split; reflexivity).
    pose proof (Properties_StorageRoot.C50_partial H e check (negb quiet) 100 w s r F (conj T (conj U L))) as C.
    destruct (silent_validate H e true check (negb quiet) 100 w s r eq_refl eq_refl T U L) as (s' & q & E). rewrite E in C |- *. cbn [snd]. etransitivity; [|exact C]. clear C. split.
    - destruct q as [b|x]; [|discriminate]. intros X. apply Ok_inv in X. destruct (Nat.eqb_spec (s_good_objects s') (s_num_objects s')); [|discriminate]. subst b. exists s'. auto.
    - intros (s2 & X & N). injection X as <- ->. rewrite N, Nat.eqb_refl. reflexivity.
  Qed.

  Lemma hierarchy_without s : s_fs s = Some h -> s_log s <> None ->
    exists s', validate_hierarchy H e false check (negb quiet) 100 s w = ([], Ok (s', Ok (0%nat, 0%nat, []))) /\ (s_num_traversal_errors s' = s_num_traversal_errors s <-> tidy w h).
  Proof.
    intros Hs Hlog. destruct Place as (T & U & L). unfold validate_hierarchy. cbn [negb].
    destruct (for_objects_ok (fun s => s_fs s = Some h) (fun (a : nat * nat * list (str * list Log.entry)) (_ : str) => sret a) (fun a _ => a) w h (0%nat, 0%nat, []) s T L Hs) as (s' & l & E & _ & _ & _ & T1 & _); auto.
    - intros a rel s0 A O. exists s0. repeat split; auto.
    - exists s'. split; [|exact T1]. etransitivity; [exact E|]. clear. assert (F : forall (a : nat * nat * list (str * list Log.entry)), fold_left (fun a (_ : str) => a) l a = a) by (induction l; auto). now rewrite F.
  Qed.

  (** Without it the objects are not looked into. *)
  Theorem C74_structure : ocfl_root_validate H e r layout_name lax quiet false check w = Ok true <-> structure /\ tidy w h.
  Proof.
    destruct Place as (T & U & L). unfold ocfl_root_validate. cbn [new_sroot ebind]. set (s := mk_sroot _ _ _ _ _ _ _ _ _ _ _). unfold root_tool_validate, validate.
    rewrite smodify_ok, (open_root_ok e _ _ w r); auto. set (s1 := set_fs _ _). destruct (structure_cases H w h s1 T L eq_refl eq_refl) as (s2 & q & E & _ & C).
    split.
    - intros X. unfold scatch_root, ibind in X. rewrite E in X. cbn [fst snd apply_all fold_left] in X. destruct q as [b|x]; [|destruct x; discriminate].
      destruct (C b eq_refl) as (_ & v & lay & n & D & Lay & _ & ->). split; [exists v, lay; auto|].
      destruct (hierarchy_without (set_layout lay (set_layout_name n (set_spec (Some v) s1)))) as (s3 & E3 & T1); try reflexivity; [discriminate|].
      rewrite (sbind_ok _ _ _ _ _ _ E3), smodify_ok, sget_ok in X. cbn in X. apply Ok_inv in X. apply T1. cbn. destruct (s_num_traversal_errors s3); [reflexivity|discriminate].
    - intros [(v & lay & D & Lay) Td]. destruct (structure_ok H w h s1 v lay T L eq_refl eq_refl D Lay (or_introl eq_refl)) as [n E']. clear C. unfold scatch_root, ibind. rewrite E'. cbn [fst snd apply_all fold_left].
      destruct (hierarchy_without (set_layout lay (set_layout_name n (set_spec (Some v) s1)))) as (s3 & E3 & T1); try reflexivity; [discriminate|].
      rewrite (sbind_ok _ _ _ _ _ _ E3), smodify_ok, sget_ok. cbn. apply T1 in Td. cbn in Td. now rewrite Td.
  Qed.

  (** Whatever is found, the exit status is 0 (unless there is an exception). *)
  Theorem C74_root_status vo b : ocfl_root_validate H e r layout_name lax quiet vo check w = Ok b ->
    ocfl_root_validate_status (ocfl_root_validate H e r layout_name lax quiet vo check w) = 0%N.
  Proof. intros ->. reflexivity. Qed.
End C74.
Print Assumptions C74_root.
Print Assumptions C74_structure.

(** ocfl-object.py: VALID is printed just for an object that is intact. *)
Theorem C74_object : forall H e objdir w, tree w -> no_url objdir ->
  (ocfl_object_validate H e false objdir w = Ok true <-> valid_object_at H true w (dest_of (e_cwd e) objdir)).
Proof.
  intros H e objdir w T U. destruct (Properties_Validator.C30_path H (mkVconf true false DEFAULT_SPEC_VERSION (e_sizes e)) w (e_cwd e) objdir 0 U) as [V1 V2].
  unfold ocfl_object_validate. set (q := dest_of (e_cwd e) objdir).
  assert (Dec : look w q = Some EDir \/ look w q <> Some EDir) by (destruct (look w q) as [[| |]|]; (now left) || (right; discriminate)). destruct Dec as [L|L].
  - rewrite (V1 L). etransitivity; [exact (Properties_Validator.C30_exactly_intact H (mkVconf true false DEFAULT_SPEC_VERSION (e_sizes e)) w q 0 eq_refl T L)|]. split; [intros [_ I]; split; auto|intros [_ I]; split; auto].
  - rewrite (V2 L). split; [discriminate|intros [X _]; contradiction].
Qed.
Print Assumptions C74_object.
Example C74_ex : ocfl_root_validate toy_hash ex_env (`"r") None false true true true ex_world = Ok true /\
  ocfl_object_validate toy_hash ex_env false (`"r/b/c") ex_world = Ok true /\
  valid_object_at toy_hash true ex_world [`"r"; `"b"; `"c"] /\
  ocfl_object_validate toy_hash ex_env false (`"r") ex_world = Ok false.
Proof.
  split; [vm_compute; reflexivity|]. assert (E : ocfl_object_validate toy_hash ex_env false (`"r/b/c") ex_world = Ok true) by (vm_compute; reflexivity). split; [exact E|].
  split; [|vm_compute; reflexivity]. exact (proj1 (C74_object toy_hash ex_env (`"r/b/c") ex_world ex_world_tree (no_url_b_ok (`"r/b/c") eq_refl)) E).
Qed.

(** The exit status is 0 although INVALID is printed. *)
Theorem C74_status_refuted : exists w, tree w /\
  (let r := ocfl_root_validate toy_hash ex_env (`"r") None false true true true w in r = Ok false /\ ocfl_root_validate_status r = 0%N) /\
  (let r := ocfl_object_validate toy_hash ex_env false (`"r/a") w in r = Ok false /\ ocfl_object_validate_status r = 0%N).
Proof. exists ex_invalid. split; [apply tree_b_ok; reflexivity|]. split; (split; [vm_compute; reflexivity|]); vm_compute; reflexivity. Qed.
Print Assumptions C74_status_refuted.

(** Object.validate_inventory: no answer for a path in a directory that is missing, although it
    answers False for a file that is missing. *)
Theorem C74_inventory_refuted : exists w, tree w /\ object_validate_inventory ex_env false w (`"y/inventory.json") = Raise FileNotFoundError /\
  object_validate_inventory ex_env false w (`"x/inventory.json") = Ok false.
Proof. exists ex_world. split; [apply ex_world_tree|]. split; vm_compute; reflexivity. Qed.
Print Assumptions C74_inventory_refuted.
