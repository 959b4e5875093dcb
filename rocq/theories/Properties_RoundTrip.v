(** C75: a version extracted and made into an object again. *)
From Coq Require Import Permutation Sorted.
From Verif Require Import Properties_Names Properties_InventoryValidator.
From Verif Require Import Base Unicode Regex Utf8 Json PyJson JsonTextModel JsonTextSpec JsonTextProofs JsonFileProofs Log DigestModel LayoutModel LayoutProofs
  ObjectUtilsModel ObjectUtilsProofs InventorySpec InventoryValidatorModel InventoryValidatorProofs InventoryRulesProofs
  InventoryModel InventoryOpsSpec InventoryOpsProofs NewVersionModel NewVersionProofs NewVersionOpsProofs VersionNumberProofs InventoryParseProofs ParseModel
  ContentPathProofs TextFile PathModel FsModel FsSpec FsProofs FswModel FswSpec FswProofs FswCopyProofs ValidatorSpec ValidatorBasicProofs ObjectModel ObjectSpec ObjectInvProofs ObjectRulesProofs
  ObjectParseProofs ObjectAddProofs ContentNameProofs ObjectGrowProofs ObjectStartProofs ObjectCopyProofs ObjectWriteProofs ObjectSourceProofs ObjectFactsProofs NamasteSpec ValidatorVersionProofs ObjectMadeProofs ObjectIntactProofs ObjectExtendProofs FsStepProofs NamasteModel NamasteProofs ObjectStoreProofs ObjectCreateProofs ValidatorModel ValidatorIntactProofs ObjectUpdateProofs ObjectNextProofs ObjectDigestProofs ObjectVersionProofs ObjectExtractProofs ObjectHistoryProofs ObjectTrackProofs ObjectExamples UpdateSpec ParseProofs OpenProofs ChangeProofs FrameProofs UpdateProofs ExtractSpec ExtractProofs.

From Verif Require Import Properties_Inventory Properties_Layout Properties_Object BaggerModel Properties_Bagger StorageRootModel ToolModel.
From Verif Require Properties_Validator.

Lemma extract_acts e objdir version d w : tree w -> Forall fname (e_cwd e) -> look w (e_cwd e) = Some EDir -> acts_at (fun _ => True) (extract e objdir version d) w.
Proof.
  intros Tw Fc Hc. set (dst := dest_of (e_cwd e) d). unfold extract.
  assert (A0 : after (open_obj_fs e objdir false) w = w) by (unfold after; now rewrite open_obj_none).
  apply acts_bind; [apply acts_none, open_obj_none|]. intros h Eh. rewrite A0. apply acts_bind; [apply acts_read|]. intros [i v] Es. rewrite after_iread. rewrite result_iread in Es.
  destruct (setup_inv _ _ _ _ _ Es) as (s & Ep & Hv & _). pose proof (dest_acts e w d Fc Hc Tw) as Ad. fold dst in Ad.
  apply acts_bind; [exact (acts_weaken _ _ _ _ (fun _ _ => Logic.I) Ad)|]. intros ds Ed. pose proof (acts_tree _ _ _ Tw Ad) as T1.
  apply acts_bind; [|intros; apply acts_read].
  destruct (open_dest e w d Fc Hc Tw) as (O1 & O2 & O3 & O4 & O5). fold dst in O1, O2, O3, O4, O5.
  assert (Free : ds = dst /\ look (after (open_destination e d) w) dst = Some EDir).
  { destruct (look w dst) as [en|] eqn:El.
    - destruct en as [b| |].
      + exfalso. destruct O5 as [R _]; try discriminate. congruence.
      + assert (Em : forall r, r <> [] -> look w (dst ++ r) = None).
        { intros r Hr. destruct (look w (dst ++ r)) eqn:Er; [|auto]. exfalso. destruct (O2 eq_refl) as [R _]; [exists r; split; [auto|rewrite Er; discriminate]|]. congruence. }
        destruct (O1 eq_refl Em) as [R A]. rewrite A. split; [congruence|]. auto.
      + exfalso. destruct O5 as [R _]; try discriminate. congruence.
    - destruct (entry_dir_dec (look w (removelast dst))) as [Hr|Hr].
      + destruct (O3 eq_refl Hr) as [R C]. split; [congruence|]. exact (changes_at _ _ _ _ C).
      + exfalso. destruct (O4 eq_refl Hr) as [R _]. congruence. }
  destruct Free as (-> & Hd). exact (acts_weaken _ _ _ _ (fun _ _ => Logic.I) (state_acts w h dst i v (ex_intro _ s Ep) (dest_fnames e d Fc) _ T1 Hd)).
Qed.

(** Files as a source *)
Lemma holds_files_at w h F : tree w -> holds w h F -> NoDup (map fst F) -> files_at w h F.
Proof.
  intros T [D Fi O] N. split; [exact N|]. intros es b. split; [apply Fi|]. intros L. destruct es as [|c es]; [rewrite app_nil_r, D in L; discriminate|].
  destruct (O (c :: es) _ ltac:(discriminate) L) as (x & b' & I). pose proof (Fi _ _ I) as L'. destruct x as [|c' x].
  - rewrite app_nil_r in I, L'. rewrite L in L'. injection L' as <-. exact I.
  - exfalso. rewrite app_assoc in L'. pose proof (look_above w (h ++ c :: es) c' x) as X. rewrite X in L; [discriminate|]. rewrite L'. discriminate.
Qed.
Definition usable (norm : option str) (F : list (place * bytes)) : Prop :=
  forall es b, In (es, b) F -> Forall (fun e => text e /\ match norm with None => ~ In newline e | Some _ => exists bs, utf8_encode e = Ok bs end) es.
Lemma holds_source norm w h F : tree w -> holds w h F -> NoDup (map fst F) -> usable norm F -> source_ok norm w h.
Proof.
  intros T Ho N U. destruct (holds_files_at w h F T Ho N) as [_ Fa]. destruct Ho as [D Fi O]. split; [exact D| |].
  - intros es b L. apply (U es b). now apply Fa.
  - intros es L. destruct es as [|c es]; [rewrite app_nil_r, D in L; discriminate|]. destruct (O (c :: es) _ ltac:(discriminate) L) as (x & b' & I). pose proof (Fi _ _ I) as L'. destruct x as [|c' x].
    + rewrite app_nil_r, L in L'. discriminate.
    + rewrite app_assoc in L'. pose proof (look_above w (h ++ c :: es) c' x) as X. rewrite X in L; [discriminate|]. rewrite L'. discriminate.
Qed.
Lemma history_nodup H h sd P w l : history H h sd P w l -> forall F, In F l -> NoDup (map fst F).
Proof.
  induction 1 as [h sd P c e w sp op id m F T Cc Pc Es Cd Fa|h sd P c e w sp op id ms n l T Bc Pc Es Cd Fa|h sd P c e w l sp path m abort i F Hi IH Uc Pc Ha Hs Hn Hun Fa R|h sd P h0 w w' l Hi IH T E]; intros F' I.
  - destruct I as [<-|[]]. apply Fa.
  - clear - Fa I. induction Fa as [|k F0 ks l Hk Fa IH]; [destruct I|]. destruct I as [<-|I]; [apply Hk|auto].
  - apply in_app_iff in I as [I|[<-|[]]]; [auto|apply Fa].
  - auto.
Qed.

(** A place that stays free *)
Definition apart (p q : place) : Prop := (forall y, p <> q ++ y) /\ (forall y, q <> p ++ y).
Lemma new_place_kept cwd w w' op h dst : new_place cwd w op h -> (forall q, (forall y, q <> dst ++ y) -> look w' q = look w q) -> apart h dst -> new_place cwd w' op h.
Proof.
  intros [N1 N2 (p & k & E & Hp & N3)] Fr [A B]. assert (K : forall r, look w' (h ++ r) = look w (h ++ r)).
  { intros r. apply Fr. intros y Y. destruct (app_prefix_cases _ _ _ _ Y) as [[x X]|(x & X & _)]; [exact (A _ X)|exact (B _ X)]. }
  assert (K0 : look w' h = look w h) by (specialize (K []); now rewrite app_nil_r in K).
  split; auto. exists p, k. split; [exact E|]. split; [exact Hp|]. destruct N3 as [(X1 & X2 & X3)|(X1 & X2 & X3)]; [left|right].
  - split; [exact X1|]. rewrite K0. split; [exact X2|]. rewrite Fr; [exact X3|]. intros y Y. destruct h as [|c h']; [exact (B dst eq_refl)|].
    destruct (snoc_case (c :: h')) as (a & kk & Eh); [discriminate|]. rewrite Eh, List.removelast_last in Y. apply (A (y ++ [kk])). rewrite Eh, Y. now rewrite app_assoc.
  - split; [exact X1|]. rewrite K0. split; [exact X2|]. intros r Hr. rewrite K. auto.
Qed.

(** What is needed of a call of create, apart from its source and its destination *)
Record settings_ok (c : object) (e : env) (id : str) (m : vmeta) : Prop := {
  so_id : o_id c = Some id;
  so_first : first_ok id (o_alg c) (o_spec c) (o_cdir c) (or_empty (o_fixity c));
  so_cdir : forall cd, o_cdir c = Some cd -> cd <> inv_name /\ cd <> side_name (o_alg c);
  so_meta : meta_ok (e_now e) m;
  so_norm : In (o_norm c) [None; Some (`"uri"); Some (`"md5")]
}.

(** Creating an object of files *)
Lemma create_files H c e w sp op id m h F : hash_ok H -> tree w -> Forall fname (e_cwd e) -> settings_ok c e id m -> no_url sp -> new_place (e_cwd e) w op h ->
  holds w (dest_of (e_cwd e) sp) F -> NoDup (map fst F) -> usable (o_norm c) F -> F <> [] ->
  let x := create H c e (Some sp) (Some m) (Some op) in
  (exists i, result x w = Ok i) /\ history H h (o_spec c) (eq c) (after x w) [F] /\ (forall q, (forall y, q <> h ++ y) -> look (after x w) q = look w q).
Proof.
  intros HH T Fc [S1 S2 S3 S4 S5] U Np Ho N Us Ne x. assert (Cc : create_call c e w sp op id m h).
  { split; auto; [apply (holds_source _ _ _ F); auto|]. destruct F as [|[es b] F]; [now destruct Ne|]. exists es, b. apply (hl_files _ _ _ Ho). now left. }
  destruct (C34_created_valid_partial H c e w sp op id m h (mkVconf true false (`"1.1") (e_sizes e)) HH T Cc eq_refl) as (R & _ & Fr). split; [exact R|]. split; [|exact Fr].
  apply (created H h (o_spec c) (eq c) c e w sp op id m F); auto.
  - intros c' <- E. apply S3 in E as [_ E]. now apply E.
  - now apply holds_files_at.
Qed.

(** ** A directory *)

(** The command extract into a directory and the command create from it: there is then an object
    with one version, with just the files of the version that was extracted. *)
Theorem C75_directory : forall H h sd P w l k F e path version d make_bag dated c b m id op h2,
  hash_ok H -> history H h sd P w l -> collision_free H P l -> nth_error l k = Some F ->
  version = vn (S k) \/ version = `"head" /\ S k = List.length l ->
  Forall fname (e_cwd e) -> look w (e_cwd e) = Some EDir ->
  no_url path -> h = dest_of (e_cwd e) path -> no_url d -> d <> [] -> dest_free w (dest_of (e_cwd e) d) ->
  F <> [] -> usable (o_norm c) F -> settings_ok c e id m ->
  new_place (e_cwd e) w op h2 -> apart h2 (dest_of (e_cwd e) d) ->
  let x := ocfl_object_extract make_bag e path version (Some d) None dated in
  let w1 := after x w in
  let y := ocfl_object_create H c e (Some d) None b m (Some op) in
  (exists m0, result x w = Ok m0) /\ (exists i, result y w1 = Ok i) /\
  history H h2 (o_spec c) (eq c) (after y w1) [F] /\
  (forall q, (forall z, q <> dest_of (e_cwd e) d ++ z) -> (forall z, q <> h2 ++ z) -> look (after y w1) q = look w q).
Proof.
  intros H h sd P w l k F e path version d mb dated c b m id op h2 HH Hi CF En Hv Fc Hc Hu Eh Ud Nd Df Ne Us So Np Ap x w1 y.
  assert (T : tree w) by (destruct (history_tracked H h sd P w l HH Hi (or_intror CF)) as (alg & spec & ivs & C & Tr); exact (md_tree _ _ _ _ _ _ _ _ _ (tr_made _ _ _ _ _ _ _ _ _ _ Tr))).
  destruct (C36_extracted_as_added_partial H h sd P w l k F e path version d HH Hi CF En Hv Fc Hc Hu Eh Df) as ((m0 & R) & Ho & Fr). set (z := extract e (Some path) version d) in *.
  assert (X : result x w = Ok m0 /\ w1 = after z w).
  { unfold w1, x, ocfl_object_extract. destruct d as [|c0 d]; [now destruct Nd|]. cbn [andb]. fold z. rewrite (result_seq z _ w m0 R), (after_seq z _ w m0 R). split; reflexivity. }
  destruct X as [X1 X2]. assert (T1 : tree w1) by (rewrite X2; apply (acts_tree _ _ _ T (extract_acts e (Some path) version d w T Fc Hc))).
  rewrite <- X2 in Ho, Fr. split; [eauto|].
  destruct (create_files H c e w1 d op id m h2 F HH T1 Fc So Ud (new_place_kept _ _ _ _ _ _ Np Fr Ap) Ho (history_nodup _ _ _ _ _ _ Hi F (nth_error_In _ _ En)) Us Ne) as (Rc & Hc2 & Fr2).
  split; [exact Rc|]. split; [exact Hc2|]. intros q Q1 Q2. unfold y, ocfl_object_create. rewrite Fr2 by auto. now apply Fr.
Qed.
Print Assumptions C75_directory.
(** The first version of the example with three versions, as a new object. *)
Example C75_directory_ex : forall make_bag,
  let w1 := after (ocfl_object_extract make_bag ex_env (`"o") (`"v1") (Some (`"new")) None false) ex_updated3 in
  let y := ocfl_object_create toy_hash (ex_c (`"sha256")) ex_env (Some (`"new")) None (Raise OSError) ex_meta (Some (`"o2")) in
  exists F, nth_error ex_files 0 = Some F /\ F <> [] /\ history toy_hash [`"o2"] (`"1.1") (eq (ex_c (`"sha256"))) (after y w1) [F].
Proof.
  intros mb w1 y. eexists. split; [reflexivity|]. split; [vm_compute; discriminate|].
  refine (proj1 (proj2 (proj2 (C75_directory toy_hash [`"o"] (`"1.1") ex_any ex_updated3 ex_files 0 _ ex_env (`"o") (`"v1") (`"new") mb false (ex_c (`"sha256")) (Raise OSError) ex_meta (`"info:a") (`"o2") [`"o2"]
    toy_hash_ok ex_history3 ex_collision_free eq_refl (or_introl eq_refl) _ eq_refl _ eq_refl _ _ _ _ _ _ _ _)))).
  - constructor.
  - now apply no_url_b_ok.
  - now apply no_url_b_ok.
  - discriminate.
  - left. split; vm_compute; reflexivity.
  - vm_compute. discriminate.
  - intros es b Hi. vm_compute in Hi. repeat (destruct Hi as [Hi|Hi]; [apply pair_equal_spec in Hi as [<- _]; repeat constructor; cbn; intuition discriminate|]). destruct Hi.
  - destruct ex_create_call. split; auto.
  - constructor; [now apply no_url_b_ok|reflexivity|]. exists [], (`"o2"). split; [reflexivity|]. split; [now left|]. left. split; [now apply fname_b_ok|]. split; vm_compute; reflexivity.
  - split; intros z Z; discriminate Z.
Qed.
