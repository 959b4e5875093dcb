(** C86: the commands of ocfl-object.py. *)
From Coq Require Import Permutation.
From Verif Require Import Properties_Names Properties_InventoryValidator.
From Verif Require Import Base Unicode Regex Utf8 Json PyJson JsonTextModel JsonTextSpec JsonTextProofs JsonFileProofs Log DigestModel LayoutModel LayoutProofs
  ObjectUtilsModel ObjectUtilsProofs InventorySpec InventoryValidatorModel InventoryValidatorProofs InventoryRulesProofs
  InventoryModel InventoryOpsSpec InventoryOpsProofs NewVersionModel NewVersionProofs NewVersionOpsProofs VersionNumberProofs InventoryParseProofs ParseModel
  ContentPathProofs TextFile PathModel FsModel FsSpec FsProofs FswModel FswSpec FswProofs FswCopyProofs ValidatorSpec ValidatorBasicProofs ObjectModel ObjectSpec ObjectInvProofs ObjectRulesProofs
  ObjectParseProofs ObjectAddProofs ContentNameProofs ObjectGrowProofs ObjectStartProofs ObjectCopyProofs ObjectWriteProofs ObjectSourceProofs ObjectFactsProofs NamasteSpec ValidatorVersionProofs ObjectMadeProofs ObjectIntactProofs ObjectExtendProofs FsStepProofs NamasteModel NamasteProofs ObjectStoreProofs ObjectCreateProofs ValidatorModel ValidatorIntactProofs ObjectUpdateProofs ObjectNextProofs ObjectDigestProofs ObjectVersionProofs ObjectExtractProofs ObjectHistoryProofs ObjectTrackProofs ObjectExamples UpdateSpec ParseProofs OpenProofs ChangeProofs FrameProofs UpdateProofs ExtractSpec ExtractProofs.
From Verif Require Import Properties_Inventory Properties_Layout Properties_Object Properties_Extract BuildProofs Properties_Build MetaSpec MetaProofs Properties_Metadata BaggerModel StorageRootModel ToolModel TreeModel TreeSpec Properties_Tree
  RootToolModel ObjectToolModel ObjectToolSpec ObjectToolProofs.
From Verif Require Properties_RoundTrip Properties_RootTool.

(** * The commands *)
Section Command.
  Variables (H : hashfn) (make_bag : str -> dict json -> io unit) (bg : exc bag) (e : env) (a : object_args).
  Lemma do_create sp op w : oa_cmd a = Some (`"create") -> oa_objdir a = Some op -> oa_srcdir a = Some sp -> oa_srcbag a = None ->
    ocfl_object H make_bag bg e a w = (do i <- create H (object_of a) e (Some sp) (Some (meta_of a)) (Some op) ;; iret []) w.
  Proof. intros E1 E2 E3 E4. unfold ocfl_object, do_object_operation. rewrite E1, E2, E3, E4. reflexivity. Qed.
  Lemma do_build sp op ms w : oa_cmd a = Some (`"build") -> oa_objdir a = Some op -> oa_srcdir a = Some sp ->
    match oa_metadata a with None => Ok (fun _ => None) | Some f => metadata_from_file e f w end = Ok ms ->
    ocfl_object H make_bag bg e a w = (do i <- build H (object_of a) e sp ms (Some op) ;; iret []) w.
  Proof.
    intros E1 E2 E3 E4. unfold ocfl_object, do_object_operation. rewrite E1, E2, E3. change (str_eqb (`"build") (`"create")) with false. change (str_eqb (`"build") (`"build")) with true. cbv iota.
    unfold ibind at 1. unfold iread. rewrite E4. cbn [apply_all fold_left]. unfold ibind. destruct (build _ _ _ _ _ _ w) as [l [r|x]]; reflexivity.
  Qed.
  Lemma do_update sp path w : oa_cmd a = Some (`"update") -> oa_objdir a = Some path -> oa_srcdir a = Some sp -> oa_srcbag a = None ->
    ocfl_object H make_bag bg e a w = (do r <- add_version_with_content H (object_of a) e (Some path) (Some sp) (Some (meta_of a)) false ;;
      match r with None => iraise AttributeError | Some i => iret [updated_to (shown_text (i_id i)) (shown_text (i_head i))] end) w.
  Proof. intros E1 E2 E3 E4. unfold ocfl_object, do_object_operation. rewrite E1, E2, E3, E4. reflexivity. Qed.
  Lemma do_validate objdir w : oa_cmd a = Some (`"validate") -> oa_objdir a = Some objdir ->
    ocfl_object H make_bag bg e a w = (do v <- iread (fun w => ocfl_object_validate H e (oa_lax a) objdir w) ;; iret [object_verdict objdir v]) w.
  Proof. intros E1 E2. unfold ocfl_object, do_object_operation. rewrite E1, E2. reflexivity. Qed.
  Lemma do_show objdir w : oa_cmd a = Some (`"show") -> oa_objdir a = Some objdir ->
    ocfl_object H make_bag bg e a w = (do t <- iread (fun w => object_tree H (oa_lax a) e objdir w) ;;
      iret [Printed (`"Object tree" ++ match oa_id a with Some id => `" for " ++ id | None => [] end); Printed t]) w.
  Proof. intros E1 E2. unfold ocfl_object, do_object_operation. rewrite E1, E2. reflexivity. Qed.
  Lemma read_first {A B} (g : node -> A) (f : A -> io B) w : ibind (iread (fun w => Ok (g w))) f w = f (g w) w.
  Proof. unfold ibind, iread. cbn [apply_all fold_left]. destruct (f (g w) w). reflexivity. Qed.
  Lemma do_extract objdir d w : oa_cmd a = Some (`"extract") -> oa_objdir a = Some objdir -> oa_dstdir a = Some d -> d <> [] -> given (oa_dstbag a) = None -> given (oa_logical_path a) = None ->
    ocfl_object H make_bag bg e a w = (do m <- extract e (Some objdir) (oa_objver a) d ;; iret [extracted_in (version_named e objdir (oa_objver a) w) d]) w.
  Proof.
    intros E1 E2 E3 Nd E4 E5. unfold ocfl_object, do_object_operation. rewrite E1, E2. change (str_eqb (`"extract") (`"create")) with false. change (str_eqb (`"extract") (`"build")) with false. change (str_eqb (`"extract") (`"update")) with false.
    change (str_eqb (`"extract") (`"show")) with false. change (str_eqb (`"extract") (`"validate")) with false. change (str_eqb (`"extract") (`"extract")) with true. cbv iota. rewrite read_first, E5, E4, E3. destruct d as [|c d]; [congruence|].
    unfold ocfl_object_extract. assert (B : match oa_dstbag a with Some (_ :: _) => true | _ => false end = false) by (destruct (oa_dstbag a) as [[|? ?]|]; try reflexivity; discriminate E4).
    rewrite B. cbn [andb given]. cbv iota. unfold ibind. destruct (extract _ _ _ _ w) as [l [m|x]]; [|reflexivity]. cbn [iret fst snd]. now rewrite app_nil_r.
  Qed.
  Lemma do_extract_file objdir p d w : oa_cmd a = Some (`"extract") -> oa_objdir a = Some objdir -> oa_dstdir a = Some d -> given (oa_dstbag a) = None -> oa_logical_path a = Some p -> p <> [] ->
    ocfl_object H make_bag bg e a w = (do m <- extract_file e (Some objdir) (oa_objver a) d p ;; iret [extracted_to p (version_named e objdir (oa_objver a) w) d]) w.
  Proof.
    intros E1 E2 E3 E4 E5 Np. unfold ocfl_object, do_object_operation. rewrite E1, E2. change (str_eqb (`"extract") (`"create")) with false. change (str_eqb (`"extract") (`"build")) with false. change (str_eqb (`"extract") (`"update")) with false.
    change (str_eqb (`"extract") (`"show")) with false. change (str_eqb (`"extract") (`"validate")) with false. change (str_eqb (`"extract") (`"extract")) with true. cbv iota. rewrite read_first, E5, E4, E3. destruct p as [|c p]; [congruence|]. reflexivity.
  Qed.
End Command.

(** ** What is asked for

    The options field by field: the settings of the object and the metadata of the version that
    the options of a command line ask for. *)
Record asked_settings (a : object_args) (c : object) : Prop := {
  as_id : o_id c = oa_id a;
  as_cdir : o_cdir c = Some (`"content");
  as_alg : o_alg c = oa_digest a;
  as_norm : o_norm c = oa_norm a;
  as_spec : o_spec c = oa_spec a;
  as_forward : o_forward_delta c = true <-> oa_no_forward_delta a = false;
  as_dedupe : o_dedupe c = true <-> oa_no_dedupe a = false;
  as_lax : o_lax c = oa_lax a;
  as_fixity : o_fixity c = oa_fixity a }.
Record asked_meta (a : object_args) (m : vmeta) : Prop := {
  am_id : vm_id m = None;
  am_created : vm_created m = oa_created a;
  am_message : vm_message m = oa_message a;
  am_name : match oa_name a with Some t => vm_name m = Some (JStr t) | None => vm_name m = None end;
  am_address : match oa_address a with Some t => vm_address m = Some (JStr t) | None => vm_address m = None end }.
Lemma asked_settings_only a c : asked_settings a c -> c = object_of a.
Proof.
  intros [E1 E2 E3 E4 E5 E6 E7 E8 E9]. destruct c as [i cd al no sp fd dd lx fx]. cbn [o_id o_cdir o_alg o_norm o_spec o_forward_delta o_dedupe o_lax o_fixity] in *. unfold object_of. subst.
  f_equal.
  - destruct (oa_no_forward_delta a), fd; try reflexivity; exfalso; [destruct E6 as [E6 _]|destruct E6 as [_ E6]]; discriminate (E6 eq_refl).
  - destruct (oa_no_dedupe a), dd; try reflexivity; exfalso; [destruct E7 as [E7 _]|destruct E7 as [_ E7]]; discriminate (E7 eq_refl).
Qed.
Lemma asked_meta_only a m : asked_meta a m -> m = meta_of a.
Proof.
  intros [E1 E2 E3 E4 E5]. destruct m as [i cr ms nm ad]. cbn [vm_id vm_created vm_message vm_name vm_address] in *. unfold meta_of. subst.
  destruct (oa_name a), (oa_address a); subst; reflexivity.
Qed.

(** create, build and update do what the methods create, build and add_version_with_content of an
    object with exactly the settings asked for do, with exactly the metadata asked for; there
    always are such settings and such metadata. *)
Theorem C86_asked : forall H make_bag bg e a w sp op, oa_objdir a = Some op -> oa_srcdir a = Some sp -> oa_srcbag a = None ->
  (exists c m, asked_settings a c /\ asked_meta a m) /\
  forall c m, asked_settings a c -> asked_meta a m ->
  (oa_cmd a = Some (`"create") ->
     after (ocfl_object H make_bag bg e a) w = after (create H c e (Some sp) (Some m) (Some op)) w /\
     forall x, result (ocfl_object H make_bag bg e a) w = Raise x <-> result (create H c e (Some sp) (Some m) (Some op)) w = Raise x) /\
  (oa_cmd a = Some (`"build") -> oa_metadata a = None ->
     after (ocfl_object H make_bag bg e a) w = after (build H c e sp (fun _ => None) (Some op)) w /\
     forall x, result (ocfl_object H make_bag bg e a) w = Raise x <-> result (build H c e sp (fun _ => None) (Some op)) w = Raise x) /\
  (oa_cmd a = Some (`"update") ->
     after (ocfl_object H make_bag bg e a) w = after (add_version_with_content H c e (Some op) (Some sp) (Some m) false) w /\
     forall i, result (add_version_with_content H c e (Some op) (Some sp) (Some m) false) w = Ok (Some i) ->
       result (ocfl_object H make_bag bg e a) w = Ok [updated_to (shown_text (i_id i)) (shown_text (i_head i))]).
Proof.
  intros H make_bag bg e a w sp op E2 E3 E4. split.
  { exists (object_of a), (meta_of a). split; split; try reflexivity.
    - cbn. destruct (oa_no_forward_delta a); cbn; split; congruence.
    - cbn. destruct (oa_no_dedupe a); cbn; split; congruence.
    - cbn. destruct (oa_name a); reflexivity.
    - cbn. destruct (oa_address a); reflexivity. }
  intros c m Ac Am. rewrite (asked_settings_only a c Ac), (asked_meta_only a m Am). split; [|split].
  - intro E1. pose proof (do_create H make_bag bg e a sp op w E1 E2 E3 E4) as D. unfold after, result. rewrite D. unfold ibind, iret.
    destruct (create _ _ _ _ _ _ w) as [l [r|y]]; cbn [fst snd]; [rewrite app_nil_r|]; split; try reflexivity; intro x; split; congruence.
  - intros E1 E5. assert (M : match oa_metadata a with None => Ok (fun _ => None) | Some f => metadata_from_file e f w end = Ok (fun _ : N => @None vmeta)) by now rewrite E5.
    pose proof (do_build H make_bag bg e a sp op _ w E1 E2 E3 M) as D. unfold after, result. rewrite D. unfold ibind, iret.
    destruct (build _ _ _ _ _ _ w) as [l [r|y]]; cbn [fst snd]; [rewrite app_nil_r|]; split; try reflexivity; intro x; split; congruence.
  - intro E1. pose proof (do_update H make_bag bg e a sp op w E1 E2 E3 E4) as D. unfold after, result. rewrite D. unfold ibind, iret, iraise.
    destruct (add_version_with_content _ _ _ _ _ _ _ w) as [l [[i|]|y]]; cbn [fst snd]; [rewrite app_nil_r|rewrite app_nil_r|]; split; try reflexivity; intros j J; try discriminate J. now injection J as <-.
Qed.
Print Assumptions C86_asked.

Lemma same_run {A} (x y : io A) w : x w = y w -> result x w = result y w /\ after x w = after y w.
Proof. unfold result, after. now intros ->. Qed.
Lemma after_ret {A B} (x : io A) (f : A -> B) w : after (do r <- x ;; iret (f r)) w = after x w.
Proof. apply Properties_RootTool.after_then. reflexivity. Qed.
Lemma result_ret {A B} (x : io A) (f : A -> B) w r : result x w = Ok r -> result (do r <- x ;; iret (f r)) w = Ok (f r).
Proof. unfold result, ibind. destruct (x w) as [l [b|y]]; cbn [fst snd iret]; [|discriminate]. now intros [= ->]. Qed.
Lemma object_status r : ocfl_object_status r = 0%N <-> exists out, r = Ok out.
Proof. destruct r as [o|y]; cbn; split; intros X; [eauto|reflexivity|discriminate|destruct X; discriminate]. Qed.

(** * Looking changes nothing *)

Lemma create_dry H c e sp m : forall w, fst (create H c e sp m None w) = [].
Proof.
  unfold create. destruct (o_id c) as [id|]; [|reflexivity]. apply no_steps_bind; [intros w; destruct sp as [sp|]; [apply openfs_none|reflexivity]|]. intros src. apply no_steps_bind; reflexivity.
Qed.
(** The commands show and validate change nothing in the file system, whatever there is; and no
    command changes anything if there is no object directory to write to. That holds at each
    moment of the run. *)
Theorem C86_reads : forall H make_bag bg e a w w', oa_objdir a = None \/ oa_cmd a = None \/ oa_cmd a = Some (`"show") \/ oa_cmd a = Some (`"validate") ->
  crash (ocfl_object H make_bag bg e a) w w' -> w' = w.
Proof.
  intros H mb bg e a w w' Hc Cr.
  assert (E : fst (ocfl_object H mb bg e a w) = [] \/ exists sp ms, oa_srcdir a = Some sp /\ crash (build H (object_of a) e sp ms None) w w').
  { unfold ocfl_object in *. destruct (oa_cmd a) as [c|] eqn:Ec; [|left; reflexivity]. unfold do_object_operation in *. destruct (str_eqb_spec c (`"create")) as [->|N1].
    { left. destruct Hc as [Eo|[Hc|[Hc|Hc]]]; try discriminate Hc. rewrite Eo. revert w Cr. intros w _. revert w. apply no_steps_bind; [|reflexivity]. unfold ocfl_object_create. destruct (oa_srcbag a) as [sb|].
      - apply no_steps_bind; [reflexivity|]. intros [[i m] s]. apply create_dry.
      - destruct (oa_srcdir a); [apply create_dry|reflexivity]. }
    destruct (str_eqb_spec c (`"build")) as [->|N2].
    { destruct Hc as [Eo|[Hc|[Hc|Hc]]]; try discriminate Hc. rewrite Eo in *. destruct (oa_srcdir a) as [sp|]; [|left; reflexivity]. right. exists sp.
      apply crash_bind in Cr as [Cr|(ms & _ & Cr)]; [exists (fun _ => None)|exists ms; rewrite after_iread in Cr]; (split; [reflexivity|]).
      - apply crash_read in Cr. subst w'. exists []. split; [exact (cut_prefix [] _)|reflexivity].
      - apply crash_bind in Cr as [Cr|(i & _ & Cr)]; [exact Cr|]. apply crash_none in Cr; [subst w'; apply crash_done|destruct i; reflexivity]. }
    left. destruct (oa_objdir a) as [o|] eqn:Eo; [|reflexivity]. destruct Hc as [Hc|[Hc|[Hc|Hc]]]; try discriminate Hc; injection Hc as ->; refine (no_steps_bind (iread _) _ _ _ w); reflexivity. }
  destruct E as [E|(sp & ms & _ & E)]; [exact (crash_none _ _ _ E Cr)|exact (C47_dry_run _ _ _ _ _ _ _ E)].
Qed.
Print Assumptions C86_reads.
Lemma reads_after H make_bag bg e a w : oa_objdir a = None \/ oa_cmd a = None \/ oa_cmd a = Some (`"show") \/ oa_cmd a = Some (`"validate") -> after (ocfl_object H make_bag bg e a) w = w.
Proof. intros Hc. apply (C86_reads H make_bag bg e a w _ Hc). apply crash_done. Qed.

(** * What sessions make *)

Lemma metadata_found e w a ms : metadata_given e w a ms -> exists ms', match oa_metadata a with None => Ok (fun _ => None) | Some f => metadata_from_file e f w end = Ok ms' /\ forall k, ms' k = ms k.
Proof.
  intros G. destruct (oa_metadata a) as [f|] eqn:E; [exact (metadata_read e w a f ms E G)|]. exists (fun _ => None). split; [reflexivity|]. intros k. unfold metadata_given in G. rewrite E in G. now rewrite G.
Qed.
Lemma same_meta (ms ms' : N -> option vmeta) : (forall k, ms' k = ms k) -> forall k, meta_for ms' k = meta_for ms k.
Proof. intros E k. unfold meta_for. now rewrite E. Qed.
Lemma build_call_same c e w sp op id ms ms' h n : (forall k, ms' k = ms k) -> build_call c e w sp op id ms h n -> build_call c e w sp op id ms' h n.
Proof. intros E [b1 b2 b3 b4 b5 b6 b7 b8 b9 b10 b11 b12 b13 b14]. constructor; auto. intros k Hk. rewrite (same_meta ms ms' E). auto. Qed.

Lemma usual_object a : In (oa_digest a) [`"sha512"; `"sha256"] -> usual (object_of a).
Proof. intros Ha. split; [exact Ha|reflexivity]. Qed.
Lemma usual_cdir a c' : usual c' -> o_cdir (object_of a) <> Some (side_name (o_alg c')).
Proof. intros _ E. discriminate E. Qed.
Lemma create_alg c e w sp op id m h : create_call c e w sp op id m h -> In (o_alg c) [`"sha512"; `"sha256"].
Proof. intros Cc. apply (cc_first _ _ _ _ _ _ _ _ Cc). Qed.
Lemma build_alg c e w sp op id m h n : build_call c e w sp op id m h n -> In (o_alg c) [`"sha512"; `"sha256"].
Proof. intros Cc. apply (bc_first _ _ _ _ _ _ _ _ _ Cc). Qed.

Lemma described_tree H h sd P id w l ms : hash_ok H -> described H h sd P id w l ms -> uniform P \/ collision_free H P l -> tree w.
Proof. intros HH D Hc. destruct (described_told _ _ _ _ _ _ _ _ HH D Hc) as (alg & spec & ivs & C & T & _). exact (md_tree _ _ _ _ _ _ _ _ _ (tr_made _ _ _ _ _ _ _ _ _ _ T)). Qed.

(** The inventory that an update returns *)
Lemma update_names H h sd P id w l ms c e sp path m abort F i : hash_ok H -> described H h sd P id w l ms -> uniform P \/ collision_free H P l ->
  update_call c e w sp path m h -> P c -> In (o_alg c) [`"sha512"; `"sha256"] -> sd = `"1.1" \/ List.length l = 1%nat -> (N.of_nat (List.length l) < 99999)%N ->
  uniform P \/ (forall y, h <> dest_of (e_cwd e) sp ++ y) -> files_at w (dest_of (e_cwd e) sp) F ->
  result (add_version_with_content H c e (Some path) (Some sp) (Some m) abort) w = Ok (Some i) -> i_id i = Some id /\ i_head i = Some (vn (S (List.length l))).
Proof.
  intros HH D Hun Uc Pc Ha Hs Hn Hout Fa R. destruct (described_told _ _ _ _ _ _ _ _ HH D Hun) as (alg & spec & ivs & C & Tr & (T1 & T2) & Ln).
  destruct (update_step_inv H h sd P c e w l alg spec ivs C sp path m abort F HH Tr Uc Pc Ha Hs Hn Hout Fa Hun) as [(_ & _ & R' & _)|(_ & i' & alg' & spec' & ivs' & C' & R' & Tr' & Ei)]; [congruence|].
  rewrite R in R'. apply Ok_inv in R'. injection R' as <-. pose proof (tr_made _ _ _ _ _ _ _ _ _ _ Tr) as M. pose proof (tr_made _ _ _ _ _ _ _ _ _ _ Tr') as M'.
  destruct (update_says _ _ _ _ _ _ _ _ _ R) as (h1 & Ro & X). destruct Uc as [U1 U2 U3 [U4 U5] U6 U7].
  destruct (open_there (e_cwd e) path w U5) as [O1 O2]; [fold (dest_of (e_cwd e) path); rewrite <- U7; exact (hl_dir _ _ _ (md_holds _ _ _ _ _ _ _ _ _ M))|].
  fold (dest_of (e_cwd e) path) in O1. rewrite <- U7 in O1. destruct (open_obj_catch e path false w) as (Oa & Or & _). rewrite O2 in Oa. apply Or in O1. assert (h1 = h) by congruence. subst h1.
  destruct (X w (eq_sym Oa)) as (p & s & v & Ep & Ip & Ih & _). rewrite (made_parse _ _ _ _ _ _ _ _ _ M) in Ep. apply Ok_inv in Ep. apply pair_equal_spec in Ep as [<- _].
  pose proof (md_head _ _ _ _ _ _ _ _ _ M') as So'. rewrite app_length in So'. cbn [List.length] in So'. rewrite Nat.add_1_r, Ei in So'.
  change (i_id (sort_inv ?j)) with (i_id j) in Ip. rewrite T1 in Ip. split; [exact Ip|exact (so_head _ _ _ _ So')].
Qed.

(** The version that is extracted *)
Lemma named H h sd P id w l ms e path version k : hash_ok H -> described H h sd P id w l ms -> uniform P \/ collision_free H P l -> no_url path -> h = dest_of (e_cwd e) path ->
  (k < List.length l)%nat -> version = vn (S k) \/ version = `"head" /\ S k = List.length l -> version_named e path version w = vn (S k).
Proof.
  intros HH D Hun Hu Eh Hk Hv. destruct (described_told _ _ _ _ _ _ _ _ HH D Hun) as (alg & spec & ivs & C & Tr & _). pose proof (tr_made _ _ _ _ _ _ _ _ _ _ Tr) as M.
  destruct (open_there (e_cwd e) path w Hu) as [O1 O2]; [fold (dest_of (e_cwd e) path); rewrite <- Eh; exact (hl_dir _ _ _ (md_holds _ _ _ _ _ _ _ _ _ M))|].
  fold (dest_of (e_cwd e) path) in O1. rewrite <- Eh in O1. destruct (open_obj_catch e path false w) as (_ & Or & _). apply Or in O1. unfold version_named. rewrite O1.
  destruct Hv as [->|[-> Hv]]; [rewrite (md_version _ _ _ _ _ _ _ _ _ _ M) by lia; reflexivity|]. rewrite (md_head_version _ _ _ _ _ _ _ _ _ M). cbn [snd]. now rewrite Hv.
Qed.

(** Commands make what the calls of the library make. *)
Theorem C86_session : forall H make_bag bg h sd id w l ms, hash_ok H -> object_session H make_bag bg h sd id w l ms -> collision_free H usual l ->
  described H h sd usual id w l ms.
Proof.
  intros H mb bg h sd id w l ms HH S.
  induction S as [a e w sp op F T [C1 C2 C3] E1 E2 Cc Es Fa|a e w sp op ms n l T [C1 C2 C3] E1 G Bc Es Fa|a e w l ms sp path F S IH [C1 C2 C3] E1 E2 Uc Ha Hs Hn Hout Fa
                 |a e w l ms objdir d S IH C1 C2 E1 Nd E2 E3 Fc Hc Out|a e w l ms S IH C|w w' l ms S IH T E]; intros Hf.
  - rewrite (proj2 (same_run _ _ w (do_create H mb bg e a sp op w C1 C2 E1 E2))), after_ret. apply d_created; auto.
    + apply usual_object. exact (create_alg _ _ _ _ _ _ _ _ Cc).
    + apply usual_cdir.
  - destruct (metadata_found e w a ms G) as (ms' & Em & Sm). rewrite (proj2 (same_run _ _ w (do_build H mb bg e a sp op ms' w C1 C2 E1 Em))), after_ret.
    rewrite <- (map_ext (fun k => recorded (e_now e) (Some id) (meta_for ms' k))) by (intros k; now rewrite (same_meta ms ms' Sm)).
    apply d_built; auto; [exact (build_call_same _ _ _ _ _ _ ms ms' _ _ Sm Bc)|apply usual_object; exact (build_alg _ _ _ _ _ _ _ _ _ Bc)|apply usual_cdir].
  - pose proof (IH (collision_free_app _ _ _ _ Hf)) as D. assert (Hun : uniform usual \/ collision_free H usual l) by (right; exact (collision_free_app _ _ _ _ Hf)).
    rewrite (proj2 (same_run _ _ w (do_update H mb bg e a sp path w C1 C2 E1 E2))). rewrite Properties_RootTool.after_then by (intros [i|] w'; reflexivity).
    destruct (C35_update_succeeds_partial H h sd usual w l (object_of a) e sp path (meta_of a) false F HH (described_history _ _ _ _ _ _ _ _ D) Hun Uc (usual_object a Ha) Ha Hs Hn (or_intror Hout) Fa) as [[(i & R) _]|(_ & X & _)]; [|discriminate X].
    eapply d_added; eauto. apply usual_object; exact Ha.
  - specialize (IH Hf). rewrite (proj2 (same_run _ _ w (do_extract H mb bg e a objdir d w C1 C2 E1 Nd E2 E3))), after_ret.
    pose proof (described_tree _ _ _ _ _ _ _ _ HH IH (or_intror Hf)) as T. pose proof (Properties_RoundTrip.extract_acts e (Some objdir) (oa_objver a) d w T Fc Hc) as A.
    eapply d_elsewhere; [exact IH|exact (acts_tree _ _ _ T A)|]. intros y.
    apply (proj1 (C43_only_below e (Some objdir) (oa_objver a) d w _ T Fc Hc (crash_done _ w))). intros z. apply Out.
  - specialize (IH Hf). rewrite reads_after by tauto. exact IH.
  - eapply d_elsewhere; eauto.
Qed.
Print Assumptions C86_session.

(** * The lines *)

(** The commands create and build print nothing if they have an object directory to write, and
    write nothing anywhere else. *)
Theorem C86_create : forall H make_bag bg e a w sp op id h, hash_ok H -> tree w -> object_command (`"create") op a -> oa_srcdir a = Some sp -> oa_srcbag a = None ->
  create_call (object_of a) e w sp op id (meta_of a) h ->
  let x := ocfl_object H make_bag bg e a in
  result x w = Ok [] /\ forall q, (forall y, q <> h ++ y) -> look (after x w) q = look w q.
Proof.
  intros H mb bg e a w sp op id h HH T [C1 C2 C3] E1 E2 Cc x. unfold x. destruct (same_run _ _ w (do_create H mb bg e a sp op w C1 C2 E1 E2)) as [R A]. rewrite R, A, after_ret.
  destruct (C34_created_valid_partial H (object_of a) e w sp op id (meta_of a) h (mkVconf true false (`"1.1") (e_sizes e)) HH T Cc eq_refl) as ((i & Ri) & _ & K). split; [exact (result_ret _ (fun _ => []) _ i Ri)|exact K].
Qed.
Print Assumptions C86_create.
Theorem C86_build : forall H make_bag bg e a w sp op id h ms n l, hash_ok H -> tree w -> object_command (`"build") op a -> oa_srcdir a = Some sp -> metadata_given e w a ms ->
  build_call (object_of a) e w sp op id ms h n -> Forall2 (fun k F => files_at w (dest_of (e_cwd e) sp ++ [vn k]) F) (seq 1 n) l ->
  let x := ocfl_object H make_bag bg e a in
  result x w = Ok [] /\ forall q, (forall y, q <> h ++ y) -> look (after x w) q = look w q.
Proof.
  intros H mb bg e a w sp op id h ms n l HH T [C1 C2 C3] E1 G Bc Fa x. unfold x. destruct (metadata_found e w a ms G) as (ms' & Em & Sm).
  destruct (same_run _ _ w (do_build H mb bg e a sp op ms' w C1 C2 E1 Em)) as [R A]. rewrite R, A, after_ret.
  destruct (C47_partial H (object_of a) e w sp op id ms' h n l (mkVconf true false (`"1.1") (e_sizes e)) HH T (build_call_same _ _ _ _ _ _ ms ms' _ _ Sm Bc) Fa ltac:(discriminate) eq_refl) as ((i & Ri) & _ & _ & K & _).
  split; [exact (result_ret _ (fun _ => []) _ _ Ri)|exact K].
Qed.
Print Assumptions C86_build.

(** The command update says which object has got which version. *)
Theorem C86_update : forall H make_bag bg h sd id w l ms e a sp path F, hash_ok H -> object_session H make_bag bg h sd id w l ms -> collision_free H usual l ->
  object_command (`"update") path a -> oa_srcdir a = Some sp -> oa_srcbag a = None ->
  update_call (object_of a) e w sp path (meta_of a) h -> In (oa_digest a) [`"sha512"; `"sha256"] ->
  sd = `"1.1" \/ List.length l = 1%nat -> (N.of_nat (List.length l) < 99999)%N -> (forall y, h <> dest_of (e_cwd e) sp ++ y) -> files_at w (dest_of (e_cwd e) sp) F ->
  result (ocfl_object H make_bag bg e a) w = Ok [updated_to id (vn (S (List.length l)))].
Proof.
  intros H mb bg h sd id w l ms e a sp path F HH S Hf [C1 C2 C3] E1 E2 Uc Ha Hs Hn Hout Fa. pose proof (C86_session _ _ _ _ _ _ _ _ _ HH S Hf) as D.
  rewrite (proj1 (same_run _ _ w (do_update H mb bg e a sp path w C1 C2 E1 E2))).
  destruct (C35_update_succeeds_partial H h sd usual w l (object_of a) e sp path (meta_of a) false F HH (described_history _ _ _ _ _ _ _ _ D) (or_intror Hf) Uc (usual_object a Ha) Ha Hs Hn (or_intror Hout) Fa) as [[(i & R) _]|(_ & X & _)]; [|discriminate X].
  destruct (update_names H h sd usual id w l ms (object_of a) e sp path (meta_of a) false F i HH D (or_intror Hf) Uc (usual_object a Ha) Ha Hs Hn (or_intror Hout) Fa R) as [I1 I2].
  unfold result in *. unfold ibind. destruct (add_version_with_content _ _ _ _ _ _ _ w) as [lg r]. cbn [snd] in R. subst r. cbn [iret snd]. rewrite I1, I2. reflexivity.
Qed.
Print Assumptions C86_update.

(** The command validate says that the object is valid. *)
Theorem C86_validate : forall H make_bag bg h sd id w l ms e a objdir, hash_ok H -> object_session H make_bag bg h sd id w l ms -> collision_free H usual l ->
  object_command (`"validate") objdir a -> no_url objdir -> h = dest_of (e_cwd e) objdir ->
  result (ocfl_object H make_bag bg e a) w = Ok [object_verdict objdir true].
Proof.
  intros H mb bg h sd id w l ms e a objdir HH S Hf [C1 C2 C3] Hu Eh. pose proof (C86_session _ _ _ _ _ _ _ _ _ HH S Hf) as D.
  rewrite (proj1 (same_run _ _ w (do_validate H mb bg e a objdir w C1 C2))). apply (result_ret _ (fun v => [object_verdict objdir v]) w true).
  change (ocfl_object_validate H e (oa_lax a) objdir w = Ok true). unfold ocfl_object_validate.
  refine (C35_updated_valid_partial H h sd usual w l _ (e_cwd e) objdir HH (described_history _ _ _ _ _ _ _ _ D) (or_intror Hf) Hu Eh _). exact C3.
Qed.
Print Assumptions C86_validate.

(** The command show draws the object. *)
Theorem C86_show : forall H make_bag bg h sd id w l ms e a objdir, hash_ok H -> object_session H make_bag bg h sd id w l ms -> collision_free H usual l ->
  object_command (`"show") objdir a -> no_url objdir -> h = dest_of (e_cwd e) objdir ->
  exists spec cdir all rows, shown_spec w h spec /\ names_at w h all /\ rows_for w h spec cdir all all rows /\
    result (ocfl_object H make_bag bg e a) w =
      Ok [Printed (`"Object tree" ++ match oa_id a with Some i => `" for " ++ i | None => [] end); Printed (`"[" ++ objdir ++ `"]" ++ [10%N] ++ drawn rows)].
Proof.
  intros H mb bg h sd id w l ms e a objdir HH S Hf [C1 C2 C3] Hu Eh. pose proof (C86_session _ _ _ _ _ _ _ _ _ HH S Hf) as D.
  destruct (described_told _ _ _ _ _ _ _ _ HH D (or_intror Hf)) as (alg & spec & ivs & C & Tr & _). pose proof (tr_made _ _ _ _ _ _ _ _ _ _ Tr) as M.
  destruct (C84_tree H (oa_lax a) e objdir w true Hu (md_tree _ _ _ _ _ _ _ _ _ M)) as (sp & cdir & all & rows & A1 & A2 & A3 & A4).
  { rewrite <- Eh. exact (hl_dir _ _ _ (md_holds _ _ _ _ _ _ _ _ _ M)). }
  { exact (C35_updated_valid_partial H h sd usual w l (mkVconf false (oa_lax a) (`"1.1") (e_sizes e)) (e_cwd e) objdir HH (described_history _ _ _ _ _ _ _ _ D) (or_intror Hf) Hu Eh C3). }
  rewrite <- Eh in A1, A2, A3. exists sp, cdir, all, rows. split; [exact A1|]. split; [exact A2|]. split; [exact A3|]. rewrite (proj1 (same_run _ _ w (do_show H mb bg e a objdir w C1 C2))).
  exact (result_ret (iread (fun w => object_tree H (oa_lax a) e objdir w)) (fun t => [Printed (`"Object tree" ++ match oa_id a with Some i => `" for " ++ i | None => [] end); Printed t]) w _ A4).
Qed.
Print Assumptions C86_show.

(** The command extract writes the files of the version, and says which version that was. *)
Theorem C86_extract : forall H make_bag bg h sd id w l ms e a objdir d k F, hash_ok H -> object_session H make_bag bg h sd id w l ms -> collision_free H usual l ->
  object_command (`"extract") objdir a -> oa_dstdir a = Some d -> d <> [] -> given (oa_dstbag a) = None -> given (oa_logical_path a) = None ->
  nth_error l k = Some F -> oa_objver a = vn (S k) \/ oa_objver a = `"head" /\ S k = List.length l ->
  Forall fname (e_cwd e) -> look w (e_cwd e) = Some EDir -> no_url objdir -> h = dest_of (e_cwd e) objdir -> dest_free w (dest_of (e_cwd e) d) ->
  let x := ocfl_object H make_bag bg e a in
  result x w = Ok [extracted_in (vn (S k)) d] /\ holds (after x w) (dest_of (e_cwd e) d) F /\
  forall q, (forall y, q <> dest_of (e_cwd e) d ++ y) -> look (after x w) q = look w q.
Proof.
  intros H mb bg h sd id w l ms e a objdir d k F HH S Hf [C1 C2 C3] E1 Nd E2 E3 Hk Hv Fc Hc Hu Eh Df x. pose proof (C86_session _ _ _ _ _ _ _ _ _ HH S Hf) as D.
  destruct (same_run _ _ w (do_extract H mb bg e a objdir d w C1 C2 E1 Nd E2 E3)) as [R A]. unfold x. rewrite R, A, after_ret.
  assert (Lk : (k < List.length l)%nat) by (apply nth_error_Some; congruence). rewrite (named H h sd usual id w l ms e objdir (oa_objver a) k HH D (or_intror Hf) Hu Eh Lk Hv).
  destruct (C36_extracted_as_added_partial H h sd usual w l k F e objdir (oa_objver a) d HH (described_history _ _ _ _ _ _ _ _ D) Hf Hk Hv Fc Hc Hu Eh Df) as ((m & Rm) & X & Y).
  split; [exact (result_ret _ (fun _ => [extracted_in (vn (Datatypes.S k)) d]) _ m Rm)|]. auto.
Qed.
Print Assumptions C86_extract.
Theorem C86_extract_file : forall H make_bag bg h sd id w l ms e a objdir d k F r z b, hash_ok H -> object_session H make_bag bg h sd id w l ms -> collision_free H usual l ->
  object_command (`"extract") objdir a -> oa_dstdir a = Some d -> given (oa_dstbag a) = None -> oa_logical_path a = Some (J (r ++ [z])) ->
  nth_error l k = Some F -> oa_objver a = vn (S k) \/ oa_objver a = `"head" /\ S k = List.length l ->
  Forall fname (e_cwd e) -> no_url objdir -> h = dest_of (e_cwd e) objdir ->
  In (r ++ [z], b) F -> let dst := dest_of (e_cwd e) d in
  usable_place (e_cwd e) w d dst -> file_place w (dst ++ [z]) -> (forall y, dst ++ [z] <> h ++ y) ->
  let x := ocfl_object H make_bag bg e a in
  result x w = Ok [extracted_to (J (r ++ [z])) (vn (S k)) d] /\ look (after x w) (dst ++ [z]) = Some (EFile b) /\
  forall q, q <> dst -> q <> dst ++ [z] -> look (after x w) q = look w q.
Proof.
  intros H mb bg h sd id w l ms e a objdir d k F r z b HH S Hf [C1 C2 C3] E1 E2 E3 Hk Hv Fc Hu Eh Hi dst Up Fp Out x. pose proof (C86_session _ _ _ _ _ _ _ _ _ HH S Hf) as D.
  assert (Lk : (k < List.length l)%nat) by (apply nth_error_Some; congruence).
  assert (Np : J (r ++ [z]) <> []).
  { destruct (described_told _ _ _ _ _ _ _ _ HH D (or_intror Hf)) as (alg & spec & ivs & C & Tr & _). destruct (tr_names _ _ _ _ _ _ _ _ _ _ Tr F (r ++ [z]) b (nth_error_In _ _ Hk) Hi) as [_ Fn].
    destruct r as [|c r]; inversion Fn as [|? ? Fz _]; subst; destruct Fz as [Fz _]; [exact Fz|]. cbn [app]. rewrite join_cons by (destruct r; discriminate). intros E. now destruct c. }
  destruct (same_run _ _ w (do_extract_file H mb bg e a objdir (J (r ++ [z])) d w C1 C2 E1 E2 E3 Np)) as [R A]. unfold x. rewrite R, A, after_ret.
  rewrite (named H h sd usual id w l ms e objdir (oa_objver a) k HH D (or_intror Hf) Hu Eh Lk Hv).
  destruct (C44_as_added_partial H h sd usual w l k F e objdir (oa_objver a) d r b z HH (described_history _ _ _ _ _ _ _ _ D) Hf Hk Hv Fc Hu Eh Hi Up Fp Out) as ((m & Rm) & X & Y).
  split; [exact (result_ret _ (fun _ => [extracted_to (J (r ++ [z])) (vn (Datatypes.S k)) d]) _ m Rm)|]. auto.
Qed.
Print Assumptions C86_extract_file.

(** * The metadata of another object *)

Lemma described_dates H h sd P id w l ms m : described H h sd P id w l ms -> In m ms -> vm_id m = Some id /\ exists c r, vm_created m = Some (c :: r).
Proof.
  assert (R : forall now m, meta_ok now m -> forall id, vm_id (recorded now (Some id) m) = Some id /\ exists c r, vm_created (recorded now (Some id) m) = Some (c :: r)).
  { intros now m0 [Mc _ _ _] i. split; [reflexivity|]. unfold recorded. cbn [vm_created]. assert (Ne : forall s, r_created as_coded s -> exists c r, s = c :: r).
    { intros s (? & sx & ? & ? & ? & ? & ? & ? & ? & ? & ? & ? & -> & _). destruct sx; eexists _, _; reflexivity. }
    destruct (vm_created m0) as [[|c r]|]; [destruct (Ne _ (proj1 Mc)) as (c & r & ->); eauto|eauto|destruct (Ne _ (proj1 Mc)) as (c & r & ->); eauto]. }
  induction 1 as [h sd P id c e w sp op m0 F T Cc Pc Es Cd Fa|h sd P id c e w sp op ms n l T Bc Pc Es Cd Fa|h sd P id c e w l ms sp path m0 abort i F Hi IH Uc Pc Ha Hs Hn Hun Fa R'|h sd P id h0 w w' l ms Hi IH T E]; intros Hm.
  - destruct Hm as [<-|[]]. apply R. exact (cc_meta _ _ _ _ _ _ _ _ Cc).
  - apply in_map_iff in Hm as (k & <- & Hk). apply in_seq in Hk. apply R. apply (bc_meta _ _ _ _ _ _ _ _ _ Bc). lia.
  - apply in_app_iff in Hm as [Hm|[<-|[]]]; [now apply IH|]. apply R. exact (uc_meta _ _ _ _ _ _ _ Uc).
  - now apply IH.
Qed.

(** Of version k what is listed at k *)
Definition numbered (ms : list vmeta) : N -> option vmeta := fun k => match N.to_nat k with O => None | S j => nth_error ms j end.

(** The inventory of an object can be given to build as the file with the metadata: it has what
    was given for each version of that object. *)
Theorem C86_own_metadata : forall H h sd P id w l ms e a f, hash_ok H -> described H h sd P id w l ms -> uniform P \/ collision_free H P l ->
  oa_metadata a = Some f -> dest_of (e_cwd e) f = h ++ [inv_name] -> metadata_given e w a (numbered ms).
Proof.
  intros H h sd P id w l ms e a f HH D Hun Ef Eh. destruct (described_told _ _ _ _ _ _ _ _ HH D Hun) as (alg & spec & ivs & C & Tr & (T1 & T2) & Ln). pose proof (tr_made _ _ _ _ _ _ _ _ _ _ Tr) as M.
  pose proof (md_head _ _ _ _ _ _ _ _ _ M) as So. set (i := ivs (List.length l)) in *. set (n := List.length l) in *. set (j := sort_json (json_of_inventory i)).
  pose proof (proj2 (sound_bytes _ _ _ _ So)) as Lj. fold j in Lj. pose proof (json_load_wf _ _ Lj) as W. pose proof (sound_obeys _ _ _ _ So) as Ob. fold j in Ob. pose proof (obeys_like _ _ W Ob) as Like.
  assert (Mv : exists vs, member j (`"versions") vs) by (destruct Ob as (_ & _ & _ & _ & _ & _ & _ & vs & (V & _) & _); eauto).
  destruct Mv as [vs Mv]. destruct (read_inventory j vs W Like Mv) as (i' & Ei & Ki & _ & Si).
  assert (i' = sort_inv i) by (pose proof (read_back _ _ _ _ So) as X; fold j in X; rewrite X in Ei; apply Ok_inv in Ei; auto). subst i'.
  assert (Kn : forall v, version_in j v <-> exists k, (1 <= k <= n)%nat /\ v = vn k).
  { intros v. rewrite <- Ki. destruct (so_versions _ _ _ _ (sound_sorted _ _ _ _ So)) as (vs' & Ev & Pm). unfold versions_block. rewrite Ev. cbn [or_empty]. split.
    - intros Hv. apply (Permutation_in _ Pm) in Hv. apply In_names in Hv as (k & Hk & ->). exists (S k). split; [lia|]. unfold vn. f_equal. lia.
    - intros (k & Hk & ->). apply (Permutation_in _ (Permutation_sym Pm)). apply In_names. exists (k - 1)%nat. split; [lia|]. unfold vn. f_equal. lia. }
  pose proof (proj2 (so_range _ _ _ _ So)) as Hr. unfold metadata_given. rewrite Ef. exists (json_dumps (json_of_inventory i)), j. rewrite Eh. split; [exact (files_there _ _ _ _ _ _ _ _ _ M _ _ (IO_inv _ _ _ _ _ _))|].
  split; [exact Lj|]. split; [exact Like|]. split; [eauto|]. split; [|split].
  - intros k m Hm. unfold numbered in Hm. destruct (N.to_nat k) as [|k'] eqn:Ek; [discriminate|]. assert (Lk : (k' < n)%nat) by (rewrite <- Ln; apply nth_error_Some; congruence).
    exists (vn (S k')). split; [|apply Si; rewrite (says_sorted _ _ _ _ _ So); now apply T2]. replace k with (N.of_nat (S k')) by lia. apply taken_vn; lia.
  - intros v Hv. apply Kn in Hv as (k & Hk & ->). exists (N.of_nat k). destruct (nth_error ms (k - 1)) as [m|] eqn:Em; [|apply nth_error_None in Em; lia].
    exists m. split; [apply taken_vn; lia|]. unfold numbered. rewrite Nat2N.id. destruct k; [lia|]. now rewrite Nat.sub_succ, Nat.sub_0_r in Em.
  - intros v v' k Hv Hv' Tv Tv'. apply Kn in Hv as (x & Hx & ->). apply Kn in Hv' as (y & Hy & ->). pose proof (taken_vn x ltac:(lia) ltac:(lia)) as Tx. pose proof (taken_vn y ltac:(lia) ltac:(lia)) as Ty.
    apply taken_parse in Tv, Tv', Tx, Ty. rewrite Tv in Tx. rewrite Tv' in Ty. apply Ok_inv in Tx, Ty. f_equal. lia.
Qed.
Print Assumptions C86_own_metadata.

(** So an object built from the versions of another object and its inventory has the same files
    and metadata in each version: also the times are those of the first object. *)
Theorem C86_rebuild : forall H make_bag bg h sd id w l ms e a sp op f h' sd', hash_ok H -> object_session H make_bag bg h sd id w l ms -> collision_free H usual l ->
  object_command (`"build") op a -> oa_srcdir a = Some sp -> oa_metadata a = Some f -> dest_of (e_cwd e) f = h ++ [inv_name] ->
  build_call (object_of a) e w sp op id (numbered ms) h' (List.length l) -> oa_spec a = sd' ->
  Forall2 (fun k F => files_at w (dest_of (e_cwd e) sp ++ [vn k]) F) (seq 1 (List.length l)) l ->
  object_session H make_bag bg h' sd' id (after (ocfl_object H make_bag bg e a) w) l ms.
Proof.
  intros H mb bg h sd id w l ms e a sp op f h' sd' HH S Hf Cm E1 E2 E3 Bc Es Fa. pose proof (C86_session _ _ _ _ _ _ _ _ _ HH S Hf) as D.
  pose proof (C86_own_metadata _ _ _ _ _ _ _ _ _ _ _ HH D (or_intror Hf) E2 E3) as G. pose proof (described_tree _ _ _ _ _ _ _ _ HH D (or_intror Hf)) as T.
  destruct (described_told _ _ _ _ _ _ _ _ HH D (or_intror Hf)) as (_ & _ & _ & _ & _ & _ & Ln).
  assert (E : ms = map (fun k => recorded (e_now e) (Some id) (meta_for (numbered ms) k)) (seq 1 (List.length l))).
  { rewrite <- Ln. assert (X : forall m, In m ms -> recorded (e_now e) (Some id) m = m).
    { intros m Hm. destruct (described_dates _ _ _ _ _ _ _ _ m D Hm) as (I1 & c & r & I2). destruct m. cbn in *. subst. reflexivity. }
    clear - X. apply (nth_ext _ _ empty_vmeta (recorded (e_now e) (Some id) (meta_for (numbered ms) 0))); [now rewrite map_length, seq_length|]. intros k Hk.
    rewrite map_nth with (d := 0%nat) (f := fun k => recorded (e_now e) (Some id) (meta_for (numbered ms) k)). rewrite seq_nth by exact Hk. unfold meta_for, numbered. rewrite Nat2N.id. cbn [plus].
    rewrite (nth_error_nth' _ empty_vmeta Hk). symmetry. apply X. now apply nth_In. }
  rewrite E at 1. exact (os_build H mb bg h' sd' id a e w sp op (numbered ms) (List.length l) l T Cm E1 G Bc Es Fa).
Qed.
Print Assumptions C86_rebuild.

(** * Without an object directory *)

Lemma create_same H c e sp m op w i : result (create H c e sp m (Some op)) w = Ok i -> result (create H c e sp m None) w = Ok i.
Proof.
  unfold create. destruct (o_id c) as [id|]; [|discriminate]. intros R. apply bind_inv in R as (src & R1 & R). apply bind_inv in R as (nv & R2 & R).
  repeat (apply bind_inv in R as (? & _ & R)). apply Ok_inv in R. subst i.
  unfold result, ibind in *. destruct (open_src_fs e sp w) as [l1 r1] eqn:E1. cbn [snd] in R1. subst r1. unfold after in R2. rewrite E1 in R2. cbn [fst] in R2. unfold iread in *. cbn [snd] in R2. rewrite R2. reflexivity.
Qed.

(** Without --objdir the command create shows the inventory: the one that is written if there is
    an object directory. *)
Theorem C86_create_shows : forall H make_bag bg e a w sp op id h, hash_ok H -> tree w -> oa_cmd a = Some (`"create") -> oa_objdir a = None -> oa_srcdir a = Some sp -> oa_srcbag a = None ->
  create_call (object_of a) e w sp op id (meta_of a) h ->
  exists t, result (ocfl_object H make_bag bg e a) w = Ok [Printed (`"### Inventory for v1"); Printed t] /\
    look (after (create H (object_of a) e (Some sp) (Some (meta_of a)) (Some op)) w) (h ++ [inv_name]) = Some (EFile t).
Proof.
  intros H mb bg e a w sp op id h HH T E1 E2 E3 E4 Cc. destruct Cc as [C1 C2 C3 C4 C5 C6 C7 C8 C9 C10].
  destruct (create_made H (object_of a) e w sp op id (meta_of a) (dest_of (e_cwd e) sp) h HH C1 T C2 C3 C5 C6 C4 C7 eq_refl C8 C9 C10) as (F' & nv & i0 & K & Fa' & G & Kc & N1 & N2 & _ & Ec & Fu & R & M & Keep).
  exists (json_dumps (json_of_inventory (nv_inv nv))). split; [|exact (files_there _ _ _ _ _ _ _ _ _ M _ _ (IO_inv _ _ _ _ _ _))].
  apply create_same in R. unfold ocfl_object, do_object_operation. rewrite E1, E2, E3, E4. change (str_eqb (`"create") (`"create")) with true. cbv iota. unfold ocfl_object_create. rewrite (result_ret _ print_inventory _ _ R).
  unfold print_inventory. pose proof (md_head _ _ _ _ _ _ _ _ _ M) as So. rewrite (so_head _ _ _ _ So). reflexivity.
Qed.
Print Assumptions C86_create_shows.

(** * A session *)

(** Two source directories, and a directory with the same files as directories of versions *)
Definition ex_one : node := Dir [(`"a", File (`"one")); (`"d", Dir [(`"b", File (`"two")); (`"README.md", File (`"one"))])].
Definition ex_other : node := Dir [(`"a", File (`"one")); (`"d", Dir [(`"b", File (`"three"))])].
Definition ex_disk : node := Dir [(`"s1", ex_one); (`"s2", ex_other); (`"s", Dir [(`"v1", ex_one); (`"v2", ex_other)])].
Definition ex_args (cmd objdir digest sp : str) (message : option str) : object_args :=
  mk_object_args (Some cmd) (Some objdir) (`"1.1") digest None (Some (`"info:a")) [`"README.md"; `".DS_Store"] None false false false None message (Some (`"n")) None (Some sp) None
    (Some (`"o/inventory.json")) (`"v1") (Some (`"x")) None false None.
Definition ex_no_bag : str -> dict json -> io unit := fun _ _ => iret tt.
Definition ex_tool (a : object_args) : io (list shown) := ocfl_object toy_hash ex_no_bag (Raise OtherException) ex_env a.
Definition ex_create_args := ex_args (`"create") (`"o") (`"sha256") (`"s1") (Some (`"m")).
Definition ex_update_args := ex_args (`"update") (`"o") (`"sha512") (`"s2") None.
Definition ex_build_args := ex_args (`"build") (`"p") (`"sha512") (`"s") None.
Definition ex_disk1 : node := Eval vm_compute in after (ex_tool ex_create_args) ex_disk.
Definition ex_disk2 : node := Eval vm_compute in after (ex_tool ex_update_args) ex_disk1.
Definition ex_version_list : list (list (place * bytes)) := Eval vm_compute in [files_in ex_disk [`"s1"]; files_in ex_disk [`"s2"]].
Definition ex_meta_list : list vmeta := [recorded ex_now (Some (`"info:a")) (meta_of ex_create_args); recorded ex_now (Some (`"info:a")) (meta_of ex_update_args)].
Definition ex_session (h : place) := object_session toy_hash ex_no_bag (Raise OtherException) h (`"1.1") (`"info:a").

Lemma ex_disk_tree : tree ex_disk. Proof. apply tree_b_ok. vm_compute. reflexivity. Qed.
Lemma ex_disk1_tree : tree ex_disk1. Proof. apply tree_b_ok. vm_compute. reflexivity. Qed.
Lemma ex_disk2_tree : tree ex_disk2. Proof. apply tree_b_ok. vm_compute. reflexivity. Qed.
Lemma ex_two_versions : ex_session [`"o"] ex_disk2 ex_version_list ex_meta_list.
Proof.
  assert (E2 : ex_disk2 = after (ex_tool ex_update_args) ex_disk1) by (vm_compute; reflexivity). rewrite E2.
  assert (E1 : ex_disk1 = after (ex_tool ex_create_args) ex_disk) by (vm_compute; reflexivity).
  assert (S1 : ex_session [`"o"] ex_disk1 (firstn 1 ex_version_list) (firstn 1 ex_meta_list)).
  { rewrite E1. apply (os_create toy_hash ex_no_bag (Raise OtherException) [`"o"] (`"1.1") (`"info:a") ex_create_args ex_env ex_disk (`"s1") (`"o")).
    - exact ex_disk_tree.
    - split; reflexivity.
    - reflexivity.
    - reflexivity.
    - apply (create_b_ok (object_of ex_create_args) ex_env ex_disk (`"s1") (`"o") (meta_of ex_create_args) (`"info:a") ex_disk_tree eq_refl). vm_compute. reflexivity.
    - reflexivity.
    - change (files_at ex_disk [`"s1"] (files_in ex_disk [`"s1"])). apply files_b_ok; [exact ex_disk_tree|vm_compute; reflexivity]. }
  assert (U : update_b (object_of ex_update_args) ex_env ex_disk1 (`"s2") (`"o") (meta_of ex_update_args) = true) by (vm_compute; reflexivity).
  pose proof (update_b_ok (object_of ex_update_args) ex_env ex_disk1 (`"s2") (`"o") (meta_of ex_update_args) ex_disk1_tree U) as Uc.
  apply (os_update toy_hash ex_no_bag (Raise OtherException) [`"o"] (`"1.1") (`"info:a") ex_update_args ex_env ex_disk1 (firstn 1 ex_version_list) (firstn 1 ex_meta_list) (`"s2") (`"o") (files_in ex_disk1 [`"s2"])).
  - exact S1.
  - split; reflexivity.
  - reflexivity.
  - reflexivity.
  - exact Uc.
  - left. reflexivity.
  - left. reflexivity.
  - reflexivity.
  - intros y E. discriminate E.
  - apply files_b_ok; [exact ex_disk1_tree|vm_compute; reflexivity].
Qed.
Lemma ex_apart : collision_free toy_hash usual ex_version_list.
Proof.
  assert (Q : forall alg, apart_b alg ex_version_list = true -> forall F F' r b r' b', In F ex_version_list -> In F' ex_version_list -> In (r, b) F -> In (r', b') F' -> toy_hash alg b = toy_hash alg b' -> b = b').
  { intros alg A F F' r b r' b' H1 H2 H3 H4 E. unfold apart_b in A. rewrite forallb_forall in A. assert (X : forall F r b, In F ex_version_list -> In (r, b) F -> In b (map snd (concat ex_version_list))).
    { intros F0 r0 b0 X Y. apply in_map_iff. exists (r0, b0). split; [auto|]. apply in_concat. eauto. }
    specialize (A b (X _ _ _ H1 H3)). rewrite forallb_forall in A. specialize (A b' (X _ _ _ H2 H4)). rewrite E, str_eqb_refl in A. cbn in A. now apply str_eqb_eq. }
  intros c F F' r b r' b' [Ha _]. apply Q. destruct Ha as [<-|[<-|[]]]; vm_compute; reflexivity.
Qed.

(** The hypotheses of the theorems hold for this session; what the commands then print *)
Example ex_update_line : result (ex_tool ex_update_args) ex_disk1 = Ok [updated_to (`"info:a") (`"v2")].
Proof. vm_compute. reflexivity. Qed.
Example ex_validate_line : result (ex_tool (ex_args (`"validate") (`"o") [] [] None)) ex_disk2 = Ok [Printed (`"Object at o is VALID")].
Proof. apply (C86_validate toy_hash ex_no_bag (Raise OtherException) [`"o"] (`"1.1") (`"info:a") ex_disk2 ex_version_list ex_meta_list ex_env _ (`"o") toy_hash_ok ex_two_versions ex_apart); [split; reflexivity|apply no_url_b_ok; reflexivity|reflexivity]. Qed.
Example ex_extract_line : let x := ex_tool (ex_args (`"extract") (`"o") [] [] None) in
  result x ex_disk2 = Ok [Printed (`"Extracted content for v1 in x")] /\ holds (after x ex_disk2) [`"x"] (files_in ex_disk [`"s1"]).
Proof.
  destruct (C86_extract toy_hash ex_no_bag (Raise OtherException) [`"o"] (`"1.1") (`"info:a") ex_disk2 ex_version_list ex_meta_list ex_env (ex_args (`"extract") (`"o") [] [] None) (`"o") (`"x") 0 (files_in ex_disk [`"s1"]) toy_hash_ok ex_two_versions ex_apart) as (X & Y & _);
    try reflexivity; try (split; reflexivity).
  - discriminate.
  - left. reflexivity.
  - constructor.
  - apply no_url_b_ok. reflexivity.
  - left. split; reflexivity.
  - split; [exact X|exact Y].
Qed.

(** Building another object from the directory of versions with the inventory of the first *)
Lemma ex_rebuild_call : build_call (object_of ex_build_args) ex_env ex_disk2 (`"s") (`"p") (`"info:a") (numbered ex_meta_list) [`"p"] 2.
Proof.
  assert (K : forall k, (1 <= k <= 2)%nat -> k = 1%nat \/ k = 2%nat) by (intros k Hk; lia).
  constructor; try reflexivity.
  - constructor.
  - apply first_b_ok. vm_compute. reflexivity.
  - intros cd [= <-]. split; discriminate.
  - intros k Hk. destruct (K k Hk) as [-> | ->]; apply meta_b_ok; vm_compute; reflexivity.
  - now left.
  - apply no_url_b_ok. reflexivity.
  - lia.
  - intros k Hk. destruct (K k Hk) as [-> | ->]; (apply source_b_ok; [exact ex_disk2_tree|vm_compute; reflexivity]).
  - exists [`"a"], (`"one"). vm_compute. reflexivity.
  - intros v k E Ht. change (dest_of (e_cwd ex_env) (`"s") ++ [v]) with ([`"s"] ++ [v]) in E.
    rewrite (look_child ex_disk2 [`"s"] [(`"v1", ex_one); (`"v2", ex_other)] v eq_refl) in E.
    destruct (dget v _) as [m|] eqn:Em; [|discriminate]. apply dget_In in Em. destruct Em as [Em|[Em|[]]]; injection Em as <- <-.
    + exists 1%nat. split; [lia|reflexivity].
    + exists 2%nat. split; [lia|reflexivity].
  - apply place_b_ok. vm_compute. reflexivity.
  - intros v k y _ E. discriminate.
  - now left.
Qed.
Example ex_rebuilt : ex_session [`"p"] (after (ex_tool ex_build_args) ex_disk2) ex_version_list ex_meta_list.
Proof.
  apply (C86_rebuild toy_hash ex_no_bag (Raise OtherException) [`"o"] (`"1.1") (`"info:a") ex_disk2 ex_version_list ex_meta_list ex_env ex_build_args (`"s") (`"p") (`"o/inventory.json") [`"p"] (`"1.1") toy_hash_ok ex_two_versions ex_apart);
    try reflexivity; [split; reflexivity|exact ex_rebuild_call|].
  change (Forall2 (fun k F => files_at ex_disk2 [`"s"; vn k] F) [1; 2]%nat [files_in ex_disk2 [`"s"; `"v1"]; files_in ex_disk2 [`"s"; `"v2"]]).
  repeat (constructor; [apply files_b_ok; [exact ex_disk2_tree|vm_compute; reflexivity]|]). constructor.
Qed.

(** * What is not so *)

(** --skip, "directories and files to ignore", has README.md as one of its defaults, but such
    files are not left out: the file README.md is in the object. The option has no influence at
    all. *)
Definition with_skip (l : list str) (a : object_args) : object_args :=
  mk_object_args (oa_cmd a) (oa_objdir a) (oa_spec a) (oa_digest a) (oa_fixity a) (oa_id a) l (oa_norm a) (oa_no_forward_delta a) (oa_no_dedupe a) (oa_lax a) (oa_created a) (oa_message a) (oa_name a) (oa_address a)
    (oa_srcdir a) (oa_srcbag a) (oa_metadata a) (oa_objver a) (oa_dstdir a) (oa_dstbag a) (oa_set_bagging_date a) (oa_logical_path a).
Theorem C86_skip_refuted :
  (forall H make_bag bg e a l, ocfl_object H make_bag bg e (with_skip l a) = ocfl_object H make_bag bg e a) /\
  exists a w, In (`"README.md") (oa_skip a) /\ ocfl_object_status (result (ex_tool a) w) = 0%N /\
    look (after (ex_tool (ex_args (`"extract") (`"o") [] [] None)) (after (ex_tool a) w)) [`"x"; `"d"; `"README.md"] = Some (EFile (`"one")).
Proof.
  split; [reflexivity|]. exists ex_create_args, ex_disk. split; [left; reflexivity|]. split; vm_compute; reflexivity.
Qed.
Print Assumptions C86_skip_refuted.
