(** C75 for bags: a version extracted as a bag and made into an object again. *)
From Coq Require Import Permutation Sorted.
From Verif Require Import Properties_Names Properties_InventoryValidator.
From Verif Require Import Base Unicode Regex Utf8 Json PyJson JsonTextModel JsonTextSpec JsonTextProofs JsonFileProofs Log DigestModel LayoutModel LayoutProofs
  ObjectUtilsModel ObjectUtilsProofs InventorySpec InventoryValidatorModel InventoryValidatorProofs InventoryRulesProofs
  InventoryModel InventoryOpsSpec InventoryOpsProofs NewVersionModel NewVersionProofs NewVersionOpsProofs VersionNumberProofs InventoryParseProofs ParseModel
  ContentPathProofs TextFile PathModel FsModel FsSpec FsProofs FswModel FswSpec FswProofs FswCopyProofs ValidatorSpec ValidatorBasicProofs ObjectModel ObjectSpec ObjectInvProofs ObjectRulesProofs
  ObjectParseProofs ObjectAddProofs ContentNameProofs ObjectGrowProofs ObjectStartProofs ObjectCopyProofs ObjectWriteProofs ObjectSourceProofs ObjectFactsProofs NamasteSpec ValidatorVersionProofs ObjectMadeProofs ObjectIntactProofs ObjectExtendProofs FsStepProofs NamasteModel NamasteProofs ObjectStoreProofs ObjectCreateProofs ValidatorModel ValidatorIntactProofs ObjectUpdateProofs ObjectNextProofs ObjectDigestProofs ObjectVersionProofs ObjectExtractProofs ObjectHistoryProofs ObjectTrackProofs ObjectExamples UpdateSpec ParseProofs OpenProofs ChangeProofs FrameProofs UpdateProofs ExtractSpec ExtractProofs.

From Verif Require Import Properties_Inventory Properties_Layout Properties_Object MetaSpec BuildProofs MetaProofs Properties_Metadata BaggerModel Properties_Bagger StorageRootModel ToolModel Properties_RoundTrip.
From Verif Require Properties_Validator.

(** The metadata of a history could be written. *)
Lemma described_metas H h sd P id w l ms : described H h sd P id w l ms -> forall m, In m ms -> exists now m0, meta_ok now m0 /\ m = recorded now (Some id) m0.
Proof.
  induction 1 as [h sd P id c e w sp op m F T Cc Pc Es Cd Fa|h sd P id c e w sp op ms n l T Bc Pc Es Cd Fa|h sd P id c e w l ms sp path m abort i F Hi IH Uc Pc Ha Hs Hn Hun Fa R|h sd P id h0 w w' l ms Hi IH T E]; intros m' I.
  - destruct I as [<-|[]]. exists (e_now e), m. split; [apply Cc|reflexivity].
  - apply in_map_iff in I as (k & <- & I). apply in_seq in I. exists (e_now e), (meta_for ms k). split; [apply (bc_meta _ _ _ _ _ _ _ _ _ Bc); lia|reflexivity].
  - apply in_app_iff in I as [I|[<-|[]]]; [auto|]. exists (e_now e), m. split; [apply Uc|reflexivity].
  - auto.
Qed.

(** What bagit.make_bag does in the file system: the files [F] that were in the directory [dst] are now
    in its directory data; outside of [dst] nothing changes. *)
Record bagged (w w' : node) (dst : place) (F : list (place * bytes)) : Prop := {
  bg_tree : tree w';
  bg_files : holds w' (dst ++ [`"data"]) F;
  bg_rest : forall q, (forall y, q <> dst ++ y) -> look w' q = look w q
}.

(** The time of an object made from a bag *)
Definition bag_time (now : str) (b : bag) : str := match dget (`"Bagging-Date") (bag_info b) with Some t => t ++ `"T00:00:00Z" | None => now end.

(** The command extract into a bag and the command create from that bag: there is then an object
    with one version, with just the files of the version that was extracted, its identifier,
    message and author, for texts that come back from a bag. *)
Theorem C75_bag : forall H h sd P id w l ms k F m e path version d make_bag read_back make dated b c op h2,
  hash_ok H -> described H h sd P id w l ms -> collision_free H P l -> nth_error l k = Some F -> nth_error ms k = Some m ->
  version = vn (S k) \/ version = `"head" /\ S k = List.length l ->
  Forall fname (e_cwd e) -> look w (e_cwd e) = Some EDir ->
  no_url path -> h = dest_of (e_cwd e) path -> no_url d -> d <> [] -> dest_free w (dest_of (e_cwd e) d) ->
  (* bagit *)
  bagit read_back make -> bag_extracted_version make m dated = Ok b ->
  (forall tags w1, bag_tags m dated = Ok tags -> w1 = after (extract e (Some path) version d) w ->
     result (make_bag d tags) w1 = Ok tt /\ bagged w1 (after (make_bag d tags) w1) (dest_of (e_cwd e) d) F) ->
  (* what comes back from a bag *)
  (forall v, v = id \/ vm_message m = Some v \/ vm_name m = Some (JStr v) -> v <> [] /\ read_back v = v) ->
  (forall a, vm_address m = Some (JStr a) -> exists x, a = `"mailto:" ++ x /\ read_back x = x) ->
  r_created as_coded (bag_time (e_now e) b) /\ text (bag_time (e_now e) b) ->
  (* the new object *)
  F <> [] -> usable (o_norm c) F -> o_id c = None \/ o_id c = Some id ->
  first_ok id (o_alg c) (o_spec c) (o_cdir c) (or_empty (o_fixity c)) ->
  (forall cd, o_cdir c = Some cd -> cd <> inv_name /\ cd <> side_name (o_alg c)) ->
  In (o_norm c) [None; Some (`"uri"); Some (`"md5")] ->
  new_place (e_cwd e) w op h2 -> apart h2 (dest_of (e_cwd e) d) ->
  let x := ocfl_object_extract make_bag e path version None (Some d) dated in
  let w1 := after x w in
  let y := ocfl_object_create H c e None (Some d) (Ok b) no_meta (Some op) in
  result x w = Ok m /\ (exists i, result y w1 = Ok i) /\
  described H h2 (o_spec c) (fun c' => o_alg c' = o_alg c) id (after y w1) [F]
    [mk_vmeta (Some id) (Some (bag_time (e_now e) b)) (vm_message m) (vm_name m) (vm_address m)] /\
  (forall q, (forall z, q <> dest_of (e_cwd e) d ++ z) -> (forall z, q <> h2 ++ z) -> look (after y w1) q = look w q).
Proof.
  intros H h sd P id w l ms k F m e path version d mb rb mk dated b c op h2 HH Hd CF En Em Hv Fc Hc Hu Eh Ud Nd Df Bi Eb Mb Tv Ta Tt Ne Us Hid Fo Hcd Hnorm Np Ap x w1 y.
  pose proof (described_history _ _ _ _ _ _ _ _ Hd) as Hi.
  assert (Ln : List.length ms = List.length l) by (destruct (described_told _ _ _ _ _ _ _ _ HH Hd (or_intror CF)) as (? & ? & ? & ? & _ & _ & Ln); exact Ln).
  assert (T : tree w) by (destruct (history_tracked H h sd P w l HH Hi (or_intror CF)) as (alg & spec & ivs & C & Tr); exact (md_tree _ _ _ _ _ _ _ _ _ (tr_made _ _ _ _ _ _ _ _ _ _ Tr))).
  destruct (C36_extracted_as_added_partial H h sd P w l k F e path version d HH Hi CF En Hv Fc Hc Hu Eh Df) as (_ & Ho & Fr).
  assert (R : result (extract e (Some path) version d) w = Ok m).
  { apply (C76_extracted_metadata H h sd P id w l ms k m e path version d HH Hd (or_intror CF) Em); auto. destruct Hv as [|[? ?]]; [auto|right; split; [auto|lia]]. }
  set (z := extract e (Some path) version d) in *. set (wz := after z w) in *. set (dst := dest_of (e_cwd e) d) in *.
  (* the metadata *)
  destruct (described_metas _ _ _ _ _ _ _ _ Hd m (nth_error_In _ _ Em)) as (now & m0 & Mo & Er).
  assert (Em_id : vm_id m = Some id) by now rewrite Er. assert (Em_msg : vm_message m = vm_message m0) by now rewrite Er. assert (Em_nm : vm_name m = vm_name m0) by now rewrite Er. assert (Em_ad : vm_address m = vm_address m0) by now rewrite Er.
  assert (Tx : exists name address, texts m name address).
  { destruct Mo as [_ _ M3 M4]. rewrite <- Em_nm in M3. rewrite <- Em_ad in M3, M4. destruct (vm_name m) as [nm|] eqn:E1.
    - destruct M3 as (s & -> & _). destruct (vm_address m) as [a|] eqn:E2; [destruct (M4 a eq_refl) as (t & -> & _); exists (Some s), (Some t)|exists (Some s), None]; split; auto.
    - exists None, None. split; auto. }
  destruct Tx as (name & address & Tx). pose proof Tx as [Tx1 Tx2].
  destruct (C55_round_trip rb mk m name address dated b d Bi Tx) as (created & Rb); [| |exact Eb|].
  { intros v [E|[E|E]]; apply Tv; [left; congruence|auto|]. right; right. rewrite Tx1, E. reflexivity. }
  { intros a E. apply Ta. rewrite Tx2, E. reflexivity. }
  assert (V : bag_valid b = true) by (unfold bag_extracted_version in Eb; apply ebind_ok in Eb as (tags & _ & Eb); exact (bi_valid _ _ Bi _ _ Eb)).
  destruct (proj2 (proj2 (C55_read d (Ok b) no_meta)) b eq_refl V) as (m' & Rb' & K). rewrite Rb in Rb'. apply Ok_inv in Rb'. apply pair_equal_spec in Rb' as [Em' _].
  pose proof (tk_bag_created _ _ _ K eq_refl) as Ec. rewrite <- Em' in Ec. cbn [vm_created] in Ec. clear m' K Em'.
  (* the first command *)
  assert (Et : exists tags, bag_tags m dated = Ok tags) by (unfold bag_extracted_version in Eb; apply ebind_ok in Eb as (tags & Et & _); eauto). destruct Et as [tags Et].
  destruct (Mb tags wz Et eq_refl) as (Rm & [B1 B2 B3]). set (w2 := after (mb d tags) wz) in *.
  assert (X : result x w = Ok m /\ w1 = w2).
  { unfold w1, x, ocfl_object_extract. cbn [andb]. fold z. rewrite (result_seq z _ w m R), (after_seq z _ w m R). fold wz. rewrite result_read, after_read. rewrite Et.
    rewrite (result_seq (mb d tags) _ wz tt Rm), (after_seq (mb d tags) _ wz tt Rm). split; reflexivity. }
  destruct X as [X1 X2]. clearbody w1. subst w1. split; [exact X1|].
  (* the second one *)
  set (m1 := mk_vmeta (vm_id m) created (vm_message m) (vm_name m) (vm_address m)) in *.
  set (c1 := mk_object (Some id) (o_cdir c) (o_alg c) (o_norm c) (o_spec c) (o_forward_delta c) (o_dedupe c) (o_lax c) (o_fixity c)).
  assert (Ey : result y w2 = result (create H c1 e (Some (path_join d (`"data"))) (Some m1) (Some op)) w2 /\ after y w2 = after (create H c1 e (Some (path_join d (`"data"))) (Some m1) (Some op)) w2).
  { unfold y, ocfl_object_create. rewrite result_read, after_read. assert (E : create_from_bag (o_id c) no_meta d (Ok b) = Ok (Some id, m1, path_join d (`"data"))).
    { unfold create_from_bag. rewrite Rb. cbn [ebind fst snd]. unfold m1 at 1. cbn [vm_id]. rewrite Em_id. destruct Hid as [->| ->]; [reflexivity|]. now rewrite str_eqb_refl. }
    rewrite E. split; reflexivity. }
  destruct Ey as [Y1 Y2]. rewrite Y1, Y2. clear Y1 Y2.
  assert (Fd : fname (`"data")) by (apply fname_b_ok; reflexivity). pose proof (dest_join (e_cwd e) d (`"data") Fd) as Dj. fold dst in Dj.
  assert (Fr2 : forall q, (forall z, q <> dst ++ z) -> look w2 q = look w q) by (intros q Hq; rewrite B3 by exact Hq; now apply Fr).
  assert (Mo1 : meta_ok (e_now e) m1).
  { destruct Mo as [_ M2 M3 M4]. split; unfold m1; cbn [vm_created vm_message vm_name vm_address].
    - rewrite Ec. unfold bag_time in Tt. destruct (dget _ (bag_info b)) as [t|]; cbn [option_map]; [|exact Tt].
      destruct (t ++ `"T00:00:00Z") eqn:E; [destruct t; discriminate E|exact Tt].
    - rewrite Em_msg. exact M2.
    - rewrite Em_nm, Em_ad. exact M3.
    - rewrite Em_ad. exact M4. }
  assert (So : settings_ok c1 e id m1) by (split; auto).
  rewrite <- Dj in B2. pose proof (history_nodup _ _ _ _ _ _ Hi F (nth_error_In _ _ En)) as Nf.
  destruct (create_files H c1 e w2 (path_join d (`"data")) op id m1 h2 F HH B1 Fc So (no_url_join _ _ Ud Fd) (new_place_kept _ _ _ _ _ _ Np Fr2 Ap) B2 Nf Us Ne) as (Rc & _ & Fr3).
  split; [exact Rc|]. split.
  - assert (Cc : create_call c1 e w2 (path_join d (`"data")) op id m1 h2).
    { split; auto; [now apply no_url_join|apply (holds_source _ _ _ F); auto| |exact (new_place_kept _ _ _ _ _ _ Np Fr2 Ap)]. destruct F as [|[es bb] F0]; [now destruct Ne|]. exists es, bb. apply (hl_files _ _ _ B2). now left. }
    assert (Er1 : recorded (e_now e) (Some id) m1 = mk_vmeta (Some id) (Some (bag_time (e_now e) b)) (vm_message m) (vm_name m) (vm_address m)).
    { unfold recorded, m1. cbn [vm_created vm_message vm_name vm_address]. f_equal. f_equal. rewrite Ec. unfold bag_time. destruct (dget _ (bag_info b)) as [t|]; cbn [option_map]; [|reflexivity]. destruct (t ++ `"T00:00:00Z") eqn:E; [destruct t; discriminate E|reflexivity]. }
    rewrite <- Er1. apply (d_created H h2 (o_spec c) (fun c' => o_alg c' = o_alg c) id c1 e w2 (path_join d (`"data")) op m1 F); auto.
    + intros c' Ac E. apply Hcd in E as [_ E]. apply E. now rewrite Ac.
    + now apply holds_files_at.
  - intros q Q1 Q2. rewrite Fr3 by exact Q2. now apply Fr2.
Qed.
Print Assumptions C75_bag.

(** The first version of the object of C76 as a bag and as an object again, with a bagit that
    writes the files once more below data. *)
Definition ex_make_bag (d : str) (tags : dict json) : io unit := fun w =>
  ([Mkdir [d; `"data"]; Mkdir [d; `"data"; `"d"];
    Create [d; `"data"; `"a"]; Append [d; `"data"; `"a"] (`"one"); Create [d; `"data"; `"d"; `"b"]; Append [d; `"data"; `"d"; `"b"] (`"two");
    Create [d; `"data"; `"d"; `"c"]; Append [d; `"data"; `"d"; `"c"] (`"one"); Create [d; `"bag-info.txt"]], Ok tt).
Definition entries (n : node) : list (str * node) := match n with Dir d => d | _ => [] end.
Lemma last_entry d k x x' q : (forall y, q <> [k] ++ y) -> look (Dir (d ++ [(k, x')])) q = look (Dir (d ++ [(k, x)])) q.
Proof.
  intros Hq. destruct q as [|c q]; [reflexivity|]. assert (Ne : str_eqb c k = false) by (apply str_eqb_neq; intros ->; exact (Hq q eq_refl)).
  unfold look. cbn [get]. rewrite !dget_app. cbn [dget]. rewrite Ne. reflexivity.
Qed.
Definition ex_files1 : list (place * bytes) := [([`"a"], `"one"); ([`"d"; `"b"], `"two"); ([`"d"; `"c"], `"one")].
Definition ex_data : node := Dir [(`"d", Dir [(`"b", File (`"two")); (`"c", File (`"one"))]); (`"a", File (`"one"))].
Lemma ex_data_holds w p : get w p = Ok ex_data -> holds w p ex_files1.
Proof.
  intros G. split.
  - unfold look. rewrite G. reflexivity.
  - intros r b I. rewrite look_app, G. destruct I as [I|[I|[I|[]]]]; apply pair_equal_spec in I as [<- <-]; reflexivity.
  - intros r en Hr L. rewrite look_app, G in L. destruct r as [|k r]; [destruct (Hr eq_refl)|]. unfold look, ex_data in L. cbn [get dget] in L.
    destruct (str_eqb_spec k (`"d")) as [->|_].
    + destruct r as [|k2 r]; [exists [`"b"], (`"two"); right; left; reflexivity|]. cbn [get dget] in L. destruct (str_eqb_spec k2 (`"b")) as [->|_]; [destruct r; [|discriminate L]; exists [], (`"two"); right; left; reflexivity|].
      destruct (str_eqb_spec k2 (`"c")) as [->|_]; [|discriminate L]. destruct r; [|discriminate L]; exists [], (`"one"); right; right; left; reflexivity.
    + destruct (str_eqb_spec k (`"a")) as [->|_]; [|discriminate L]. destruct r; [|discriminate L]. exists [], (`"one"). left; reflexivity.
Qed.
Example C75_bag_ex :
  let m := recorded (e_now ex_env) (Some (`"info:a")) ex_meta in
  let w1 := after (ocfl_object_extract ex_make_bag ex_env (`"o") (`"v1") None (Some (`"new")) false) ex_two in
  exists b, nth_error ex_files 0 = Some ex_files1 /\ bag_extracted_version ex_make m false = Ok b /\
  described toy_hash [`"o2"] (`"1.1") (fun c' => o_alg c' = `"sha256") (`"info:a")
    (after (ocfl_object_create toy_hash (ex_c (`"sha256")) ex_env None (Some (`"new")) (Ok b) no_meta (Some (`"o2"))) w1) [ex_files1]
    [mk_vmeta (Some (`"info:a")) (Some (`"2026-11-17T00:00:00Z")) (Some (`"m")) (Some (JStr (`"n"))) (Some (JStr (`"mailto:a@b.c")))].
Proof.
  intros m w1. assert (CF : collision_free toy_hash ex_any (firstn 1 ex_files ++ [files_in ex_created [`"s2"]])).
  { assert (E : firstn 1 ex_files ++ [files_in ex_created [`"s2"]] = firstn 2 ex_files) by (vm_compute; reflexivity). rewrite E. apply (collision_free_app _ _ _ (skipn 2 ex_files)). rewrite firstn_skipn. exact ex_collision_free. }
  assert (EF : nth_error ex_files 0 = Some ex_files1) by (vm_compute; reflexivity).
  assert (Eb : exists b, bag_extracted_version ex_make m false = Ok b /\ bag_time (e_now ex_env) b = `"2026-11-17T00:00:00Z") by (eexists; split; [vm_compute; reflexivity|vm_compute; reflexivity]). destruct Eb as (b & Eb & Et).
  exists b. split; [exact EF|]. split; [exact Eb|].
  assert (Df : dest_free ex_two (dest_of (e_cwd ex_env) (`"new"))) by (left; split; vm_compute; reflexivity).
  assert (E1 : nth_error (firstn 1 ex_files ++ [files_in ex_created [`"s2"]]) 0 = Some ex_files1) by (vm_compute; reflexivity).
  assert (Hc : look ex_two (e_cwd ex_env) = Some EDir) by (vm_compute; reflexivity). assert (Fc : Forall fname (e_cwd ex_env)) by constructor.
  assert (U1 : no_url (`"o")) by (apply no_url_b_ok; reflexivity). assert (U2 : no_url (`"new")) by (apply no_url_b_ok; reflexivity).
  assert (Nn : `"new" <> []) by discriminate.
  assert (Mb : forall tags wz, bag_tags m false = Ok tags -> wz = after (extract ex_env (Some (`"o")) (`"v1") (`"new")) ex_two ->
     result (ex_make_bag (`"new") tags) wz = Ok tt /\ bagged wz (after (ex_make_bag (`"new") tags) wz) (dest_of (e_cwd ex_env) (`"new")) ex_files1).
  { clear. intros tags wz _ ->. split; [reflexivity|]. set (wz := after (extract ex_env (Some (`"o")) (`"v1") (`"new")) ex_two). set (w' := after (ex_make_bag (`"new") tags) wz).
    change (dest_of (e_cwd ex_env) (`"new")) with [`"new"]. split.
    - apply tree_b_ok. vm_compute. reflexivity.
    - apply ex_data_holds. vm_compute. reflexivity.
    - set (d := removelast (entries wz)).
      assert (W1 : exists x, wz = Dir (d ++ [(`"new", x)])) by (exists (snd (last (entries wz) (`"", wz))); vm_compute; reflexivity).
      assert (W2 : exists x, w' = Dir (d ++ [(`"new", x)])) by (exists (snd (last (entries w') (`"", w'))); vm_compute; reflexivity).
      clearbody wz w' d. destruct W1 as [x1 ->], W2 as [x2 ->]. intros q Hq. apply last_entry. exact Hq. }
  assert (Tv : forall v, v = `"info:a" \/ vm_message m = Some v \/ vm_name m = Some (JStr v) -> v <> [] /\ ex_read v = v).
  { clear. intros v [->|[E|E]]; [split; [discriminate|vm_compute; reflexivity]| |]; vm_compute in E; injection E as <-; (split; [discriminate|vm_compute; reflexivity]). }
  assert (Ta : forall a, vm_address m = Some (JStr a) -> exists x, a = `"mailto:" ++ x /\ ex_read x = x).
  { clear. intros a E. vm_compute in E. injection E as <-. exists (`"a@b.c"). split; vm_compute; reflexivity. }
  assert (Tt : r_created as_coded (bag_time (e_now ex_env) b) /\ text (bag_time (e_now ex_env) b)).
  { rewrite Et. clear. apply created_b_ok. vm_compute. reflexivity. }
  assert (Us : usable (o_norm (ex_c (`"sha256"))) ex_files1).
  { clear. intros es bb Hi. repeat (destruct Hi as [Hi|Hi]; [apply pair_equal_spec in Hi as [<- _]; repeat constructor; cbn; intuition discriminate|]). destruct Hi. }
  assert (Np : new_place (e_cwd ex_env) ex_two (`"o2") [`"o2"]).
  { clear. constructor; [now apply no_url_b_ok|reflexivity|]. exists [], (`"o2"). split; [reflexivity|]. split; [now left|]. left. split; [now apply fname_b_ok|]. split; vm_compute; reflexivity. }
  assert (Ap : apart [`"o2"] (dest_of (e_cwd ex_env) (`"new"))) by (split; intros z Z; discriminate Z).
  destruct ex_create_call as [_ _ S1 S2 _ S3 _ _ _ _].
  pose proof (C75_bag toy_hash [`"o"] (`"1.1") ex_any (`"info:a") ex_two _ _ 0 ex_files1 m ex_env (`"o") (`"v1") (`"new") ex_make_bag ex_read ex_make false b (ex_c (`"sha256")) (`"o2") [`"o2"]
    toy_hash_ok ex_described CF E1 eq_refl (or_introl eq_refl) Fc Hc U1 eq_refl U2 Nn Df ex_bagit Eb Mb Tv Ta Tt ltac:(discriminate) Us (or_intror eq_refl) S1 S2 S3 Np Ap) as (_ & _ & X & _).
  rewrite Et in X. exact X.
Qed.
