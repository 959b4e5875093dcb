(** What creating an object writes (C34). *)
From Coq Require Import Permutation Sorted.
From Verif Require Import Base Unicode Regex Utf8 Json PyJson JsonTextModel JsonTextSpec JsonTextProofs JsonFileProofs Log DigestModel LayoutModel LayoutProofs
  ObjectUtilsModel ObjectUtilsProofs InventorySpec InventoryValidatorModel InventoryValidatorProofs InventoryRulesProofs
  InventoryModel InventoryOpsSpec InventoryOpsProofs NewVersionModel NewVersionProofs NewVersionOpsProofs VersionNumberProofs InventoryParseProofs ParseModel
  ContentPathProofs TextFile PathModel FsModel FsSpec FsProofs FswModel FswSpec FswProofs FswCopyProofs ValidatorSpec ValidatorBasicProofs ObjectModel ObjectSpec ObjectInvProofs ObjectRulesProofs
  ObjectParseProofs ObjectAddProofs ContentNameProofs ObjectGrowProofs ObjectStartProofs ObjectCopyProofs ObjectWriteProofs ObjectSourceProofs ObjectFactsProofs NamasteSpec ValidatorVersionProofs ObjectMadeProofs ObjectIntactProofs ObjectExtendProofs FsStepProofs NamasteModel NamasteProofs ObjectStoreProofs.

Lemma fname_decl spec : In spec [`"1.0"; `"1.1"] -> fname (decl_name spec).
Proof. intros [<-|[<-|[]]]; apply fname_b_ok; reflexivity. Qed.

Lemma placed_ext w h L L' w' : (forall r b, In (r, b) L <-> In (r, b) L') -> placed w h L w' -> placed w h L' w'.
Proof.
  intros E (P1 & P2 & P3). split; [|split].
  - intros r b Hi. apply P1, E, Hi.
  - intros r b q x Hi. apply (P2 r b q x), E, Hi.
  - intros q Hq. apply P3. intros r b x Hi. apply (Hq r b x), E, Hi.
Qed.

(** Nothing that was there is changed and everything else is below the place. *)
Definition adds_below (w : node) (h : place) (w' : node) : Prop :=
  (forall q e, look w q = Some e -> look w' q = Some e) /\ (forall q, (forall x, q <> h ++ x) -> look w' q = look w q).
Lemma placed_below w h L w' : room w h L -> look w h = Some EDir -> placed w h L w' -> adds_below w h w'.
Proof.
  intros R Hd P. split; [intros q e Hq; exact (placed_keep _ _ _ _ _ _ R P Hq)|]. intros q Hq. destruct (above_dec h q L) as [(r & b & x & Hi & E)|Hn].
  - destruct (app_prefix_cases h r q x E) as [[y ->]|(y & -> & _)]; [|now destruct (Hq y)].
    assert (Hl : look w q = Some EDir) by (destruct y as [|c y]; [now rewrite app_nil_r in Hd|]; apply (look_above w q c y); rewrite Hd; discriminate).
    rewrite Hl. exact (placed_keep _ _ _ _ _ _ R P Hl).
  - destruct P as (_ & _ & P3). now apply P3.
Qed.

Section Create.
  Variables (H : hashfn) (alg spec : str) (i0 : inventory) (norm : option str) (fd dd : bool) (old : option str)
    (F : list (list str * bytes)) (nv : new_version) (K : list (str * (place * bytes))) (w : node) (h src : place).
  Hypothesis HH : hash_ok H.
  Hypothesis Hh : Forall fname h.
  Hypothesis G : growing H alg spec 1 i0 norm fd dd old F nv.
  Hypothesis Kc : copied norm (vn 1) (content_directory_to_use i0) F (nv_copy nv) K.
  Hypothesis A1 : content_directory_to_use i0 <> inv_name.
  Hypothesis A2 : content_directory_to_use i0 <> side_name alg.
  Hypothesis He : holds w h [].
  Hypothesis Hs : forall s r b, In (s, (r, b)) K -> look w (at_path src s) = Some (EFile b).

  Definition create_writes : io inventory :=
    write_inventory_and_sidecar H alg h (Some (nv_inv nv)) (`"v1") ;;
    write_object_declaration spec h ;;
    write_inventory_and_sidecar H alg h (Some (nv_inv nv)) [] ;;
    copy_files h src (nv_copy nv) ;;
    iret (nv_inv nv).

  Let i := nv_inv nv.
  Let D := [([decl_name spec], decl_text spec)].
  Let R0 := D ++ inv_files H alg i [].
  Let V := inv_files H alg i [vn 1] ++ map snd K.

  Lemma root_case r b : In (r, b) R0 -> exists k, r = [k] /\ fname k /\ (k = decl_name spec \/ k = inv_name \/ k = side_name alg).
  Proof using G.
    pose proof (gw_sound _ _ _ _ _ _ _ _ _ _ _ G) as So. unfold R0, D, inv_files. cbn [app In]. intros [E|[E|[E|[]]]]; injection E as <- _.
    - exists (decl_name spec). split; [auto|]. split; [apply fname_decl, (so_spec _ _ _ _ So)|auto].
    - exists inv_name. split; [auto|]. split; [exact fname_inv|auto].
    - exists (side_name alg). split; [auto|]. split; [apply fname_side, algs_no_slash, (so_algs _ _ _ _ So)|auto].
  Qed.
  Lemma root_not_vn k m : k = decl_name spec \/ k = inv_name \/ k = side_name alg -> k <> vn m.
  Proof using. destruct (vn_starts m) as [x ->]. intros [-> | [-> | ->]]; discriminate. Qed.

  Lemma create_room : room w h (R0 ++ V).
  Proof using G Kc A1 A2 He.
    assert (Hn : forall v, look w (h ++ [v]) = None).
    { intros v. destruct (look w (h ++ [v])) eqn:E; [|auto]. apply (hl_only _ _ _ He) in E as (x & b & []); discriminate. }
    apply room_fresh; [apply He| | |].
    - intros r b Hi. apply in_app_or in Hi as [Hi|Hi].
      + destruct (root_case r b Hi) as (k & -> & Fk & _). exists k, []. auto.
      + destruct (new_case H alg spec 1 i0 norm fd dd old F nv K G Kc r b Hi) as [Fr _]. destruct (new_below H alg spec 1 i0 norm fd dd old F nv K G Kc r b Hi) as (c & r' & ->). eauto.
    - rewrite map_app. apply NoDup_app_iff. split; [|split].
      + unfold R0, D, inv_files. cbn [app map fst]. constructor; [|constructor; [|constructor; [intros []|constructor]]].
        * intros [E|[E|[]]]; discriminate (f_equal (fun l => hd [] l) E).
        * intros [E|[]]. exact (side_not_inv_name alg (f_equal (hd []) E)).
      + exact (new_nodup H alg spec 1 i0 norm fd dd old F nv K G Kc A1 A2).
      + intros r H1 H2. apply in_map_iff in H1 as ([r0 b] & E & H1). cbn [fst] in E. subst r0. apply in_map_iff in H2 as ([r0 b'] & E & H2). cbn [fst] in E. subst r0.
        destruct (root_case r b H1) as (k & -> & _). destruct (new_below H alg spec 1 i0 norm fd dd old F nv K G Kc _ _ H2) as (c & r' & E). discriminate.
    - intros r b r' b' x H1 H2 E. apply in_app_or in H1 as [H1|H1]; apply in_app_or in H2 as [H2|H2].
      + destruct (root_case _ _ H1) as (k & -> & _). destruct (root_case _ _ H2) as (k' & -> & _). cbn [app] in E. now injection E.
      + destruct (root_case _ _ H1) as (k & -> & _ & Hk). destruct (new_below H alg spec 1 i0 norm fd dd old F nv K G Kc _ _ H2) as (c & r0 & ->).
        exfalso. apply (root_not_vn k 1 Hk). exact (eq_sym (f_equal (hd []) E)).
      + destruct (root_case _ _ H2) as (k & -> & _). destruct (new_below H alg spec 1 i0 norm fd dd old F nv K G Kc _ _ H1) as (c & r0 & ->). discriminate.
      + exact (new_apart H alg spec 1 i0 norm fd dd old F nv K G Kc A1 A2 _ _ _ _ _ H1 H2 E).
  Qed.

  Lemma room_perm L L' : Permutation L L' -> room w h L -> room w h L'.
  Proof using.
    intros P [a1 a2 a3 a4 a5]. assert (E : forall r b, In (r, b) L' -> In (r, b) L) by (intros r b; apply Permutation_in, Permutation_sym, P). constructor; eauto.
    eapply Permutation_NoDup; [|exact a2]. now apply Permutation_map.
  Qed.

  Theorem create_writes_ok : result create_writes w = Ok i /\ placed w h (R0 ++ V) (after create_writes w) /\
    holds (after create_writes w) h (object_files H spec 1 (fun _ => alg) (fun _ => i) (map snd K)) /\ adds_below w h (after create_writes w).
  Proof using HH Hh G Kc A1 A2 He Hs.
    pose proof (gw_sound _ _ _ _ _ _ _ _ _ _ _ G) as So. pose proof (so_algs _ _ _ _ So) as Ha. pose proof (sound_writable _ _ _ _ So) as Wr. fold i in So, Wr.
    set (L1 := inv_files H alg i [vn 1]). set (L3 := inv_files H alg i []). set (L4 := map snd K).
    assert (Pm : Permutation (R0 ++ V) (L1 ++ D ++ L3 ++ L4)).
    { unfold R0, V. fold L1 L3 L4. rewrite <- !app_assoc. rewrite (Permutation_app_comm L1 (D ++ L3 ++ L4)). rewrite <- !app_assoc. apply Permutation_app_head, Permutation_app_head, Permutation_app_comm. }
    pose proof (room_perm _ _ Pm create_room) as R.
    assert (Nf : forall r b, In (r, b) (L1 ++ D ++ L3 ++ L4) -> r <> []) by (intros r b Hi; apply (rm_names _ _ _ R r b Hi)).
    assert (Hd : look w h = Some EDir) by apply He.
    destruct (write_version_placed H alg h i (`"v1") w HH Ha Hh (vn_fname 1) Wr Hd) as [[s1 R1] P1].
    { destruct (look w (h ++ [`"v1"])) eqn:E; [|auto]. apply (hl_only _ _ _ He) in E as (x & b & []). discriminate. }
    set (x1 := write_inventory_and_sidecar H alg h (Some i) (`"v1")) in *. set (w1 := after x1 w) in *. change (placed w h L1 w1) in P1.
    pose proof (room_app _ _ _ _ _ R P1) as Q1. pose proof (room_prefix _ _ _ _ R) as Q0. pose proof (placed_keep _ _ _ _ _ _ Q0 P1 Hd) as Hd1.
    destruct (write_declaration_ok spec h w1 (so_spec _ _ _ _ So) Hh Hd1) as [R2 P2]; [apply (rm_free _ _ _ Q1 [decl_name spec] (decl_text spec)); now left|].
    set (x2 := write_object_declaration spec h) in *. set (w2 := after x2 w1) in *. change (placed w1 h D w2) in P2.
    pose proof (room_app _ _ _ _ _ Q1 P2) as Q2. pose proof (placed_keep _ _ _ _ _ _ (room_prefix _ _ _ _ Q1) P2 Hd1) as Hd2.
    destruct (write_inventory_placed H alg h i [] w2 HH Ha Hh (Forall_nil _) Wr) as [[s3 R3] P3].
    { now rewrite app_nil_r. }
    { eapply (rm_free _ _ _ Q2 [inv_name]). apply in_or_app. left. left. reflexivity. }
    { eapply (rm_free _ _ _ Q2 [side_name alg]). apply in_or_app. left. right. left. reflexivity. }
    change (join [slash] []) with (@nil N) in R3, P3. set (x3 := write_inventory_and_sidecar H alg h (Some i) []) in *. set (w3 := after x3 w2) in *.
    pose proof (room_app _ _ _ _ _ Q2 P3) as Q3.
    pose proof (placed_app _ _ _ _ _ _ (room_prefix _ _ _ _ (eq_ind _ (room w1 h) Q1 _ (app_assoc D L3 L4))) P2 P3) as P23.
    assert (R' : room w h ((L1 ++ D ++ L3) ++ L4)) by (rewrite <- !app_assoc; exact R).
    pose proof (placed_app _ _ _ _ _ _ (room_prefix _ _ _ _ R') P1 P23) as P13.
    destruct (copy_files_ok h src K Hh w3 Q3) as [R4 P4].
    { intros s r b Hi. exact (placed_keep _ _ _ _ _ _ (room_prefix _ _ _ _ R') P13 (Hs s r b Hi)). }
    match type of R4 with result (copy_files _ _ ?m) _ = _ => assert (Ek : m = nv_copy nv) by exact (eq_sym (cp_files _ _ _ _ _ _ Kc)) end.
    rewrite Ek in R4, P4. clear Ek. set (x4 := copy_files h src (nv_copy nv)) in *. set (w4 := after x4 w3) in *.
    pose proof (placed_app _ _ _ _ _ _ R' P13 P4) as P14.
    assert (Er : result create_writes w = Ok i /\ after create_writes w = w4).
    { unfold create_writes. change (nv_inv nv) with i. fold x1 x2 x3 x4.
      rewrite (result_seq x1 _ w s1 R1), (after_seq x1 _ w s1 R1). change (after x1 w) with w1. rewrite (result_seq x2 _ w1 tt R2), (after_seq x2 _ w1 tt R2). change (after x2 w1) with w2.
      rewrite (result_seq x3 _ w2 s3 R3), (after_seq x3 _ w2 s3 R3). change (after x3 w2) with w3. rewrite (result_seq x4 _ w3 tt R4), (after_seq x4 _ w3 tt R4). auto. }
    destruct Er as [-> ->].
    assert (Pf : placed w h (R0 ++ V) w4).
    { refine (placed_ext _ _ _ _ _ _ P14). intros r b. rewrite <- !app_assoc. split; apply Permutation_in; [apply Permutation_sym|]; exact Pm. }
    split; [auto|]. split; [auto|]. split; [|exact (placed_below _ _ _ _ create_room Hd Pf)].
    pose proof (placed_holds _ _ _ _ _ He create_room Pf) as Hl. eapply holds_ext; [exact Hl|]. intros r b. unfold object_files, R0, V, D. cbn [seq flat_map].
    rewrite app_nil_r. cbn [app]. reflexivity.
  Qed.
End Create.

(** ** The place of a new object *)

Lemma path_parts cwd p k : Forall fname cwd -> (p = [] \/ last_opt p = Some PathModel.slash) -> (k = [] \/ fname k) ->
  exists p', path_split (p ++ k) = (p', k) /\ at_path (base_of cwd p') p' = at_path (base_of cwd (p ++ k)) p /\
    base_of cwd p' = base_of cwd (p ++ k).
Proof.
  intros Hc Hp Hk. assert (Hs : ~ In PathModel.slash k) by (destruct Hk as [->|Hk]; [intros []|apply Hk]).
  rewrite (path_split_name p k Hs Hp). match goal with |- exists p', (?m, _) = _ /\ _ => set (pp := m); exists pp end. split; [reflexivity|].
  assert (B : base_of cwd pp = base_of cwd (p ++ k)).
  { unfold base_of, pp. destruct (rstrip_slash p) as [|x q] eqn:E.
    - destruct p as [|c p]; [|reflexivity]. cbn [app]. destruct k as [|c k]; [reflexivity|]. unfold startswith. cbn [startswith].
      destruct (N.eqb_spec PathModel.slash c) as [<-|]; [exfalso; apply Hs; now left|]. reflexivity.
    - destruct (rstrip_split p) as [m Em]. rewrite E in Em. rewrite Em. reflexivity. }
  split; [|exact B]. rewrite B. unfold pp. destruct (rstrip_slash p) as [|x q] eqn:E; [reflexivity|]. rewrite <- E. apply at_path_rstrip.
Qed.
Lemma path_whole h p k : (p = [] \/ last_opt p = Some PathModel.slash) -> fname k -> Forall fname h -> at_path h (p ++ k) = at_path h p ++ [k].
Proof.
  intros Hp Hk Hh. rewrite <- (at_path_name h p k Hk). f_equal. rewrite path_join_name by auto. destruct Hp as [->|Hp]; [reflexivity|]. rewrite Hp.
  now rewrite N.eqb_refl.
Qed.

Lemma parent_above w h k : look w (h ++ [k]) <> None -> look w h = Some EDir.
Proof. intros Hl. now apply (look_above w h k []). Qed.

Lemma open_obj_catch e d c w : after (open_obj_fs e (Some d) c) w = after (fsw_openfs (e_cwd e) d c true) w /\
  (forall h, result (fsw_openfs (e_cwd e) d c true) w = Ok h -> result (open_obj_fs e (Some d) c) w = Ok h) /\
  (result (fsw_openfs (e_cwd e) d c true) w = Raise FileNotFoundError -> result (open_obj_fs e (Some d) c) w = Raise ObjectException).
Proof.
  unfold after, result, open_obj_fs. destruct (fsw_openfs (e_cwd e) d c true w) as [s [a|x]]; cbn [fst snd]; [split; [auto|]; split; [auto|discriminate]|].
  destruct x; cbn [fst snd]; (split; [auto|]; split; [discriminate|]; intros E; (discriminate E || auto)).
Qed.

Lemma open_new e w path h : Forall fname (e_cwd e) -> tree w -> new_place (e_cwd e) w path h ->
  let x := open_obj_fs e (Some path) true in
  result x w = Ok h /\ holds (after x w) h [] /\ (forall q, q <> h -> look (after x w) q = look w q) /\ Forall fname h /\ tree (after x w).
Proof.
  intros Hc Tw [N1 N2 (p & k & -> & Hp & N4)] x.
  assert (Hk : k = [] \/ fname k) by (destruct N4 as [[? _]|[? _]]; auto).
  assert (Hb : Forall fname (base_of (e_cwd e) (p ++ k))) by (unfold base_of; destruct (startswith _ _); [constructor|auto]).
  assert (Fh : Forall fname h) by (rewrite N2; now apply at_path_fnames).
  destruct (path_parts (e_cwd e) p k Hc Hp Hk) as (p' & Es & Ea & Eb).
  set (P := at_path (base_of (e_cwd e) p') p') in *.
  assert (FP : Forall fname P) by (rewrite Ea; now apply at_path_fnames).
  assert (Eh : at_path P k = h).
  { rewrite N2. destruct Hk as [->|Fk]; [rewrite at_path_nil by auto; rewrite Ea; f_equal; now rewrite app_nil_r|]. rewrite path_whole by auto. rewrite <- Ea. now apply at_path_one. }
  assert (HP : fs_isdir w (base_of (e_cwd e) p') p' = true).
  { apply fs_isdir_look. fold P. destruct Hk as [->|Fk].
    - rewrite at_path_nil in Eh by auto. rewrite Eh. destruct N4 as [[[F _] _]|(_ & ? & _)]; [now destruct F|auto].
    - rewrite (at_path_one P k FP Fk) in Eh. destruct N4 as [(_ & _ & Hd)|(_ & Hd & _)]; [assert (Er : removelast h = P) by (rewrite <- Eh; apply List.removelast_last); now rewrite Er in Hd|].
      apply (parent_above w P k). rewrite Eh, Hd. discriminate. }
  set (y := (if fs_exists w P k then iret tt else fs_makedir P k)).
  set (x0 := fsw_openfs (e_cwd e) (p ++ k) true true).
  assert (Ex : forall s, result y w = Ok s -> result x0 w = Ok h /\ after x0 w = after y w).
  { intros s Es'. unfold x0, fsw_openfs. rewrite split_url_none by auto. cbv beta iota. rewrite Es. change (str_eqb (`"file") (`"file")) with true. cbv iota.
    change (if startswith [PathModel.slash] p' then [] else e_cwd e) with (base_of (e_cwd e) p'). fold P. rewrite Eh.
    rewrite result_read, after_read. cbv beta. rewrite HP. rewrite result_read, after_read. cbv beta iota. 
    change (if true then iret tt else iraise FswException) with (@iret unit tt). fold y. rewrite (result_seq y _ w s Es'), (after_seq y _ w s Es'). auto. }
  destruct (open_obj_catch e (p ++ k) true w) as (O1 & O2 & _). fold x x0 in O1, O2.
  destruct N4 as [(Fk & Hno & Hd)|(_ & Hd & Hemp)].
  - rewrite (at_path_one P k FP Fk) in Eh. assert (Er : removelast h = P) by (rewrite <- Eh; apply List.removelast_last). rewrite Er in Hd. destruct (makedir_one w P k FP Fk Hd) as [R1 C1]; [now rewrite Eh|].
    assert (Ey : y = fs_makedir P k) by (unfold y; assert (Ee : fs_exists w P k = false) by (apply fs_exists_false; rewrite (at_path_one P k FP Fk), Eh; exact Hno); now rewrite Ee).
    rewrite <- Ey in R1, C1. destruct (Ex tt R1) as [X1 X2]. rewrite O1, X2. rewrite Eh in C1. split; [now apply O2|]. split.
    { apply holds_empty; [exact (changes_at _ _ _ _ C1)|]. intros r Hr. rewrite (changes_other _ _ _ _ _ C1).
      - apply look_below_leaf; [auto|]. rewrite Hno. discriminate.
      - intros E. rewrite <- (app_nil_r h) in E at 2. apply app_inv_head in E. contradiction. }
    split; [intros q Hq; exact (changes_other _ _ _ _ _ C1 Hq)|]. split; [auto|]. apply tree_after; [auto|]. rewrite Ey. now apply named_makedir.
  - assert (Ee : fs_exists w P k = true) by (apply fs_exists_look; rewrite Eh, Hd; discriminate).
    assert (Ey : y = iret tt) by (unfold y; now rewrite Ee). destruct (Ex tt) as [X1 X2]; [now rewrite Ey|]. rewrite O1, X2, Ey. change (after (iret tt) w) with w.
    split; [now apply O2|]. split; [now apply holds_empty|]. auto.
Qed.

Lemma open_there cwd path w : no_url path -> look w (at_path (base_of cwd path) path) = Some EDir ->
  result (fsw_openfs cwd path false true) w = Ok (at_path (base_of cwd path) path) /\ after (fsw_openfs cwd path false true) w = w.
Proof.
  intros Hu Hl. unfold fsw_openfs. rewrite split_url_none by auto. change (str_eqb (`"file") (`"file")) with true. cbv iota.
  change (if startswith [PathModel.slash] path then [] else cwd) with (base_of cwd path). rewrite result_read, after_read. cbv beta.
  apply fs_isdir_look in Hl. rewrite Hl. auto.
Qed.

Lemma files_names w src F : tree w -> look w src = Some EDir -> files_at w src F -> forall es b, In (es, b) F -> es <> [] /\ Forall fname es.
Proof.
  intros Tw Hd [_ Fa] es b Hi. apply Fa in Hi. split.
  - intros ->. rewrite app_nil_r in Hi. assert (E : Some EDir = Some (EFile b)) by (rewrite <- Hd; exact Hi). discriminate E.
  - assert (Hf : Forall fname (src ++ es)) by (apply (look_fnames w); [auto|rewrite Hi; discriminate]). now apply Forall_app in Hf.
Qed.

(** What creating an object does. *)
Theorem create_made H c e w sp op id m src h : hash_ok H -> Forall fname (e_cwd e) -> tree w ->
  o_id c = Some id -> first_ok id (o_alg c) (o_spec c) (o_cdir c) (or_empty (o_fixity c)) -> meta_ok (e_now e) m ->
  In (o_norm c) [None; Some (`"uri"); Some (`"md5")] ->
  (forall cd, o_cdir c = Some cd -> cd <> inv_name /\ cd <> side_name (o_alg c)) ->
  no_url sp -> src = at_path (base_of (e_cwd e) sp) sp -> source_ok (o_norm c) w src -> (exists es b, look w (src ++ es) = Some (EFile b)) ->
  new_place (e_cwd e) w op h ->
  let x := create H c e (Some sp) (Some m) (Some op) in
  exists F nv i0 K, files_at w src F /\ growing H (o_alg c) (o_spec c) 1 i0 (o_norm c) false (o_dedupe c) None F nv /\
    copied (o_norm c) (vn 1) (content_directory_to_use i0) F (nv_copy nv) K /\ (forall d p, ~ stored i0 d p) /\ (forall v d p, ~ in_state i0 v d p) /\
    i_id i0 = Some id /\ content_directory_to_use i0 = (match o_cdir c with Some cd => cd | None => DEFAULT_CONTENT_DIRECTORY end) /\
    full (nv_inv nv) /\ result x w = Ok (nv_inv nv) /\
    made H (after x w) h (o_spec c) 1 (fun _ => o_alg c) (fun _ => o_spec c) (fun _ => nv_inv nv) (map snd K) /\
    (forall q en, look w q = Some en -> look (after x w) q = Some en) /\ (forall q, (forall y, q <> h ++ y) -> look (after x w) q = look w q).
Proof.
  intros HH Hc Tw Hid Fo Mo Hn Hcd Hu Es Sk Hf Np x. pose proof (sk_dir _ _ _ Sk) as Hd. rewrite Es in Hd.
  destruct (open_there (e_cwd e) sp w Hu Hd) as [Q1 Q2]. rewrite <- Es in Q1, Hd.
  destruct (first_start id (o_alg c) (o_spec c) (o_cdir c) (as_dict (e_now e) m) (o_dedupe c) (or_empty (o_fixity c)) (o_norm c) Fo (meta_block _ _ Mo) eq_refl)
    as (i & E1 & B1 & B2 & B3 & B4 & B5 & B6 & B7 & B8).
  destruct (from_srcdir_first H (o_alg c) (o_spec c) i (o_norm c) (o_dedupe c) w src HH Hn B1 B2 B3 B4 B5 Tw Sk Hf) as (F & nv & E2 & Fa & G).
  set (i0 := blank (`"v1") i) in *. assert (Ec : content_directory_to_use i0 = match o_cdir c with Some cd => cd | None => DEFAULT_CONTENT_DIRECTORY end).
  { rewrite <- B8. destruct B4 as [vb Hv]. unfold i0, blank, set_state, update_version. rewrite Hv. reflexivity. }
  assert (Ei : i_id i0 = Some id) by (rewrite <- B6; destruct B4 as [vb Hv]; unfold i0, blank, set_state, update_version; rewrite Hv; reflexivity).
  assert (Em : manifest i0 = []) by (unfold i0, blank; rewrite manifest_set_state; unfold manifest; now rewrite B5).
  destruct (copied_exists _ _ _ _ _ _ _ _ _ _ _ G) as [K Kc]. change (version_fmt None (N.of_nat 1)) with (vn 1) in Kc.
  pose proof (files_names w src F Tw Hd Fa) as Nf. pose proof (proj1 Fa) as Nd.
  assert (A : content_directory_to_use i0 <> inv_name /\ content_directory_to_use i0 <> side_name (o_alg c)).
  { rewrite Ec. destruct (o_cdir c) as [cd|] eqn:Ed; [now apply Hcd|]. split; discriminate. }
  destruct A as [A1 A2]. destruct (open_new e w op h Hc Tw Np) as (O1 & O2 & O3 & O4 & O5). set (y := open_obj_fs e (Some op) true) in *. set (w1 := after y w) in *.
  assert (Keep : forall q en, look w q = Some en -> look w1 q = Some en).
  { intros q en Hq. destruct (place_eq_dec q h) as [->|Hne]; [|now rewrite O3]. rewrite (hl_dir _ _ _ O2). destruct (np_free _ _ _ _ Np) as (p & k & _ & _ & [(_ & F1 & _)|(_ & F1 & _)]); rewrite F1 in Hq; congruence. }
  assert (Fs : Forall fname src) by (apply (look_fnames w); [auto|rewrite Hd; discriminate]).
  assert (Hs : forall s r b, In (s, (r, b)) K -> look w1 (at_path src s) = Some (EFile b)).
  { intros s r b Hi. destruct (cp_each _ _ _ _ _ _ Kc _ _ _ Hi) as (es & r' & Hie & -> & _). destruct (Nf _ _ Hie) as [_ Fe]. rewrite at_path_join by auto. apply Keep. now apply (proj2 Fa). }
  destruct (create_writes_ok H (o_alg c) (o_spec c) i0 (o_norm c) false (o_dedupe c) None F nv K w1 h src HH O4 G Kc A1 A2 O2 Hs) as (R & _ & Hl & Ad).
  assert (Ex : result x w = Ok (nv_inv nv) /\ after x w = after (create_writes H (o_alg c) (o_spec c) nv h src) w1).
  { unfold x, create. rewrite Hid. unfold open_src_fs. rewrite (result_seq _ _ w src Q1), (after_seq _ _ w src Q1), Q2. rewrite result_read, after_read. cbv beta.
    assert (Ef : first_of c e id (Some m) = Ok (mk_nv i (o_norm c) false (o_dedupe c) None [])) by exact E1. rewrite Ef. cbn [ebind]. rewrite E2.
    fold y. rewrite (result_seq y _ w h O1), (after_seq y _ w h O1). fold w1. split; [exact R|reflexivity]. }
  destruct Ex as [Ex1 Ex2]. exists F, nv, i0, K. rewrite Ex2.
  assert (No : forall p, ~ In p (paths_of (manifest i0))) by (rewrite Em; intros p []).
  split; [auto|]. split; [auto|]. split; [auto|].
  assert (Fu : full i0).
  { unfold i0, blank. apply set_state_full.
    - intros d l Hi. assert (manifest i = []) by (unfold manifest; now rewrite B5). rewrite H0 in Hi. destruct Hi.
    - intros d l [].
    - intros v st Hv (vs & b & X1 & X2 & _). rewrite B7 in X1. apply Some_inv in X1. subst vs. destruct X2 as [X2|[]]. exfalso. apply Hv. congruence.
    - intros vs X1. rewrite B7 in X1. apply Some_inv in X1. subst vs. constructor; [intros []|constructor]. }
  split; [|split; [|split; [auto|split; [auto|split; [exact (gw_full _ _ _ _ _ _ _ _ _ _ _ G Fu)|split; [auto|split]]]]]].
  - intros d p Hst. apply (No p). apply In_paths_of. exists d. now apply stored_iff.
  - intros v d p Hst. pose proof B2 as So. apply (in_state_iff _ _ _ _ (sound_dicts _ _ _ _ So)) in Hst. unfold i0, blank, state, versiondata, set_state, update_version in Hst. destruct B4 as [vb Hv]. rewrite Hv in Hst.
    unfold versions_block at 1, set_versions in Hst. cbn [i_versions or_empty] in Hst. destruct (str_eqb_spec v (`"v1")) as [->|Hne].
    + rewrite dget_dset_same in Hst. destruct Hst as (l & [] & _).
    + rewrite dget_dset_other in Hst by auto. unfold versions_block in Hst. rewrite B7 in Hst. cbn [or_empty dget] in Hst. apply str_eqb_neq in Hne. rewrite Hne in Hst. destruct Hst as (l & [] & _).
  - apply (made_first H _ h (o_alg c) (o_spec c) i0 (o_norm c) false (o_dedupe c) None F nv K); auto. apply tree_after; [auto|].
    unfold create_writes. apply steps_named_bind; [now apply named_write_inventory|]. intros _ _. apply steps_named_bind; [now apply named_declaration|]. intros _ _.
    apply steps_named_bind; [now apply named_write_inventory|]. intros _ _. apply steps_named_bind; [now apply named_copy_files|]. intros _ _. constructor.
  - destruct Ad as [Ad1 Ad2]. split; [intros q en Hq; apply Ad1, Keep, Hq|]. intros q Hq. rewrite Ad2 by auto. apply O3. intros ->. apply (Hq []). now rewrite app_nil_r.
Qed.
