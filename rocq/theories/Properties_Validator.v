(** C30, C31, C32, C33 and C59: validation of objects. *)
From Verif Require Import Base Unicode Regex Utf8 Json PyJson Log TextFile DigestModel ObjectUtilsModel LoggerModel Properties_Logger.
From Verif Require Import Properties_Layout.
From Verif Require Import InventorySpec InventoryValidatorModel InventoryRulesProofs.
From Verif Require Import PathModel FsModel FsSpec FsProofs FswModel FswSpec FswProofs FswCopyProofs NamasteModel NamasteSpec NamasteProofs.
From Verif Require Import ValidatorModel ValidatorSpec ValidatorBasicProofs ValidatorVersionProofs ValidatorFoldProofs ValidatorIntactProofs ValidatorDigestsOffProofs.
Open Scope N_scope.

(** * An object to look at

    Two versions; both add a file, the second has the file of the first too. *)

Definition text (s : str) : node := File s.
Definition hex (alg : str) (s : str) : str := toy_hash alg s.
Definition ex_sidecar (inv : str) : str := hex (`"sha256") inv ++ `" inventory.json" ++ [10].
Definition q (s : str) : str := [34] ++ s ++ [34].
Definition ex_d1 : str := hex (`"sha256") (`"one").
Definition ex_d2 : str := hex (`"sha256") (`"two").
Definition ex_time : str := q (`"created") ++ `":" ++ q (`"2020-01-02T03:04:05Z") ++ `"," ++ q (`"message") ++ `":" ++ q (`"m") ++ `"," ++
  q (`"user") ++ `":{" ++ q (`"name") ++ `":" ++ q (`"n") ++ `"," ++ q (`"address") ++ `":" ++ q (`"mailto:a@b.c") ++ `"}".
Definition ex_inventory_with (spec head manifest states extra : str) : str :=
  `"{" ++ q (`"id") ++ `":" ++ q (`"info:a") ++ `"," ++ q (`"type") ++ `":" ++ q (`"https://ocfl.io/" ++ spec ++ `"/spec/#inventory") ++ `"," ++
  q (`"digestAlgorithm") ++ `":" ++ q (`"sha256") ++ `"," ++ q (`"head") ++ `":" ++ q head ++ `"," ++ q (`"manifest") ++ `":{" ++ manifest ++ `"}," ++
  q (`"versions") ++ `":{" ++ states ++ `"}" ++ extra ++ `"}".
Definition ex_version (v state : str) : str := q v ++ `":{" ++ ex_time ++ `"," ++ q (`"state") ++ `":{" ++ state ++ `"}}".
Definition ex_entry (d p : str) : str := q d ++ `":[" ++ q p ++ `"]".
Definition ex_inv1 : str := ex_inventory_with (`"1.1") (`"v1") (ex_entry ex_d1 (`"v1/content/a")) (ex_version (`"v1") (ex_entry ex_d1 (`"a"))) [].
Definition ex_inv2 : str := ex_inventory_with (`"1.1") (`"v2")
  (ex_entry ex_d1 (`"v1/content/a") ++ `"," ++ ex_entry ex_d2 (`"v2/content/b"))
  (ex_version (`"v1") (ex_entry ex_d1 (`"a")) ++ `"," ++ ex_version (`"v2") (ex_entry ex_d1 (`"a") ++ `"," ++ ex_entry ex_d2 (`"b")))
  (`"," ++ q (`"fixity") ++ `":{" ++ q (`"md5") ++ `":{" ++ ex_entry (hex (`"md5") (`"one")) (`"v1/content/a") ++ `"}}").
Definition ex_object_with (decl decl_text inv1 inv2 one two : str) (more : dict node) : node :=
  Dir [(`"o", Dir ([(decl, text decl_text);
                   (`"inventory.json", text inv2); (`"inventory.json.sha256", text (ex_sidecar inv2));
                   (`"v1", Dir [(`"inventory.json", text inv1); (`"inventory.json.sha256", text (ex_sidecar inv1));
                                (`"content", Dir [(`"a", text one)])]);
                   (`"v2", Dir [(`"inventory.json", text inv2); (`"inventory.json.sha256", text (ex_sidecar inv2));
                                (`"content", Dir [(`"b", text two)])])] ++ more))].
Definition ex_decl : str := `"0=ocfl_object_1.1".
Definition ex_decl_text : str := `"ocfl_object_1.1" ++ [10].
Definition ex_object : node := ex_object_with ex_decl ex_decl_text ex_inv1 ex_inv2 (`"one") (`"two") [].
Definition ex_conf (check : bool) : vconf := mkVconf check false (`"1.1") (fun _ => 0).

Lemma ex_object_tree : tree ex_object. Proof. apply tree_b_ok. vm_compute. reflexivity. Qed.
Lemma ex_object_valid check : validate_opened toy_hash (ex_conf check) ex_object [`"o"] 0 = ([LWarning (`"W004"); LWarning (`"W004")], Ok true).
Proof. destruct check; vm_compute; reflexivity. Qed.

(** * C30 *)

(** True is returned for intact objects (ValidatorSpec.v), and only for them. *)
Theorem C30_exactly_intact : forall H c w h n,
  vc_lax_digests c = false -> tree w -> look w h = Some EDir ->
  (snd (validate_opened H c w h n) = Ok true <->
   n = O /\ exists spec rb root f head, intact H (vc_check_digests c) w h spec rb root f head).
Proof. exact validate_opened_iff. Qed.
Print Assumptions C30_exactly_intact.
Example C30_exactly_intact_ex : exists spec rb root f head, intact toy_hash true ex_object [`"o"] spec rb root f head.
Proof.
  apply (C30_exactly_intact toy_hash (ex_conf true) ex_object [`"o"] 0 eq_refl ex_object_tree eq_refl).
  rewrite ex_object_valid. reflexivity.
Qed.

(** validate_object of a path: the directory there is validated; there has to be one. *)
Theorem C30_path : forall H c w cwd path n, no_url path ->
  let h := at_path (base_of cwd path) path in
  (look w h = Some EDir -> validate_object H c w cwd path n = validate_opened H c w h n) /\
  (look w h <> Some EDir -> validate_object H c w cwd path n = ([LError (`"E003e")], Ok false)).
Proof.
  intros H c w cwd path n Hu h.
  assert (E : result (fsw_openfs cwd path false true) w = if fs_isdir w (base_of cwd path) path then Ok h else Raise FileNotFoundError).
  { unfold fsw_openfs. rewrite split_url_none by auto. change (str_eqb (`"file") (`"file")) with true. cbv iota. unfold h, base_of. rewrite result_read. cbv beta.
    destruct (fs_isdir w _ path); reflexivity. }
  unfold validate_object. rewrite E. split; intros Hl.
  - apply fs_isdir_look in Hl. now rewrite Hl.
  - destruct (fs_isdir w (base_of cwd path) path) eqn:Ed; [|reflexivity]. apply fs_isdir_look in Ed. contradiction.
Qed.
Print Assumptions C30_path.
Example C30_path_ex : no_url (`"o") /\ look ex_object (at_path (base_of [] (`"o")) (`"o")) = Some EDir.
Proof. split; [|reflexivity]. intros a b E. assert (Hi : In slash (`"o")) by (rewrite E; apply in_or_app; right; right; left; reflexivity). destruct Hi as [Hi|[]]; discriminate Hi. Qed.

(** With digest checks every content directory is looked at: one that is not has no files. *)
Lemma file_not_dir b (P : Prop) : Some (EFile b) = Some EDir -> P.
Proof. discriminate. Qed.
Lemma checked_content_seen H w h spec rb root f head v r : intact H true w h spec rb root f head ->
  In v (f_versions f) -> r <> [] -> at_root w h (v :: f_cdir f :: r) <> None -> content_seen w h f head v.
Proof.
  intros I Hv Hr Hl. destruct r as [|k r]; [congruence|].
  assert (Hd : at_root w h [v; f_cdir f] = Some EDir).
  { unfold at_root in *. apply (look_above w _ k r). rewrite <- app_assoc. exact Hl. }
  destruct (in_versions _ _ _ _ _ _ _ _ _ I) as (V1 & V2 & _). split.
  - intros E. rewrite E in Hd. assert (Hi : has_inventory w h v) by (unfold has_inventory; rewrite Hd; discriminate).
    destruct (str_eqb_spec v head) as [->|Hn].
    + destruct (V1 Hi) as [C _]. exact (file_not_dir _ _ (eq_trans (eq_sym C) Hd)).
    + destruct (V2 _ Hv Hn Hi) as (b & j & f' & ((C & _) & _)). cbn [app] in C. exact (file_not_dir _ _ (eq_trans (eq_sym C) Hd)).
  - intros [(-> & Hi & E)|(j & f' & (Hn & b & (Hb & Hj) & Ho) & E)].
    + destruct (V1 Hi) as (_ & _ & C). destruct (C eq_refl) as (sb & _ & _ & _ & C' & _). cbn [app] in C'. rewrite <- E in C'. exact (file_not_dir _ _ (eq_trans (eq_sym C') Hd)).
    + assert (Hi : has_inventory w h v) by (unfold has_inventory; cbn [app] in Hb; rewrite Hb; discriminate).
      destruct (V2 _ Hv Hn Hi) as (b2 & j2 & f2 & ((Hb2 & Hj2) & Ho2 & (_ & C) & _)).
      rewrite Hb in Hb2. injection Hb2 as <-. rewrite Hj in Hj2. apply Ok_inv in Hj2. subst j2.
      pose proof (facts_unique _ _ _ (json_load_wf _ _ Hj) Ho Ho2) as <-.
      destruct (C eq_refl) as (sb & _ & _ & _ & C' & _). cbn [app] in C'. rewrite <- E in C'. exact (file_not_dir _ _ (eq_trans (eq_sym C') Hd)).
Qed.

(** What True means, item by item. *)
Theorem C30_sound : forall H c w h n,
  vc_lax_digests c = false -> vc_check_digests c = true -> tree w -> look w h = Some EDir ->
  snd (validate_opened H c w h n) = Ok true ->
  exists spec rb root f head,
    (* the root inventory, with its digest file *)
    at_root w h [`"inventory.json"] = Some (EFile rb) /\ json_load rb = Ok root /\ obeys as_coded root f /\
    member root (`"head") (JStr head) /\
    (exists sb text l x, at_root w h [`"inventory.json." ++ f_alg f] = Some (EFile sb) /\ read_text sb = Ok text /\ line text l /\
       sidecar_line l x /\ digest_of H (f_alg f) rb x) /\
    (* every file of the manifest exists and has its digest *)
    (forall d p, lists (f_manifest f) d p ->
       exists r b, p = join [slash] r /\ at_root w h r = Some (EFile b) /\ digest_fits H (f_alg f) b d) /\
    (* nothing else is in a content directory *)
    (forall v r, In v (f_versions f) -> r <> [] -> leaf w (h ++ v :: f_cdir f :: r) ->
       In (join [slash] (v :: f_cdir f :: r)) (listed (f_manifest f))) /\
    (* the head version has a copy of the inventory, if it has an inventory *)
    (at_root w h [head; `"inventory.json"] <> None -> at_root w h [head; `"inventory.json"] = Some (EFile rb)) /\
    (* one declaration *)
    In spec [`"1.0"; `"1.1"] /\
    (forall name, tagged w h (`"0") name <-> name = `"0=ocfl_object_" ++ spec) /\
    (exists b text, at_root w h [`"0=ocfl_object_" ++ spec] = Some (EFile b) /\ read_text b = Ok text /\ declares text (`"ocfl_object_" ++ spec)) /\
    (* nothing else in the object root *)
    (forall name e, at_root w h [name] = Some e ->
       (exists b, e = EFile b /\ In name [`"0=ocfl_object_" ++ spec; `"inventory.json"; `"inventory.json." ++ f_alg f]) \/
       (e = EDir /\ In name (f_versions f ++ [`"logs"; `"extensions"]))).
Proof.
  intros H c w h n Hlax Hchk Hw Hl E. apply validate_opened_iff in E; auto. destruct E as (_ & spec & rb & root & f & head & I). rewrite Hchk in I.
  exists spec, rb, root, f, head. destruct (in_inventory _ _ _ _ _ _ _ _ _ I) as [I1 I2].
  split; [exact I1|]. split; [exact I2|]. split; [apply (in_rules _ _ _ _ _ _ _ _ _ I)|]. split; [apply (in_head _ _ _ _ _ _ _ _ _ I)|].
  split; [destruct (in_sidecar _ _ _ _ _ _ _ _ _ I) as [_ S]; exact (S eq_refl)|].
  split. { destruct (in_digests _ _ _ _ _ _ _ _ _ I eq_refl) as (D & _). exact D. }
  split.
  { intros v r Hv Hr Hlf. apply (in_content _ _ _ _ _ _ _ _ _ I). exists v, r. split; [exact Hv|]. split; [|auto].
    eapply checked_content_seen; eauto. exact (proj1 Hlf). }
  split. { intros Hi. destruct (in_versions _ _ _ _ _ _ _ _ _ I) as (V1 & _). apply (V1 Hi). }
  destruct (in_declaration _ _ _ _ _ _ _ _ _ I) as (D1 & D2 & D3). split; [exact D1|]. split; [exact D2|]. split; [exact D3|].
  intros name e He. pose proof (in_root _ _ _ _ _ _ _ _ _ I _ _ He) as R. destruct e as [b| |]; cbn [root_entry] in R; [left; eauto| |contradiction].
  right. split; [reflexivity|]. apply in_or_app. destruct R as [R|[R|[R _]]]; [now left|right; left; now symmetry|right; right; left; now symmetry].
Qed.
Print Assumptions C30_sound.

(** The content of the declaration need not be the right one: it is compared after white
    space is dropped and odd characters are changed to underscores. *)
Theorem C30_declaration_text_refuted : exists w text, text <> ex_decl_text /\
  at_root w [`"o"] [ex_decl] = Some (EFile text) /\ tree w /\
  snd (validate_opened toy_hash (ex_conf true) w [`"o"] 0) = Ok true.
Proof.
  exists (ex_object_with ex_decl (`" ocfl object/1.1") ex_inv1 ex_inv2 (`"one") (`"two") []), (`" ocfl object/1.1").
  split; [discriminate|]. split; [reflexivity|]. split; [apply tree_b_ok; vm_compute; reflexivity|vm_compute; reflexivity].
Qed.
Print Assumptions C30_declaration_text_refuted.

(** A version directory may have a file where its content directory would be. *)
Definition ex_inv2_same : str := ex_inventory_with (`"1.1") (`"v2") (ex_entry ex_d1 (`"v1/content/a"))
  (ex_version (`"v1") (ex_entry ex_d1 (`"a")) ++ `"," ++ ex_version (`"v2") (ex_entry ex_d1 (`"b"))) [].
Definition ex_content_file : node :=
  Dir [(`"o", Dir [(ex_decl, text ex_decl_text); (`"inventory.json", text ex_inv2_same); (`"inventory.json.sha256", text (ex_sidecar ex_inv2_same));
                   (`"v1", Dir [(`"content", Dir [(`"a", text (`"one"))])]);
                   (`"v2", Dir [(`"content", text (`"not a directory"))])])].
Theorem C30_stray_file_refuted : exists w b, at_root w [`"o"] [`"v2"; `"content"] = Some (EFile b) /\ tree w /\
  snd (validate_opened toy_hash (ex_conf true) w [`"o"] 0) = Ok true.
Proof.
  exists ex_content_file, (`"not a directory"). split; [reflexivity|]. split; [apply tree_b_ok; vm_compute; reflexivity|vm_compute; reflexivity].
Qed.
Print Assumptions C30_stray_file_refuted.

(** * C31 *)

Lemma digest_of_fun H alg b x y : digest_of H alg b x -> digest_of H alg b y -> x = y.
Proof. intros H1 H2. apply file_digest_iff in H1, H2. rewrite H1 in H2. now apply Ok_inv in H2. Qed.
Lemma records_fun alg d x y : records alg d x -> records alg d y -> x = y.
Proof. intros H1 H2. apply records_iff in H1, H2. apply str_eqb_eq in H1, H2. congruence. Qed.

(** Two objects with the same root inventory that both pass have the same content files, and
    each file has the same digest in both. *)
Theorem C31_same_inventory_same_content : forall H c w w' h h' n n' rb root f,
  vc_lax_digests c = false -> vc_check_digests c = true ->
  tree w -> look w h = Some EDir -> tree w' -> look w' h' = Some EDir ->
  at_root w h [`"inventory.json"] = Some (EFile rb) -> at_root w' h' [`"inventory.json"] = Some (EFile rb) ->
  json_load rb = Ok root -> obeys as_coded root f ->
  snd (validate_opened H c w h n) = Ok true -> snd (validate_opened H c w' h' n') = Ok true ->
  forall v r, In v (f_versions f) -> r <> [] ->
    (leaf w (h ++ v :: f_cdir f :: r) <-> leaf w' (h' ++ v :: f_cdir f :: r)) /\
    (leaf w (h ++ v :: f_cdir f :: r) -> exists b b' x,
       at_root w h (v :: f_cdir f :: r) = Some (EFile b) /\ at_root w' h' (v :: f_cdir f :: r) = Some (EFile b') /\
       digest_of H (f_alg f) b x /\ digest_of H (f_alg f) b' x).
Proof.
  intros H c w w' h h' n n' rb root f Hlax Hchk Hw Hl Hw' Hl' Hb Hb' Hj Ho E E' v r Hv Hr.
  apply validate_opened_iff in E, E'; auto. destruct E as (_ & spec & rb1 & root1 & f1 & head & I). destruct E' as (_ & spec' & rb2 & root2 & f2 & head' & I').
  rewrite Hchk in I, I'.
  assert (S : forall w h spec rb1 root1 f1 head, at_root w h [`"inventory.json"] = Some (EFile rb) -> intact H true w h spec rb1 root1 f1 head -> rb1 = rb /\ root1 = root /\ f1 = f).
  { clear - Hj Ho. intros w h spec rb1 root1 f1 head Hb I. destruct (in_inventory _ _ _ _ _ _ _ _ _ I) as [I1 I2]. cbn [app] in I1. rewrite Hb in I1.
    injection I1 as <-. rewrite Hj in I2. apply Ok_inv in I2. subst root1. split; [reflexivity|]. split; [reflexivity|].
    apply (facts_unique root); auto; [eapply json_load_wf; eauto|apply (in_rules _ _ _ _ _ _ _ _ _ I)]. }
  destruct (S _ _ _ _ _ _ _ Hb I) as (-> & -> & ->). destruct (S _ _ _ _ _ _ _ Hb' I') as (-> & -> & ->). clear S.
  assert (T : forall w h spec head, tree w -> intact H true w h spec rb root f head ->
    (leaf w (h ++ v :: f_cdir f :: r) -> In (join [slash] (v :: f_cdir f :: r)) (listed (f_manifest f)) /\ Forall fname (v :: f_cdir f :: r)) /\
    (Forall fname (v :: f_cdir f :: r) -> forall d, lists (f_manifest f) d (join [slash] (v :: f_cdir f :: r)) ->
       exists b, at_root w h (v :: f_cdir f :: r) = Some (EFile b) /\ digest_fits H (f_alg f) b d)).
  { clear - Hv Hr. intros w h spec head Hw I. split.
    - intros Hlf. split.
      + apply (in_content _ _ _ _ _ _ _ _ _ I). exists v, r. split; [exact Hv|]. split; [|auto]. eapply checked_content_seen; eauto. exact (proj1 Hlf).
      + apply leaf_fnames in Hlf; [|exact Hw]. now apply Forall_app in Hlf as [_ Hlf].
    - intros Hf d Hd. destruct (in_digests _ _ _ _ _ _ _ _ _ I eq_refl) as (D & _). destruct (D _ _ Hd) as (r' & b & Ej & El & Hfit).
      assert (Hf' : Forall fname r').
      { assert (Hx : Forall fname (h ++ r')) by (eapply look_fnames; [exact Hw|]; unfold at_root in El; rewrite El; discriminate). now apply Forall_app in Hx as [_ Hx]. }
      apply join_fnames_inj in Ej; auto. subst r'. eauto. }
  destruct (T _ _ _ _ Hw I) as [T1 T2]. destruct (T _ _ _ _ Hw' I') as [T1' T2']. clear T.
  assert (L : forall w h b, at_root w h (v :: f_cdir f :: r) = Some (EFile b) -> leaf w (h ++ v :: f_cdir f :: r)).
  { intros w0 h0 b El. unfold at_root in El. split; rewrite El; discriminate. }
  split; [split|].
  - intros Hlf. destruct (T1 Hlf) as [Hin Hf]. apply listed_lists in Hin as [d Hd]. destruct (T2' Hf _ Hd) as (b & El & _). eapply L; eauto.
  - intros Hlf. destruct (T1' Hlf) as [Hin Hf]. apply listed_lists in Hin as [d Hd]. destruct (T2 Hf _ Hd) as (b & El & _). eapply L; eauto.
  - intros Hlf. destruct (T1 Hlf) as [Hin Hf]. apply listed_lists in Hin as [d Hd]. destruct (T2 Hf _ Hd) as (b & El & x & Hx1 & Hx2).
    destruct (T2' Hf _ Hd) as (b' & El' & y & Hy1 & Hy2). pose proof (records_fun _ _ _ _ Hx2 Hy2) as <-. eauto 10.
Qed.
Print Assumptions C31_same_inventory_same_content.

(** A changed, lost or new content file is found: [w] is the object before and [w'] after.
    All of the object but the root inventory may have changed. *)
Theorem C31_detected : forall H c w w' h n rb root f,
  vc_lax_digests c = false -> vc_check_digests c = true ->
  tree w -> look w h = Some EDir -> tree w' -> look w' h = Some EDir ->
  at_root w h [`"inventory.json"] = Some (EFile rb) -> at_root w' h [`"inventory.json"] = Some (EFile rb) ->
  json_load rb = Ok root -> obeys as_coded root f ->
  snd (validate_opened H c w h n) = Ok true ->
  forall v r, In v (f_versions f) -> r <> [] ->
    let p := v :: f_cdir f :: r in
    (* changed, or no file any more *)
    (exists b, at_root w h p = Some (EFile b) /\
       forall b', at_root w' h p = Some (EFile b') -> ~ exists x, digest_of H (f_alg f) b x /\ digest_of H (f_alg f) b' x) \/
    (* new *)
    (~ leaf w (h ++ p) /\ leaf w' (h ++ p)) ->
  forall n', snd (validate_opened H c w' h n') <> Ok true.
Proof.
  intros H c w w' h n rb root f Hlax Hchk Hw Hl Hw' Hl' Hb Hb' Hj Ho E v r Hv Hr p Hd n' E'.
  destruct (C31_same_inventory_same_content H c w w' h h n n' rb root f Hlax Hchk Hw Hl Hw' Hl' Hb Hb' Hj Ho E E' v r Hv Hr) as [S1 S2].
  destruct Hd as [(b & Eb & Hd)|[N L]].
  - destruct S2 as (b1 & b' & x & E1 & E2 & X1 & X2).
    + unfold at_root in Eb. split; unfold p in Eb; rewrite Eb; discriminate.
    + unfold p in Eb. rewrite Eb in E1. injection E1 as <-. apply (Hd b' E2). eauto.
  - apply N, S1, L.
Qed.
Print Assumptions C31_detected.
Example C31_ex :
  (* changed *) snd (validate_opened toy_hash (ex_conf true) (ex_object_with ex_decl ex_decl_text ex_inv1 ex_inv2 (`"one") (`"Two") []) [`"o"] 0) = Ok false /\
  (* and not found without the digest checks *)
  snd (validate_opened toy_hash (ex_conf false) (ex_object_with ex_decl ex_decl_text ex_inv1 ex_inv2 (`"one") (`"Two") []) [`"o"] 0) = Ok true.
Proof. split; vm_compute; reflexivity. Qed.

(** * C32 *)

(** For all options and trees: if the run with digest checks ends without an exception so
    does the one without, which logs the same entries but for some of digest checks. *)
Theorem C32_log : forall H c w h n log r,
  validate_opened H c w h n = (log, Ok r) ->
  exists log' r', validate_opened H (without_checks c) w h n = (log', Ok r') /\ drops log log'.
Proof. intros H c w h n log r E. apply refines_opened in E as (log' & r' & E & D & _). eauto. Qed.
Print Assumptions C32_log.

Theorem C32_accepted_without : forall H c w h n,
  snd (validate_opened H c w h n) = Ok true -> snd (validate_opened H (without_checks c) w h n) = Ok true.
Proof.
  intros H c w h n E. destruct (validate_opened H c w h n) as [log r] eqn:Ev. cbn [snd] in E. subst r.
  apply refines_opened in Ev as (log' & r' & Ev & _ & Hr). rewrite Ev. cbn [snd]. now rewrite Hr.
Qed.
Print Assumptions C32_accepted_without.

Lemma opened_result H c w h n log r : validate_opened H c w h n = (log, Ok r) -> r = Nat.eqb (n + num_errors log) 0.
Proof.
  unfold validate_opened, wlift, wbind. cbn [fst snd app]. destruct (find_namastes w h (`"0") [] 10) as [ns|e]; cbn [fst snd]; [|intros E; discriminate E].
  destruct (check_declarations c w h ns) as [l1 [spec|e]]; [|intros E; discriminate E]. destruct (negb _).
  - cbn [fst snd]. intros E. injection E as <- <-. rewrite num_errors_app. symmetry. apply Nat.eqb_neq. cbn. lia.
  - destruct (validate_parts H c w h (n + num_errors l1) spec ns) as [l2 [u|e]]; [|intros E; discriminate E]. cbn [fst snd]. intros E. injection E as <- <-. reflexivity.
Qed.

(** Rejected with and accepted without: a digest or sidecar was found wrong. *)
Theorem C32_rejected_for_digest : forall H c w h n log,
  validate_opened H c w h n = (log, Ok false) -> snd (validate_opened H (without_checks c) w h n) = Ok true ->
  exists code, In (LError code) log /\ In code [`"E058b"; `"E060"; `"E061"; `"E092a"; `"E093a"].
Proof.
  intros H c w h n log E E'. pose proof (opened_result _ _ _ _ _ _ _ E) as R. apply refines_opened in E as (log' & r' & Ev & D & _).
  rewrite Ev in E'. cbn [snd] in E'. apply Ok_inv in E'. subst r'. pose proof (opened_result _ _ _ _ _ _ _ Ev) as R'.
  symmetry in R, R'. apply Nat.eqb_eq in R'. apply Nat.eqb_neq in R. apply (drops_extra _ _ D); lia.
Qed.
Print Assumptions C32_rejected_for_digest.
Example C32_ex :
  let w := ex_object_with ex_decl ex_decl_text ex_inv1 ex_inv2 (`"one") (`"Two") [] in
  validate_opened toy_hash (ex_conf true) w [`"o"] 0 = ([LWarning (`"W004"); LWarning (`"W004"); LError (`"E092a")], Ok false) /\
  snd (validate_opened toy_hash (without_checks (ex_conf true)) w [`"o"] 0) = Ok true.
Proof. split; vm_compute; reflexivity. Qed.

(** In terms of the tree: what the checks add. *)
Theorem C32_intact : forall H w h spec rb root f head,
  intact H true w h spec rb root f head <->
  intact H false w h spec rb root f head /\
  sidecar H true w h [] (f_alg f) rb /\
  (has_inventory w h head -> sidecar H true w h [head] (f_alg f) rb) /\
  (forall v b j g, In v (f_versions f) -> v <> head -> inventory_at w h [v] b j -> obeys as_coded j g -> sidecar H true w h [v] (f_alg g) b) /\
  content_digests H w h root f head.
Proof.
  intros H w h spec rb root f head.
  assert (Off : forall dir alg b, sidecar H true w h dir alg b -> sidecar H false w h dir alg b) by (intros dir alg b [S _]; split; [exact S|discriminate]).
  split.
  - intros I. destruct (in_versions _ _ _ _ _ _ _ _ _ I) as (V1 & V2 & V3 & V4). split; [|split; [|split; [|split]]].
    + destruct I as [I1 I2 I3 I4 I5 I6 _ I8 I9 _]. constructor; auto; [|discriminate]. split; [|split; [|split; auto]].
      * intros Hi. destruct (V1 Hi) as [A B]. auto.
      * intros v Hv Hn Hi. destruct (V2 v Hv Hn Hi) as (b & j & g & A1 & A2 & A3 & A4). exists b, j, g. split; [exact A1|]. split; [exact A2|]. split; [now apply Off|exact A4].
    + apply (in_sidecar _ _ _ _ _ _ _ _ _ I).
    + intros Hi. apply (V1 Hi).
    + intros v b j g Hv Hn [Hb Hj] Ho. assert (Hi : has_inventory w h v) by (unfold has_inventory; cbn [app] in Hb; rewrite Hb; discriminate).
      destruct (V2 v Hv Hn Hi) as (b' & j' & g' & (Hb' & Hj') & Ho' & S & _). rewrite Hb in Hb'. injection Hb' as <-. rewrite Hj in Hj'. apply Ok_inv in Hj'. subst j'.
      now rewrite (facts_unique _ _ _ (json_load_wf _ _ Hj) Ho Ho').
    + apply (in_digests _ _ _ _ _ _ _ _ _ I eq_refl).
  - intros (I & S & Sh & Sv & D). destruct (in_versions _ _ _ _ _ _ _ _ _ I) as (V1 & V2 & V3 & V4). destruct I as [I1 I2 I3 I4 I5 I6 _ I8 I9 _].
    constructor; auto. split; [|split; [|split; auto]].
    + intros Hi. destruct (V1 Hi) as [A B]. auto.
    + intros v Hv Hn Hi. destruct (V2 v Hv Hn Hi) as (b & j & g & A1 & A2 & A3 & A4). exists b, j, g. split; [exact A1|]. split; [exact A2|]. split; [eauto|exact A4].
Qed.
Print Assumptions C32_intact.

(** * C33 *)

(** The log of the model is a list of codes. Given to a logger with any options, the number
    of errors it has counted is what tells the result. *)
Definition call_of (k : call) : Log.entry := if c_error k then LError (c_code k) else LWarning (c_code k).
Theorem C33_validate : forall H c w h g calls log r,
  plain_data (lg_data g) -> validate_opened H c w h (N.to_nat (lg_num_errors g)) = (log, Ok r) -> map call_of calls = log ->
  exists g', efold log_call calls g = Ok g' /\
    lg_num_errors g' = lg_num_errors g + N.of_nat (num_errors log) /\
    (r = true <-> lg_num_errors g' = 0).
Proof.
  intros H c w h g calls log r Hp E <-. destruct (C33_log calls g Hp) as (g' & Eg & NE & _). exists g'. split; [exact Eg|].
  assert (En : List.length (filter c_error calls) = num_errors (map call_of calls)).
  { clear. unfold num_errors. induction calls as [|k r IH]; [reflexivity|]. cbn [map filter]. unfold call_of at 1. destruct (c_error k); cbn [is_error List.length]; congruence. }
  rewrite En in NE. split; [exact NE|]. apply opened_result in E. rewrite E, Nat.eqb_eq, NE. lia.
Qed.
Print Assumptions C33_validate.
Example C33_validate_ex : exists calls log r,
  validate_opened toy_hash (ex_conf true) (ex_object_with ex_decl ex_decl_text ex_inv1 ex_inv2 (`"one") (`"Two") []) [`"o"] 0 = (log, Ok r) /\
  map call_of calls = log /\ num_errors log = 1%nat.
Proof.
  exists [mkCall (`"W004") false [] []; mkCall (`"W004") false [] []; mkCall (`"E092a") true [] []]. eexists _, _.
  split; [vm_compute; reflexivity|]. split; vm_compute; reflexivity.
Qed.

(** Opening the object, the only step of validation that could write, does not. *)
Theorem C33_open_keeps : forall w cwd path, after (fsw_openfs cwd path false true) w = w.
Proof.
  intros w cwd path. unfold fsw_openfs. destruct (match split_url path with None => _ | Some mp => mp end) as [m p].
  destruct (str_eqb m (`"file")); [|reflexivity]. rewrite after_read. destruct (fs_isdir _ _ _); reflexivity.
Qed.
Print Assumptions C33_open_keeps.

(** * C59 *)

Theorem C59_recorded_digests : forall H c w h n,
  vc_lax_digests c = false -> vc_check_digests c = true -> tree w -> look w h = Some EDir ->
  snd (validate_opened H c w h n) = Ok true ->
  exists rb root f head,
    at_root w h [`"inventory.json"] = Some (EFile rb) /\ json_load rb = Ok root /\ obeys as_coded root f /\ member root (`"head") (JStr head) /\
    (* the fixity block of the root inventory *)
    (forall alg d p, fixity_lists root alg d p -> file_fits H w h alg d p) /\
    (* the inventories of all versions *)
    (forall v b j, In v (f_versions f) -> at_root w h [v; `"inventory.json"] = Some (EFile b) -> json_load b = Ok j ->
       exists g, obeys as_coded j g /\
         (forall d p, lists (f_manifest g) d p -> In p (listed (f_manifest f)) -> file_fits H w h (f_alg g) d p) /\
         (forall alg d p, fixity_lists j alg d p -> In p (listed (f_manifest f)) -> file_fits H w h alg d p)).
Proof.
  intros H c w h n Hlax Hchk Hw Hl E. apply validate_opened_iff in E; auto. destruct E as (_ & spec & rb & root & f & head & I). rewrite Hchk in I.
  exists rb, root, f, head. destruct (in_inventory _ _ _ _ _ _ _ _ _ I) as [I1 I2]. pose proof (in_rules _ _ _ _ _ _ _ _ _ I) as Ho.
  destruct (in_digests _ _ _ _ _ _ _ _ _ I eq_refl) as (D1 & D2 & D3). destruct (in_versions _ _ _ _ _ _ _ _ _ I) as (V1 & V2 & _).
  split; [exact I1|]. split; [exact I2|]. split; [exact Ho|]. split; [apply (in_head _ _ _ _ _ _ _ _ _ I)|].
  split; [exact D2|]. intros v b j Hv Hb Hj. assert (Hi : has_inventory w h v) by (unfold has_inventory; rewrite Hb; discriminate).
  destruct (str_eqb_spec v head) as [->|Hn].
  - destruct (V1 Hi) as [C _]. rewrite Hb in C. injection C as ->. rewrite Hj in I2. apply Ok_inv in I2. subst j. exists f. split; [exact Ho|]. split; [intros d p Hd _; now apply D1|].
    intros alg d p Hd _. now apply D2.
  - destruct (V2 v Hv Hn Hi) as (b' & j' & g & (Hb' & Hj') & Hg & _). cbn [app] in Hb'. rewrite Hb in Hb'. injection Hb' as <-. rewrite Hj in Hj'. apply Ok_inv in Hj'. subst j'.
    exists g. split; [exact Hg|]. apply (D3 v j g Hv). split; [exact Hn|]. exists b. split; [split; [exact Hb|exact Hj]|exact Hg].
Qed.
Print Assumptions C59_recorded_digests.
Example C59_ex : (* a wrong digest in the manifest of the first version only *)
  let inv1 := ex_inventory_with (`"1.1") (`"v1") (ex_entry ex_d2 (`"v1/content/a")) (ex_version (`"v1") (ex_entry ex_d2 (`"a"))) [] in
  snd (validate_opened toy_hash (ex_conf true) (ex_object_with ex_decl ex_decl_text inv1 ex_inv2 (`"one") (`"two") []) [`"o"] 0) = Ok false.
Proof. vm_compute; reflexivity. Qed.

(** * More *)

(** C61: nothing compares the specification version of the declaration with that of the
    inventory. *)
Theorem C61_spec_mismatch_refuted : exists w, tree w /\
  snd (validate_opened toy_hash (ex_conf true) w [`"o"] 0) = Ok true /\
  (exists b, at_root w [`"o"] [`"0=ocfl_object_1.0"] = Some (EFile b)) /\
  exists rb root, at_root w [`"o"] [`"inventory.json"] = Some (EFile rb) /\ json_load rb = Ok root /\
    member root (`"type") (JStr (`"https://ocfl.io/1.1/spec/#inventory")).
Proof.
  exists (Dir [(`"o", Dir [(`"0=ocfl_object_1.0", text (`"ocfl_object_1.0" ++ [10])); (`"inventory.json", text ex_inv2_same);
                   (`"inventory.json.sha256", text (ex_sidecar ex_inv2_same)); (`"v1", Dir [(`"content", Dir [(`"a", text (`"one"))])]); (`"v2", Dir [])])]).
  split; [apply tree_b_ok; vm_compute; reflexivity|]. split; [vm_compute; reflexivity|]. split; [eexists; reflexivity|].
  exists ex_inv2_same. eexists. split; [reflexivity|]. split; [vm_compute; reflexivity|]. eexists. split; [reflexivity|]. right; left. vm_compute. reflexivity.
Qed.
Print Assumptions C61_spec_mismatch_refuted.

(** C62: some objects make validate_object raise. *)
Theorem C62_raises_refuted :
  (* the inventory is not UTF-8 *)
  (exists w, tree w /\ look w [`"o"] = Some EDir /\ snd (validate_opened toy_hash (ex_conf true) w [`"o"] 0) = Raise UnicodeDecodeError) /\
  (* a declaration is a directory *)
  (exists w, tree w /\ look w [`"o"] = Some EDir /\ snd (validate_opened toy_hash (ex_conf true) w [`"o"] 0) = Raise OSError) /\
  (* there are eleven declarations *)
  (exists w, tree w /\ look w [`"o"] = Some EDir /\ snd (validate_opened toy_hash (ex_conf true) w [`"o"] 0) = Raise NamasteException) /\
  (* the manifest of an earlier version is no dictionary *)
  (exists w, tree w /\ look w [`"o"] = Some EDir /\ exists e, snd (validate_opened toy_hash (ex_conf true) w [`"o"] 0) = Raise e).
Proof.
  split; [|split; [|split]].
  - exists (Dir [(`"o", Dir [(ex_decl, text ex_decl_text); (`"inventory.json", text [34; 255; 34])])]).
    split; [apply tree_b_ok; vm_compute; reflexivity|]. split; [reflexivity|]. vm_compute; reflexivity.
  - exists (Dir [(`"o", Dir [(ex_decl, Dir []); (`"inventory.json", text ex_inv1)])]).
    split; [apply tree_b_ok; vm_compute; reflexivity|]. split; [reflexivity|]. vm_compute; reflexivity.
  - exists (Dir [(`"o", Dir (map (fun k => (`"0=" ++ [k], text [])) (map (fun i => 97 + N.of_nat i) (seq 0 11))))]).
    split; [apply tree_b_ok; vm_compute; reflexivity|]. split; [reflexivity|]. vm_compute; reflexivity.
  - exists (ex_object_with ex_decl ex_decl_text (ex_inventory_with (`"1.1") (`"v1") [] (ex_version (`"v1") []) (`"," ++ q (`"fixity") ++ `":5")) ex_inv2 (`"one") (`"two") []).
    split; [apply tree_b_ok; vm_compute; reflexivity|]. split; [reflexivity|]. eexists. vm_compute; reflexivity.
Qed.
Print Assumptions C62_raises_refuted.
