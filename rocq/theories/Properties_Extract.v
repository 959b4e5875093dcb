(** C43, C44 and C66: extracting versions and single files. *)
From Coq Require Import Permutation Sorted.
From Verif Require Import Properties_Names Properties_InventoryValidator.
From Verif Require Import Base Unicode Regex Utf8 Json PyJson JsonTextModel JsonTextSpec JsonTextProofs JsonFileProofs Log DigestModel LayoutModel LayoutProofs
  ObjectUtilsModel ObjectUtilsProofs InventorySpec InventoryValidatorModel InventoryValidatorProofs InventoryRulesProofs
  InventoryModel InventoryOpsSpec InventoryOpsProofs NewVersionModel NewVersionProofs NewVersionOpsProofs VersionNumberProofs InventoryParseProofs ParseModel
  ContentPathProofs TextFile PathModel FsModel FsSpec FsProofs FswModel FswSpec FswProofs FswCopyProofs ValidatorSpec ValidatorBasicProofs ObjectModel ObjectSpec ObjectInvProofs ObjectRulesProofs
  ObjectParseProofs ObjectAddProofs ContentNameProofs ObjectGrowProofs ObjectStartProofs ObjectCopyProofs ObjectWriteProofs ObjectSourceProofs ObjectFactsProofs NamasteSpec ValidatorVersionProofs ObjectMadeProofs ObjectIntactProofs ObjectExtendProofs FsStepProofs NamasteModel NamasteProofs ObjectStoreProofs ObjectCreateProofs ValidatorModel ValidatorIntactProofs ObjectUpdateProofs ObjectNextProofs ObjectDigestProofs ObjectVersionProofs ObjectExtractProofs ObjectHistoryProofs ObjectExamples UpdateSpec ParseProofs OpenProofs ChangeProofs FrameProofs UpdateProofs ExtractSpec ExtractProofs.

From Verif Require Import Properties_Inventory Properties_Layout Properties_Object Properties_ObjectFindings Properties_Update.
From Verif Require Properties_Validator.

(** * C43 *)

(** At every moment of an extraction, and at its end, only places in the destination differ from
    what was there before, and everything that was there before -- also in the destination -- is
    still there. *)
Theorem C43_only_below : forall e objdir version d w w',
  tree w -> Forall fname (e_cwd e) -> look w (e_cwd e) = Some EDir ->
  crash (extract e objdir version d) w w' -> let dst := dest_of (e_cwd e) d in
  (forall q, (forall y, q <> dst ++ y) -> look w' q = look w q) /\ (forall q en, look w q = Some en -> look w' q = Some en).
Proof. intros e objdir version d w w' Tw Fc Hc Cr. exact (extract_crash e objdir version d w w' Tw Fc Hc Cr). Qed.
Print Assumptions C43_only_below.
Example C43_only_below_ex : exists w' m, result (extract ex_env (Some (`"o")) (`"head") (`"new")) ex_updated3 = Ok m /\
  crash (extract ex_env (Some (`"o")) (`"head") (`"new")) ex_updated3 w' /\ look ex_updated3 [`"new"] = None /\ look w' [`"new"] = Some EDir.
Proof. eexists _, _. split; [vm_compute; reflexivity|]. split; [apply crash_done|]. split; vm_compute; reflexivity. Qed.

(** Refused with nothing changed: if there is something in the destination (or if it is no
    directory), and if there is no such version. *)
Theorem C43_refused : forall e path version d w,
  tree w -> Forall fname (e_cwd e) -> look w (e_cwd e) = Some EDir ->
  let dst := dest_of (e_cwd e) d in let x := extract e path version d in
  (look w dst <> None -> (look w dst = Some EDir -> exists r, r <> [] /\ look w (dst ++ r) <> None) -> (exists er, result x w = Raise er) /\ after x w = w) /\
  (forall h i s, result (open_obj_fs e path false) w = Ok h -> parse_inventory w h = Ok (i, s) ->
    (version <> `"head" -> ~ is_version i version -> result x w = Raise ObjectException /\ after x w = w) /\
    (version = `"head" \/ is_version i version -> look w dst = Some EDir -> (exists r, r <> [] /\ look w (dst ++ r) <> None) -> result x w = Raise ObjectException /\ after x w = w)).
Proof. exact extract_refuses. Qed.
Print Assumptions C43_refused.
Example C43_refused_ex : exists i s, parse_inventory ex_updated3 [`"o"] = Ok (i, s) /\ ~ is_version i (`"v4") /\ is_version i (`"v3") /\
  look ex_updated3 [`"s1"] = Some EDir /\ look ex_updated3 ([`"s1"] ++ [`"a"]) <> None.
Proof.
  eexists _, _. split; [vm_compute; reflexivity|]. split; [|split; [|split; [vm_compute; reflexivity|vm_compute; discriminate]]].
  - intros V. apply is_version_keys in V. repeat destruct V as [V|V]; try discriminate V. destruct V.
  - apply is_version_keys. right. right. left. reflexivity.
Qed.

(** If the destination is in the directory of the object then the object is modified: it is
    valid before and not valid afterwards. *)
Theorem C43_inside_refuted : let x := extract ex_env (Some (`"o")) (`"v1") (`"o/new") in
  (exists m, result x ex_updated3 = Ok m) /\ ex_valid ex_updated3 = true /\ ex_valid (after x ex_updated3) = false.
Proof. split; [eexists; vm_compute; reflexivity|]. split; vm_compute; reflexivity. Qed.
Print Assumptions C43_inside_refuted.

(** * C44 *)

(** If the logical path is in the version then the file with its last part for a name is
    written, and nothing else but the directory it is in. It has the content of a content file of
    the digest the logical path has. All content files of that digest have to be there and to be
    other files than the one that is written. *)
Theorem C44_partial : forall e path version d p w h i s v dg k,
  tree w -> Forall fname (e_cwd e) ->
  result (open_obj_fs e path false) w = Ok h -> parse_inventory w h = Ok (i, s) -> version = v /\ v <> `"head" /\ is_version i v \/ version = `"head" /\ i_head i = Some v ->
  let dst := dest_of (e_cwd e) d in let x := extract_file e path version d p in
  usable_place (e_cwd e) w d dst -> in_state i v dg p -> last_part p k -> file_place w (dst ++ [k]) ->
  (forall c, stored i dg c -> at_path h c <> dst ++ [k] /\ exists b, fs_read w h c = Ok b) ->
  exists m c b, result x w = Ok m /\ stored i dg c /\ fs_read w h c = Ok b /\
    look (after x w) (dst ++ [k]) = Some (EFile b) /\ look (after x w) dst = Some EDir /\
    forall q, q <> dst -> q <> dst ++ [k] -> look (after x w) q = look w q.
Proof.
  intros e path version d p w h i s v dg k Tw Fc Eh Ep Ev dst x Up Hs Hl Hp Hc.
  assert (Es : extract_setup w h version = Ok (i, v)).
  { destruct (setup_ok _ _ _ _ Ep) as ((v' & Hv' & S1) & S2 & _). destruct Ev as [(-> & Nv & Hv)|[-> Hv]]; [now apply S2|]. rewrite S1. congruence. }
  destruct (extract_file_done e path version d p w h i s v Tw Fc Eh Ep Es) as [_ G]. destruct (G Up dg k Hs (fun c Hst => proj2 (Hc c Hst)) Hl Hp (fun c Hst => proj1 (Hc c Hst))) as (m & b & c & R & _ & G1 & G2 & G3 & G4 & G5).
  exists m, c, b. do 5 (split; [assumption|]). exact G5.
Qed.
Print Assumptions C44_partial.

(** If it is not in the version: ObjectException, and nothing but the destination directory is
    made. *)
Theorem C44_missing : forall e path version d p w h i s v,
  tree w -> Forall fname (e_cwd e) -> no_url d ->
  result (open_obj_fs e path false) w = Ok h -> parse_inventory w h = Ok (i, s) -> version = v /\ v <> `"head" /\ is_version i v \/ version = `"head" /\ i_head i = Some v ->
  ~ in_version i v p ->
  let dst := dest_of (e_cwd e) d in let x := extract_file e path version d p in
  result x w = Raise ObjectException /\ forall q, q <> dst \/ look w dst <> None -> look (after x w) q = look w q.
Proof.
  intros e path version d p w h i s v Tw Fc Hu Eh Ep Ev Hn dst x.
  assert (Es : extract_setup w h version = Ok (i, v)).
  { destruct (setup_ok _ _ _ _ Ep) as ((v' & Hv' & S1) & S2 & _). destruct Ev as [(-> & Nv & Hv)|[-> Hv]]; [now apply S2|]. rewrite S1. congruence. }
  destruct (extract_file_done e path version d p w h i s v Tw Fc Eh Ep Es) as [G _]. exact (G Hu Hn).
Qed.
Print Assumptions C44_missing.

(** At no moment anything but the file, and the directory if it was not there, is changed; the
    object and the version may be anything. *)
Theorem C44_only_file : forall e path version d p w w', tree w -> Forall fname (e_cwd e) -> no_url d ->
  crash (extract_file e path version d p) w w' -> let dst := dest_of (e_cwd e) d in
  forall q, (q = dst -> look w q <> None) -> (forall k, last_part p k -> q <> dst ++ [k]) -> look w' q = look w q.
Proof. exact extract_file_crash. Qed.
Print Assumptions C44_only_file.

(** The content files of the object do not have different contents with the same digest (they
    came from the files added, which have different digests): then the file extracted has the
    bytes that were added under that path in that version. *)
Theorem C44_as_added_partial : forall H h sd P w l k F e path version d r b z,
  hash_ok H -> history H h sd P w l -> collision_free H P l ->
  nth_error l k = Some F -> version = vn (S k) \/ version = `"head" /\ S k = List.length l ->
  Forall fname (e_cwd e) -> no_url path -> h = dest_of (e_cwd e) path ->
  In (r ++ [z], b) F -> let dst := dest_of (e_cwd e) d in
  usable_place (e_cwd e) w d dst -> file_place w (dst ++ [z]) -> (forall y, dst ++ [z] <> h ++ y) ->
  let x := extract_file e (Some path) version d (J (r ++ [z])) in
  (exists m, result x w = Ok m) /\ look (after x w) (dst ++ [z]) = Some (EFile b) /\
  forall q, q <> dst -> q <> dst ++ [z] -> look (after x w) q = look w q.
Proof.
  intros H h sd P w l k F e path version d r b z HH Hi CF E Hv Fc Hu Eh HF dst Up Hp Hout x. destruct (history_tracked H h sd P w l HH Hi (or_intror CF)) as (alg & spec & ivs & C & T).
  pose proof (tr_made _ _ _ _ _ _ _ _ _ _ T) as M. set (n := List.length l) in *.
  assert (Hk : (1 <= S k <= n)%nat) by (assert (k < n)%nat by (apply nth_error_Some; congruence); lia).
  destruct (made_plan _ _ _ _ _ _ _ _ _ (S k) M Hk) as (L & _ & L1 & L2 & _). set (i := sort_inv (ivs n)) in *.
  assert (HL : In (r ++ [z], b) L) by (apply (extracted_files H h sd P w l alg spec ivs C k F L T CF E L1 L2); exact HF).
  destruct (L1 _ _ HL) as (_ & Fr & Hs & cb & Hcb). pose proof (hl_dir _ _ _ (md_holds _ _ _ _ _ _ _ _ _ M)) as Hd. pose proof (md_tree _ _ _ _ _ _ _ _ _ M) as Tw.
  assert (Oh : result (open_obj_fs e (Some path) false) w = Ok h).
  { rewrite Eh in Hd. destruct (open_there (e_cwd e) path w Hu Hd) as [R1 R2]. destruct (open_obj_catch e path false w) as (Q1 & Q2 & _). rewrite Eh. now apply Q2. }
  pose proof (made_parse _ _ _ _ _ _ _ _ _ M) as Ep. fold i in Ep.
  assert (Es : extract_setup w h version = Ok (i, vn (S k))) by (destruct Hv as [-> | [-> Hv]]; [eapply md_version; eauto|rewrite Hv; eapply md_head_version; eauto]).
  assert (Hs' : in_state i (vn (S k)) (H (alg n) b) (J (r ++ [z]))) by (apply in_state_sorted; exact Hs).
  assert (St : forall c, stored i (H (alg n) b) c -> exists r' b', In (r', b') C /\ c = J r' /\ fs_read w h c = Ok b' /\ b' = b).
  { intros c Hc. apply (proj1 (stored_sorted _ _ _)) in Hc. destruct (md_digests _ _ _ _ _ _ _ _ _ M n (H (alg n) b) c ltac:(lia) Hc) as (r' & b' & Hr & -> & Ed). exists r', b'. split; [auto|]. split; [auto|].
    split.
    - apply fs_read_look. rewrite at_path_join; [|apply M|eapply md_fnames; eauto]. apply (hl_files _ _ _ (md_holds _ _ _ _ _ _ _ _ _ M)). unfold object_files. rewrite !in_app_iff. auto.
    - destruct (tr_content _ _ _ _ _ _ _ _ _ _ T r' b' Hr) as (F0 & es0 & K1 & K2). destruct (tr_alg _ _ _ _ _ _ _ _ _ _ T n ltac:(lia)) as (cn & Pn & En).
      apply (CF cn F0 F es0 b' (r ++ [z]) b); auto. + eapply nth_error_In; eauto. + congruence. }
  destruct (extract_file_done e (Some path) version d (J (r ++ [z])) w h i _ (vn (S k)) Tw Fc Oh Ep Es) as [_ G].
  destruct (G Up (H (alg n) b) z Hs') as (m & b1 & c & R & _ & G1 & G2 & G3 & G4 & G5); [|now apply last_part_names|exact Hp| |].
  - intros c Hc. destruct (St c Hc) as (r' & b' & _ & _ & Q & _). eauto.
  - intros c Hc Ea. destruct (St c Hc) as (r' & b' & Hr & -> & _). rewrite at_path_join in Ea; [|apply M|eapply md_fnames; eauto]. exact (Hout r' (eq_sym Ea)).
  - destruct (St c G1) as (r' & b' & _ & _ & Q & ->). rewrite Q in G2. apply Ok_inv in G2. subst b1. split; [eauto|]. auto.
Qed.
Print Assumptions C44_as_added_partial.
Example C44_as_added_ex : let x := extract_file ex_env (Some (`"o")) (`"v1") (`"new") (`"d/b") in
  look (after x ex_updated3) [`"new"; `"b"] = Some (EFile (`"two")) /\ result (extract_file ex_env (Some (`"o")) (`"v1") (`"new") (`"d")) ex_updated3 = Raise ObjectException.
Proof.
  split; [|vm_compute; reflexivity].
  apply (C44_as_added_partial toy_hash [`"o"] (`"1.1") ex_any ex_updated3 ex_files 0 _ ex_env (`"o") (`"v1") (`"new") [`"d"] (`"two") (`"b") toy_hash_ok ex_history3 ex_collision_free eq_refl (or_introl eq_refl));
    [constructor|now apply no_url_b_ok|reflexivity|right; left; reflexivity| | |].
  - constructor; [now apply no_url_b_ok|reflexivity|]. exists [], (`"new"). split; [reflexivity|]. split; [now left|]. left. split; [now apply fname_b_ok|]. split; vm_compute; reflexivity.
  - left. vm_compute. reflexivity.
  - intros y Ey. discriminate Ey.
Qed.

(** A file of the same name is overwritten, contrary to the documentation of extract_file; if it
    is a content file of the object then the object is damaged, and if it is the content file
    that is to be extracted then its content is lost. *)
Theorem C44_overwrites_refuted : let x := extract_file ex_env (Some (`"o")) (`"v1") (`"s2") (`"d/b") in let w := ex_updated3 in
  exists m b, result x w = Ok m /\ look w [`"s2"; `"b"] = None /\
  let w1 := apply_all [Create [`"s2"; `"b"]; Append [`"s2"; `"b"] (`"precious")] w in
  look w1 [`"s2"; `"b"] = Some (EFile (`"precious")) /\ result x w1 = Ok m /\ look (after x w1) [`"s2"; `"b"] = Some (EFile b) /\ b = `"two".
Proof. eexists _, _. split; [vm_compute; reflexivity|]. split; [vm_compute; reflexivity|]. cbv zeta. split; [vm_compute; reflexivity|]. split; [vm_compute; reflexivity|]. split; vm_compute; reflexivity. Qed.
Print Assumptions C44_overwrites_refuted.
Theorem C44_onto_itself_refuted : let x := extract_file ex_env (Some (`"o")) (`"v1") (`"o/v1/content") (`"a") in
  (exists m, result x ex_updated3 = Ok m) /\ look ex_updated3 [`"o"; `"v1"; `"content"; `"a"] = Some (EFile (`"one")) /\
  look (after x ex_updated3) [`"o"; `"v1"; `"content"; `"a"] = Some (EFile []) /\ ex_valid ex_updated3 = true /\ ex_valid (after x ex_updated3) = false.
Proof. split; [eexists; vm_compute; reflexivity|]. split; [vm_compute; reflexivity|]. split; [vm_compute; reflexivity|]. split; vm_compute; reflexivity. Qed.
Print Assumptions C44_onto_itself_refuted.

(** * C66 *)

Lemma intact_files H w h spec rb root f head i s inv i0 g : tree w -> intact H true w h spec rb root f head -> Forall fname h -> open_at w h i s inv i0 g ->
  inv = root /\ forall d c, stored i d c -> exists d0 b, lists (f_manifest f) d0 c /\ fs_read w h c = Ok b /\ digest_fits H (f_alg f) b d0.
Proof.
  intros Tw I Fh O. destruct (in_inventory _ _ _ _ _ _ _ _ _ I) as [I1 I2]. destruct (oa_file _ _ _ _ _ _ _ O) as (b & Rb & Lb).
  assert (Eb : b = rb).
  { apply fs_read_look in Rb. change INVENTORY_FILENAME with inv_name in Rb. rewrite at_path_one in Rb; [|auto|now apply fname_b_ok]. pose proof (eq_trans (eq_sym I1) Rb) as E. injection E as E. now symmetry. }
  subst b. rewrite Lb in I2. apply Ok_inv in I2. subst inv. split; [reflexivity|].
  pose proof (facts_unique _ _ _ (oa_wf _ _ _ _ _ _ _ O) (oa_obeys _ _ _ _ _ _ _ O) (in_rules _ _ _ _ _ _ _ _ _ I)) as Ef. subst g.
  intros d c (m & l & Em & Hi & Hc). assert (Hi' : In (d, l) (manifest i)) by (unfold manifest; now rewrite Em). apply (Permutation_in _ (open_manifest _ _ _ _ _ _ _ O)), in_map_iff in Hi' as ([k x] & E & Hx).
  cbn [fst snd] in E. injection E as _ <-. assert (Hl : lists (f_manifest f) k c) by (exists x; auto). destruct (in_digests _ _ _ _ _ _ _ _ _ I eq_refl) as (D & _). destruct (D _ _ Hl) as (r & b & -> & Hb & Hd).
  exists k, b. split; [auto|]. split; [|auto]. apply fs_read_look. unfold at_root in Hb. assert (Fr : Forall fname (h ++ r)) by (apply (look_fnames w); [auto|rewrite Hb; discriminate]). apply Forall_app in Fr as [_ Fr]. now rewrite at_path_join.
Qed.

(** Any valid object that can be opened (with at most five digits in version names): a version is
    extracted to files with its logical paths and no others, each with content of the digest
    that the state has for the path. There must be no logical path that is a directory of another
    one; the validator only checks the directory right above (C66_conflict_refuted). *)
Theorem C66_partial : forall H c e path version d w n i s v,
  vc_lax_digests c = false -> vc_check_digests c = true ->
  tree w -> Forall fname (e_cwd e) -> look w (e_cwd e) = Some EDir -> no_url path -> let h := dest_of (e_cwd e) path in
  snd (validate_object H c w (e_cwd e) path n) = Ok true -> parse_inventory w h = Ok (i, s) ->
  version = v /\ v <> `"head" /\ is_version i v \/ version = `"head" /\ i_head i = Some v ->
  (forall p q, in_version i v p -> in_version i v q -> ~ above p q) ->
  let dst := dest_of (e_cwd e) d in dest_free w dst ->
  let x := extract e (Some path) version d in
  exists L rb root f, (exists m, result x w = Ok m) /\ holds (after x w) dst L /\ NoDup (map fst L) /\
    look w (h ++ [`"inventory.json"]) = Some (EFile rb) /\ json_load rb = Ok root /\ obeys as_coded root f /\
    (forall r b, In (r, b) L -> exists st dg, state_of root v st /\ lists st dg (J r) /\ digest_fits H (f_alg f) b dg) /\
    (forall p, has_path root v p -> exists r b, In (r, b) L /\ p = J r).
Proof.
  intros H c e path version d w n i s v Lx Ck Tw Fc Hc Hu h V Ep Ev Ha dst Df x. destruct (Properties_Validator.C30_path H c w (e_cwd e) path n Hu) as [V1 V2]. fold (dest_of (e_cwd e) path) in V1, V2. fold h in V1, V2.
  destruct (entry_dir_dec (look w h)) as [Hh|Hh]; [|rewrite (V2 Hh) in V; discriminate]. rewrite (V1 Hh) in V. apply validate_opened_iff in V as (_ & spec & rb & root & f & head & I); auto. rewrite Ck in I.
  assert (Fh : Forall fname h) by (apply dest_fnames; auto). destruct (parse_opened _ _ _ _ Ep) as (inv & i0 & g & O).
  destruct (intact_files _ _ _ _ _ _ _ _ _ _ _ _ _ Tw I Fh O) as [Ei Fl]. subst inv. pose proof (facts_unique _ _ _ (oa_wf _ _ _ _ _ _ _ O) (oa_obeys _ _ _ _ _ _ _ O) (in_rules _ _ _ _ _ _ _ _ _ I)) as Ef. subst g.
  assert (Es : extract_setup w h version = Ok (i, v)).
  { destruct (setup_ok _ _ _ _ Ep) as ((v' & Hv' & S1) & S2 & _). destruct Ev as [(-> & Nv & Hv)|[-> Hv]]; [now apply S2|]. rewrite S1. congruence. }
  destruct (extract_files e path version d w h i s v Tw Fc Hc Hu eq_refl Hh Ep Es) as (L & m & R & _ & Hl & Nd & L1 & L2); auto.
  { intros dg k Hk. destruct (Fl _ _ Hk) as (_ & b & _ & Hb & _). eauto. }
  exists L, rb, root, f. split; [eauto|]. split; [exact Hl|]. split; [exact Nd|]. destruct (in_inventory _ _ _ _ _ _ _ _ _ I) as [I1 I2]. split; [exact I1|]. split; [exact I2|]. split; [apply (in_rules _ _ _ _ _ _ _ _ _ I)|].
  pose proof (oa_opened _ _ _ _ _ _ _ O) as Op. split.
  - intros r b Hi. destruct (L1 r b Hi) as (_ & _ & k & Hk & Rb). pose proof Hk as (dg & _ & Hst). destruct (Fl _ _ Hst) as (d0 & b' & Hm & Rb' & Hf). rewrite Rb in Rb'. apply Ok_inv in Rb'. subst b'.
    apply (op_resolves _ _ _ Op) in Hk as (st & man & d1 & x1 & y1 & S1 & S2 & S3 & S4 & S5 & S6). exists st, d1. split; [auto|]. split; [exists x1; auto|].
    assert (Em : man = f_manifest f) by (destruct (oa_obeys _ _ _ _ _ _ _ O) as (_ & _ & _ & _ & (Hmm & _) & _); pose proof (member_fun _ _ _ _ (oa_wf _ _ _ _ _ _ _ O) S2 Hmm) as E; congruence). subst man.
    destruct (in_digests _ _ _ _ _ _ _ _ _ I eq_refl) as (D & _). destruct (D d1 k) as (r2 & b2 & E2 & Hb2 & Hf2); [exists y1; auto|].
    assert (b2 = b).
    { apply fs_read_look in Rb. rewrite E2 in Rb. unfold at_root in Hb2. assert (Fr : Forall fname (h ++ r2)) by (apply (look_fnames w); [auto|rewrite Hb2; discriminate]). apply Forall_app in Fr as [_ Fr].
      rewrite at_path_join in Rb by auto. rewrite Hb2 in Rb. congruence. }
    now subst b2.
  - intros p Hp. apply L2. now apply (op_path _ _ _ Op).
Qed.
Print Assumptions C66_partial.
Example C66_ex : let x := extract ex_env (Some (`"o")) (`"head") (`"new") in
  snd (validate_object toy_hash ex_validator ex_updated3 [] (`"o") 0) = Ok true /\ (exists i s, parse_inventory ex_updated3 [`"o"] = Ok (i, s) /\ i_head i = Some (`"v3") /\ logical_paths i (`"v3") <> []) /\ dest_free ex_updated3 [`"new"].
Proof. split; [vm_compute; reflexivity|]. split; [eexists _, _; split; [vm_compute; reflexivity|]; split; [vm_compute; reflexivity|vm_compute; discriminate]|]. left. split; vm_compute; reflexivity. Qed.

(** An object that the validator accepts with logical paths "a" and "a/b/c": it cannot be
    extracted, and a part of the version has been written when extraction fails. *)
Definition ex_conflict_inv : str := Properties_Validator.ex_inventory_with (`"1.1") (`"v1")
  (Properties_Validator.ex_entry Properties_Validator.ex_d1 (`"v1/content/a") ++ `"," ++ Properties_Validator.ex_entry Properties_Validator.ex_d2 (`"v1/content/b"))
  (Properties_Validator.ex_version (`"v1") (Properties_Validator.ex_entry Properties_Validator.ex_d1 (`"a") ++ `"," ++ Properties_Validator.ex_entry Properties_Validator.ex_d2 (`"a/b/c"))) [].
Definition ex_conflict : node :=
  Dir [(`"o", Dir [(Properties_Validator.ex_decl, File Properties_Validator.ex_decl_text);
     (`"inventory.json", File ex_conflict_inv); (`"inventory.json.sha256", File (Properties_Validator.ex_sidecar ex_conflict_inv));
     (`"v1", Dir [(`"inventory.json", File ex_conflict_inv); (`"inventory.json.sha256", File (Properties_Validator.ex_sidecar ex_conflict_inv));
                  (`"content", Dir [(`"a", File (`"one")); (`"b", File (`"two"))])])])].
Theorem C66_conflict_refuted : let x := extract ex_env (Some (`"o")) (`"v1") (`"new") in
  tree ex_conflict /\ ex_valid ex_conflict = true /\ (exists i s, parse_inventory ex_conflict [`"o"] = Ok (i, s) /\ logical_paths i (`"v1") = [`"a"; `"a/b/c"]) /\
  dest_free ex_conflict [`"new"] /\ (exists ex, result x ex_conflict = Raise ex) /\ look (after x ex_conflict) [`"new"; `"a"] = Some (EFile (`"one")).
Proof.
  split; [apply tree_b_ok; vm_compute; reflexivity|]. split; [vm_compute; reflexivity|]. split; [eexists _, _; split; vm_compute; reflexivity|].
  split; [left; split; vm_compute; reflexivity|]. split; [eexists; vm_compute; reflexivity|vm_compute; reflexivity].
Qed.
Print Assumptions C66_conflict_refuted.
