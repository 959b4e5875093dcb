(** C48: adding an object to a storage root. *)
From Verif Require Import Base Unicode Regex Utf8 Json PyJson JsonTextModel JsonFileProofs Log DigestModel LayoutModel ContentPathProofs TextFile PathModel FsModel FsSpec FsProofs FsStepProofs FswModel FswSpec FswProofs FswCopyProofs CopyFrameProofs
  NamasteModel NamasteSpec NamasteProofs Properties_Fsw InventorySpec InventoryValidatorModel InventoryModel ParseModel ValidatorSpec ValidatorModel ValidatorBasicProofs ValidatorContentProofs ObjectModel ObjectExamples UpdateSpec
  Properties_Layout Properties_Object StorageRootModel StorageRootSpec StorageRootProofs StorageRootRunProofs Properties_StorageRoot Properties_RootList RootAddSpec RootAddProofs.

From Verif Require Properties_Validator.

Lemma walkable_root : walkable [slash].
Proof. unfold walkable. vm_compute. discriminate. Qed.
Lemma at_root_path h : Forall fname h -> at_path h [slash] = h.
Proof. intros F. transitivity (resolve ((h ++ [[]]) ++ [[]])); [unfold at_path; f_equal; rewrite <- app_assoc; reflexivity|]. rewrite !resolve_app_nil. now apply resolve_fnames. Qed.
(** No operation makes anything but files and directories. *)
Lemma no_new_other l q : forall w, tree w -> ok_steps w l -> look (apply_all l w) q = Some EOther -> look w q = Some EOther.
Proof.
  induction l as [|x l IH]; intros w Ht Ho Hq; [exact Hq|]. destruct Ho as [H1 H2]. change (apply_all (x :: l) w) with (apply_all l (apply x w)) in Hq.
  apply IH in Hq; auto using ok_step_tree. destruct (place_eq_dec q (step_place x)) as [->|N]; [|now rewrite (ok_step_other w x q Ht H1 N) in Hq].
  destruct H1 as [_ H1]. destruct x as [p|p|p b|p]; cbn [step_place] in *.
  - pose proof (changes_at _ _ _ _ (mkdir_changes w p H1)). congruence.
  - pose proof (changes_at _ _ _ _ (create_changes w p H1)). congruence.
  - destruct H1 as [c Hc]. pose proof (changes_at _ _ _ _ (append_changes w p b c Hc)). congruence.
  - destruct H1 as (H1 & H3 & H4). pose proof (changes_at _ _ _ _ (unlink_changes w p Ht H1 H4)). congruence.
Qed.

(** * C14: when copying a directory succeeds, and that otherwise, or if it is interrupted, it
    leaves alone what there was *)
Theorem C14_when : forall w src_h src_path dst_h dst_path,
  let src := at_path src_h src_path in
  let dst := at_path dst_h dst_path in
  tree w -> Forall fname src_h -> Forall fname dst_h -> walkable src_path ->
  (result (fsw_copydir src_h src_path dst_h dst_path) w = Ok tt <->
   look w src = Some EDir /\ look w dst = None /\ dirs_to w dst /\ forall rel, leaf w (src ++ rel) -> exists b, look w (src ++ rel) = Some (EFile b)).
Proof.
  intros w src_h src_path dst_h dst_path src dst T F1 F2 W. split.
  - apply copydir_files; auto.
  - intros (A & B & C & D). apply C14_copydir; auto.
Qed.
Print Assumptions C14_when.
Theorem C14_kept : forall w src_h src_path dst_h dst_path w1,
  tree w -> Forall fname dst_h -> walkable src_path ->
  crash (fsw_copydir src_h src_path dst_h dst_path) w w1 \/ w1 = after (fsw_copydir src_h src_path dst_h dst_path) w ->
  forall q, look w q <> None -> look w1 q = look w q.
Proof.
  intros w src_h src_path dst_h dst_path w1 T F W Hc q Hq.
  assert (C : exists c, cut c (fst (fsw_copydir src_h src_path dst_h dst_path w)) /\ w1 = apply_all c w).
  { destruct Hc as [Hc| ->]; [exact Hc|]. eexists. split; [apply cut_all|reflexivity]. }
  destruct C as (c & Hcut & ->). apply (acts_cut (fun q => look w q = None) (fsw_copydir src_h src_path dst_h dst_path) w q c T); [|exact Hcut|exact Hq].
  now apply acts_copydir.
Qed.
Print Assumptions C14_kept.

(** * C48 *)

(** On the way to a place where there is nothing there are only directories, or there is
    something else first. *)
Lemma way_to w p : look w p = None -> dirs_to w p \/ exists q c r, p = q ++ c :: r /\ leaf w q.
Proof.
  intros Hp.
  assert (X : forall r q, p = q ++ r -> (forall r1 r2, r = r1 ++ r2 -> look w (q ++ r1) = None \/ look w (q ++ r1) = Some EDir) \/ exists r1 c r2, r = r1 ++ c :: r2 /\ leaf w (q ++ r1)).
  { induction r as [|c r IH]; intros q E.
    - left. intros r1 r2 E2. destruct r1; [|discriminate]. rewrite app_nil_r in *. subst q. now left.
    - destruct (IH (q ++ [c])) as [A|(r1 & c' & r2 & E2 & A)]; [now rewrite <- app_assoc| |].
      + destruct (look w q) as [[b| |]|] eqn:L.
        * right. exists [], c, r. split; [reflexivity|]. rewrite app_nil_r. split; rewrite L; discriminate.
        * left. intros r1 r2 E2. destruct r1 as [|c1 r1]; [rewrite app_nil_r; now right|]. injection E2 as <- E2. specialize (A r1 r2 E2). rewrite <- app_assoc in A. exact A.
        * right. exists [], c, r. split; [reflexivity|]. rewrite app_nil_r. split; rewrite L; discriminate.
        * left. intros r1 r2 E2. destruct r1 as [|c1 r1]; [rewrite app_nil_r; now left|]. injection E2 as <- E2. specialize (A r1 r2 E2). rewrite <- app_assoc in A. exact A.
      + right. exists (c :: r1), c', r2. rewrite E2. split; [reflexivity|]. rewrite <- app_assoc in A. exact A. }
  destruct (X p [] eq_refl) as [A|(r1 & c & r2 & E & A)]; [left|right].
  - intros q r E. exact (A q r E).
  - exists r1, c, r2. auto.
Qed.

Section C48.
  Variables (H : hashfn) (id_encode : str -> str) (e : env) (s : sroot) (w : node) (r od : str).
  Let h := at_path (base_of (e_cwd e) r) r.
  Let src := at_path (base_of (e_cwd e) od) od.
  Let dst (path : str) := at_path h path.
  Let add := add H id_encode e od s.
  Let w' := after add w.
  Hypothesis Tree : tree w.
  Hypothesis Local : no_url r.
  Hypothesis Local2 : no_url od.
  Hypothesis Root : s_root s = Some r.
  Hypothesis Fresh : s_layout s = None.
  Let belongs := belongs H id_encode w h (s_layout_name s) (s_spec s) src.

  Lemma rest_of id path : belongs id path -> exists s2, add w = add_rest e r od id path s2 w.
  Proof. intros B. exact (add_ok H id_encode e s w r od Tree Local Local2 Root Fresh id path B). Qed.
  Lemma belongs_names id path : belongs id path -> Forall fname src /\ Forall fname h.
  Proof. intros B. split; (eapply look_fnames; [exact Tree|]); [rewrite (be_source _ _ _ _ _ _ _ _ _ B)|rewrite (be_root _ _ _ _ _ _ _ _ _ B)]; discriminate. Qed.
  Lemma belongs_fun id path id' path' : belongs id path -> belongs id' path' -> id' = id /\ path' = path.
  Proof.
    intros A B. assert (X : id' = id).
    { pose proof (proj1 (belongs_names _ _ A)) as F. destruct A as [_ _ _ A _], B as [_ _ _ B _]. apply identified_iff in A as (i & x & A1 & A2); [|exact F]. apply identified_iff in B as (i' & x' & B1 & B2); [|exact F]. congruence. }
    subst id'. split; [reflexivity|]. destruct A as [_ _ _ _ (l & [A|(A & n & A1 & A2)] & Ap)], B as [_ _ _ _ (l' & [B|(B & n' & B1 & B2)] & Bp)].
    - pose proof (layout_fun _ _ _ _ _ A B) as X. injection X as <-. congruence.
    - pose proof (layout_fun _ _ _ _ _ A B) as X. discriminate.
    - pose proof (layout_fun _ _ _ _ _ A B) as X. discriminate.
    - congruence.
  Qed.

  Lemma adds id path : belongs id path -> acts_at (fun q => look w q = None) add w.
  Proof.
    intros B. destruct (rest_of _ _ B) as [s2 R]. destruct (belongs_names _ _ B) as [F1 F2]. unfold acts_at. rewrite R. unfold add_rest. fold h src.
    destruct (fs_exists w h path); [split; [exact I|intros ? []]|].
    pose proof (acts_copydir w src h [slash] path Tree F2 walkable_root) as A. unfold acts_at in A. destruct (fsw_copydir src [slash] h path w) as [l [u|y]]; exact A.
  Qed.
  Lemma acts_add : acts_at (fun q => look w q = None) add w.
  Proof.
    destruct (add_cases H id_encode e s w r od Tree Local Local2 Root Fresh) as [(s2 & y & E)|(id & path & B)]; [|exact (adds id path B)].
    unfold acts_at, add. rewrite E. split; [exact I|intros ? []].
  Qed.

  (** When adding succeeds, and what it returns. *)
  Theorem C48_when : forall id path, (exists s', result add w = Ok (s', Ok (id, path))) <->
    belongs id path /\ look w (dst path) = None /\ dirs_to w (dst path) /\ plain w src.
  Proof.
    intros id path. split.
    - intros (s' & E). destruct (add_cases H id_encode e s w r od Tree Local Local2 Root Fresh) as [(s2 & y & E2)|(id' & path' & B)].
      { unfold result in E. unfold add in E. rewrite E2 in E. discriminate. }
      destruct (rest_of _ _ B) as [s2 R]. unfold result in E. rewrite R in E. unfold add_rest in E. fold h src in E. destruct (fs_exists w h path') eqn:X; [discriminate|].
      destruct (fsw_copydir src [slash] h path' w) as [l [[]|y]] eqn:Ec; [|discriminate]. cbn [snd] in E. apply Ok_inv in E. injection E as _ E1 E2. rewrite E1, E2 in *.
      destruct (belongs_names _ _ B) as [F1 F2]. destruct (copydir_files w src h [slash] path Tree F2 walkable_root) as (C1 & C2 & C3 & C4); [unfold result; rewrite Ec; reflexivity|].
      rewrite (at_root_path src F1) in *. split; [exact B|]. split; [exact C2|]. split; [exact C3|exact C4].
    - intros (B & N & D & P). destruct (rest_of _ _ B) as [s2 R]. destruct (belongs_names _ _ B) as [F1 F2].
      destruct (C14_copydir w src [slash] h path Tree F1 F2 walkable_root) as (C1 & _); [rewrite (at_root_path src F1); apply (be_source _ _ _ _ _ _ _ _ _ B)|exact N|exact D|rewrite (at_root_path src F1); exact P|].
      exists s2. unfold result. rewrite R. unfold add_rest. fold h src. rewrite (proj2 (fs_exists_false w h path) N). unfold result in C1.
      destruct (fsw_copydir src [slash] h path w) as [l y]. cbn [snd] in C1. rewrite C1. reflexivity.
  Qed.

  (** Then the files of the object are at the path of the layout, byte for byte, and nothing
      else has changed. *)
  Theorem C48_exact : forall s' id path, result add w = Ok (s', Ok (id, path)) ->
    belongs id path /\ tree w' /\
    (* nothing was there, *)
    (forall rel, look w (dst path ++ rel) = None) /\
    (* now the files of the object are, and only directories for them, *)
    (forall rel b, look w' (dst path ++ rel) = Some (EFile b) <-> look w (src ++ rel) = Some (EFile b)) /\
    (forall rel, look w' (dst path ++ rel) = Some EDir -> rel = [] \/ exists c t b, look w (src ++ rel ++ c :: t) = Some (EFile b)) /\
    (forall rel, look w' (dst path ++ rel) <> Some EOther) /\
    (* everything that was there is unchanged, *)
    (forall q, look w q <> None -> look w' q = look w q) /\
    (* and there is nothing else new than directories on the way. *)
    (forall q, look w q = None -> look w' q <> None -> strip (dst path) q = None -> look w' q = Some EDir /\ exists t, dst path = q ++ t).
  Proof.
    intros s' id path E. destruct (proj1 (C48_when id path) (ex_intro _ s' E)) as (B & N & D & P). destruct (rest_of _ _ B) as [s2 R]. destruct (belongs_names _ _ B) as [F1 F2].
    assert (W : w' = after (fsw_copydir src [slash] h path) w).
    { unfold w', after. rewrite R. unfold add_rest. fold h src. rewrite (proj2 (fs_exists_false w h path) N). destruct (fsw_copydir src [slash] h path w) as [l [u|y]]; reflexivity. }
    destruct (C14_copydir w src [slash] h path Tree F1 F2 walkable_root) as (C1 & C2 & C3 & C4 & C5 & C6); [rewrite (at_root_path src F1); apply (be_source _ _ _ _ _ _ _ _ _ B)|exact N|exact D|rewrite (at_root_path src F1); exact P|].
    rewrite (at_root_path src F1) in *. rewrite <- W in *. clear W. assert (N' : forall rel, look w (dst path ++ rel) = None).
    { intros [|c t]; [rewrite app_nil_r; exact N|]. apply look_below_leaf; [discriminate|]. rewrite N. discriminate. }
    split; [exact B|]. split; [exact C2|]. split; [exact N'|]. split; [exact C3|]. split; [exact C4|].
    assert (K : forall q, look w q <> None -> look w' q = look w q).
    { intros q Hq. destruct (look w q) as [x|] eqn:L; [|congruence]. now apply C5. }
    split; [|split; [exact K|]].
    - intros rel L. unfold w', after in L. apply no_new_other in L; [rewrite N' in L; discriminate|exact Tree|]. apply (adds id path B).
    - intros q Hq Hq' Hs. destruct (C6 q Hq') as [X|[(rel & ->)|(t & Et)]]; [congruence|fold (dst path) in Hs; rewrite strip_app in Hs; discriminate|].
      split; [|eauto]. destruct t as [|c t]; [rewrite app_nil_r in Et; fold (dst path) in Et; rewrite <- Et, strip_self in Hs; discriminate|].
      apply (look_above w' q c (t ++ [`"inventory.json"])). destruct (be_id _ _ _ _ _ _ _ _ _ B) as (b & d & Lb & _).
      change (q ++ c :: t ++ [`"inventory.json"]) with (q ++ (c :: t) ++ [`"inventory.json"]). rewrite app_assoc, <- Et. rewrite (proj2 (C3 _ _) Lb). discriminate.
  Qed.

  (** If something is at that path already then nothing is done. *)
  Theorem C48_exists : forall id path, belongs id path -> look w (dst path) <> None ->
    (exists s', result add w = Ok (s', Raise (StorageRootException []))) /\ w' = w.
  Proof.
    intros id path B N. destruct (rest_of _ _ B) as [s2 R]. unfold w', result, after. rewrite R. unfold add_rest. fold h. rewrite (proj2 (fs_exists_look w h path) N). split; [eexists; reflexivity|reflexivity].
  Qed.

  (** Whatever happens, and also if adding is interrupted, everything that was there is as
      before. *)
  Theorem C48_kept : forall w1, crash add w w1 \/ w1 = w' -> forall q, look w q <> None -> look w1 q = look w q.
  Proof.
    intros w1 Hc q Hq. assert (C : exists c, cut c (fst (add w)) /\ w1 = apply_all c w).
    { destruct Hc as [Hc| ->]; [exact Hc|]. exists (fst (add w)). split; [apply cut_all|reflexivity]. }
    destruct C as (c & Hcut & ->). apply (acts_cut (fun q => look w q = None) add w q c Tree); [|exact Hcut|exact Hq].
    apply acts_add.
  Qed.

  (** An object without special files is added or nothing is done. *)
  Theorem C48_failed : forall s' y, result add w = Ok (s', Raise y) -> plain w src -> w' = w.
  Proof.
    intros s' y E P. destruct (add_cases H id_encode e s w r od Tree Local Local2 Root Fresh) as [(s2 & y2 & E2)|(id & path & B)].
    { unfold w', after, add. rewrite E2. reflexivity. }
    assert (D : {look w (dst path) = None} + {look w (dst path) <> None}) by (destruct (look w (dst path)); [right; discriminate|now left]).
    destruct D as [N|N]; [|apply (C48_exists _ _ B N)]. destruct (belongs_names _ _ B) as [F1 F2].
    destruct (way_to w (dst path) N) as [D|(q & c & t & Eq & L)].
    - exfalso. destruct (proj2 (C48_when id path)) as (s3 & E3); [split; [exact B|auto]|]. congruence.
    - destruct (rest_of _ _ B) as [s2 R]. destruct (C14_file_in_the_way w src [slash] h path q c t) as [_ A]; [rewrite at_root_path by exact F1; apply (be_source _ _ _ _ _ _ _ _ _ B)|exact Eq|exact L|].
      unfold w', after. rewrite R. unfold add_rest. fold h src. rewrite (proj2 (fs_exists_false w h path) N). unfold after in A. destruct (fsw_copydir src [slash] h path w) as [l [u|z]]; exact A.
  Qed.
End C48.
Print Assumptions C48_when.
Print Assumptions C48_exact.
Print Assumptions C48_exists.
Print Assumptions C48_kept.
Print Assumptions C48_failed.

(** * Examples and cases in which more could be expected *)

(** A new object with an identifier *)
Definition ex_new_object (id : str) : node :=
  match get (after (create toy_hash (mk_object (Some id) None (`"sha256") None (`"1.1") true true false None) ex_env (Some (`"s")) (Some ex_meta) (Some (`"o"))) (Dir [(`"s", Dir [(`"a", File (`"one"))])])) [`"o"] with
  | Ok n => n | Raise _ => Other end.
(** A storage root in r (or ex_full), and objects in the directories o1, o2, ... *)
Definition ex_layout_named (name : str) : str * node := (`"ocfl_layout.json", File (`"{""extension"": """ ++ name ++ `""", ""description"": ""d""}")).
Definition ex_both (root : node) (l : list (str * node)) : node := match root with Dir d => Dir (d ++ l) | _ => root end.
Definition ex_add (o : str) : io (sroot * exc (str * str)) := add toy_hash (fun i => i) ex_env o ex_sroot.
(** Objects added one after the other, each by a new instance *)
Definition ex_adds (l : list str) (w : node) : list (exc (str * str)) * node :=
  fold_left (fun a o => (fst a ++ [returned (ex_add o (snd a))], after (ex_add o) (snd a))) l ([], w).

Definition ex_add_before : node := ex_both ex_full [(`"o1", ex_new_object (`"info:b"))].
Example C48_ex : tree ex_add_before /\ belongs toy_hash (fun i => i) ex_add_before [`"r"] None None [`"o1"] (`"info:b") (`"623/a6f/666/info%3ab") /\
  look ex_add_before [`"r"; `"623"] = None /\ plain ex_add_before [`"o1"] /\
  returned (ex_add (`"o1") ex_add_before) = Ok (`"info:b", `"623/a6f/666/info%3ab") /\
  returned (list_objects toy_hash ex_env ex_sroot (after (ex_add (`"o1")) ex_add_before)) = Ok [(`"a/b", `"info:a"); (`"a/c/d", `"info:a"); (`"623/a6f/666/info%3ab", `"info:b")].
Proof.
  assert (T : tree ex_add_before) by (apply tree_b_ok; vm_compute; reflexivity). split; [exact T|].
  assert (N : no_url (`"r") /\ no_url (`"o1")) by (split; apply no_url_b_ok; reflexivity).
  assert (R : exists s', result (ex_add (`"o1")) ex_add_before = Ok (s', Ok (`"info:b", `"623/a6f/666/info%3ab"))) by (eexists; vm_compute; reflexivity).
  pose proof (proj1 (C48_when toy_hash (fun i => i) ex_env ex_sroot ex_add_before (`"r") (`"o1") T (proj1 N) (proj2 N) eq_refl eq_refl (`"info:b") (`"623/a6f/666/info%3ab")) R) as (B & _ & _ & P).
  split; [exact B|]. split; [reflexivity|]. split; [exact P|]. split; vm_compute; reflexivity.
Qed.
Example C48_exists_ex : fst (ex_adds [`"o1"; `"o1"] ex_add_before) = [Ok (`"info:b", `"623/a6f/666/info%3ab"); Raise (StorageRootException [])] /\
  snd (ex_adds [`"o1"; `"o1"] ex_add_before) = snd (ex_adds [`"o1"] ex_add_before).
Proof. split; vm_compute; reflexivity. Qed.

(** Directories without files are not copied: an object with an empty directory is not
    copied as it is. (Only the validator would have said something about such a directory.) *)
Theorem C48_copy_refuted : exists w s' id path q, tree w /\ result (ex_add (`"o1")) w = Ok (s', Ok (id, path)) /\
  look w (`"o1" :: q) = Some EDir /\ look (after (ex_add (`"o1")) w) (at_path [`"r"] path ++ q) = None.
Proof.
  exists (ex_both ex_full [(`"o1", match ex_new_object (`"info:b") with Dir d => Dir (d ++ [(`"logs", Dir [])]) | n => n end)]).
  eexists _, _, _, [`"logs"]. split; [apply tree_b_ok; vm_compute; reflexivity|]. split; [vm_compute; reflexivity|]. split; vm_compute; reflexivity.
Qed.
Print Assumptions C48_copy_refuted.

(** Objects can be added that are not valid: only the inventory is looked at. Without the
    declaration of an object it is not in the list of objects. *)
Theorem C48_valid_refuted : exists w s' id path, tree w /\ result (ex_add (`"o1")) w = Ok (s', Ok (id, path)) /\
  is_true (snd (validate_opened toy_hash (Properties_Validator.ex_conf true) w [`"o1"] 0)) = false /\
  returned (list_objects toy_hash ex_env ex_sroot (after (ex_add (`"o1")) w)) = Ok [].
Proof.
  exists (ex_both (ex_root [ex_layout_named (`"0002-flat-direct-storage-layout")]) [(`"o1", match ex_new_object (`"info:b") with Dir d => Dir (ddel (`"0=ocfl_object_1.1") d) | n => n end)]).
  eexists _, _, _. split; [apply tree_b_ok; vm_compute; reflexivity|]. split; [vm_compute; reflexivity|]. split; vm_compute; reflexivity.
Qed.
Print Assumptions C48_valid_refuted.

(** With the layout 0002 (and others where the path is made from the identifier alone) the
    object "extensions" is stored where objects are not looked for. It is not in the list of
    objects; without a log, there is no list of objects any more. *)
Theorem C48_extensions_refuted : exists w s' path, tree w /\ is_true (snd (validate_opened toy_hash (Properties_Validator.ex_conf true) w [`"o1"] 0)) = true /\
  result (ex_add (`"o1")) w = Ok (s', Ok (`"extensions", path)) /\
  (let w1 := after (ex_add (`"o1")) w in returned (list_objects toy_hash ex_env (set_log (Some []) ex_sroot) w1) = Ok [] /\ returned (list_objects toy_hash ex_env ex_sroot w1) = Raise AttributeError).
Proof.
  exists (ex_both (ex_root [ex_layout_named (`"0002-flat-direct-storage-layout")]) [(`"o1", ex_new_object (`"extensions"))]).
  eexists _, _. split; [apply tree_b_ok; vm_compute; reflexivity|]. split; [vm_compute; reflexivity|]. split; [vm_compute; reflexivity|]. split; vm_compute; reflexivity.
Qed.
Print Assumptions C48_extensions_refuted.

(** With the layout nnnn-tuple-tree an object can be stored inside another one. Then it is not
    in the list of objects, and the other one is not valid any more. *)
Theorem C48_nested_refuted : exists w, tree w /\
  fst (ex_adds [`"o1"; `"o2"] w) = [Ok (`"ab", `"ab/ab"); Ok (`"abab", `"ab/ab/abab")] /\
  (let w2 := snd (ex_adds [`"o1"; `"o2"] w) in returned (list_objects toy_hash ex_env ex_sroot w2) = Ok [(`"ab/ab", `"ab")] /\
   is_true (snd (validate_opened toy_hash (Properties_Validator.ex_conf true) (snd (ex_adds [`"o1"] w)) [`"r"; `"ab"; `"ab"] 0)) = true /\
   is_true (snd (validate_opened toy_hash (Properties_Validator.ex_conf true) w2 [`"r"; `"ab"; `"ab"] 0)) = false).
Proof.
  exists (ex_both (ex_root [ex_layout_named (`"nnnn-tuple-tree")]) [(`"o1", ex_new_object (`"ab")); (`"o2", ex_new_object (`"abab"))]).
  split; [apply tree_b_ok; vm_compute; reflexivity|]. split; [vm_compute; reflexivity|]. split; [vm_compute; reflexivity|]. split; vm_compute; reflexivity.
Qed.
Print Assumptions C48_nested_refuted.

(** If adding is interrupted, the part that was copied stays, and the object cannot be added
    any more. *)
Theorem C48_interrupted_refuted : exists w w1, tree w /\ crash (ex_add (`"o1")) w w1 /\
  (exists s' x, result (ex_add (`"o1")) w = Ok (s', Ok x)) /\
  returned (ex_add (`"o1") w1) = Raise (StorageRootException []) /\ returned (list_objects toy_hash ex_env ex_sroot w1) <> returned (list_objects toy_hash ex_env ex_sroot (after (ex_add (`"o1")) w)).
Proof.
  set (w := ex_both (ex_root [ex_layout_named (`"0002-flat-direct-storage-layout")]) [(`"o1", ex_new_object (`"info:b"))]).
  exists w, (apply_all (firstn 1 (fst (ex_add (`"o1") w))) w). split; [apply tree_b_ok; vm_compute; reflexivity|]. split; [|split; [eexists _, _; vm_compute; reflexivity|split; [vm_compute; reflexivity|vm_compute; discriminate]]].
  exists (firstn 1 (fst (ex_add (`"o1") w))). split; [|reflexivity]. rewrite <- (firstn_skipn 1 (fst (ex_add (`"o1") w))) at 2. constructor.
Qed.
Print Assumptions C48_interrupted_refuted.
