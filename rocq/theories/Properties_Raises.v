(** C62: when validation raises no exception. *)
From Verif Require Import Base Unicode Regex Utf8 Json PyJson Log TextFile DigestModel ObjectUtilsModel LoggerModel.
From Verif Require Import Properties_Layout.
From Verif Require Import InventorySpec InventoryValidatorModel InventorySafeProofs.
From Verif Require Import PathModel FsModel FsSpec FsProofs FswModel FswSpec FswProofs FswCopyProofs NamasteModel NamasteSpec NamasteProofs.
From Verif Require Import ValidatorModel ValidatorSpec Properties_Validator RaisesSpec RaisesProofs.
Open Scope N_scope.

(** ** A decision of [orderly], for examples *)

Definition path_lists_b (j : json) : bool :=
  match j with
  | JObj d => forallb (fun kx => match snd kx with JArr l => forallb (fun s => match s with JStr _ => true | _ => false end) l | _ => false end) d
  | _ => false
  end.
Lemma path_lists_b_ok j : path_lists_b j = true -> path_lists j.
Proof.
  destruct j; try discriminate. cbn [path_lists_b]. intros H. rewrite forallb_forall in H. eexists. split; [reflexivity|].
  intros k x Hi. specialize (H _ Hi). cbn [snd] in H. destruct x; try discriminate. rewrite forallb_forall in H. eexists. split; [reflexivity|].
  apply Forall_forall. intros y Hy. specialize (H _ Hy). destruct y; try discriminate. eexists; reflexivity.
Qed.
Definition all_members (P : json -> bool) (j : json) (k : str) : bool :=
  match j with JObj d => forallb (fun kx => if str_eqb (fst kx) k then P (snd kx) else true) d | _ => true end.
Definition has_member (j : json) (k : str) : bool := match j with JObj d => existsb (fun kx => str_eqb (fst kx) k) d | _ => false end.
Lemma all_members_ok P j k v : all_members P j k = true -> member j k v -> P v = true.
Proof.
  intros H (d & -> & Hi). cbn [all_members] in H. rewrite forallb_forall in H. specialize (H _ Hi). cbn [fst snd] in H. now rewrite str_eqb_refl in H.
Qed.
Lemma has_member_ok j k : has_member j k = true -> exists v, member j k v.
Proof.
  destruct j; try discriminate. cbn [has_member]. intros H. apply existsb_exists in H as ([k' v] & Hi & E). apply str_eqb_eq in E. cbn [fst] in E. subst k'.
  exists v. eexists. split; [reflexivity|exact Hi].
Qed.
Definition is_obj (j : json) : bool := match j with JObj _ => true | _ => false end.
Definition known_b (a : str) : bool :=
  str_in a [`"md5"; `"sha1"; `"sha256"; `"sha512"; `"blake2b-512"; `"blake2b-160"; `"blake2b-256"; `"blake2b-384"; `"sha512-spec-ex"; `"sha256-spec-ex"].
Lemma known_b_ok a : known_b a = true -> known_algorithm a.
Proof.
  unfold known_b. intros H. apply str_in_true in H.
  repeat (destruct H as [<-|H]; [first [right; cbn [In]; auto; fail | left; eexists; constructor] |]). destruct H.
Qed.
Definition regular_b (j : json) : bool :=
  is_obj j && has_member j (`"manifest") && all_members path_lists_b j (`"manifest") &&
  all_members (fun vs => match vs with
    | JObj d => forallb (fun vb => is_obj (snd vb) && has_member (snd vb) (`"state") && all_members path_lists_b (snd vb) (`"state")) d
    | _ => true end) j (`"versions") &&
  all_members (fun fx => match fx with JObj d => forallb (fun ab => known_b (fst ab) && path_lists_b (snd ab)) d | _ => false end) j (`"fixity").
Lemma is_obj_ok j : is_obj j = true -> exists d, j = JObj d.
Proof. destruct j; try discriminate. eauto. Qed.
Lemma regular_b_ok j : regular_b j = true -> regular j.
Proof.
  unfold regular_b. rewrite !andb_true_iff. intros ((((A & B) & C) & D) & E). repeat split.
  - now apply is_obj_ok.
  - now apply has_member_ok.
  - intros man Hm. apply path_lists_b_ok. exact (all_members_ok _ _ _ _ C Hm).
  - pose proof (all_members_ok _ _ _ _ D H) as V. cbv beta iota in V. rewrite forallb_forall in V. specialize (V _ H0). rewrite !andb_true_iff in V. now apply is_obj_ok.
  - pose proof (all_members_ok _ _ _ _ D H) as V. cbv beta iota in V. rewrite forallb_forall in V. specialize (V _ H0). rewrite !andb_true_iff in V. now apply has_member_ok.
  - intros st Hs. pose proof (all_members_ok _ _ _ _ D H) as V. cbv beta iota in V. rewrite forallb_forall in V. specialize (V _ H0). rewrite !andb_true_iff in V.
    apply path_lists_b_ok. exact (all_members_ok _ _ _ _ (proj2 V) Hs).
  - intros fx Hf. pose proof (all_members_ok _ _ _ _ E Hf) as V. cbv beta in V. destruct fx as [| | | | | |d]; try discriminate. exists d. split; [reflexivity|].
    intros alg block Hi. rewrite forallb_forall in V. specialize (V _ Hi). rewrite andb_true_iff in V. cbn [fst snd] in V. split; [now apply known_b_ok|now apply path_lists_b_ok].
Qed.

Fixpoint plain_b (n : node) : bool :=
  match n with
  | Other => false | File _ => true
  | Dir d => (fix all (d : list (str * node)) : bool := match d with [] => true | (_, m) :: r => plain_b m && all r end) d
  end.
Lemma plain_b_dir d k m : plain_b (Dir d) = true -> In (k, m) d -> plain_b m = true.
Proof.
  cbn [plain_b]. induction d as [|[k' x] r IH]; [intros _ []|]. intros H [E|Hi]; apply andb_true_iff in H as [H1 H2]; [now injection E as <- <-|auto].
Qed.
Lemma plain_b_ok p : forall n, plain_b n = true -> look n p <> Some EOther.
Proof.
  induction p as [|c p IH]; intros n H; unfold look; cbn [get]; [destruct n; discriminate|].
  destruct n as [b|d|]; try discriminate. destruct (dget c d) as [m|] eqn:E; [|discriminate]. apply dget_In in E. apply IH. eapply plain_b_dir; eauto.
Qed.

Definition inventory_b (k : str) (m : node) : bool :=
  if str_eqb k (`"inventory.json") then match m with
    | File b => match json_load b with Ok j => regular_b j | Raise JSONDecodeError => true | _ => false end
    | _ => false end
  else if str_in k [`"inventory.json.sha512"; `"inventory.json.sha256"] then match m with File _ => true | _ => false end
  else true.
Definition declaration_b (k : str) (m : node) : bool :=
  if str_in k [`"0=ocfl_object_1.0"; `"0=ocfl_object_1.1"] then match m with File b => match read_text b with Ok _ => true | _ => false end | _ => false end else true.
Definition entries_b (P : str -> node -> bool) (n : node) : bool := match n with Dir d => forallb (fun km => P (fst km) (snd km)) d | _ => true end.
Definition orderly_b (w : node) (h : place) : bool :=
  match get w h with
  | Ok (Dir d) => plain_b (Dir d) && (List.length (filter (startswith (`"0=")) (keys d)) <=? 10)%nat &&
      entries_b declaration_b (Dir d) && entries_b inventory_b (Dir d) && entries_b (fun _ m => entries_b inventory_b m) (Dir d)
  | _ => false
  end.
Lemma entries_b_ok P n k e : entries_b P n = true -> look n [k] = Some e -> exists m, entry_of m = e /\ P k m = true.
Proof.
  unfold look. cbn [get]. destruct n as [b|d|]; try discriminate. cbn [entries_b]. intros H. destruct (dget k d) as [m|] eqn:E; [|discriminate].
  cbn [get]. intros X. injection X as X. apply dget_In in E. rewrite forallb_forall in H. exists m. split; [exact X|exact (H _ E)].
Qed.
Lemma entries_b_dir P w h d : get w h = Ok (Dir d) -> entries_b P (Dir d) = true -> entries_b (fun _ m => entries_b P m) (Dir d) = true ->
  forall dir k e, (List.length dir <= 1)%nat -> at_root w h (dir ++ [k]) = Some e -> exists m, entry_of m = e /\ P k m = true.
Proof.
  intros Hg H1 H2 dir k e Hl He. unfold at_root in He. rewrite look_app, Hg in He. destruct dir as [|c [|? ?]]; [|..|cbn in Hl; lia].
  - eapply entries_b_ok; eauto.
  - cbn [app] in He. destruct (dget c d) as [m|] eqn:Ec.
    + assert (He' : look m [k] = Some e) by (revert He; unfold look; cbn [get]; rewrite Ec; auto).
      apply dget_In in Ec. cbn [entries_b] in H2. rewrite forallb_forall in H2. specialize (H2 _ Ec). eapply entries_b_ok; eauto.
    + revert He. unfold look. cbn [get]. rewrite Ec. discriminate.
Qed.
Lemma orderly_b_ok w h : tree w -> orderly_b w h = true -> orderly w h.
Proof.
  intros Hw. unfold orderly_b. destruct (get w h) as [[b|d|]|] eqn:Hg; try discriminate. rewrite !andb_true_iff. intros ((((A & B) & C) & D) & E).
  split.
  - apply look_dir. eauto.
  - intros p. unfold at_root. rewrite look_app, Hg. now apply plain_b_ok.
  - apply (few_length w h d (`"0") 10 Hw Hg). now apply Nat.leb_le.
  - intros v e Hv He. unfold at_root in He. rewrite look_app, Hg in He. destruct (entries_b_ok _ _ _ _ C He) as (m & <- & Hm).
    unfold declaration_b in Hm. replace (str_in _ _) with true in Hm by (destruct Hv as [<-|[<-|[]]]; reflexivity). destruct m as [b| |]; try discriminate.
    destruct (read_text b) as [t|] eqn:Et; [|discriminate]. exists b, t. auto.
  - intros dir e Hl He. destruct (entries_b_dir _ _ _ _ Hg D E _ _ _ Hl He) as (m & <- & Hm). unfold inventory_b in Hm. rewrite str_eqb_refl in Hm.
    destruct m as [b| |]; try discriminate. exists b. split; [reflexivity|]. destruct (json_load b) as [j|x]; [right; exists j; split; [reflexivity|now apply regular_b_ok]|].
    left. destruct x; try discriminate. reflexivity.
  - intros dir alg e Hl Ha He. destruct (entries_b_dir _ _ _ _ Hg D E _ _ _ Hl He) as (m & <- & Hm). unfold inventory_b in Hm.
    destruct Ha as [<-|[<-|[]]]; cbv iota in Hm; (destruct m as [b| |]; [eexists; reflexivity|discriminate Hm|discriminate Hm]).
Qed.

(** * C62 *)

(** However wrong an object is otherwise, validation of an orderly object (RaisesSpec.v) comes to
    an end with True or False. *)
Theorem C62_partial : forall H c w h n,
  vc_lax_digests c = false -> tree w -> orderly w h -> exists b, snd (validate_opened H c w h n) = Ok b.
Proof. exact orderly_safe. Qed.
Print Assumptions C62_partial.

(** An object that is orderly, although hardly anything in it is right: two declarations, the wrong
    head, no digest algorithm, an inventory of a version that is no JSON, files nobody knows of. *)
Definition ex_awful : node :=
  Dir [(`"o", Dir [(`"0=ocfl_object_1.0", text []); (`"0=ocfl_object_1.1", text (`"x"));
    (`"inventory.json", text (`"{" ++ q (`"head") ++ `":7," ++ q (`"manifest") ++ `":{" ++ ex_entry (`"xyz") (`"../../a//b") ++ `"}," ++
        q (`"versions") ++ `":{" ++ q (`"v7") ++ `":{" ++ q (`"state") ++ `":{" ++ ex_entry [] (`"/") ++ `"}}}," ++
        q (`"fixity") ++ `":{" ++ q (`"md5") ++ `":{" ++ ex_entry (`"?") (`"b") ++ `"}}}"));
    (`"inventory.json.sha512", text [255]);
    (`"v1", Dir [(`"inventory.json", text (`"{{")); (`"inventory.json.sha256", text []); (`"content", text (`"a"))]);
    (`"v7", Dir [(`"content", Dir [(`"?", text [])])]); (`"other", Dir [])])].
Lemma ex_awful_tree : tree ex_awful. Proof. apply tree_b_ok. vm_compute. reflexivity. Qed.
Example C62_partial_ex : orderly ex_awful [`"o"] /\ orderly ex_object [`"o"] /\
  snd (validate_opened toy_hash (ex_conf true) ex_awful [`"o"] 0) = Ok false.
Proof.
  split; [apply orderly_b_ok; [exact ex_awful_tree|vm_compute; reflexivity]|].
  split; [apply orderly_b_ok; [exact ex_object_tree|vm_compute; reflexivity]|vm_compute; reflexivity].
Qed.

(** The same for validate_object with a path, where there may also be nothing, or a file. *)
Theorem C62_path_partial : forall H c w cwd path n, no_url path ->
  let h := at_path (base_of cwd path) path in
  vc_lax_digests c = false -> tree w -> look w h <> Some EDir \/ orderly w h ->
  exists b, snd (validate_object H c w cwd path n) = Ok b.
Proof.
  intros H c w cwd path n Hu h Hc Hw Ho. destruct (C30_path H c w cwd path n Hu) as [P1 P2]. destruct Ho as [Ho|Ho].
  - rewrite (P2 Ho). eexists; reflexivity.
  - rewrite (P1 (or_dir _ _ Ho)). now apply C62_partial.
Qed.
Print Assumptions C62_path_partial.
Example C62_path_partial_ex : no_url (`"o") /\ orderly ex_awful (at_path (base_of [] (`"o")) (`"o")) /\ look ex_awful (at_path (base_of [] (`"p")) (`"p")) <> Some EDir.
Proof. split; [exact (proj1 C30_path_ex)|]. split; [exact (proj1 C62_partial_ex)|vm_compute; discriminate]. Qed.

(** More conditions that cannot be left out. *)
Definition ex_without_manifest : str :=
  `"{" ++ q (`"id") ++ `":" ++ q (`"info:a") ++ `"," ++ q (`"versions") ++ `":{" ++ ex_version (`"v1") [] ++ `"}}".
Definition ex_without_state : str :=
  ex_inventory_with (`"1.1") (`"v1") (ex_entry ex_d1 (`"v1/content/a")) (q (`"v1") ++ `":{" ++ ex_time ++ `"}") [].
Definition ex_fixity (alg : str) : str :=
  ex_inventory_with (`"1.1") (`"v1") (ex_entry ex_d1 (`"v1/content/a")) (ex_version (`"v1") (ex_entry ex_d1 (`"a")))
    (`"," ++ q (`"fixity") ++ `":{" ++ q alg ++ `":{" ++ ex_entry ex_d1 (`"v1/content/a") ++ `"}}").
Definition ex_earlier (inv1 : str) : node := ex_object_with ex_decl ex_decl_text inv1 ex_inv2 (`"one") (`"two") [].
Theorem C62_conditions_refuted :
  (* the digest file is a directory *)
  (exists w, tree w /\ look w [`"o"] = Some EDir /\ at_root w [`"o"] [`"inventory.json.sha256"] = Some EDir /\
     snd (validate_opened toy_hash (ex_conf true) w [`"o"] 0) = Raise OSError) /\
  (* the inventory of an earlier version has no manifest *)
  (exists w b j, tree w /\ look w [`"o"] = Some EDir /\ at_root w [`"o"] [`"v1"; `"inventory.json"] = Some (EFile b) /\ json_load b = Ok j /\
     lacks j (`"manifest") /\ snd (validate_opened toy_hash (ex_conf true) w [`"o"] 0) = Raise KeyError) /\
  (* a version in the inventory of an earlier version has no state *)
  (exists w b j, tree w /\ look w [`"o"] = Some EDir /\ at_root w [`"o"] [`"v1"; `"inventory.json"] = Some (EFile b) /\ json_load b = Ok j /\
     (exists vs v, member j (`"versions") (JObj vs) /\ member (JObj vs) (`"v1") v /\ lacks v (`"state")) /\
     snd (validate_opened toy_hash (ex_conf true) w [`"o"] 0) = Raise KeyError) /\
  (* the inventory of an earlier version has a fixity block of an unknown algorithm *)
  (exists w b j fx, tree w /\ look w [`"o"] = Some EDir /\ at_root w [`"o"] [`"v1"; `"inventory.json"] = Some (EFile b) /\ json_load b = Ok j /\
     member j (`"fixity") fx /\ (exists x, member fx (`"crc") x) /\ snd (validate_opened toy_hash (ex_conf true) w [`"o"] 0) = Raise ValueError).
Proof.
  split; [|split; [|split]].
  - exists (Dir [(`"o", Dir [(ex_decl, text ex_decl_text); (`"inventory.json", text ex_inv1); (`"inventory.json.sha256", Dir []);
                   (`"v1", Dir [(`"content", Dir [(`"a", text (`"one"))])])])]).
    split; [apply tree_b_ok; vm_compute; reflexivity|]. split; [reflexivity|]. split; [reflexivity|]. vm_compute; reflexivity.
  - exists (ex_earlier ex_without_manifest). do 2 eexists.
    split; [apply tree_b_ok; vm_compute; reflexivity|]. split; [reflexivity|]. split; [reflexivity|]. split; [vm_compute; reflexivity|].
    split; [|vm_compute; reflexivity]. intros v (d & E & Hi). injection E as <-. repeat (destruct Hi as [Hi|Hi]; [discriminate Hi|]). exact Hi.
  - exists (ex_earlier ex_without_state). do 2 eexists.
    split; [apply tree_b_ok; vm_compute; reflexivity|]. split; [reflexivity|]. split; [reflexivity|]. split; [vm_compute; reflexivity|].
    split; [|vm_compute; reflexivity]. do 2 eexists. split; [eexists; split; [reflexivity|]; do 5 right; left; vm_compute; reflexivity|].
    split; [eexists; split; [reflexivity|]; left; vm_compute; reflexivity|].
    intros v (d & E & Hi). injection E as <-. repeat (destruct Hi as [Hi|Hi]; [discriminate Hi|]). exact Hi.
  - exists (ex_earlier (ex_fixity (`"crc"))). do 3 eexists.
    split; [apply tree_b_ok; vm_compute; reflexivity|]. split; [reflexivity|]. split; [reflexivity|]. split; [vm_compute; reflexivity|].
    split; [eexists; split; [reflexivity|]; do 6 right; left; vm_compute; reflexivity|].
    split; [eexists; eexists; split; [reflexivity|]; left; vm_compute; reflexivity|vm_compute; reflexivity].
Qed.
Print Assumptions C62_conditions_refuted.
