(** C84: what Object.tree shows. *)
From Coq Require Import Permutation Sorted.
From Verif Require Import Base Unicode Regex Utf8 Json Log DigestModel LayoutModel ObjectUtilsModel ObjectUtilsProofs InventorySpec InventoryValidatorModel InventoryValidatorProofs InventoryRulesProofs PathModel FsModel FsSpec FsProofs FswModel FswSpec FswProofs
  NamasteModel NamasteSpec NamasteProofs ValidatorSpec ValidatorModel ValidatorBasicProofs ValidatorIntactProofs ValidatorVersionProofs FswCopyProofs ObjectModel ObjectSpec ObjectStartProofs ObjectCreateProofs ObjectUpdateProofs TreeModel TreeSpec TreeProofs.
From Verif Require Properties_Validator.

(** The version of the specification that the declarations stand for: 1.0 if it is declared and 1.1 is
    not, and 1.1 otherwise. *)
Lemma declared_in n v : declared_version n = Some v <-> In v [`"1.0"; `"1.1"] /\ filename n = `"0=ocfl_object_" ++ v.
Proof.
  unfold declared_version, SPEC_VERSIONS_SUPPORTED. cbn [find].
  destruct (str_eqb_spec (filename n) (`"0=ocfl_object_" ++ `"1.0")) as [E|N1]; [|destruct (str_eqb_spec (filename n) (`"0=ocfl_object_" ++ `"1.1")) as [E|N2]].
  - split; [intros X; apply Some_inv in X; subst v; split; [now left|exact E]|]. intros [[<-|[<-|[]]] E']; [reflexivity|]. rewrite E in E'. discriminate E'.
  - split; [intros X; apply Some_inv in X; subst v; split; [right; now left|exact E]|]. intros [[<-|[<-|[]]] E']; [|reflexivity]. contradiction.
  - split; [discriminate|]. intros [[<-|[<-|[]]] E']; contradiction.
Qed.
Definition latest (has : str -> Prop) (o : option str) : Prop :=
  (has (`"1.1") /\ o = Some (`"1.1")) \/ (~ has (`"1.1") /\ has (`"1.0") /\ o = Some (`"1.0")) \/ (~ has (`"1.1") /\ ~ has (`"1.0") /\ o = None).
Lemma latest_iff P Q o : (forall v, P v <-> Q v) -> latest P o -> latest Q o.
Proof. intros E. unfold latest. rewrite !E. tauto. Qed.
Lemma check_declaration_latest w h o n o' P : latest P o -> snd (check_declaration w h o n) = Ok o' -> latest (fun v => P v \/ declared_version n = Some v) o'.
Proof.
  intros L. unfold check_declaration. destruct (declared_version n) as [v|] eqn:D.
  - assert (V : v = `"1.0" \/ v = `"1.1") by (apply declared_in in D as [[<-|[<-|[]]] _]; auto).
    assert (Take : snd (let! ok := wlift (content_ok n w h []) in (if (ok : bool) then wret tt else werror (`"E007")) ;! wret (Some v)) = Ok o' -> o' = Some v).
    { unfold wlift, wbind. destruct (content_ok n w h []) as [[|]|x]; cbn; intros E; try discriminate E; apply Ok_inv in E; auto. }
    unfold latest in *. destruct L as [[L ->]|[(L1 & L2 & ->)|(L1 & L2 & ->)]]; destruct V as [->| ->].
    + intros E. cbn [wret snd] in E. replace (str_gt (`"1.0") (`"1.1")) with false in E by reflexivity. apply Ok_inv in E. subst o'. auto.
    + intros E. replace (str_gt (`"1.1") (`"1.1")) with false in E by reflexivity. apply Ok_inv in E. subst o'. auto.
    + intros E. replace (str_gt (`"1.0") (`"1.0")) with false in E by reflexivity. apply Ok_inv in E. subst o'. right. left. split; [intros [X|X]; [auto|discriminate X]|auto].
    + intros E. replace (str_gt (`"1.1") (`"1.0")) with true in E by reflexivity. apply Take in E. subst o'. auto.
    + intros E. apply Take in E. subst o'. right. left. split; [intros [X|X]; [auto|discriminate X]|auto].
    + intros E. apply Take in E. subst o'. auto.
  - intros E. cbn in E. apply Ok_inv in E. subst o'. revert L. apply latest_iff. intros v. split; [auto|intros [X|X]; [auto|discriminate X]].
Qed.
Lemma declarations_latest w h l : forall o o' P, latest P o -> snd (wfold (check_declaration w h) l o) = Ok o' ->
  latest (fun v => P v \/ exists n, In n l /\ declared_version n = Some v) o'.
Proof.
  induction l as [|m l IH]; intros o o' P L; cbn [wfold].
  - intros E. apply Ok_inv in E. subst o'. revert L. apply latest_iff. intros v. split; [auto|intros [X|(n & [] & _)]; auto].
  - unfold wbind. destruct (check_declaration w h o m) as [lg [o2|x]] eqn:E; cbn [fst snd]; [|discriminate].
    destruct (wfold (check_declaration w h) l o2) as [lg2 r2] eqn:E2. cbn [snd]. intros ->.
    assert (L2 : latest (fun v => P v \/ declared_version m = Some v) o2) by (apply (check_declaration_latest w h o m o2 P L); now rewrite E).
    generalize (IH o2 o' _ L2). rewrite E2. intros L3. generalize (L3 eq_refl). apply latest_iff. intros v. split.
    + intros [[X|X]|(n & Hn & X)]; [auto|right; exists m; split; [now left|auto]|right; exists n; split; [now right|auto]].
    + intros [X|(n & [<-|Hn] & X)]; [auto|auto|right; eauto].
Qed.
Definition shown_spec (w : node) (h : place) (spec : str) : Prop :=
  let has v := look w (h ++ [`"0=ocfl_object_" ++ v]) <> None in
  spec = `"1.0" /\ has (`"1.0") /\ ~ has (`"1.1") \/ spec = `"1.1" /\ (has (`"1.1") \/ ~ has (`"1.0")).
Lemma noted_spec c w h ns spec : FsSpec.tree w -> look w h = Some EDir -> vc_default_spec c = `"1.1" -> find_namastes w h (`"0") [] 10 = Ok ns ->
  snd (check_declarations c w h ns) = Ok spec -> shown_spec w h spec.
Proof.
  intros T Hl D En. pose proof (look_fnames_root w h T Hl) as Fh. apply look_dir in Hl as (d & Hg).
  assert (Hg' : get w (at_path h []) = Ok (Dir d)) by now rewrite at_path_nil.
  assert (Hns : forall v, In v [`"1.0"; `"1.1"] -> (exists n, In n ns /\ declared_version n = Some v) <-> look w (h ++ [`"0=ocfl_object_" ++ v]) <> None).
  { rewrite (find_namastes_ok w h d [] (`"0") 10 T ltac:(unfold walkable; discriminate) Hg') in En. cbv zeta in En. destruct (Nat.ltb _ _); [discriminate|]. apply Ok_inv in En. subst ns.
    intros v Hv. rewrite look_app, Hg. unfold look. cbn [get]. split.
    - intros (n & Hn & X). apply declared_in in X as [_ X]. apply in_map_iff in Hn as (k & <- & Hk). apply (Permutation_in k (Permutation_sym (isort_perm str_leb _))) in Hk. apply filter_In in Hk as [Hk Sk].
      apply startswith_spec in Sk as [r ->]. cbn in X. assert (Er : `"0" ++ `"=" ++ r = `"0=ocfl_object_" ++ v) by exact X. rewrite <- app_assoc in Hk. rewrite Er in Hk.
      destruct (dget (`"0=ocfl_object_" ++ v) d) eqn:Ed; [discriminate|]. apply dget_None in Ed. contradiction.
    - intros X. destruct (dget (`"0=ocfl_object_" ++ v) d) as [m|] eqn:Ed; [|congruence]. apply dget_In in Ed.
      exists (mkNamaste (`"0") [] (Some (`"ocfl_object_" ++ v))). split; [|apply declared_in; split; [exact Hv|reflexivity]].
      apply in_map_iff. exists (`"0=ocfl_object_" ++ v). split; [reflexivity|]. apply (Permutation_in _ (isort_perm str_leb _)). apply filter_In. split; [|reflexivity]. apply in_map_iff. exists (`"0=ocfl_object_" ++ v, m). auto. }
  unfold check_declarations. rewrite D. unfold shown_spec. cbv zeta.
  destruct ns as [|n r].
  - cbn. intros E. apply Ok_inv in E. subst spec. right. split; [reflexivity|]. right. intros X. destruct (proj2 (Hns (`"1.0") (or_introl eq_refl)) X) as (n & [] & _).
  - unfold wbind. destruct (wfold (check_declaration w h) (n :: r) None) as [lg [o|x]] eqn:E; cbn [fst snd]; [|discriminate].
    assert (L0 : latest (fun _ => False) None) by (right; right; auto).
    pose proof (declarations_latest w h (n :: r) None o _ L0) as L. rewrite E in L. specialize (L eq_refl).
    apply (latest_iff _ (fun v => exists m, In m (n :: r) /\ declared_version m = Some v)) in L; [|intros v; tauto].
    pose proof (Hns (`"1.0") (or_introl eq_refl)) as N0. pose proof (Hns (`"1.1") (or_intror (or_introl eq_refl))) as N1.
    unfold latest in L. destruct L as [[L ->]|[(L1 & L2 & ->)|(L1 & L2 & ->)]].
    + destruct (Nat.ltb _ _); cbn; intros X; apply Ok_inv in X; subst spec; right; split; [reflexivity|left; now apply N1|reflexivity|left; now apply N1].
    + destruct (Nat.ltb _ _); cbn; intros X; apply Ok_inv in X; subst spec; left; (split; [reflexivity|]; split; [now apply N0|intros Y; now apply L1, N1]).
    + cbn. intros X. apply Ok_inv in X. subst spec. right. split; [reflexivity|]. right. intros Y. now apply L2, N0.
Qed.

Lemma shown_filename spec w h : shown_spec w h spec -> filename (mkNamaste (`"0") (`"ocfl_object_" ++ spec) None) = `"0=ocfl_object_" ++ spec.
Proof. intros [[-> _]|[-> _]]; reflexivity. Qed.

Lemma opened_noted H c w h b : snd (validate_opened H c w h 0) = Ok b -> exists ns spec, find_namastes w h (`"0") [] 10 = Ok ns /\
  snd (check_declarations c w h ns) = Ok spec /\ fst (noted c w h) = spec.
Proof.
  unfold validate_opened, noted, wlift, wbind. destruct (find_namastes w h (`"0") [] 10) as [ns|x]; [|discriminate]. cbn [fst snd].
  destruct (check_declarations c w h ns) as [log [spec|x]] eqn:E; [|discriminate]. intros _. exists ns, spec. rewrite E. auto.
Qed.

(** * C84 *)

Lemma tree_shown H lax e objdir w b : no_url objdir -> FsSpec.tree w -> look w (dest_of (e_cwd e) objdir) = Some EDir ->
  snd (validate_object H (tree_conf e lax) w (e_cwd e) objdir 0) = Ok b ->
  let h := dest_of (e_cwd e) objdir in let s := noted (tree_conf e lax) w h in
  shown_spec w h (fst s) /\
  exists all rows, names_at w h all /\ rows_for w h (fst s) (snd s) all all rows /\
    object_tree H lax e objdir w = Ok (`"[" ++ objdir ++ `"]" ++ [10%N] ++ drawn rows).
Proof.
  intros Hu T Hl V h s. assert (Vo : snd (validate_opened H (tree_conf e lax) w h 0) = Ok b).
  { rewrite <- V. symmetry. f_equal. apply (proj1 (Properties_Validator.C30_path H (tree_conf e lax) w (e_cwd e) objdir 0 Hu)). exact Hl. }
  destruct (opened_noted _ _ _ _ _ Vo) as (ns & spec & En & Ec & Es).
  assert (Sh : shown_spec w h (fst s)) by (unfold s; rewrite Es; apply (noted_spec (tree_conf e lax) w h ns); auto).
  split; [exact Sh|]. pose proof (look_fnames_root w h T Hl) as Fh. pose proof Hl as Hl'. fold h in Hl'. apply look_dir in Hl' as (d & Hg).
  assert (Hg' : get w (at_path h []) = Ok (Dir d)) by now rewrite at_path_nil.
  destruct (listed_names w h [] d T ltac:(unfold walkable; discriminate) Hg') as (l & El & Nl). rewrite at_path_nil in Nl by exact Fh.
  destruct (tree_lines_ok w h (fst s) (snd s) T (shown_filename _ _ _ Sh) (sorted_strs l) (proj1 Nl) (fun n Hn => proj1 (proj2 Nl n) Hn) (sorted_strs l) [] eq_refl) as (rows & Hr & Er).
  exists (sorted_strs l), rows. split; [exact Nl|]. split; [exact Hr|].
  unfold object_tree. rewrite V. cbn [ebind]. destruct (open_there (e_cwd e) objdir w Hu Hl) as [R _].
  assert (Ro : result (open_obj_fs e (Some objdir) false) w = Ok h).
  { unfold open_obj_fs, result in *. destruct (fsw_openfs (e_cwd e) objdir false true w) as [st r]. cbn [snd] in R. rewrite R. reflexivity. }
  rewrite Ro. cbn [ebind]. fold s. destruct s as [sp cd] eqn:Hs. rewrite El. cbn [ebind]. cbn [existsb fst snd] in Er. rewrite Er. reflexivity.
Qed.

(** tree shows the entries of the object root and of its version directories, each once and in order,
    with the marks of TreeSpec.v -- whether the object is valid or not. *)
Theorem C84_tree : forall H lax e objdir w b, no_url objdir -> FsSpec.tree w ->
  let h := dest_of (e_cwd e) objdir in
  look w h = Some EDir -> snd (validate_object H (mkVconf false lax (`"1.1") (e_sizes e)) w (e_cwd e) objdir 0) = Ok b ->
  exists spec cdir all rows, shown_spec w h spec /\ names_at w h all /\ rows_for w h spec cdir all all rows /\
    object_tree H lax e objdir w = Ok (`"[" ++ objdir ++ `"]" ++ [10%N] ++ drawn rows).
Proof.
  intros H lax e objdir w b Hu T h Hl V. destruct (tree_shown H lax e objdir w b Hu T Hl V) as (Sh & all & rows & N & R & E).
  exists (fst (noted (tree_conf e lax) w h)), (snd (noted (tree_conf e lax) w h)), all, rows. auto.
Qed.
Print Assumptions C84_tree.

(** For valid objects: the number of files is that of the content directory of the inventory, and only
    logs and extensions are marked in the object root. *)
Theorem C84_valid : forall H e objdir w sd rb root f hd, no_url objdir -> FsSpec.tree w ->
  let h := dest_of (e_cwd e) objdir in
  look w h = Some EDir -> intact H false w h sd rb root f hd ->
  exists all rows, names_at w h all /\ rows_for w h sd (f_cdir f) all all rows /\
    object_tree H false e objdir w = Ok (`"[" ++ objdir ++ `"]" ++ [10%N] ++ drawn rows) /\
    forall x, In x rows -> r_in x = None -> r_mark x = if str_in (r_name x) [`"logs"; `"extensions"] then `"<--- ???" else [].
Proof.
  intros H e objdir w sd rb root f hd Hu T h Hl I.
  assert (Vo : snd (validate_opened H (tree_conf e false) w h 0) = Ok true).
  { apply validate_opened_iff; auto. split; [reflexivity|]. exists sd, rb, root, f, hd. exact I. }
  assert (V : snd (validate_object H (tree_conf e false) w (e_cwd e) objdir 0) = Ok true).
  { rewrite <- Vo. f_equal. apply (proj1 (Properties_Validator.C30_path H (tree_conf e false) w (e_cwd e) objdir 0 Hu)). exact Hl. }
  assert (N : noted (tree_conf e false) w h = (sd, f_cdir f)).
  { unfold noted. destruct (clean_declarations (tree_conf e false) w h sd T Hl) as [D1 _]. destruct (proj2 D1 (in_declaration _ _ _ _ _ _ _ _ _ I)) as (ns & En & _ & Hc). rewrite En.
    destruct (check_declarations (tree_conf e false) w h ns) as [log r]. destruct Hc as [Hc _]. cbn [snd] in Hc. subst r.
    pose proof (look_fnames_root w h T Hl) as Fh. destruct (in_inventory _ _ _ _ _ _ _ _ _ I) as [Ib Ij].
    assert (Hat : at_path h INVENTORY_FILENAME = h ++ [`"inventory.json"]) by (apply at_path_one; [exact Fh|apply fname_b_ok; reflexivity]).
    assert (Hex : fs_exists w h INVENTORY_FILENAME = true) by (apply fs_exists_look; rewrite Hat; change (look w (h ++ [`"inventory.json"]) = Some (EFile rb)) in Ib; rewrite Ib; discriminate).
    rewrite Hex. cbn [negb].
    assert (C : clean (validate_inventory (tree_conf e false) w h INVENTORY_FILENAME sd) (Some (root, accepted f hd))).
    { apply clean_validate_inventory; [reflexivity|]. exists rb, f, hd. rewrite Hat. split; [exact Ib|]. split; [exact Ij|]. split; [exact (in_rules _ _ _ _ _ _ _ _ _ I)|]. split; [exact (in_head _ _ _ _ _ _ _ _ _ I)|reflexivity]. }
    destruct (validate_inventory (tree_conf e false) w h INVENTORY_FILENAME sd) as [lg r]. destruct C as [C _]. cbn [snd] in C. subst r. reflexivity. }
  destruct (tree_shown H false e objdir w true Hu T Hl V) as (_ & all & rows & Na & R & E). fold h in Na, R. rewrite N in R. cbn [fst snd] in R. exists all, rows. split; [exact Na|]. split; [exact R|]. split; [exact E|].
  assert (Vl : forall v, In v (f_versions f) -> version_like v).
  { intros v Hv. pose proof (in_rules _ _ _ _ _ _ _ _ _ I) as (_ & _ & _ & _ & _ & _ & _ & vs & (_ & (wd & (_ & Sq) & _) & _) & _). apply In_nth_error in Hv as (i & Hi). destruct (Sq i v Hi) as (ds & -> & Dn & Dd & _).
    exists ds, []. rewrite app_nil_r. split; [reflexivity|]. split; [exact Dn|]. split; [now apply ascii_digits_digits|now left]. }
  assert (Known : forall n, In n all -> version_like n \/ n = `"0=ocfl_object_" ++ sd \/ n = `"inventory.json" \/ n = `"inventory.json." ++ f_alg f \/ In n [`"logs"; `"extensions"]).
  { intros n Hn. apply Na in Hn. destruct (look w (h ++ [n])) as [en|] eqn:Le; [|congruence]. pose proof (ValidatorSpec.in_root _ _ _ _ _ _ _ _ _ I n en Le) as X. destruct en; cbn [root_entry] in X.
    - destruct X as [<-|[<-|[<-|[]]]]; auto.
    - destruct X as [X|[X|[X _]]]; [auto|right; right; right; right; subst n; now left|right; right; right; right; subst n; right; now left].
    - contradiction. }
  assert (Vnot : forall n, version_like n -> str_in n [`"logs"; `"extensions"] = false).
  { intros n (ds & nl & -> & _). apply not_true_is_false. rewrite str_in_true. intros [X|[X|[]]]; discriminate X. }
  assert (Mark : forall n m, In n all -> root_mark sd all n m -> m = if str_in n [`"logs"; `"extensions"] then `"<--- ???" else []).
  { intros n m Hn M. destruct M as [M|M|M1 M2|m M1 M2 M3 M4 M5|M1 M2 M3 M4].
    - now rewrite Vnot.
    - destruct M as [->| ->]; [destruct (str_in (_ ++ sd) _) eqn:X; [apply str_in_true in X as [X|[X|[]]]; discriminate X|reflexivity]|reflexivity].
    - destruct M1 as [x ->]. destruct (str_in _ _) eqn:X; [apply str_in_true in X as [X|[X|[]]]; discriminate X|reflexivity].
    - exfalso. apply M5. assert (One : forall k, In k all -> digest_file k -> k = `"inventory.json." ++ f_alg f).
      { intros k Hk [x ->]. destruct (Known _ Hk) as [(ds & nl & X & _)|[X|[X|[X|[X|[X|[]]]]]]]; try discriminate X. exact X. }
      now rewrite (One m), (One n).
    - destruct (Known _ Hn) as [X|[X|[X|[X|X]]]]; try contradiction; [elim M4; exists (f_alg f); exact X|]. apply str_in_true in X. now rewrite X. }
  clear - R Mark Vnot. assert (Gen : forall l rows, rows_for w h sd (f_cdir f) all l rows -> incl l all -> forall x, In x rows -> r_in x = None -> r_mark x = if str_in (r_name x) [`"logs"; `"extensions"] then `"<--- ???" else []).
  { clear R rows. induction 1 as [|n r m rows Nv M R IH|n r l below rows Vn Nl F R IH]; intros Hi x; [intros []| |].
    - intros [<-|Hx]; cbn [r_name r_mark r_in]; [intros _; apply Mark; [apply Hi; now left|exact M]|]. apply IH; [|exact Hx]. intros k Hk. apply Hi. now right.
    - intros [<-|Hx]; cbn [r_name r_mark r_in]; [intros _; now rewrite Vnot|]. apply in_app_or in Hx as [Hx|Hx].
      + intros Hn. exfalso. clear - F Hx Hn. induction F as [|k y l' ys (Hy & _) _ IHy]; [destruct Hx|]. destruct Hx as [<-|Hx]; [congruence|auto].
      + apply IH; [|exact Hx]. intros k Hk. apply Hi. now right. }
  exact (Gen all rows R (incl_refl _)).
Qed.
Print Assumptions C84_valid.

(** Without a directory there is an exception. *)
Theorem C84_missing : forall H lax e objdir w, no_url objdir -> look w (dest_of (e_cwd e) objdir) <> Some EDir ->
  object_tree H lax e objdir w = Raise ObjectException.
Proof.
  intros H lax e objdir w Hu Hl. unfold object_tree.
  rewrite (proj2 (Properties_Validator.C30_path H (tree_conf e lax) w (e_cwd e) objdir 0 Hu) Hl). cbn [snd ebind].
  assert (R : result (fsw_openfs (e_cwd e) objdir false true) w = Raise FileNotFoundError).
  { unfold fsw_openfs. rewrite split_url_none by auto. change (str_eqb (`"file") (`"file")) with true. cbv iota. rewrite result_read. cbv beta.
    destruct (fs_isdir w _ objdir) eqn:D; [|reflexivity]. apply fs_isdir_look in D. contradiction. }
  assert (Ro : result (open_obj_fs e (Some objdir) false) w = Raise ObjectException).
  { unfold open_obj_fs, result in *. destruct (fsw_openfs (e_cwd e) objdir false true w) as [st r]. cbn [snd] in R. rewrite R. reflexivity. }
  rewrite Ro. reflexivity.
Qed.
Print Assumptions C84_missing.

(** ** Examples *)

Definition show_env : env := mk_env [] (`"2020-01-02T03:04:05Z") (fun _ => 0%N).
Definition ex_shown : node :=
  Properties_Validator.ex_object_with Properties_Validator.ex_decl Properties_Validator.ex_decl_text Properties_Validator.ex_inv1 Properties_Validator.ex_inv2 (`"one") (`"two")
    [(`"logs", Dir [(`"log.txt", File (`"made"))]); (`"extensions", Dir [])].
Lemma ex_shown_tree : FsSpec.tree ex_shown. Proof. apply tree_b_ok. vm_compute. reflexivity. Qed.
Lemma ex_shown_valid : snd (validate_object Properties_Layout.toy_hash (mkVconf false false (`"1.1") (e_sizes show_env)) ex_shown [] (`"o") 0) = Ok true.
Proof. vm_compute. reflexivity. Qed.
Example C84_tree_ex : no_url (`"o") /\ FsSpec.tree ex_shown /\ look ex_shown (dest_of [] (`"o")) = Some EDir /\
  object_tree Properties_Layout.toy_hash false show_env (`"o") ex_shown = Ok (`"[o]" ++ [10%N] ++
    tee ++ `"0=ocfl_object_1.1 " ++ [10%N] ++
    tee ++ `"extensions <--- ???" ++ [10%N] ++
    tee ++ `"inventory.json " ++ [10%N] ++
    tee ++ `"inventory.json.sha256 " ++ [10%N] ++
    tee ++ `"logs <--- ???" ++ [10%N] ++
    tee ++ `"v1 " ++ [10%N] ++
    bar ++ tee ++ `"content (1 files)" ++ [10%N] ++
    bar ++ tee ++ `"inventory.json " ++ [10%N] ++
    bar ++ corner ++ `"inventory.json.sha256 " ++ [10%N] ++
    corner ++ `"v2 " ++ [10%N] ++
    `"    " ++ tee ++ `"content (1 files)" ++ [10%N] ++
    `"    " ++ tee ++ `"inventory.json " ++ [10%N] ++
    `"    " ++ corner ++ `"inventory.json.sha256 " ++ [10%N]).
Proof.
  split; [exact (proj1 Properties_Validator.C30_path_ex)|]. split; [exact ex_shown_tree|]. split; [reflexivity|]. vm_compute. reflexivity.
Qed.
Example C84_valid_ex : exists sd rb root f hd, intact Properties_Layout.toy_hash false ex_shown [`"o"] sd rb root f hd.
Proof.
  assert (V : snd (validate_opened Properties_Layout.toy_hash (tree_conf show_env false) ex_shown [`"o"] 0) = Ok true) by (vm_compute; reflexivity).
  apply validate_opened_iff in V as [_ V]; [exact V|reflexivity|exact ex_shown_tree|reflexivity].
Qed.
Example C84_missing_ex : no_url (`"o") /\ look ex_shown (dest_of [] (`"p")) <> Some EDir.
Proof. split; [exact (proj1 Properties_Validator.C30_path_ex)|vm_compute; discriminate]. Qed.

(** The marks are not right for all objects: the directories logs and extensions are marked although
    they belong to a valid object, and two digest files in a version directory are not marked,
    although they would be in the object root. *)
Theorem C84_marks_refuted :
  (exists w, FsSpec.tree w /\ snd (validate_object Properties_Layout.toy_hash (mkVconf true false (`"1.1") (fun _ => 0%N)) w [] (`"o") 0) = Ok true /\
     exists all rows, names_at w [`"o"] all /\ rows_for w [`"o"] (`"1.1") (`"content") all all rows /\
       object_tree Properties_Layout.toy_hash false show_env (`"o") w = Ok (`"[o]" ++ [10%N] ++ drawn rows) /\
       In {| r_in := None; r_name := `"extensions"; r_mark := `"<--- ???" |} rows) /\
  (exists w, FsSpec.tree w /\ look w [`"o"; `"v1"; `"inventory.json.sha256"] <> None /\ look w [`"o"; `"v1"; `"inventory.json.sha512"] <> None /\
     exists rows, object_tree Properties_Layout.toy_hash false show_env (`"o") w = Ok (`"[o]" ++ [10%N] ++ drawn rows) /\ rows <> [] /\ forall x, In x rows -> r_mark x = []).
Proof.
  split.
  - exists ex_shown. split; [exact ex_shown_tree|]. split; [vm_compute; reflexivity|].
    destruct C84_valid_ex as (sd & rb & root & f & hd & I).
    destruct (C84_valid Properties_Layout.toy_hash show_env (`"o") ex_shown sd rb root f hd (proj1 C84_tree_ex) ex_shown_tree eq_refl I) as (all & rows & N & R & E & M).
    assert (Sd : sd = `"1.1") by (destruct (in_declaration _ _ _ _ _ _ _ _ _ I) as (Hs & _ & b & t & X & _); destruct Hs as [<-|[<-|[]]]; [vm_compute in X; discriminate X|reflexivity]).
    assert (Cd : f_cdir f = `"content").
    { destruct (in_inventory _ _ _ _ _ _ _ _ _ I) as [Lr Jr]. pose proof (json_load_wf _ _ Jr) as Wr.
      assert (L : ValidatorSpec.at_root ex_shown [`"o"] ([] ++ [`"inventory.json"]) = Some (EFile Properties_Validator.ex_inv2)) by (vm_compute; reflexivity).
      rewrite L in Lr. apply Some_inv in Lr. injection Lr as Lr. subst rb. pose proof (in_rules _ _ _ _ _ _ _ _ _ I) as (_ & _ & _ & C & _). unfold content_directory_rule in C. destruct (f_cdir_set f); [|exact (proj2 C)].
      exfalso. destruct C as [(d & E1 & Hi) _]. clear - Jr E1 Hi. vm_compute in Jr. injection Jr as <-. injection E1 as <-. cbn [In] in Hi. repeat destruct Hi as [Hi|Hi]; try discriminate Hi. exact Hi. }
    subst sd. rewrite Cd in R. exists all, rows. split; [exact N|]. split; [exact R|]. split; [exact E|].
    assert (Ha : In (`"extensions") all) by (apply N; vm_compute; discriminate).
    assert (X : exists x, In x rows /\ r_in x = None /\ r_name x = `"extensions").
    { clear - R Ha. revert R Ha. generalize all at 2 3. intros l R. induction R as [|n r m rows Nv M R IH|n r l below rows Vn Nl F R IH]; [intros []| |].
      - intros [->|Hn]; [eexists; split; [now left|split; reflexivity]|]. destruct (IH Hn) as (x & Hx & Y). exists x. split; [now right|exact Y].
      - intros [->|Hn]; [eexists; split; [now left|split; reflexivity]|]. destruct (IH Hn) as (x & Hx & Y). exists x. split; [right; apply in_or_app; now right|exact Y]. }
    destruct X as (x & Hx & X1 & X2). pose proof (M x Hx X1) as X3. rewrite X2 in X3. destruct x as [a b c]. cbn in X1, X2, X3. subst a b. rewrite X3 in Hx. exact Hx.
  - exists (Dir [(`"o", Dir [(`"v1", Dir [(`"inventory.json.sha256", File []); (`"inventory.json.sha512", File [])])])]).
    split; [apply tree_b_ok; vm_compute; reflexivity|]. split; [vm_compute; discriminate|]. split; [vm_compute; discriminate|].
    exists [{| r_in := None; r_name := `"v1"; r_mark := [] |}; {| r_in := Some (`"v1"); r_name := `"inventory.json.sha256"; r_mark := [] |}; {| r_in := Some (`"v1"); r_name := `"inventory.json.sha512"; r_mark := [] |}].
    split; [vm_compute; reflexivity|]. split; [discriminate|]. intros x [<-|[<-|[<-|[]]]]; reflexivity.
Qed.
Print Assumptions C84_marks_refuted.
