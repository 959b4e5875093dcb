(** C47: building objects from directories with their versions. *)
From Coq Require Import Permutation Sorted.
From Verif Require Import Properties_Names Properties_InventoryValidator.
From Verif Require Import Base Unicode Regex Utf8 Json PyJson JsonTextModel JsonTextSpec JsonTextProofs JsonFileProofs Log DigestModel LayoutModel LayoutProofs
  ObjectUtilsModel ObjectUtilsProofs InventorySpec InventoryValidatorModel InventoryValidatorProofs InventoryRulesProofs
  InventoryModel InventoryOpsSpec InventoryOpsProofs NewVersionModel NewVersionProofs NewVersionOpsProofs VersionNumberProofs InventoryParseProofs ParseModel
  ContentPathProofs TextFile PathModel FsModel FsSpec FsProofs FswModel FswSpec FswProofs FswCopyProofs ValidatorSpec ValidatorBasicProofs ObjectModel ObjectSpec ObjectInvProofs ObjectRulesProofs
  ObjectParseProofs ObjectAddProofs ContentNameProofs ObjectGrowProofs ObjectStartProofs ObjectCopyProofs ObjectWriteProofs ObjectSourceProofs ObjectFactsProofs NamasteSpec ValidatorVersionProofs ObjectMadeProofs ObjectIntactProofs ObjectExtendProofs FsStepProofs NamasteModel NamasteProofs ObjectStoreProofs ObjectCreateProofs ValidatorModel ValidatorIntactProofs ObjectUpdateProofs ObjectNextProofs ObjectDigestProofs ObjectVersionProofs ObjectExtractProofs ObjectHistoryProofs ObjectExamples UpdateSpec ParseProofs OpenProofs ChangeProofs FrameProofs UpdateProofs ExtractSpec ExtractProofs.

From Verif Require Import Properties_Inventory Properties_Layout Properties_Object Properties_ObjectFindings Properties_Update.
From Verif Require Properties_Validator.
From Verif Require Import ObjectTrackProofs BuildProofs.

(** * A source directory to look at *)
Definition ex_versions (n : nat) : list (str * node) :=
  firstn n [(`"v1", Dir [(`"a", File (`"one")); (`"d", Dir [(`"b", File (`"two")); (`"c", File (`"one"))])]);
            (`"v2", Dir [(`"a", File (`"one")); (`"d", Dir [(`"b", File (`"three"))])]); (`"v3", Dir [(`"b", File (`"two"))])].
Definition ex_src (l : list (str * node)) : node := Dir [(`"s", Dir (l ++ [(`"notes", Dir []); (`"v7", File (`"x"))]))].
Definition ex_ms : N -> option vmeta := fun k => if (k =? 2)%N then Some (mk_vmeta None None (Some (`"two")) None None) else Some ex_meta.
Definition ex_build (c : object) : io (option inventory) := build toy_hash c ex_env (`"s") ex_ms (Some (`"o")).

Definition taken_b (v : str) : bool := match parse_version_directory v with Ok _ => true | Raise _ => false end.
Lemma ex_build_call : build_call (ex_c (`"sha256")) ex_env (ex_src (ex_versions 3)) (`"s") (`"o") (`"info:a") ex_ms [`"o"] 3.
Proof.
  assert (T : tree (ex_src (ex_versions 3))) by (apply tree_b_ok; vm_compute; reflexivity).
  assert (K : forall k, (1 <= k <= 3)%nat -> k = 1%nat \/ k = 2%nat \/ k = 3%nat) by (intros k Hk; lia).
  constructor; try reflexivity.
  - constructor.
  - apply first_b_ok. vm_compute. reflexivity.
  - discriminate.
  - intros k Hk. destruct (K k Hk) as [-> | [-> | ->]]; apply meta_b_ok; vm_compute; reflexivity.
  - now left.
  - apply no_url_b_ok. reflexivity.
  - lia.
  - intros k Hk. destruct (K k Hk) as [-> | [-> | ->]]; (apply source_b_ok; [exact T|vm_compute; reflexivity]).
  - exists [`"a"], (`"one"). vm_compute. reflexivity.
  - intros v k E Ht. apply taken_parse in Ht. change (dest_of (e_cwd ex_env) (`"s") ++ [v]) with ([`"s"] ++ [v]) in E.
    match type of E with look (ex_src ?l) _ = _ => rewrite (look_child (ex_src l) [`"s"] (l ++ [(`"notes", Dir []); (`"v7", File (`"x"))]) v eq_refl) in E end.
    destruct (dget v _) as [m|] eqn:Em; [|discriminate]. apply dget_In in Em. cbn [ex_versions firstn app] in Em. destruct Em as [Em|[Em|[Em|[Em|[Em|[]]]]]]; injection Em as <- <-.
    + exists 1%nat. split; [lia|reflexivity].
    + exists 2%nat. split; [lia|reflexivity].
    + exists 3%nat. split; [lia|reflexivity].
    + discriminate.
    + discriminate.
  - apply place_b_ok. vm_compute. reflexivity.
  - intros v k y _ E. discriminate.
  - now left.
Qed.

Definition ex_version_files : list (list (place * bytes)) := map (fun k => files_in (ex_src (ex_versions 3)) [`"s"; vn k]) [1; 2; 3]%nat.
Lemma ex_version_files_ok : Forall2 (fun k F => files_at (ex_src (ex_versions 3)) [`"s"; vn k] F) (seq 1 3) ex_version_files.
Proof.
  assert (T : tree (ex_src (ex_versions 3))) by (apply tree_b_ok; vm_compute; reflexivity).
  repeat (constructor; [apply files_b_ok; [exact T|vm_compute; reflexivity]|]). constructor.
Qed.

(** * C47 *)

(** What an object says of its versions, for any history with one digest algorithm: there are
    the versions 1 to n and no others, and version k has the files it was made from. *)
Theorem C36_listed_partial : forall H h sd P w l,
  hash_ok H -> history H h sd P w l -> uniform P ->
  exists c i s, P c /\ parse_inventory w h = Ok (i, s) /\ i_alg i = Some (o_alg c) /\ i_head i = Some (vn (List.length l)) /\
    (forall v, is_version i v <-> exists k, (1 <= k <= List.length l)%nat /\ v = vn k) /\
    forall k F, nth_error l k = Some F -> same_files H i (o_alg c) (vn (S k)) F.
Proof.
  intros H h sd P w l HH Hi Un. destruct (history_tracked H h sd P w l HH Hi (or_introl Un)) as (alg & spec & ivs & C & T). pose proof (tr_made _ _ _ _ _ _ _ _ _ _ T) as M.
  pose proof (tracked_some _ _ _ _ _ _ _ _ _ _ T) as Hn. destruct (tr_alg _ _ _ _ _ _ _ _ _ _ T (List.length l) ltac:(lia)) as (c & Pc & Ec). pose proof (sound_sorted _ _ _ _ (md_head _ _ _ _ _ _ _ _ _ M)) as So.
  exists c. eexists _, _. split; [exact Pc|]. split; [exact (made_parse _ _ _ _ _ _ _ _ _ M)|]. rewrite <- Ec. split; [exact (so_alg _ _ _ _ So)|]. split; [exact (so_head _ _ _ _ So)|]. split.
  - intros v. rewrite (sound_is_version _ _ _ _ _ So). apply In_vn.
  - intros k F E d p. rewrite in_state_sorted. exact (head_files H h sd P w l alg spec ivs C k F T Un E d p).
Qed.
Print Assumptions C36_listed_partial.

(** From a source directory with directories v1 to vn an object is built with n versions, and
    version k has exactly the files below the k-th directory. The object is valid, and nothing
    outside it is changed. It is one of the objects of the theorems for C35 to C46: it can be
    updated, extracted from and so on. What is missing: directory names with leading zeros,
    more than two versions under version 1.0 of the specification, and a first directory without
    files; see below. *)
Theorem C47_partial : forall H c e w sp op id ms h n l v,
  hash_ok H -> tree w -> build_call c e w sp op id ms h n ->
  Forall2 (fun k F => files_at w (dest_of (e_cwd e) sp ++ [vn k]) F) (seq 1 n) l ->
  o_cdir c <> Some (side_name (o_alg c)) -> vc_lax_digests v = false ->
  let x := build H c e sp ms (Some op) in
  (exists i, result x w = Ok (Some i)) /\
  history H h (o_spec c) (eq c) (after x w) l /\
  snd (validate_object H v (after x w) (e_cwd e) op 0) = Ok true /\
  (forall q, (forall y, q <> h ++ y) -> look (after x w) q = look w q) /\
  exists i s, parse_inventory (after x w) h = Ok (i, s) /\ i_head i = Some (vn n) /\
    (forall u, is_version i u <-> exists k, (1 <= k <= n)%nat /\ u = vn k) /\
    forall k F, nth_error l k = Some F -> same_files H i (o_alg c) (vn (S k)) F.
Proof.
  intros H c e w sp op id ms h n l v HH T Bc Fa Hcd Hl x.
  assert (Hcd' : forall c', c = c' -> o_cdir c <> Some (side_name (o_alg c'))) by (intros c' <-; exact Hcd).
  assert (Hi : history H h (o_spec c) (eq c) (after x w) l) by exact (@ObjectSpec.built H h (o_spec c) (eq c) c e w sp op id ms n l T Bc eq_refl eq_refl Hcd' Fa).
  destruct (build_made H h (o_spec c) (eq c) c e w sp op id ms n HH T Bc eq_refl eq_refl Hcd' l Fa) as (R & _ & _ & Fr). fold x in R, Fr.
  assert (Un : uniform (eq c)) by (intros a b <- <-; reflexivity). destruct (bc_place _ _ _ _ _ _ _ _ _ Bc) as [N1 N2 _].
  split; [exact R|]. split; [exact Hi|]. split; [exact (C35_updated_valid_partial H h (o_spec c) (eq c) _ l v (e_cwd e) op HH Hi (or_introl Un) N1 N2 Hl)|]. split; [exact Fr|].
  destruct (C36_listed_partial H h (o_spec c) (eq c) _ l HH Hi Un) as (c' & i & s & <- & P1 & _ & P2 & P3 & P4). pose proof (F2_length _ _ _ Fa) as Len. rewrite seq_length in Len. rewrite Len. eauto 8.
Qed.
Print Assumptions C47_partial.
Example C47_ex : let w' := after (ex_build (ex_c (`"sha256"))) (ex_src (ex_versions 3)) in
  snd (validate_object toy_hash ex_validator w' [] (`"o") 0) = Ok true /\ exists i s, parse_inventory w' [`"o"] = Ok (i, s) /\ i_head i = Some (`"v3") /\
  same_files toy_hash i (`"sha256") (`"v2") [([`"a"], `"one"); ([`"d"; `"b"], `"three")].
Proof.
  intros w'. destruct (C47_partial toy_hash (ex_c (`"sha256")) ex_env (ex_src (ex_versions 3)) (`"s") (`"o") (`"info:a") ex_ms [`"o"] 3 ex_version_files ex_validator) as (_ & _ & V & _ & i & s & P1 & P2 & _ & P4).
  - exact toy_hash_ok.
  - apply tree_b_ok. vm_compute. reflexivity.
  - exact ex_build_call.
  - exact ex_version_files_ok.
  - discriminate.
  - reflexivity.
  - split; [exact V|]. exists i, s. split; [exact P1|]. split; [exact P2|]. exact (P4 1%nat _ eq_refl).
Qed.

(** And the versions are extracted as they were in the source directory. *)
Theorem C47_extracted_partial : forall H c e w sp op id ms h n l k F d,
  hash_ok H -> tree w -> build_call c e w sp op id ms h n ->
  Forall2 (fun k F => files_at w (dest_of (e_cwd e) sp ++ [vn k]) F) (seq 1 n) l ->
  o_cdir c <> Some (side_name (o_alg c)) -> collision_free H (eq c) l ->
  (1 <= k <= n)%nat -> files_at w (dest_of (e_cwd e) sp ++ [vn k]) F ->
  let w' := after (build H c e sp ms (Some op)) w in
  look w' (e_cwd e) = Some EDir -> dest_free w' (dest_of (e_cwd e) d) ->
  let x := extract e (Some op) (vn k) d in
  (exists m, result x w' = Ok m) /\ holds (after x w') (dest_of (e_cwd e) d) F.
Proof.
  intros H c e w sp op id ms h n l k F d HH T Bc Fa Hcd CF Hk Fk w' Hc Df x.
  assert (Hcd' : forall c', c = c' -> o_cdir c <> Some (side_name (o_alg c'))) by (intros c' <-; exact Hcd).
  assert (Hi : history H h (o_spec c) (eq c) w' l) by exact (@ObjectSpec.built H h (o_spec c) (eq c) c e w sp op id ms n l T Bc eq_refl eq_refl Hcd' Fa).
  pose proof (F2_length _ _ _ Fa) as Len. rewrite seq_length in Len. assert (Hk' : (k - 1 < List.length l)%nat) by lia. apply nth_error_Some in Hk'. destruct (nth_error l (k - 1)) as [F'|] eqn:En; [clear Hk'|congruence].
  assert (Fk' : files_at w (dest_of (e_cwd e) sp ++ [vn k]) F').
  { assert (Q : forall (s : list nat) (m : list (list (place * bytes))) j a b, Forall2 (fun k F => files_at w (dest_of (e_cwd e) sp ++ [vn k]) F) s m -> nth_error s j = Some a -> nth_error m j = Some b -> files_at w (dest_of (e_cwd e) sp ++ [vn a]) b).
    { intros s m j a b Q. revert j. induction Q as [|x0 y0 s m Q0 Q IH]; intros j E1 E2; [destruct j; discriminate|]. destruct j as [|j]; [cbn in E1, E2; apply Some_inv in E1, E2; congruence|]. eapply IH; eauto. }
    refine (Q _ _ (k - 1)%nat k F' Fa _ En). rewrite (nth_error_nth' _ 0%nat) by (rewrite seq_length; lia). rewrite seq_nth by lia. f_equal. lia. }
  destruct (bc_place _ _ _ _ _ _ _ _ _ Bc) as [N1 N2 _].
  destruct (C36_extracted_as_added_partial H h (o_spec c) (eq c) w' l (k - 1) F' e op (vn k) d HH Hi CF En) as (R & Ho & _); auto.
  - left. f_equal. lia.
  - apply Bc.
  - split; [exact R|]. apply (holds_ext _ _ F'); [exact Ho|]. intros r b. exact (files_unique _ _ _ _ Fk' Fk (r, b)).
Qed.
Print Assumptions C47_extracted_partial.

(** If a number is missing then the call fails and the new directory is all that is made. *)
Theorem C47_gap : forall H c e w sp op id ms h v k j,
  tree w -> Forall fname (e_cwd e) -> o_id c = Some id -> no_url sp -> look w (dest_of (e_cwd e) sp) = Some EDir ->
  look w (dest_of (e_cwd e) sp ++ [v]) = Some EDir -> taken_for v k -> (1 <= j < k)%N ->
  (forall u, taken_for u j -> look w (dest_of (e_cwd e) sp ++ [u]) <> Some EDir) ->
  (let x := build H c e sp ms None in result x w = Raise ObjectException /\ after x w = w) /\
  (new_place (e_cwd e) w op h -> (forall u, taken_for u j -> h <> dest_of (e_cwd e) sp ++ [u]) ->
   let x := build H c e sp ms (Some op) in
   result x w = Raise ObjectException /\ look (after x w) h = Some EDir /\ forall q, q <> h -> look (after x w) q = look w q).
Proof.
  intros H c e w sp op id ms h v k j T Fc Hid Hu Hd Hv Ht Hj Hno. set (src := dest_of (e_cwd e) sp) in *.
  assert (Fs : Forall fname src) by (apply (look_fnames w); [exact T|rewrite Hd; discriminate]). split.
  - intros x. destruct (open_there (e_cwd e) sp w Hu Hd) as [Q1 Q2]. fold (dest_of (e_cwd e) sp) in Q1. fold src in Q1.
    unfold x, build. rewrite Hid. rewrite (result_seq (iret None) _ w None eq_refl), (after_seq (iret None) _ w None eq_refl). change (after (iret None) w) with w.
    change (open_src_fs e (Some sp)) with (fsw_openfs (e_cwd e) sp false true). rewrite (result_seq _ _ w src Q1), (after_seq _ _ w src Q1), Q2. rewrite result_read, after_read. cbv beta.
    rewrite (version_dirs_gap w src v k j Hd Fs T Hv Ht Hj Hno). auto.
  - intros Np Hh x. destruct (open_new e w op h Fc T Np) as (O1 & O2 & O3 & O4 & O5). set (y := open_obj_fs e (Some op) true) in *. set (w1 := after y w) in *.
    assert (Keep : forall q en, look w q = Some en -> look w1 q = Some en).
    { intros q en Hq. destruct (place_eq_dec q h) as [->|Hne]; [|now rewrite O3]. rewrite (hl_dir _ _ _ O2). destruct (np_free _ _ _ _ Np) as (p & kk & _ & _ & [(_ & F1 & _)|(_ & F1 & _)]); rewrite F1 in Hq; congruence. }
    destruct (open_there (e_cwd e) sp w1 Hu (Keep _ _ Hd)) as [Q1 Q2]. fold (dest_of (e_cwd e) sp) in Q1. fold src in Q1.
    assert (E : result x w = Raise ObjectException /\ after x w = w1).
    { unfold x, build. rewrite Hid. fold y.
      assert (Ry : result (do hh <- y ;; iret (Some hh)) w = Ok (Some h) /\ after (do hh <- y ;; iret (Some hh)) w = w1) by (rewrite (result_seq y _ w h O1), (after_seq y _ w h O1); auto).
      destruct Ry as [Ry1 Ry2]. rewrite (result_seq _ _ w _ Ry1), (after_seq _ _ w _ Ry1), Ry2. change (open_src_fs e (Some sp)) with (fsw_openfs (e_cwd e) sp false true). rewrite (result_seq _ _ w1 src Q1), (after_seq _ _ w1 src Q1), Q2.
      rewrite result_read, after_read. cbv beta. rewrite (version_dirs_gap w1 src v k j); auto. intros u Hu0. rewrite O3; [auto|]. intros E. exact (Hh u Hu0 (eq_sym E)). }
    destruct E as [-> ->]. split; [auto|]. split; [apply O2|exact O3].
Qed.
Print Assumptions C47_gap.
Example C47_gap_ex : let w := ex_src (firstn 1 (ex_versions 3) ++ skipn 2 (ex_versions 3)) in
  look w [`"s"; `"v3"] = Some EDir /\ taken_for (`"v3") 3 /\ forall u, taken_for u 2 -> look w [`"s"; u] <> Some EDir.
Proof.
  intros w. split; [reflexivity|]. split; [apply taken_parse; reflexivity|]. intros u Hu E. apply taken_parse in Hu.
  change (look w ([`"s"] ++ [u]) = Some EDir) in E. match type of E with look (ex_src ?l) _ = _ => idtac | _ => unfold w in E end.
  match type of E with look (ex_src ?l) _ = _ => rewrite (look_child (ex_src l) [`"s"] (l ++ [(`"notes", Dir []); (`"v7", File (`"x"))]) u eq_refl) in E end.
  destruct (dget u _) as [m|] eqn:Em; [|discriminate]. apply dget_In in Em. cbn [ex_versions firstn skipn app] in Em. destruct Em as [Em|[Em|[Em|[Em|[]]]]]; injection Em as <- <-; discriminate.
Qed.

(** Without a place for the object nothing is written, whatever happens. *)
Lemma no_steps_bind {A B} (x : io A) (f : A -> io B) : (forall w, fst (x w) = []) -> (forall a w, fst (f a w) = []) -> forall w, fst ((do a <- x ;; f a) w) = [].
Proof. intros Hx Hf w. rewrite steps_bind, Hx. destruct (result x w); [apply Hf|reflexivity]. Qed.
Lemma cut_of_nil k z : cut k z -> z = [] -> k = [].
Proof. intros [a b|a p x y b] E; destruct a; try discriminate; reflexivity. Qed.
Theorem C47_dry_run : forall H c e w sp ms w', crash (build H c e sp ms None) w w' -> w' = w.
Proof.
  intros H c e w sp ms w' (k & Ec & ->). assert (E : forall w, fst (build H c e sp ms None w) = []); [|rewrite E in Ec; rewrite (cut_of_nil _ _ Ec eq_refl); reflexivity]. clear Ec w. unfold build. destruct (o_id c) as [id|]; [|reflexivity].
  assert (V : forall vs inv w, fst (build_versions H c e id sp ms None inv vs w) = []).
  { induction vs as [|[k0 v] vs IH]; intros inv; [reflexivity|]. cbn [build_versions]. apply no_steps_bind; [|intros i; apply IH]. unfold build_version. apply no_steps_bind; [intros w; apply openfs_none|]. intros src. apply no_steps_bind; [reflexivity|]. intros nv. apply no_steps_bind; reflexivity. }
  intros w. rewrite steps_bind. change (result (iret (@None place)) w) with (Ok (@None place)). change (fst (iret (@None place) w)) with (@nil step). cbn [app]. revert w. change (forall w, fst ((do src <- open_src_fs e (Some sp) ;; (do vs <- iread (fun w => version_dirs_in_order w src) ;; (do inv <- build_versions H c e id sp ms None None vs ;; (iret tt ;; iret inv)))) w) = []).
  apply no_steps_bind; [intros w; apply openfs_none|]. intros src. apply no_steps_bind; [reflexivity|]. intros vs. apply no_steps_bind; [apply V|reflexivity].
Qed.
Print Assumptions C47_dry_run.

(** Names with leading zeros, or with a line feed at the end, are taken for versions, but no
    object is built from them. *)
Theorem C47_padded_refuted : forall v1, In v1 [`"v001"; `"v01"; `"v1" ++ [10%N]] ->
  let w := ex_src [(v1, Dir ex_one)] in let x := ex_build (ex_c (`"sha256")) in
  taken_for v1 1 /\ result x w = Raise AttributeError /\ look (after x w) [`"o"] = Some EDir /\ look (after x w) [`"o"; inv_name] = None.
Proof.
  intros v1 Hv w x. destruct Hv as [<-|[<-|[<-|[]]]]; (split; [apply taken_parse; vm_compute; reflexivity|]; split; [vm_compute; reflexivity|]; split; vm_compute; reflexivity).
Qed.
Print Assumptions C47_padded_refuted.

(** If the first directory is v1 then an object is built, but the later versions are written in
    directories with the wrong names: it is not valid. *)
Theorem C47_mixed_refuted : let w := ex_src [(`"v1", Dir ex_one); (`"v002", Dir [(`"b", File (`"two"))])] in let x := ex_build (ex_c (`"sha256")) in
  (exists i, result x w = Ok (Some i) /\ i_head i = Some (`"v2")) /\ look (after x w) [`"o"; `"v002"; inv_name] <> None /\ look (after x w) [`"o"; `"v2"; inv_name] = None /\
  ex_valid (after x w) = false.
Proof. split; [eexists; split; vm_compute; reflexivity|]. split; [vm_compute; discriminate|]. split; vm_compute; reflexivity. Qed.
Print Assumptions C47_mixed_refuted.

(** Two directories for one version: one of them is left out without notice. *)
Theorem C47_twice_refuted : let w := ex_src [(`"v01", Dir [(`"b", File (`"two"))]); (`"v1", Dir ex_one)] in let x := ex_build (ex_c (`"sha256")) in
  (exists i, result x w = Ok (Some i)) /\ ex_valid (after x w) = true /\
  exists i s, parse_inventory (after x w) [`"o"] = Ok (i, s) /\ forall v p d, in_state i v d p -> p = `"a".
Proof.
  split; [eexists; vm_compute; reflexivity|]. split; [vm_compute; reflexivity|]. eexists _, _. split; [vm_compute; reflexivity|].
  intros v p d (vs & b & st & l & E1 & E2 & E3 & E4 & E5). cbn in E1. apply Some_inv in E1. subst vs. destruct E2 as [E2|[]]. injection E2 as <- <-. cbn in E3. apply Some_inv in E3. subst st. destruct E4 as [E4|[]]. injection E4 as <- <-. destruct E5 as [<-|[]]. reflexivity.
Qed.
Print Assumptions C47_twice_refuted.

(** No version directories at all: there is a declaration but no inventory. *)
Theorem C47_none_refuted : let w := ex_src [] in let x := ex_build (ex_c (`"sha256")) in
  (forall i, result x w <> Ok i) /\ look (after x w) [`"o"; decl_name (`"1.1")] <> None /\ ex_valid (after x w) = false.
Proof. split; [intros i; vm_compute; discriminate|]. split; [vm_compute; discriminate|vm_compute; reflexivity]. Qed.
Print Assumptions C47_none_refuted.

(** Three versions under version 1.0 of the specification: the object is declared as 1.0, but its
    inventories say 1.1. *)
Theorem C47_spec_version_refuted : let w := ex_src (ex_versions 3) in let x := ex_build ex_c10 in
  (exists i, result x w = Ok (Some i)) /\ ex_valid (after x w) = false /\ exists i, parse_inventory (after x w) [`"o"] = Ok (i, `"1.1") /\ look (after x w) [`"o"; decl_name (`"1.0")] <> None.
Proof. split; [eexists; vm_compute; reflexivity|]. split; [vm_compute; reflexivity|]. eexists. split; [vm_compute; reflexivity|vm_compute; discriminate]. Qed.
Print Assumptions C47_spec_version_refuted.
