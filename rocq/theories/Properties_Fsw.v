(** C13, C14, C15: comparing files, copying directories and walking (ocfl/fsw.py). *)
From Verif Require Import Base Utf8 PathModel FsModel FsSpec FsProofs FswModel FswSpec FswProofs FswCopyProofs.

(** A file system with a directory to copy. *)
Definition ex_tree : node :=
  Dir [(`"src", Dir [(`"b.txt", File [98]); (`"sub", Dir [(`"a", File [97; 97]); (`"e", Dir [])]); (`"c", File [98])]);
       (`"old", File [1])].
Lemma ex_tree_ok : tree ex_tree.
Proof. apply tree_b_ok. reflexivity. Qed.

(** * C13 *)

(** For two files the answer is whether they have the same bytes. *)
Theorem C13_files_identical : forall sizes w h f1 f2 b1 b2,
  look w (at_path h f1) = Some (EFile b1) -> look w (at_path h f2) = Some (EFile b2) ->
  exists r, fsw_files_identical sizes w h f1 f2 = Ok r /\ (r = true <-> b1 = b2).
Proof.
  intros sizes w h f1 f2 b1 b2 H1 H2. exists (str_eqb b1 b2). split; [now apply files_identical_ok|].
  destruct (str_eqb_spec b1 b2); split; congruence.
Qed.
Print Assumptions C13_files_identical.
Example C13_files_identical_ex :
  fsw_files_identical (fun _ => 0) ex_tree [`"src"] (`"b.txt") (`"c") = Ok true /\
  fsw_files_identical (fun _ => 0) ex_tree [`"src"] (`"b.txt") (`"sub/a") = Ok false /\
  look ex_tree (at_path [`"src"] (`"sub/a")) = Some (EFile [97; 97]).
Proof. vm_compute. auto. Qed.

(** A file that is not there raises FileNotFoundError, ... *)
Theorem C13_missing : forall sizes w h f1 f2,
  get w (at_path h f1) = Raise FileNotFoundError \/
  (look w (at_path h f1) <> None /\ get w (at_path h f2) = Raise FileNotFoundError) ->
  fsw_files_identical sizes w h f1 f2 = Raise FileNotFoundError.
Proof.
  intros sizes w h f1 f2 [H|[H1 H2]]; unfold fsw_files_identical, fs_info.
  - now rewrite H.
  - unfold look in H1. destruct (get w (at_path h f1)); [|congruence]. cbn [ebind]. now rewrite H2.
Qed.
Print Assumptions C13_missing.
(** ... and True is never the answer then. *)
Theorem C13_never_true : forall sizes w h f1 f2, look w (at_path h f1) = None \/ look w (at_path h f2) = None ->
  exists e, fsw_files_identical sizes w h f1 f2 = Raise e.
Proof.
  intros sizes w h f1 f2 H. unfold look in H. unfold fsw_files_identical, fs_info.
  destruct (get w (at_path h f1)); [|cbn; eauto]. cbn [ebind]. destruct (get w (at_path h f2)); [|cbn; eauto].
  destruct H; discriminate.
Qed.
Print Assumptions C13_never_true.
Example C13_missing_ex : get ex_tree (at_path [`"src"] (`"sub/zz")) = Raise FileNotFoundError /\
  fsw_files_identical (fun _ => 0) ex_tree [`"src"] (`"b.txt") (`"sub/zz") = Raise FileNotFoundError.
Proof. vm_compute. auto. Qed.

(** A path that goes through a file raises another exception than the documented one
    (NotADirectoryError). *)
Theorem C13_through_file_refuted : exists w h f1 f2, tree w /\ look w (at_path h f1) = None /\
  forall sizes, fsw_files_identical sizes w h f1 f2 = Raise OSError.
Proof.
  exists ex_tree, [`"src"], (`"b.txt/x"), (`"c"). split; [apply ex_tree_ok|]. split; [reflexivity|]. reflexivity.
Qed.
Print Assumptions C13_through_file_refuted.
(** Given the same directory twice the answer is True, although it is not a file. *)
Theorem C13_directory_refuted : exists w h f, tree w /\ look w (at_path h f) = Some EDir /\
  forall sizes, fsw_files_identical sizes w h f f = Ok true.
Proof.
  exists ex_tree, [`"src"], (`"sub"). split; [apply ex_tree_ok|]. split; [reflexivity|]. intros sizes.
  unfold fsw_files_identical, fs_info.
  change (get ex_tree (at_path [`"src"] (`"sub"))) with (Ok (Dir [(`"a", File [97; 97]); (`"e", Dir [])])). cbn [ebind fst snd].
  rewrite N.eqb_refl. rewrite str_eqb_refl. reflexivity.
Qed.
Print Assumptions C13_directory_refuted.
(** True in no other case: then both are files with the same bytes, or the names are the same. *)
Theorem C13_true : forall sizes w h f1 f2, fsw_files_identical sizes w h f1 f2 = Ok true ->
  f1 = f2 \/ exists b, look w (at_path h f1) = Some (EFile b) /\ look w (at_path h f2) = Some (EFile b).
Proof.
  intros sizes w h f1 f2 H. unfold fsw_files_identical in H.
  apply ebind_ok in H as (i1 & _ & H). apply ebind_ok in H as (i2 & _ & H).
  destruct (_ || _); [discriminate|]. destruct (str_eqb_spec f1 f2) as [|Hne]; [auto|]. right.
  apply ebind_ok in H as (b1 & E1 & H). apply ebind_ok in H as (b2 & E2 & H).
  rewrite same_content_ok in H. apply Ok_inv in H. destruct (str_eqb_spec b1 b2) as [E|]; [|discriminate].
  exists b1. apply fs_read_look in E1, E2. rewrite <- E in E2. auto.
Qed.
Print Assumptions C13_true.

(** * C15 *)

(** Every file, each once, by its path from the directory. *)
Theorem C15_walk_files : forall w h dir, tree w -> walkable dir -> look w (at_path h dir) = Some EDir ->
  exists l, fsw_walk_files w h dir = Ok l /\ NoDup l /\
    (forall s, In s l <-> exists rel, s = join [slash] rel /\ leaf w (at_path h dir ++ rel)) /\
    (forall rel rel', leaf w (at_path h dir ++ rel) -> leaf w (at_path h dir ++ rel') -> join [slash] rel = join [slash] rel' -> rel = rel').
Proof.
  intros w h dir Hw Hd Hl. apply look_dir in Hl as (d & Hg).
  pose proof (tree_get _ _ _ Hw Hg) as Hn.
  assert (Hleaf : forall rel, leaf w (at_path h dir ++ rel) <-> leaf (Dir d) rel)
    by (intros rel; unfold leaf; rewrite !look_app, Hg; tauto).
  exists (map (join [slash]) (leaves (Dir d))). repeat split.
  - now apply fsw_walk_files_ok.
  - assert (Hin : forall p, In p (leaves (Dir d)) -> Forall fname p) by (intros p Hp; eapply leaf_fnames; eauto; now apply leaves_spec).
    pose proof (leaves_nodup _ Hn) as Hnd. clear -Hnd Hin. induction Hnd as [|p l Hp Hnd IH]; [constructor|].
    cbn [map]. constructor; [|apply IH; intros; apply Hin; now right]. intros H. apply in_map_iff in H as (q & E & Hq).
    apply join_fnames_inj in E; [subst; auto|apply Hin; now right|apply Hin; now left].
  - intros Hs. apply in_map_iff in Hs as (rel & <- & Hin). exists rel. split; auto. apply Hleaf. now apply leaves_spec.
  - intros (rel & -> & Hr). apply in_map. apply leaves_spec; auto. now apply Hleaf.
  - intros rel rel' H1 H2. apply join_fnames_inj; eapply leaf_fnames; eauto; now apply Hleaf.
Qed.
Print Assumptions C15_walk_files.
Example C15_walk_files_ex : fsw_walk_files ex_tree [] (`"src") = Ok [`"b.txt"; `"c"; `"sub/a"] /\
  fsw_walk_files ex_tree [`"src"] (`"/") = Ok [`"b.txt"; `"c"; `"sub/a"] /\ walkable (`"src") /\ walkable (`"/").
Proof. vm_compute. repeat split; auto; discriminate. Qed.

(** fsw_walk ends, wherever it starts and whatever is pruned. *)
Theorem C15_walk_ends : forall keep w h dir, tree w -> snd (fsw_walk keep w h dir) <> Raise OutOfFuel.
Proof. exact fsw_walk_ends. Qed.
Print Assumptions C15_walk_ends.

(** What fsw_walk yields: the directories that are reached through names that the consumer
    kept, each once, with the names of its directories and of its other entries. *)
Theorem C15_walk_dirs : forall keep w h dir n, tree w -> walkable dir -> get w (at_path h dir) = Ok n -> is_dir n = true ->
  let start := if startswith [slash] dir then dir else slash :: dir in
  exists l, fsw_walk keep w h dir = (l, Ok tt) /\ NoDup (map fst l) /\
    (forall rel, reached keep start n rel <-> exists ds fs, In (fold_left path_join rel start, (ds, fs)) l /\ look n rel = Some EDir) /\
    (forall s ds fs, In (s, (ds, fs)) l -> exists rel,
      s = fold_left path_join rel start /\ reached keep start n rel /\ NoDup ds /\ NoDup fs /\
      (forall k, In k ds <-> look w (at_path h dir ++ rel ++ [k]) = Some EDir) /\
      (forall k, In k fs <-> leaf w (at_path h dir ++ rel ++ [k]))).
Proof.
  intros keep w h dir n Hw Hd Hg Hn start. exists (walk_at keep start n). pose proof (tree_get _ _ _ Hw Hg) as Ht.
  split; [now apply fsw_walk_ok|]. split; [now apply walk_at_nodup|]. split.
  - intros rel. split.
    + intros R. assert (Hd' : exists d, get n rel = Ok (Dir d)).
      { clear -R. revert R. generalize start. clear. revert n. induction rel as [|k rel IH]; intros n start R; destruct n as [b|d|]; cbn [reached] in R; try contradiction.
        - exists d. reflexivity.
        - destruct R as [_ R]. cbn [get]. destruct (dget k d); [|contradiction]. eapply IH; eauto. }
      destruct Hd' as [d Hgd]. exists (dirs_of d), (others_of d). split; [|apply look_dir; eauto]. apply walk_at_spec; eauto.
    + intros (ds & fs & Hin & Hl). apply walk_at_spec in Hin as (rel' & d & R & G & E); auto.
      assert (Hx : rel = rel'); [|now subst].
      apply (fold_join_inj rel rel' start); [eapply look_fnames; eauto; congruence|eapply reached_fnames; eauto|congruence].
  - intros s ds fs Hin. apply walk_at_spec in Hin as (rel & d & R & G & E); auto. exists rel.
    injection E as -> -> ->. pose proof (tree_get _ _ _ Ht G) as Htd. apply tree_dir in Htd as [Hk _].
    assert (Hlk : forall k, look w (at_path h dir ++ rel ++ [k]) = option_map entry_of (dget k d)).
    { intros k. rewrite look_app, Hg. now apply look_child. }
    split; [reflexivity|]. split; [exact R|]. split; [now apply NoDup_map_filter|]. split; [now apply NoDup_map_filter|]. split.
    + intros k. rewrite dirs_of_spec, Hlk by auto. split.
      * intros (m & -> & Hm). cbn. f_equal. now apply is_dir_entry.
      * intros H. destruct (dget k d) as [m|]; [|discriminate]. exists m. split; auto. apply is_dir_entry. cbn in H. congruence.
    + intros k. rewrite others_of_spec by auto. unfold leaf. rewrite Hlk. split.
      * intros (m & -> & Hm). cbn. destruct m; try discriminate; split; discriminate.
      * intros [H1 H2]. destruct (dget k d) as [m|]; [|now destruct H1]. exists m. split; auto. destruct m; auto. now destruct H2.
Qed.
Print Assumptions C15_walk_dirs.
Example C15_walk_dirs_ex :
  fsw_walk keep_all ex_tree [`"src"] (`"/") = ([(`"/", ([`"sub"], [`"b.txt"; `"c"])); (`"/sub", ([`"e"], [`"a"])); (`"/sub/e", ([], []))], Ok tt) /\
  fsw_walk (fun _ _ _ k => negb (str_eqb k (`"sub"))) ex_tree [] (`"/src") = ([(`"/src", ([`"sub"], [`"b.txt"; `"c"]))], Ok tt).
Proof. vm_compute. auto. Qed.

(** A directory with a slash at the end of its name cannot be walked. *)
Theorem C15_trailing_slash_refuted : exists w h dir, tree w /\ look w (at_path h dir) = Some EDir /\
  fsw_walk_files w h dir = Raise ValueError.
Proof. exists ex_tree, [], (`"src/"). split; [apply ex_tree_ok|]. split; reflexivity. Qed.
Print Assumptions C15_trailing_slash_refuted.
(** This is so for every directory that has something in it. *)
Theorem C15_trailing_slash : forall w h dir c, tree w -> ~ walkable dir -> look w (at_path h dir ++ [c]) <> None ->
  fsw_walk_files w h dir = Raise ValueError.
Proof.
  intros w h dir c Hw Hd Hc. assert (Hl : look w (at_path h dir) = Some EDir) by (eapply look_above; eauto).
  apply look_dir in Hl as (d & Hg). unfold fsw_walk_files, fsw_walk.
  set (s := if startswith [slash] dir then dir else slash :: dir).
  assert (Hs : at_path h s = at_path h dir) by (unfold s; destruct (startswith [slash] dir); auto using at_path_slash).
  assert (Hw' : ~ walkable s) by (unfold s; destruct (startswith [slash] dir); auto).
  cbn [walk_loop]. rewrite (fs_ls_dir w h s d) by now rewrite Hs. cbn [ebind].
  pose proof (keys_fnames _ _ _ Hw Hg) as Hk. destruct (dir_names w _ d Hw Hg) as (_ & _ & Hin).
  apply Hin in Hc. destruct d as [|[k m] d]; [destruct Hc|]. cbn [map walk_entries fst]. inversion Hk; subst.
  rewrite relpath_entry_slash by auto. reflexivity.
Qed.
Print Assumptions C15_trailing_slash.

(** * C14 *)

Theorem C14_copydir : forall w src_h src_path dst_h dst_path,
  let src := at_path src_h src_path in
  let dst := at_path dst_h dst_path in
  let w' := after (fsw_copydir src_h src_path dst_h dst_path) w in
  tree w -> Forall fname src_h -> Forall fname dst_h -> walkable src_path ->
  look w src = Some EDir -> look w dst = None -> dirs_to w dst ->
  (forall rel, leaf w (src ++ rel) -> exists b, look w (src ++ rel) = Some (EFile b)) ->
  result (fsw_copydir src_h src_path dst_h dst_path) w = Ok tt /\
  tree w' /\
  (* exactly the files of the source are in the destination, *)
  (forall rel b, look w' (dst ++ rel) = Some (EFile b) <-> look w (src ++ rel) = Some (EFile b)) /\
  (* no other directories than those of files, *)
  (forall rel, look w' (dst ++ rel) = Some EDir -> rel = [] \/ exists c r b, look w (src ++ rel ++ c :: r) = Some (EFile b)) /\
  (* what there was is unchanged, *)
  (forall p e, look w p = Some e -> look w' p = Some e) /\
  (* and nothing else is new. *)
  (forall p, look w' p <> None -> look w p <> None \/ (exists rel, p = dst ++ rel) \/ exists r, dst = p ++ r).
Proof.
  intros w src_h src_path dst_h dst_path src dst w' Hw Hsh Hdh Hwk Hs Hd Hway Hf.
  apply look_dir in Hs as (d & Hg).
  assert (Hsl : forall rel, look w (src ++ rel) = look (Dir d) rel) by (intros rel; rewrite look_app; now rewrite Hg).
  assert (Hfl : forall f, leaf (Dir d) f -> exists b, look (Dir d) f = Some (EFile b)).
  { intros f Hl. rewrite <- Hsl. apply Hf. unfold leaf. now rewrite Hsl. }
  destruct (copydir_ok w src_h dst_h src_path dst_path (Dir d) Hw Hdh Hg eq_refl Hd Hway Hfl Hwk) as (R1 & R2 & R3).
  fold src in R3. fold dst in R3. fold w' in R2, R3. split; [exact R1|]. split; [exact R2|].
  pose proof (tree_get _ _ _ Hw Hg) as Hn.
  assert (Hlv : forall r, In r (rev (leaves (Dir d))) <-> leaf (Dir d) r) by (intros r; rewrite <- in_rev; now apply leaves_spec).
  assert (Hbelow : forall rel, look w' (dst ++ rel) =
    if in_dec place_eq_dec rel (rev (leaves (Dir d))) then look w (src ++ rel)
    else if existsb (fun f => if strip rel f then true else false) ([] :: rev (leaves (Dir d))) then Some EDir else None)
    by (intros rel; rewrite R3; unfold copied; now rewrite strip_app).
  repeat split.
  - rewrite Hbelow. destruct (in_dec _ _ _); auto. destruct (existsb _ _); discriminate.
  - intros H. rewrite Hbelow. destruct (in_dec _ _ _) as [|Hni]; auto. exfalso. apply Hni, Hlv. unfold leaf. rewrite <- Hsl, H. split; discriminate.
  - intros rel H. rewrite Hbelow in H. destruct (in_dec _ _ _) as [Hin|Hni].
    + apply Hlv in Hin. destruct Hin as [_ Hin]. rewrite <- Hsl in Hin. contradiction.
    + destruct (existsb _ _) eqn:E; [|discriminate]. apply existsb_exists in E as (f & [<-|Hin] & Hx).
      * destruct (strip rel []) as [x|] eqn:Ex; [|discriminate]. apply strip_some in Ex. symmetry in Ex. apply app_eq_nil in Ex as [-> _]. auto.
      * destruct (strip rel f) as [x|] eqn:Ex; [|discriminate]. apply strip_some in Ex. subst f. destruct x as [|c r]; [rewrite app_nil_r in Hin; contradiction|].
        right. apply Hlv in Hin. destruct (Hfl _ Hin) as [b Hb]. exists c, r, b. now rewrite Hsl.
  - intros p e H. rewrite R3. unfold copied. destruct (strip dst p) as [r|] eqn:E.
    + apply strip_some in E. subst p. destruct r as [|c r]; [rewrite app_nil_r in H; congruence|].
      rewrite look_below_leaf in H; [discriminate|discriminate|congruence].
    + destruct (strip p dst) as [x|] eqn:Ex; auto. apply strip_some in Ex. destruct (Hway p x Ex); congruence.
  - intros p H. rewrite R3 in H. unfold copied in H. destruct (strip dst p) as [r|] eqn:E.
    + apply strip_some in E. eauto.
    + destruct (strip p dst) as [x|] eqn:Ex; auto. apply strip_some in Ex. eauto.
Qed.
Print Assumptions C14_copydir.
Example C14_copydir_ex :
  after (fsw_copydir [] (`"src") [] (`"new/x")) ex_tree =
    Dir [(`"src", Dir [(`"b.txt", File [98]); (`"sub", Dir [(`"a", File [97; 97]); (`"e", Dir [])]); (`"c", File [98])]);
         (`"old", File [1]);
         (`"new", Dir [(`"x", Dir [(`"b.txt", File [98]); (`"c", File [98]); (`"sub", Dir [(`"a", File [97; 97])])])])].
Proof. vm_compute. reflexivity. Qed.
(** Copying a directory into itself is no problem. *)
Example C14_copydir_inside :
  after (fsw_copydir [] (`"src") [] (`"src/sub/x")) ex_tree =
    Dir [(`"src", Dir [(`"b.txt", File [98]);
                       (`"sub", Dir [(`"a", File [97; 97]); (`"e", Dir []);
                                     (`"x", Dir [(`"b.txt", File [98]); (`"c", File [98]); (`"sub", Dir [(`"a", File [97; 97])])])]);
                       (`"c", File [98])]);
         (`"old", File [1])].
Proof. vm_compute. reflexivity. Qed.

(** If the source is not a directory or the destination exists, nothing is done. *)
Theorem C14_refused : forall w src_h src_path dst_h dst_path,
  look w (at_path src_h src_path) <> Some EDir \/ look w (at_path dst_h dst_path) <> None ->
  result (fsw_copydir src_h src_path dst_h dst_path) w = Raise FswException /\
  after (fsw_copydir src_h src_path dst_h dst_path) w = w.
Proof.
  intros w src_h src_path dst_h dst_path H. unfold fsw_copydir. rewrite after_read, result_read.
  destruct (fs_isdir w src_h src_path) eqn:E; [|auto]. apply fs_isdir_look in E.
  rewrite after_read, result_read. destruct H as [H|H]; [contradiction|]. apply fs_exists_look in H. rewrite H. auto.
Qed.
Print Assumptions C14_refused.

(** If a file is in the way of the destination, nothing is done either. *)
Theorem C14_file_in_the_way : forall w src_h src_path dst_h dst_path q c r,
  look w (at_path src_h src_path) = Some EDir -> at_path dst_h dst_path = q ++ c :: r -> leaf w q ->
  result (fsw_copydir src_h src_path dst_h dst_path) w = Raise OSError /\
  after (fsw_copydir src_h src_path dst_h dst_path) w = w.
Proof.
  intros w src_h src_path dst_h dst_path q c r Hs Hd Hl. unfold fsw_copydir. rewrite after_read, result_read.
  rewrite (proj2 (fs_isdir_look w src_h src_path) Hs). rewrite after_read, result_read.
  assert (Hno : look w (at_path dst_h dst_path) = None) by (rewrite Hd; apply look_below_leaf; [discriminate|apply Hl]).
  rewrite (proj2 (fs_exists_false w dst_h dst_path) Hno).
  assert (Hm : forall n p done, get n q = Ok p -> is_dir p = false -> missing n done (q ++ c :: r) = Raise OSError).
  { clear. induction q as [|k q IH]; intros n p done Hg Hp; cbn [app].
    - cbn in Hg. apply Ok_inv in Hg. subst. destruct p; try discriminate; reflexivity.
    - cbn [get] in Hg. destruct n as [b|d|]; try discriminate. cbn [missing]. destruct (dget k d); [|discriminate]. eapply IH; eauto. }
  apply leaf_get in Hl as (m & Hg & Hm').
  assert (Hmk : fs_makedirs dst_h dst_path false w = ([], Raise OSError)) by (unfold fs_makedirs; rewrite Hd, (Hm w m [] Hg Hm'); reflexivity).
  rewrite ibind_after, ibind_result. unfold result, after. rewrite Hmk. auto.
Qed.
Print Assumptions C14_file_in_the_way.

(** If the source is written with a slash at the end, an empty destination is left behind. *)
Theorem C14_trailing_slash_refuted : exists w src_h src_path dst_h dst_path, tree w /\
  look w (at_path src_h src_path) = Some EDir /\ look w (at_path dst_h dst_path) = None /\
  result (fsw_copydir src_h src_path dst_h dst_path) w = Raise ValueError /\
  look (after (fsw_copydir src_h src_path dst_h dst_path) w) (at_path dst_h dst_path) = Some EDir.
Proof. exists ex_tree, [], (`"src/"), [], (`"new"). split; [apply ex_tree_ok|]. repeat split. Qed.
Print Assumptions C14_trailing_slash_refuted.

(** A file copied onto itself is lost. *)
Theorem C14_copy_onto_itself_refuted : exists w h f b, tree w /\ look w (at_path h f) = Some (EFile b) /\ b <> [] /\
  result (fsw_copyfile h f h f) w = Ok tt /\ look (after (fsw_copyfile h f h f) w) (at_path h f) = Some (EFile []).
Proof. exists ex_tree, [], (`"old"), [1]. split; [apply ex_tree_ok|]. repeat split. discriminate. Qed.
Print Assumptions C14_copy_onto_itself_refuted.
