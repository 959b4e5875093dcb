(** C95: opening and creating a directory with fsw_openfs (ocfl/fsw.py:106-196), for local
    paths and file:// URLs. *)
From Verif Require Import Base Utf8 PathModel FsModel FsSpec FsProofs FswModel FswSpec FswProofs FswCopyProofs NamasteProofs
  ObjectWriteProofs ObjectExtractProofs.

(** * Specification *)

(** A path is given as it is, if it has no ://, or behind file://. *)
Definition means_file (url path : str) : Prop := url = `"file://" ++ path \/ no_url url /\ path = url.
(** [p] is up to and with the last slash of a path, [k] is behind it. *)
Definition last_name (p k : str) : Prop := ~ In slash k /\ (p = [] \/ last_opt p = Some slash).

(** * Proofs *)

Lemma split_file path : split_url (`"file://" ++ path) = Some (`"file", path).
Proof. reflexivity. Qed.
Lemma means_split url path : means_file url path ->
  match split_url url with None => (`"file", url) | Some mp => mp end = (`"file", path).
Proof. intros [->|[Hn ->]]; [reflexivity|]. now rewrite split_url_none. Qed.

Theorem C95_open : forall cwd url path ok w, means_file url path ->
  let h := at_path (base_of cwd path) path in
  after (fsw_openfs cwd url false ok) w = w /\
  (look w h = Some EDir -> result (fsw_openfs cwd url false ok) w = Ok h) /\
  (look w h <> Some EDir -> result (fsw_openfs cwd url false ok) w = Raise FileNotFoundError).
Proof.
  intros cwd url path ok w M h. unfold fsw_openfs. rewrite (means_split _ _ M).
  change (str_eqb (`"file") (`"file")) with true. cbv iota.
  change (if startswith [slash] path then [] else cwd) with (base_of cwd path).
  rewrite after_read, result_read. cbv beta. pose proof (fs_isdir_look w (base_of cwd path) path) as D.
  destruct (fs_isdir w (base_of cwd path) path).
  - repeat split. intros N. exfalso. now apply N, D.
  - repeat split. intros L. apply D in L. discriminate.
Qed.
Print Assumptions C95_open.

Lemma head_base cwd p k : last_name p k -> let d := fst (path_split (p ++ k)) in
  snd (path_split (p ++ k)) = k /\ base_of cwd d = base_of cwd (p ++ k) /\ forall h, at_path h d = at_path h p.
Proof.
  intros [Hk Hp]. rewrite path_split_name by auto. cbn [fst snd]. split; [reflexivity|].
  destruct p as [|c p].
  { split; [|reflexivity]. unfold base_of. cbn [app]. destruct k as [|c k]; [reflexivity|].
    cbn [startswith]. destruct (N.eqb_spec slash c) as [E|]; [|reflexivity]. exfalso. apply Hk. left. auto. }
  destruct (rstrip_slash (c :: p)) as [|c' p'] eqn:R.
  { split; [reflexivity|]. reflexivity. }
  split; [|intros h; rewrite <- R; apply at_path_rstrip].
  assert (c' = c) as ->; [|reflexivity].
  destruct (rstrip_split (c :: p)) as [n E]. rewrite R in E. now injection E.
Qed.

Theorem C95_create : forall cwd url p k ok w, means_file url (p ++ k) -> last_name p k -> Forall fname cwd ->
  let parent := at_path (base_of cwd (p ++ k)) p in
  let h := at_path (base_of cwd (p ++ k)) (p ++ k) in
  let x := fsw_openfs cwd url true ok in
  (look w parent <> Some EDir -> result x w = Raise FileNotFoundError /\ after x w = w) /\
  (look w parent = Some EDir -> look w h <> None ->
     result x w = (if ok then Ok h else Raise FswException) /\ after x w = w) /\
  (look w parent = Some EDir -> look w h = None ->
     result x w = Ok h /\ look (after x w) h = Some EDir /\ forall q, q <> h -> look (after x w) q = look w q).
Proof.
  intros cwd url p k ok w M Hl Hc parent h x.
  assert (Hb : Forall fname (base_of cwd (p ++ k))) by (unfold base_of; destruct (startswith _ _); auto).
  destruct (head_base cwd p k Hl) as (K & B & A).
  assert (T : at_path parent k = h) by (destruct Hl; now apply at_path_then).
  assert (X : x = (do _ <- iread (fun w => if fs_isdir w (base_of cwd (p ++ k)) (fst (path_split (p ++ k))) then Ok tt else Raise FileNotFoundError) ;;
      do e <- iread (fun w => Ok (fs_exists w parent k)) ;;
      (if e : bool then if ok then iret tt else iraise FswException else fs_makedir parent k) ;; iret h)).
  { unfold x, fsw_openfs. rewrite (means_split _ _ M). destruct (path_split (p ++ k)) as [d k']. cbn [fst snd] in *. subst k'.
    change (str_eqb (`"file") (`"file")) with true. cbv iota. change (if startswith [slash] d then [] else cwd) with (base_of cwd d).
    rewrite B, A. fold parent. rewrite T. reflexivity. }
  clearbody x. subst x. rewrite after_read, result_read. cbv beta.
  pose proof (fs_isdir_look w (base_of cwd (p ++ k)) (fst (path_split (p ++ k)))) as D. rewrite A in D. fold parent in D.
  destruct (fs_isdir w _ _).
  2:{ split; [intros _; split; reflexivity|]. split; intros L; apply D in L; discriminate. }
  split; [intros N; exfalso; now apply N, D|]. rewrite after_read, result_read. cbv beta.
  pose proof (fs_exists_look w parent k) as Ex. rewrite T in Ex.
  destruct (fs_exists w parent k) eqn:F.
  - split; [|intros _ L; exfalso; now apply (proj1 Ex eq_refl)]. intros _ _. destruct ok; split; reflexivity.
  - split; [intros _ N; apply Ex in N; discriminate|]. intros L N.
    assert (Fp : Forall fname parent) by now apply at_path_fnames.
    assert (Fk : fname k).
    { repeat split; [intros ->|intros ->|intros ->|apply Hl].
      - rewrite at_path_nil in T by auto. rewrite <- T in N. congruence.
      - assert (E : at_path parent (`".") = at_path parent []) by (unfold at_path, resolve; rewrite !fold_left_app; reflexivity).
        rewrite E, at_path_nil in T by auto. rewrite <- T in N. congruence.
      - assert (E : at_path parent (`"..") = removelast parent).
        { unfold at_path, resolve. rewrite fold_left_app. match goal with |- rev (fold_left resolve_step (split_on slash (`"..")) ?z) = _ => change (fold_left resolve_step (split_on slash (`"..")) z) with (tl z) end.
          pose proof (at_path_nil parent Fp) as E0. unfold at_path, resolve in E0. rewrite fold_left_app in E0. cbn in E0.
          assert (E1 : fold_left resolve_step parent [] = rev parent) by (rewrite <- E0 at 2; now rewrite rev_involutive).
          rewrite E1. clear. destruct parent as [|a l _] using rev_ind; [reflexivity|]. rewrite rev_app_distr, removelast_last. cbn [rev app tl]. apply rev_involutive. }
        rewrite E in T. rewrite <- T in N. destruct parent as [|a l _] using rev_ind; [cbn in N; congruence|].
        rewrite removelast_last in N. assert (Q : look w l = Some EDir) by (apply (look_above w l a []); rewrite L; discriminate). congruence. }
    assert (E1 : at_path parent k = parent ++ [k]) by (refine (at_path_join parent [k] Fp _); auto). rewrite E1 in T.
    destruct (makedir_one w parent k Fp Fk L (eq_trans (f_equal (look w) T) N)) as [R C].
    assert (C' : changes w (after (fs_makedir parent k) w) h (Some EDir)) by (rewrite <- T; exact C). clear C. rename C' into C.
    rewrite (after_seq _ _ _ _ R), ibind_result, R. split; [reflexivity|].
    split; [exact (changes_at _ _ _ _ C)|]. intros q Hq. exact (changes_other _ _ _ _ _ C Hq).
Qed.
Print Assumptions C95_create.

(** What there is need not be a directory: a file with the name is opened as well. *)
Theorem C95_directory_refuted : ~ (forall cwd url h w, Forall fname cwd -> tree w ->
  result (fsw_openfs cwd url true true) w = Ok h -> look (after (fsw_openfs cwd url true true) w) h = Some EDir).
Proof.
  intros X. specialize (X [] (`"/a") [`"a"] (Dir [(`"a", File [1%N])]) (Forall_nil _)).
  assert (T : tree (Dir [(`"a", File [1%N])])) by (apply tree_b_ok; reflexivity).
  specialize (X T eq_refl). discriminate.
Qed.
Print Assumptions C95_directory_refuted.

(** A new directory below one that is there, a directory that is there, and a missing parent. *)
Example C95_ex :
  let w := Dir [(`"d", Dir [(`"e", Dir [])])] in
  means_file (`"file:///d/new") (`"/d/" ++ `"new") /\ last_name (`"/d/") (`"new") /\
  look w (at_path [] (`"/d/")) = Some EDir /\ look w (at_path [] (`"/d/new")) = None /\
  result (fsw_openfs [`"d"] (`"file:///d/new") true true) w = Ok [`"d"; `"new"] /\
  result (fsw_openfs [`"d"] (`"e") true false) w = Raise FswException /\
  result (fsw_openfs [`"d"] (`"x/y") true true) w = Raise FileNotFoundError /\
  result (fsw_openfs [`"d"] (`"file://e") false true) w = Ok [`"d"; `"e"].
Proof.
  cbv zeta. split; [left; reflexivity|]. split; [split; [|right; reflexivity]|repeat split].
  intros H. cbn in H. repeat (destruct H as [H|H]; [discriminate|]). exact H.
Qed.
