(** C51, more: when exactly the check of a declaration file passes, and that a missing file
    is reported (ocfl/namaste.py:118-141). *)
From Verif Require Import Base Utf8 PathModel FsModel FsSpec FsProofs FswProofs FswCopyProofs NamasteModel NamasteProofs TextFile UtilModel.

Theorem C51_exact : forall n w h dir, fname (filename n) ->
  (content_ok n w h dir = Ok true <->
   tvalue n <> [] /\ exists b t, look w (at_path h dir ++ [filename n]) = Some (EFile b) /\ read_text b = Ok t /\ content_to_tvalue t = tvalue n).
Proof.
  intros n w h dir Hf. rewrite <- (at_path_name h dir _ Hf). unfold content_ok, check_content.
  destruct (str_eqb_spec (tvalue n) []) as [E|E].
  { split; [intros X; exfalso; cbn in X; congruence|]. intros [X _]. contradiction. }
  unfold fs_read_text. split.
  - intros X. split; [exact E|]. destruct (fs_read w h (path_join dir (filename n))) as [b|x] eqn:R; cbn [ebind] in X; [|exfalso; destruct x; cbn in X; congruence].
    exists b. apply fs_read_look in R. cbn [ebind] in X; destruct (read_text b) as [t|x] eqn:Rt; [cbn [ebind] in X|exfalso; destruct x; cbn in X; congruence]. exists t.
    split; [exact R|]. split; [reflexivity|]. destruct (str_eqb_spec (tvalue n) (content_to_tvalue t)); [symmetry; assumption|exfalso; cbn in X; congruence].
  - intros [_ (b & t & L & Rt & T)]. apply fs_read_look in L. rewrite L. cbn [ebind]. rewrite Rt. cbn [ebind]. rewrite T, str_eqb_refl. reflexivity.
Qed.
Print Assumptions C51_exact.

Theorem C51_missing : forall n w h dir, fname (filename n) -> look w (at_path h dir) = Some EDir -> look w (at_path h dir ++ [filename n]) = None ->
  check_content n w h dir = Raise NamasteException /\ content_ok n w h dir = Ok false.
Proof.
  intros n w h dir Hf L N. assert (C : check_content n w h dir = Raise NamasteException); [|split; [exact C|unfold content_ok; now rewrite C]].
  unfold check_content. destruct (str_eqb (tvalue n) []); [reflexivity|].
  unfold fs_read_text, fs_read. rewrite (at_path_name h dir _ Hf). apply look_dir in L as [d L].
  assert (G : get w (at_path h dir ++ [filename n]) = Raise FileNotFoundError); [|rewrite G; reflexivity].
  pose proof (look_child w _ d (filename n) L) as Ch. rewrite N in Ch. rewrite get_app, L. cbn [ebind get].
  destruct (dget (filename n) d); [discriminate|reflexivity].
Qed.
Print Assumptions C51_missing.

(** get_namaste where there is no directory: "" (os.listdir), a name that is not there, a file. *)
Theorem C51_get_nowhere : forall w cwd d dir,
  (dir = [] \/ look w (at_path (base_of cwd dir) dir) <> Some EDir) -> exists x, get_namaste w cwd d dir = Raise x /\ x <> NamasteException.
Proof.
  intros w cwd d [|a dir] Hl; [exists FileNotFoundError; split; [reflexivity|discriminate]|]. destruct Hl as [Hl|Hl]; [discriminate Hl|].
  unfold get_namaste, os_listdir, os_abspath. unfold look in Hl. destruct (get w _) as [n|x] eqn:G.
  - cbn [ebind]. destruct n as [b|dd|]; try (exists OSError; split; [reflexivity|discriminate]); now destruct Hl.
  - cbn [ebind]. exists x. split; [reflexivity|]. intros ->. revert G. generalize (at_path (base_of cwd (a :: dir)) (a :: dir)). clear. intro q. revert w.
    induction q as [|k q IH]; intros w; cbn [get]; [discriminate|]. destruct w; try discriminate. destruct (dget k _); [apply IH|discriminate].
Qed.
Print Assumptions C51_get_nowhere.
Example C51_get_nowhere_ex : look (Dir [(`"a", File [])]) (at_path (base_of [] (`"a")) (`"a")) <> Some EDir /\ look (Dir [(`"a", File [])]) (at_path (base_of [] (`"b")) (`"b")) <> Some EDir.
Proof. split; discriminate. Qed.

Example C51_exact_ex :
  let n := mkNamaste (`"0") [] (Some (`"ocfl_1.1")) in
  let w := Dir [(`"a", Dir [(`"0=ocfl_1.1", File (`"ocfl_1.1" ++ [10%N]))]); (`"b", Dir []); (`"c", Dir [(`"0=ocfl_1.1", File (`"x"))])] in
  fname (filename n) /\ content_ok n w [] (`"a") = Ok true /\ content_ok n w [] (`"b") = Ok false /\ content_ok n w [] (`"c") = Ok false.
Proof. split; [repeat split; try discriminate; cbn; intuition discriminate|repeat split]. Qed.
