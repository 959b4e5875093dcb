(** C82 and C83: functions that deal with paths; C51: get_namaste. *)
From Verif Require Import Base Unicode PathModel FsModel FsSpec FsProofs FswSpec FswProofs FswCopyProofs NamasteModel NamasteSpec NamasteProofs ValidatorModel UtilModel.
From Verif Require Import ObjectExtractProofs.
From Verif Require Properties_Namaste.
Open Scope N_scope.

(** * C82: remove_first_directory *)

(** The names in a path. *)
Definition names (path : str) : list str := filter (fun c => negb (str_eqb c [])) (split_on slash path).

Lemma names_app a b : names (a ++ slash :: b) = names a ++ names b.
Proof. unfold names. now rewrite split_on_app_gen, filter_app. Qed.
Lemma names_slashes n : names (repeat slash n) = [].
Proof. induction n as [|n IH]; [reflexivity|]. cbn [repeat]. change (slash :: repeat slash n) with ([] ++ slash :: repeat slash n). rewrite names_app, IH. reflexivity. Qed.
Lemma names_single t : ~ In slash t -> t <> [] -> names t = [t].
Proof. intros Hs Hn. unfold names. rewrite split_on_single by auto. cbn [filter]. destruct (str_eqb_spec t []); [contradiction|reflexivity]. Qed.
Lemma names_start path : names path = [] -> startswith [slash] path = false -> path = [].
Proof.
  intros E Hs. destruct path as [|c r]; [reflexivity|exfalso]. cbn in Hs. destruct (N.eqb_spec slash c) as [|Hc]; [discriminate|].
  unfold names in E. cbn [split_on] in E. destruct (N.eqb_spec c slash); [congruence|]. destruct (split_on slash r) as [|x y]; cbn [filter str_eqb negb] in E; discriminate.
Qed.

(** The path without its first name; if it is absolute only without the slash. *)
Definition rest (path : str) : list str := if startswith [slash] path then names path else tl (names path).

Lemma rstrip_all p : rstrip_slash p = [] -> exists n, p = repeat slash n.
Proof. intros E. destruct (rstrip_split p) as [n H]. rewrite E in H. eauto. Qed.
Lemma repeat_snoc (n : nat) : repeat slash n ++ [slash] = repeat slash (S n).
Proof. induction n as [|n IH]; [reflexivity|]. cbn [repeat app]. now rewrite IH. Qed.
Lemma split_repeat n : path_split (repeat slash n) = (repeat slash n, []).
Proof.
  unfold path_split. replace (repeat slash n) with (repeat slash n ++ []) at 1 by apply app_nil_r. rewrite rsplit_app.
  - destruct (rstrip_split (repeat slash n)) as [m E]. destruct (rstrip_slash (repeat slash n)) as [|c r] eqn:Er; [reflexivity|exfalso].
    pose proof (rstrip_last (repeat slash n)) as L. rewrite Er in L. assert (A : forall x, In x (c :: r) -> x = slash).
    { intros x Hx. apply (repeat_spec n slash). rewrite E. apply in_or_app. now left. }
    destruct (last_opt (c :: r)) as [x|] eqn:El; [|destruct (exists_last (l := c :: r)) as (l & y & E'); [discriminate|]; rewrite E', last_opt_app in El; discriminate].
    apply L. f_equal. apply A. now apply last_opt_In.
  - intros [].
  - destruct n as [|n]; [now left|right]. rewrite <- repeat_snoc. apply last_opt_app.
Qed.
Lemma loop_stop fuel n rp : rfd_loop (S fuel) (repeat slash n) rp = Some rp.
Proof. cbn [rfd_loop]. rewrite split_repeat. now rewrite str_eqb_refl. Qed.

(** The loop: the names left come before [rpath]. *)
Lemma loop_ok fuel : forall path rl, (List.length path < fuel)%nat -> Forall plain_component rl -> (path <> [] -> rl <> [] -> last_opt path <> Some slash \/ rstrip_slash path = []) ->
  rfd_loop fuel path (join [slash] rl) = Some (join [slash] (rest path ++ rl)).
Proof.
  induction fuel as [|fuel IH]; intros path rl Hl Hr Hp; [lia|].
  destruct (rsplit_parts path) as (p & t & -> & Hpt & Ht).
  destruct Hpt as [->|Hpt].
  - (* one name, or nothing *)
    cbn [app]. cbn [rfd_loop]. unfold path_split. rewrite (rsplit_app [] t Ht (or_introl eq_refl) : rsplit_slash t = ([], t)). cbn [rstrip_slash rev lstrip_slash].
    rewrite str_eqb_refl, orb_true_r. f_equal. f_equal. unfold rest.
    destruct t as [|c t]; [reflexivity|]. rewrite names_single by (auto; discriminate). cbn [startswith]. destruct (N.eqb_spec slash c) as [<-|]; [exfalso; apply Ht; left; reflexivity|reflexivity].
  - destruct (rstrip_slash p) as [|c q] eqn:Er.
    + (* below the root *)
      destruct (rstrip_all _ Er) as [n ->]. destruct n as [|n]; [discriminate Hpt|].
      destruct t as [|x t].
      { rewrite app_nil_r. rewrite loop_stop. unfold rest. rewrite names_slashes. cbn [repeat startswith]. now rewrite N.eqb_refl. }
      cbn [rfd_loop]. unfold path_split. rewrite rsplit_app by auto. rewrite Er.
      destruct (str_eqb_spec (repeat slash (S n) ++ x :: t) (repeat slash (S n))) as [E|_].
      { exfalso. apply (f_equal (@List.length N)) in E. rewrite app_length in E. cbn [List.length] in E. lia. }
      destruct (str_eqb_spec (repeat slash (S n) ++ x :: t) (x :: t)) as [E|_].
      { exfalso. apply (f_equal (@List.length N)) in E. rewrite app_length in E. cbn [repeat List.length] in E. lia. }
      cbn [orb]. destruct fuel as [|fuel]; [rewrite app_length in Hl; cbn [repeat List.length] in Hl; lia|]. rewrite loop_stop. f_equal.
      unfold rest. assert (E1 : names (repeat slash (S n) ++ x :: t) = [x :: t]).
      { rewrite <- repeat_snoc, <- app_assoc. cbn [app]. rewrite names_app, names_slashes. cbn [app]. apply names_single; [auto|discriminate]. }
      rewrite E1. replace (startswith [slash] (repeat slash (S n) ++ x :: t)) with true by (cbn [repeat app startswith]; now rewrite N.eqb_refl).
      destruct rl as [|y rl]; [reflexivity|]. assert (Hx : plain_component (x :: t)) by (split; [discriminate|exact Ht]).
      destruct (join [slash] (y :: rl)) as [|z l] eqn:Ej; [exfalso; exact (proj1 (join_last (y :: rl) ltac:(discriminate) Hr) Ej)|]. rewrite <- Ej.
      cbn [app]. rewrite (join_cons [slash] (x :: t) (y :: rl)) by discriminate. rewrite path_join_simple; [reflexivity|discriminate|intros E; apply Ht; now apply last_opt_In|].
      inversion Hr; subst. destruct y as [|y0 y]; [destruct H1; congruence|]. rewrite Ej.
      assert (z = y0) by (destruct rl; cbn in Ej; congruence). subst z. cbn [startswith]. destruct (N.eqb_spec slash y0) as [<-|]; [exfalso; apply H1; left; reflexivity|reflexivity].
    + (* below another directory *)
      destruct (rstrip_split p) as [n Ep]. rewrite Er in Ep. destruct n as [|n].
      { exfalso. cbn [repeat] in Ep. rewrite app_nil_r in Ep. pose proof (rstrip_last p) as L. rewrite Er, <- Ep in L. contradiction. }
      cbn [rfd_loop]. unfold path_split. rewrite rsplit_app by auto. rewrite Er.
      assert (Hlp : (List.length (c :: q) < List.length p)%nat) by (rewrite Ep, app_length, repeat_length; lia).
      destruct (str_eqb_spec (p ++ t) (c :: q)) as [E|_]; [exfalso; apply (f_equal (@List.length N)) in E; rewrite app_length in E; lia|].
      destruct (str_eqb_spec (p ++ t) t) as [E|_]; [exfalso; apply (f_equal (@List.length N)) in E; rewrite app_length in E; lia|]. cbn [orb].
      assert (En : names (p ++ t) = names (c :: q) ++ names t).
      { rewrite Ep. cbn [repeat]. rewrite <- app_assoc. change ((slash :: repeat slash n) ++ t) with (slash :: (repeat slash n ++ t)).
        rewrite (names_app (c :: q)). f_equal. clear. induction n as [|n IH]; [reflexivity|]. cbn [repeat app].
        change (slash :: repeat slash n ++ t) with ([] ++ slash :: (repeat slash n ++ t)). rewrite names_app. exact IH. }
      assert (Es : startswith [slash] (p ++ t) = startswith [slash] (c :: q)) by (rewrite Ep; reflexivity).
      assert (Erest : rest (p ++ t) = rest (c :: q) ++ names t).
      { unfold rest. rewrite En, Es. destruct (startswith [slash] (c :: q)) eqn:Esl; [reflexivity|].
        destruct (names (c :: q)) as [|a l] eqn:Ea; [apply names_start in Ea; [discriminate Ea|exact Esl]|]. reflexivity. }
      assert (Hcq : last_opt (c :: q) <> Some slash) by (rewrite <- Er; apply rstrip_last).
      rewrite Erest. destruct t as [|x t].
      * (* a slash at the end: this is the first round *)
        destruct rl as [|y rl].
        -- cbn [join]. change (rfd_loop fuel (c :: q) (join [slash] []) = Some (join [slash] ((rest (c :: q) ++ names []) ++ []))). rewrite app_length in Hl. rewrite IH; [now change (names []) with (@nil str); rewrite !app_nil_r | lia | constructor | now left].
        -- exfalso. rewrite app_nil_r in Hp. destruct (Hp ltac:(rewrite Ep; discriminate) ltac:(discriminate)) as [X|X]; [contradiction|rewrite X in Er; discriminate].
      * rewrite (names_single (x :: t)) by (auto; discriminate). assert (Hx : plain_component (x :: t)) by (split; [discriminate|exact Ht]).
        assert (Ej : match join [slash] rl with [] => x :: t | _ => path_join (x :: t) (join [slash] rl) end = join [slash] ((x :: t) :: rl)).
        2: etransitivity; [exact (f_equal (rfd_loop fuel (c :: q)) Ej)|].
        2: rewrite IH; [now rewrite <- app_assoc|rewrite app_length in Hl; cbn [List.length] in *; lia|constructor; auto|now left].
        -- destruct rl as [|y rl]; [reflexivity|]. destruct (join [slash] (y :: rl)) as [|z l] eqn:Ej; [exfalso; exact (proj1 (join_last (y :: rl) ltac:(discriminate) Hr) Ej)|]. rewrite <- Ej.
           transitivity ((x :: t) ++ [slash] ++ join [slash] (y :: rl)); [|reflexivity]. rewrite path_join_simple; [reflexivity|discriminate|intros E; apply Ht; now apply last_opt_In|].
           inversion Hr; subst. destruct y as [|y0 y]; [destruct H1; congruence|]. rewrite Ej.
           assert (z = y0) by (destruct rl; cbn in Ej; congruence). subst z. cbn [startswith]. destruct (N.eqb_spec slash y0) as [<-|]; [exfalso; apply H1; left; reflexivity|reflexivity].
Qed.

(** What it gives for every path: the names of the path but the first, with one slash between them.
    Of an absolute path no name is removed. *)
Theorem C82_remove : forall path, remove_first_directory path = Some (join [slash] (rest path)).
Proof.
  intros path. unfold remove_first_directory. change (@nil N) with (join [slash] []). rewrite loop_ok; [now rewrite app_nil_r|lia|constructor|congruence].
Qed.
Print Assumptions C82_remove.
(** For a path made of names: the first is taken off. *)
Theorem C82_relative : forall a l n, plain_component a -> Forall plain_component l ->
  remove_first_directory (join [slash] (a :: l) ++ repeat slash n) = Some (join [slash] l).
Proof.
  intros a l n Ha Hl. rewrite C82_remove. f_equal. f_equal. unfold rest. assert (F : Forall plain_component (a :: l)) by (constructor; auto).
  assert (E : names (join [slash] (a :: l) ++ repeat slash n) = a :: l).
  { assert (E0 : names (join [slash] (a :: l)) = a :: l).
    { unfold names. rewrite split_join; [|discriminate|intros e He; rewrite Forall_forall in F; apply (F e He)].
      clear - F. induction F as [|x r [Hx _] _ IH]; [reflexivity|]. cbn [filter]. destruct (str_eqb_spec x []); [contradiction|]. cbn [negb]. now rewrite IH. }
    destruct n as [|n]; [now rewrite app_nil_r|]. cbn [repeat]. rewrite names_app, E0, names_slashes. apply app_nil_r. }
  rewrite E. replace (startswith [slash] (join [slash] (a :: l) ++ repeat slash n)) with false; [reflexivity|].
  destruct Ha as [Hn Hs]. destruct a as [|x a]; [congruence|]. assert (x <> slash) by (intros ->; apply Hs; left; reflexivity).
  destruct l; cbn [join app startswith]; destruct (N.eqb_spec slash x); (congruence || reflexivity).
Qed.
Print Assumptions C82_relative.
Example C82_ex : remove_first_directory (`"a//b/c/") = Some (`"b/c") /\ remove_first_directory (`"a") = Some [] /\ Forall plain_component [`"a"; `"b"].
Proof.
  split; [vm_compute; reflexivity|]. split; [vm_compute; reflexivity|].
  repeat constructor; try discriminate; intros [H|[]]; discriminate H.
Qed.
(** The first directory of an absolute path stays. *)
Theorem C82_absolute_refuted : remove_first_directory (`"/a/b") = Some (`"a/b").
Proof. vm_compute. reflexivity. Qed.
Print Assumptions C82_absolute_refuted.

(** * C83: strip_root *)

Lemma rel_back (s0 p0 : place) : Forall fname s0 -> Forall fname p0 -> resolve (s0 ++ os_rel p0 s0) = p0.
Proof.
  assert (G : forall s pre p : place, Forall fname (rev pre ++ s) -> Forall fname p ->
    rev (fold_left resolve_step (os_rel p s) (rev s ++ pre)) = rev pre ++ p).
  { induction s as [|b s IH]; intros pre p Fs Fp.
    - transitivity (rev (fold_left resolve_step p pre)); [destruct p; reflexivity|].
      rewrite resolve_names by auto. rewrite rev_app_distr, rev_involutive. reflexivity.
    - assert (D : forall k q acc pre', List.length acc = k -> Forall fname q -> rev (fold_left resolve_step (repeat (`"..") k ++ q) (acc ++ pre')) = rev pre' ++ q).
      { clear. induction k as [|k IHk]; intros q acc pre' Hl Fq.
        - destruct acc; [|discriminate]. cbn [repeat app]. rewrite resolve_names by auto. now rewrite rev_app_distr, rev_involutive.
        - destruct acc as [|x acc]; [discriminate|]. cbn [repeat app fold_left]. change (resolve_step (x :: acc ++ pre') (`"..")) with (acc ++ pre').
          apply IHk; [now injection Hl|auto]. }
      destruct p as [|a p].
      + change (os_rel [] (b :: s)) with (repeat (`"..") (List.length (b :: s)) ++ []). apply D; [now rewrite rev_length|constructor].
      + cbn [os_rel]. destruct (str_eqb_spec a b) as [->|Hn].
        * inversion Fp; subst. cbn [rev]. rewrite <- app_assoc. cbn [app]. etransitivity; [apply (IH (b :: pre)); [cbn [rev]; rewrite <- app_assoc; exact Fs|auto]|]. cbn [rev]. rewrite <- app_assoc. reflexivity.
        * apply D; [now rewrite rev_length|auto]. }
  intros Fs Fp. unfold resolve. rewrite fold_left_app. rewrite (resolve_names [] s0) by auto. apply (G s0 [] p0); auto.
Qed.
Lemma rel_names p s : Forall fname p -> Forall (fun c => ~ In slash c) (os_rel p s).
Proof.
  assert (R : forall n, Forall (fun c => ~ In slash c) (repeat (`"..") n)) by (induction n; constructor; auto; intros [H|[H|[]]]; discriminate H).
  assert (N : forall q, Forall fname q -> Forall (fun c => ~ In slash c) q) by (intros q Hq; eapply Forall_impl; [|exact Hq]; now intros a (_ & _ & _ & D)).
  revert s; induction p as [|a p IH]; intros s Fp; [destruct s; apply Forall_app; split; auto|].
  destruct s as [|b s]; [cbn [os_rel]; apply Forall_app; split; auto|]. cbn [os_rel]. destruct (str_eqb a b); [apply IH; now inversion Fp|apply Forall_app; split; auto].
Qed.

(** Whatever is returned, put below the root it is the path again. *)
Theorem C83_back : forall cwd path root r, Forall fname cwd ->
  strip_root cwd path root = Ok r -> at_path (os_abspath cwd (rstrip_slash root)) r = os_abspath cwd path.
Proof.
  intros cwd path root r Fc. unfold strip_root. destruct (startswith (rstrip_slash root) path); [|discriminate]. destruct path as [|x path]; [discriminate|].
  intros E. apply Ok_inv in E. subst r. assert (F : forall q, Forall fname (os_abspath cwd q)).
  { intros q. apply at_path_fnames. unfold base_of. destruct (startswith _ _); [constructor|auto]. }
  set (p := os_abspath cwd (x :: path)) in *. set (s := os_abspath cwd (rstrip_slash root)) in *.
  pose proof (rel_back s p (F _) (F _)) as B. pose proof (rel_names p s (F _)) as Nn. unfold at_path.
  destruct (os_rel p s) as [|c l] eqn:E.
  - rewrite <- B. unfold resolve. rewrite fold_left_app. now rewrite app_nil_r.
  - rewrite split_join; [exact B|discriminate|intros e He; rewrite Forall_forall in Nn; now apply Nn].
Qed.
Print Assumptions C83_back.

Lemma rel_app s l : os_rel (s ++ l) s = l.
Proof. induction s as [|a s IH]; [destruct l; reflexivity|]. cbn [app os_rel]. now rewrite str_eqb_refl. Qed.

(** What is below the root is found below it. The root may have slashes at its end, but it is not "/". *)
Theorem C83_inside : forall cwd root l, Forall fname cwd -> Forall fname l -> rstrip_slash root <> [] ->
  strip_root cwd (join [slash] (rstrip_slash root :: l)) root = Ok (match l with [] => `"." | _ => join [slash] l end).
Proof.
  intros cwd root l Fc Fl Hr. unfold strip_root. set (r := rstrip_slash root) in *.
  assert (Hs : startswith r (join [slash] (r :: l)) = true).
  { apply startswith_spec. destruct l as [|a l]; [exists []; now rewrite app_nil_r|]. exists ([slash] ++ join [slash] (a :: l)). reflexivity. }
  rewrite Hs. assert (Ep : os_abspath cwd (join [slash] (r :: l)) = os_abspath cwd r ++ l).
  { unfold os_abspath. assert (Eb : base_of cwd (join [slash] (r :: l)) = base_of cwd r) by (unfold base_of; destruct r as [|c r']; [congruence|]; destruct l; reflexivity).
    rewrite Eb. destruct l as [|a l]; [now rewrite app_nil_r|]. rewrite <- at_path_rel by (auto; discriminate).
    f_equal. rewrite path_join_simple; [reflexivity|exact Hr|apply rstrip_last|].
    inversion Fl as [|? ? [Ha [_ [_ Hb]]] _]; subst. destruct a as [|x a]; [congruence|]. assert (x <> slash) by (intros ->; apply Hb; left; reflexivity).
    destruct l; cbn [join app startswith]; destruct (N.eqb_spec slash x); (congruence || reflexivity). }
  rewrite Ep, rel_app. destruct (join [slash] (r :: l)) as [|c j] eqn:Ej; [|destruct l; reflexivity].
  exfalso. destruct r as [|c r']; [congruence|]. destruct l; discriminate Ej.
Qed.
Print Assumptions C83_inside.
Example C83_ex : Forall fname [`"home"] /\ Forall fname [`"b"; `"c"] /\ rstrip_slash (`"/a//") = `"/a" /\
  strip_root [`"home"] (`"/a/b/c") (`"/a//") = Ok (`"b/c").
Proof. repeat split; try (vm_compute; reflexivity); repeat constructor; apply fname_b_ok; reflexivity. Qed.

(** A path that does not begin with the letters of the root is refused. *)
Theorem C83_outside_partial : forall cwd path root,
  (forall t, path <> rstrip_slash root ++ t) -> strip_root cwd path root = Raise LayoutException.
Proof.
  intros cwd path root Hn. unfold strip_root. destruct (startswith (rstrip_slash root) path) eqn:E; [|reflexivity].
  apply startswith_spec in E as [t Et]. exfalso. exact (Hn t Et).
Qed.
Print Assumptions C83_outside_partial.
Example C83_outside_ex : forall t, `"/b/c" <> rstrip_slash (`"/a/") ++ t.
Proof. intros t H. discriminate H. Qed.

(** But there are paths outside the root that begin with its letters: they are accepted. For the
    root "/" even the paths in it are shown from the current directory. *)
Theorem C83_outside_refuted :
  strip_root [`"home"] (`"/a/bc") (`"/a/b") = Ok (`"../bc") /\
  strip_root [`"home"] (`"/a/b/../c") (`"/a/b") = Ok (`"../c") /\
  strip_root [`"home"] (`"/a") (`"/") = Ok (`"../a").
Proof. repeat split; vm_compute; reflexivity. Qed.
Print Assumptions C83_outside_refuted.

(** * C51: get_namaste *)

(** The declaration with the tag, if there is exactly one; else an exception. *)
Theorem C51_get : forall w cwd d dir, tree w -> dir <> [] ->
  let p := at_path (base_of cwd dir) dir in look w p = Some EDir ->
  (forall n, get_namaste w cwd d dir = Ok n <-> n = mkNamaste d [] (n_tvalue n) /\ n_tvalue n <> None /\ forall name, tagged w p d name <-> name = filename n) /\
  ((forall x, ~ forall name, tagged w p d name <-> name = x) -> get_namaste w cwd d dir = Raise NamasteException).
Proof.
  intros w cwd d dir Hw Hd p Hl. apply look_dir in Hl as (e & Hg).
  pose proof (fun n => names_tagged w p e d n Hw Hg) as T. set (l := filter (startswith (d ++ `"=")) (keys e)) in *.
  assert (Hnd : NoDup l) by (apply NoDup_filter; apply (dir_names w _ e Hw Hg)).
  assert (Hst : Forall (fun f => startswith (d ++ `"=") f = true) l) by (apply Forall_forall; intros f Hf; now apply filter_In in Hf).
  assert (E : get_namaste w cwd d dir = match l with [f] => Ok (mkNamaste d [] (Some (skipn (List.length (d ++ `"=")) f))) | _ => Raise NamasteException end).
  { unfold get_namaste, os_listdir. destruct dir as [|c dir]; [congruence|]. unfold os_abspath. fold p. rewrite Hg. cbn [ebind]. fold l.
    destruct l as [|f [|g r]]; reflexivity. }
  assert (One : forall x, (forall name, tagged w p d name <-> name = x) -> l = [x]).
  { intros x Hx. destruct l as [|f [|g r]].
    - exfalso. apply (proj2 (T x)). now apply Hx.
    - f_equal. apply Hx, T. now left.
    - exfalso. assert (f = x) by (apply Hx, T; now left). assert (g = x) by (apply Hx, T; right; now left). subst. inversion Hnd as [|? ? X _]; subst. apply X. now left. }
  split.
  - intros n. rewrite E. split.
    + destruct l as [|f [|g r]] eqn:El; try discriminate. intros X. apply Ok_inv in X. subst n. cbn [n_tvalue]. split; [reflexivity|]. split; [discriminate|].
      intros name. rewrite <- T. inversion Hst as [|? ? Hf _]; subst. apply startswith_spec in Hf as [t ->]. unfold filename. cbn [n_d tvalue n_tvalue In].
      rewrite skipn_app, skipn_all, Nat.sub_diag, app_assoc. cbn [skipn app]. intuition.
    + intros (En & Ht & Hx). rewrite (One _ Hx). f_equal. rewrite En. destruct n as [nd nc nt]. cbn [n_tvalue] in *. injection En as -> ->.
      f_equal. destruct nt as [t|]; [|congruence]. f_equal. unfold filename. cbn [n_d tvalue n_tvalue]. rewrite app_assoc. rewrite skipn_app, skipn_all, Nat.sub_diag. reflexivity.
  - intros Hno. rewrite E. destruct l as [|f [|g r]] eqn:El; try reflexivity. exfalso. apply (Hno f). intros name. rewrite <- T. cbn [In]. intuition.
Qed.
Print Assumptions C51_get.
Example C51_get_ex : exists n, tree Properties_Namaste.ex_root /\ look Properties_Namaste.ex_root [`"r"] = Some EDir /\
  get_namaste (Dir [(`"r", Dir [(`"0=ocfl_1.0", File []); (`"a", File [])])]) [] (`"0") (`"r") = Ok n /\ filename n = `"0=ocfl_1.0" /\
  get_namaste Properties_Namaste.ex_root [] (`"0") (`"r") = Raise NamasteException.
Proof. eexists. split; [apply Properties_Namaste.ex_root_ok|]. repeat split; vm_compute; reflexivity. Qed.

(** ** C83, the root as it is given: with any number of slashes at its end *)
Lemma rstrip_plain r n : last_opt r <> Some slash -> rstrip_slash (r ++ repeat slash n) = r.
Proof.
  intro L. unfold rstrip_slash. rewrite rev_app_distr. assert (E : rev (repeat slash n) = repeat slash n).
  { clear L. induction n as [|n IH]; [reflexivity|]. cbn [repeat rev]. rewrite IH. clear IH. induction n as [|n IH]; [reflexivity|]. cbn [repeat app]. now rewrite IH. }
  rewrite E. clear E. induction n as [|n IH]; cbn [repeat app].
  - destruct r as [|c r] using rev_ind; [reflexivity|]. rewrite rev_app_distr. cbn [rev app lstrip_slash]. destruct (N.eqb_spec c slash) as [->|Hc].
    + exfalso. apply L. unfold last_opt. rewrite rev_app_distr. reflexivity.
    + cbn [rev]. now rewrite rev_involutive.
  - cbn [lstrip_slash]. rewrite N.eqb_refl. exact IH.
Qed.
Theorem C83_given_root : forall cwd root n l, Forall fname cwd -> Forall fname l -> root <> [] -> last_opt root <> Some slash ->
  strip_root cwd (join [slash] (root :: l)) (root ++ repeat slash n) = Ok (match l with [] => `"." | _ => join [slash] l end).
Proof.
  intros cwd root n l Fc Fl Hr L. pose proof (C83_inside cwd (root ++ repeat slash n) l Fc Fl) as E. rewrite (rstrip_plain _ n L) in E. now apply E.
Qed.
Print Assumptions C83_given_root.
Example C83_given_root_ex : strip_root [`"home"] (`"root/a/b") (`"root//") = Ok (`"a/b") /\ `"root" <> [] /\ last_opt (`"root") <> Some slash.
Proof. split; [vm_compute; reflexivity|]. split; discriminate. Qed.
