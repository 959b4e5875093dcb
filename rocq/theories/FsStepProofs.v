(** Which places operations on files can change, also if they are interrupted. *)
From Verif Require Import Base Utf8 PathModel TextFile FsModel FsSpec FsProofs FswModel FswSpec FswProofs FswCopyProofs.

Lemma none_not_dir w p : look w p = None -> look w p <> Some EDir.
Proof. intros -> F. discriminate F. Qed.

(** * Steps that can be done *)

Definition ok_step (w : node) (s : step) : Prop :=
  Forall fname (step_place s) /\
  match s with
  | Mkdir p => fresh_place w p
  | Create p => fresh_place w p \/ exists b, look w p = Some (EFile b)
  | Append p _ => exists b, look w p = Some (EFile b)
  | Unlink p => p <> [] /\ look w p <> None /\ look w p <> Some EDir
  end.
Fixpoint ok_steps (w : node) (l : list step) : Prop :=
  match l with [] => True | s :: r => ok_step w s /\ ok_steps (apply s w) r end.

Lemma ok_step_changes w s : tree w -> ok_step w s -> exists e, changes w (apply s w) (step_place s) e /\
  (look w (step_place s) = Some EDir -> e = Some EDir).
Proof.
  intros Ht [Hn H]. destruct s as [p|p|p b|p]; cbn [step_place] in *.
  - exists (Some EDir). split; [exact (mkdir_changes w p H)|reflexivity].
  - eexists. split; [exact (create_changes w p H)|]. intros E. destruct H as [(_ & _ & F)|[b F]]; congruence.
  - destruct H as [c Hc]. eexists. split; [exact (append_changes w p b c Hc)|]. congruence.
  - destruct H as (H1 & H2 & H3). eexists. split; [exact (unlink_changes w p Ht H1 H3)|]. congruence.
Qed.
Lemma ok_step_tree w s : tree w -> ok_step w s -> tree (apply s w).
Proof. intros Ht [Hn _]. now apply tree_step. Qed.
Lemma ok_step_other w s q : tree w -> ok_step w s -> q <> step_place s -> look (apply s w) q = look w q.
Proof. intros Ht Ho Hq. destruct (ok_step_changes w s Ht Ho) as (e & Hc & _). now apply (changes_other _ _ _ _ _ Hc). Qed.
Lemma ok_step_dir w s q : tree w -> ok_step w s -> look w q = Some EDir -> look (apply s w) q = Some EDir.
Proof.
  intros Ht Ho Hq. destruct (ok_step_changes w s Ht Ho) as (e & Hc & He). rewrite Hc. destruct (place_eq_dec q (step_place s)) as [->|]; auto.
Qed.

Lemma ok_steps_app a : forall w b, ok_steps w (a ++ b) <-> ok_steps w a /\ ok_steps (apply_all a w) b.
Proof. induction a as [|s a IH]; intros w b; cbn [app ok_steps apply_all fold_left]; [tauto|]. rewrite IH. unfold apply_all. tauto. Qed.
Lemma ok_steps_tree l : forall w, tree w -> ok_steps w l -> tree (apply_all l w).
Proof. induction l as [|s l IH]; intros w Ht Ho; [exact Ht|]. destruct Ho as [H1 H2]. apply (IH (apply s w)); auto using ok_step_tree. Qed.
Lemma ok_steps_other l q : (forall s, In s l -> step_place s <> q) -> forall w, tree w -> ok_steps w l -> look (apply_all l w) q = look w q.
Proof.
  induction l as [|s l IH]; intros Hq w Ht Ho; [reflexivity|]. destruct Ho as [H1 H2].
  change (apply_all (s :: l) w) with (apply_all l (apply s w)). rewrite IH; auto using ok_step_tree.
  - apply ok_step_other; auto. intros E. apply (Hq s); [now left|congruence].
  - intros s' Hs'. apply Hq. now right.
Qed.
Lemma ok_steps_dir l q : forall w, tree w -> ok_steps w l -> look w q = Some EDir -> look (apply_all l w) q = Some EDir.
Proof.
  induction l as [|s l IH]; intros w Ht Ho Hq; [exact Hq|]. destruct Ho as [H1 H2].
  apply (IH (apply s w)); auto using ok_step_tree, ok_step_dir.
Qed.

(** A part of the steps can be done as well, and is at places of the whole. *)
Lemma ok_cut c l : cut c l -> forall w, ok_steps w l -> ok_steps w c.
Proof.
  intros [a b|a p x y b] w H.
  - now apply ok_steps_app in H.
  - apply ok_steps_app in H as [H1 H2]. apply ok_steps_app. split; auto. destruct H2 as [H2 _]. split; [exact H2|exact I].
Qed.
Lemma cut_places c l s : cut c l -> In s c -> exists s', In s' l /\ step_place s' = step_place s.
Proof.
  intros [a b|a p x y b] H.
  - exists s. split; auto. apply in_or_app. now left.
  - apply in_app_or in H as [H|[<-|[]]].
    + exists s. split; auto. apply in_or_app. now left.
    + exists (Append p (x ++ y)). split; auto. apply in_or_app. right. now left.
Qed.

Lemma cut_cons s c l : cut c l -> cut (s :: c) (s :: l).
Proof. intros [a b|a p x y b]; [apply (cut_prefix (s :: a))|apply (cut_write (s :: a))]. Qed.
(** A cut of steps in two groups is in the first or has all of it. *)
Lemma cut_app c a b : cut c (a ++ b) -> cut c a \/ exists d, c = a ++ d /\ cut d b.
Proof.
  intros H. remember (a ++ b) as l eqn:El. destruct H as [u v|u p x y v].
  - revert u El. induction a as [|s a IH]; intros u El.
    + right. exists u. split; auto. cbn in El. rewrite <- El. constructor.
    + destruct u as [|t u]; [left; apply (cut_prefix [] (s :: a))|]. cbn in El. injection El as -> El.
      destruct (IH u El) as [H|(d & -> & Hd)].
      * left. now apply cut_cons.
      * right. exists d. split; auto.
  - revert u El. induction a as [|s a IH]; intros u El.
    + right. eexists. split; [reflexivity|]. cbn in El. rewrite <- El. constructor.
    + destruct u as [|t u].
      * cbn in El. injection El as <- El. left. apply (cut_write [] p x y a).
      * cbn in El. injection El as -> El. destruct (IH u El) as [H|(d & Hd & Hc)].
        -- left. cbn. now apply cut_cons.
        -- right. exists d. split; auto. cbn. now rewrite Hd.
Qed.
Lemma cut_all l : cut l l.
Proof. rewrite <- (app_nil_r l) at 2. constructor. Qed.
Lemma cut_nil c : cut c [] -> c = [].
Proof.
  intros H. remember [] as l eqn:El. destruct H as [a b|a p x y b]; [apply app_eq_nil in El as [-> ->]; reflexivity|destruct a; discriminate].
Qed.

(** * Operations *)

(** In state [w] the operation does steps that can be done, at places with P. *)
Definition acts_at {A} (P : place -> Prop) (x : io A) (w : node) : Prop :=
  ok_steps w (fst (x w)) /\ forall s, In s (fst (x w)) -> P (step_place s).

Section Acts.
  Context (P : place -> Prop).

  Lemma acts_tree {A} (x : io A) w : tree w -> acts_at P x w -> tree (after x w).
  Proof. intros Ht [H _]. now apply ok_steps_tree. Qed.
  Lemma acts_dir {A} (x : io A) w q : tree w -> acts_at P x w -> look w q = Some EDir -> look (after x w) q = Some EDir.
  Proof. intros Ht [H _]. now apply ok_steps_dir. Qed.
  Lemma acts_other {A} (x : io A) w q : tree w -> acts_at P x w -> ~ P q -> look (after x w) q = look w q.
  Proof. intros Ht [H1 H2] Hq. apply ok_steps_other; auto. intros s Hs E. apply Hq. rewrite <- E. auto. Qed.
  Lemma acts_cut {A} (x : io A) w q c : tree w -> acts_at P x w -> cut c (fst (x w)) -> ~ P q -> look (apply_all c w) q = look w q.
  Proof.
    intros Ht [H1 H2] Hc Hq. apply ok_steps_other; auto; [|eapply ok_cut; eauto].
    intros s Hs E. destruct (cut_places c _ s Hc Hs) as (s' & Hs' & E'). apply Hq. rewrite <- E, <- E'. auto.
  Qed.
  Lemma acts_cut_dir {A} (x : io A) w q c : tree w -> acts_at P x w -> cut c (fst (x w)) -> look w q = Some EDir -> look (apply_all c w) q = Some EDir.
  Proof. intros Ht [H1 H2] Hc Hq. apply ok_steps_dir; auto. eapply ok_cut; eauto. Qed.

  Lemma acts_bind {A B} (x : io A) (f : A -> io B) w : acts_at P x w ->
    (forall a, result x w = Ok a -> acts_at P (f a) (after x w)) -> acts_at P (ibind x f) w.
  Proof.
    intros [H1 H2] Hf. unfold acts_at. rewrite steps_bind. destruct (result x w) as [a|e].
    - destruct (Hf a eq_refl) as [F1 F2]. split.
      + apply ok_steps_app. auto.
      + intros s Hs. apply in_app_or in Hs as [Hs|Hs]; auto.
    - rewrite app_nil_r. auto.
  Qed.
  Lemma acts_none {A} (x : io A) w : fst (x w) = [] -> acts_at P x w.
  Proof. intros E. unfold acts_at. rewrite E. split; [exact I|intros s []]. Qed.
  Lemma acts_ret {A} (a : A) w : acts_at P (iret a) w.
  Proof. now apply acts_none. Qed.
  Lemma acts_raise {A} e w : acts_at P (@iraise A e) w.
  Proof. now apply acts_none. Qed.
  Lemma acts_read {A} (f : node -> exc A) w : acts_at P (iread f) w.
  Proof. now apply acts_none. Qed.
  (** with an invariant *)
  Lemma acts_iter {A} (J : node -> Prop) (f : A -> io unit) l :
    (forall a w, In a l -> J w -> acts_at P (f a) w /\ J (after (f a) w)) -> forall w, J w -> acts_at P (iter f l) w /\ J (after (iter f l) w).
  Proof.
    induction l as [|a l IH]; intros Hf w Hw; [split; [apply acts_ret|exact Hw]|]. rewrite iter_cons.
    destruct (Hf a w (or_introl eq_refl) Hw) as [F1 F2]. assert (IH' := IH (fun b w' Hb => Hf b w' (or_intror Hb))). split.
    - apply acts_bind; auto. intros [] _. now apply IH'.
    - rewrite ibind_after. destruct (result (f a) w) as [[]|]; auto. now apply IH'.
  Qed.

  Lemma acts_create h path w : Forall fname h -> P (at_path h path) -> acts_at P (fs_create h path) w.
  Proof.
    intros Hh HP. unfold acts_at, fs_create. set (p := at_path h path) in *.
    assert (Hn : Forall fname p) by now apply at_path_fnames.
    assert (Hone : (fresh_place w p \/ (exists b, look w p = Some (EFile b))) ->
      ok_steps w [Create p] /\ forall s, In s [Create p] -> P (step_place s)).
    { intros H. split; [repeat split; auto|]. intros s [<-|[]]. exact HP. }
    destruct (get w p) as [[b|d|]|e] eqn:E; cbn [fst]; try (split; [exact I|intros s []]).
    - apply Hone. right. exists b. now apply look_file.
    - destruct e; cbn [fst]; try (split; [exact I|intros s []]).
      destruct (get w (removelast p)) as [[b|d|]|e] eqn:E2; cbn [fst]; try (split; [exact I|intros s []]).
      apply Hone. left. repeat split.
      + intros Ep. rewrite Ep in E. discriminate.
      + apply look_dir. eauto.
      + unfold look. now rewrite E.
  Qed.
  Lemma create_result h path w : result (fs_create h path) w = Ok tt ->
    exists b, look (after (fs_create h path) w) (at_path h path) = Some (EFile b).
  Proof.
    unfold result, after, fs_create. set (p := at_path h path). intros H.
    assert (Hone : (fresh_place w p \/ (exists b, look w p = Some (EFile b))) -> exists b, look (apply_all [Create p] w) p = Some (EFile b)).
    { intros Ho. exists []. exact (changes_at _ _ _ _ (create_changes w p Ho)). }
    destruct (get w p) as [[b|d|]|e] eqn:E; cbn [fst snd] in *; try discriminate.
    - apply Hone. right. exists b. now apply look_file.
    - destruct e; cbn [fst snd] in *; try discriminate.
      destruct (get w (removelast p)) as [[b|d|]|e] eqn:E2; cbn [fst snd] in *; try discriminate.
      apply Hone. left. repeat split.
      + intros Ep. rewrite Ep in E. discriminate.
      + apply look_dir. eauto.
      + unfold look. now rewrite E.
  Qed.
  Lemma acts_append h path b w : Forall fname h -> P (at_path h path) -> (exists c, look w (at_path h path) = Some (EFile c)) ->
    acts_at P (fs_append h path b) w.
  Proof.
    intros Hh HP Hc. unfold acts_at, fs_append. cbn [fst]. split.
    - repeat split; auto. now apply at_path_fnames.
    - intros s [<-|[]]. exact HP.
  Qed.
  Lemma append_file h path b w c : look w (at_path h path) = Some (EFile c) ->
    look (after (fs_append h path b) w) (at_path h path) = Some (EFile (c ++ b)).
  Proof. intros H. exact (changes_at _ _ _ _ (append_changes w _ b c H)). Qed.

  Lemma acts_write_text h path s w : Forall fname h -> P (at_path h path) -> acts_at P (fs_write_text h path s) w.
  Proof.
    intros Hh HP. unfold fs_write_text. apply acts_bind; [now apply acts_create|]. intros [] E.
    apply acts_bind; [apply acts_read|]. intros b _. rewrite after_iread. apply acts_append; auto. now apply create_result.
  Qed.
  Lemma acts_copyfile sh sp dh dp w : Forall fname dh -> P (at_path dh dp) -> acts_at P (fsw_copyfile sh sp dh dp) w.
  Proof.
    intros Hh HP. unfold fsw_copyfile. apply acts_bind; [apply acts_read|]. intros _ _. rewrite after_iread.
    apply acts_bind; [now apply acts_create|]. intros [] E. apply acts_bind; [apply acts_read|]. intros b _. rewrite after_iread.
    apply (acts_iter (fun w => exists c, look w (at_path dh dp) = Some (EFile c))); [|now apply create_result].
    intros x w' _ [c Hc]. split; [apply acts_append; eauto|]. eexists. eapply append_file; eauto.
  Qed.

  (** the places that makedirs makes *)
  Lemma missing_places n p done l : missing n done p = Ok l ->
    l = [] \/ exists a r, p = a ++ r /\ r <> [] /\ look n a = Some EDir /\ look n (a ++ [hd [] r]) = None /\ l = prefixes (done ++ a) r.
  Proof.
    revert n done. induction p as [|c p IH]; intros n done H.
    - cbn in H. destruct n; [discriminate|apply Ok_inv in H; now left|discriminate].
    - cbn [missing] in H. destruct n as [b|d|]; try discriminate. destruct (dget c d) as [m|] eqn:E.
      + destruct (IH m _ H) as [->|(a & r & -> & Hr & A & B & ->)]; [now left|]. right. exists (c :: a), r. cbn [app].
        rewrite !look_cons, E. repeat split; auto. now rewrite <- app_assoc.
      + apply Ok_inv in H. subst l. right. exists [], (c :: p). cbn [app hd]. rewrite look_cons, E, app_nil_r. repeat split; auto; discriminate.
  Qed.
  Lemma ok_mkdirs r : forall w p, tree w -> look w p = Some EDir -> Forall fname (p ++ r) -> (r <> [] -> look w (p ++ [hd [] r]) = None) ->
    ok_steps w (map Mkdir (prefixes p r)).
  Proof.
    induction r as [|c r IH]; intros w p Ht Hp Hn Hno; [exact I|]. cbn [prefixes map ok_steps hd] in *. specialize (Hno ltac:(discriminate)).
    assert (Hn' : Forall fname ((p ++ [c]) ++ r)) by now rewrite <- app_assoc.
    assert (Hok : ok_step w (Mkdir (p ++ [c]))).
    { split; [apply Forall_app in Hn'; tauto|]. split; [destruct p; discriminate|]. now rewrite removelast_last. }
    split; auto. pose proof (mkdir_changes w _ (proj2 Hok)) as Hc. apply IH; auto.
    - now apply ok_step_tree.
    - exact (changes_at _ _ _ _ Hc).
    - intros _. rewrite (changes_other _ _ _ _ _ Hc).
      + apply look_below_leaf; [discriminate|]. now apply none_not_dir.
      + intros E. apply (f_equal (@List.length _)) in E. rewrite !app_length in E. cbn in E. lia.
  Qed.
  Lemma prefixes_in q p : forall r, In q (prefixes p r) -> exists a b, r = a ++ b /\ a <> [] /\ q = p ++ a.
  Proof.
    intros r; revert p; induction r as [|c r IH]; intros p H; [destruct H|]. cbn [prefixes In] in H. destruct H as [<-|H].
    - exists [c], r. repeat split. discriminate.
    - destruct (IH _ H) as (a & b & -> & Ha & ->). exists (c :: a), b. repeat split; [discriminate|]. now rewrite <- app_assoc.
  Qed.
  (** Directories are only made where nothing was, on the way to the path. *)
  Lemma acts_makedirs h path e w : tree w -> Forall fname h -> (forall q r, at_path h path = q ++ r -> look w q = None -> P q) ->
    acts_at P (fs_makedirs h path e) w.
  Proof.
    intros Ht Hh HP. unfold acts_at, fs_makedirs. set (p := at_path h path) in *.
    assert (Hn : Forall fname p) by now apply at_path_fnames.
    destruct (missing w [] p) as [l|] eqn:E; [|split; [exact I|intros s []]].
    destruct (missing_places w p [] l E) as [->|(a & r & Ep & Hr & A & B & El)]; [split; [exact I|intros s []]|].
    cbn [app] in El. assert (Hfst : fst (match l with [] => ([], if e then Ok tt else Raise OSError) | _ :: _ => (map Mkdir l, Ok tt) end) = map Mkdir l)
      by (destruct l; reflexivity).
    rewrite Hfst. subst l. split.
    - apply ok_mkdirs; auto. now rewrite <- Ep.
    - intros s Hs. apply in_map_iff in Hs as (q & <- & Hq). cbn [step_place]. destruct (prefixes_in q a r Hq) as (x & y & -> & Hx & ->).
      apply (HP (a ++ x) y); [rewrite Ep; now rewrite app_assoc|].
      destruct x as [|c x]; [congruence|]. cbn [app hd] in B. change (a ++ c :: x) with (a ++ [c] ++ x). rewrite app_assoc.
      destruct x as [|c' x]; [now rewrite app_nil_r|]. apply look_below_leaf; [discriminate|]. now apply none_not_dir.
  Qed.
  Lemma acts_makedir h path w : tree w -> Forall fname h -> (forall q r, at_path h path = q ++ r -> look w q = None -> P q) ->
    acts_at P (fs_makedir h path) w.
  Proof.
    intros Ht Hh HP. unfold fs_makedir. destruct (fs_exists w h path) eqn:E.
    - apply acts_none. now rewrite E.
    - pose proof (acts_makedirs h path true w Ht Hh HP) as Ha. unfold acts_at in *. now rewrite E.
  Qed.
  Lemma acts_rm h path w : Forall fname h -> P (at_path h path) -> at_path h path <> [] -> acts_at P (fs_rm h path) w.
  Proof.
    intros Hh HP Hne. unfold acts_at, fs_rm. set (p := at_path h path) in *.
    assert (Hone : look w p <> None -> look w p <> Some EDir -> ok_steps w [Unlink p] /\ forall s, In s [Unlink p] -> P (step_place s)).
    { intros H1 H2. split; [repeat split; auto; now apply at_path_fnames|]. intros s [<-|[]]. exact HP. }
    destruct (get w p) as [[b|d|]|e] eqn:E; cbn [fst]; try (split; [exact I|intros s []]).
    - apply Hone; rewrite (proj2 (look_file _ _ _) E); discriminate.
    - apply Hone; rewrite (proj2 (look_other _ _) E); discriminate.
  Qed.
End Acts.

Lemma acts_weaken {A} (P Q : place -> Prop) (x : io A) w : (forall q, P q -> Q q) -> acts_at P x w -> acts_at Q x w.
Proof. intros HPQ [H1 H2]. split; auto. Qed.
