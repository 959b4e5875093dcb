(** What copying a directory leaves alone, also if it fails or is interrupted. *)
From Verif Require Import Base Unicode PathModel FsModel FsSpec FsProofs FsStepProofs FswModel FswSpec FswProofs FswCopyProofs ChangeProofs FrameProofs.

Section Copy.
  Variables (w : node) (src_h dst_h : place) (src_path dst_path : str).
  Let src := at_path src_h src_path.
  Let dst := at_path dst_h dst_path.
  Let P (q : place) : Prop := look w q = None.
  Hypothesis Hw : tree w.
  Hypothesis Hsh : Forall fname src_h.
  Hypothesis Hdh : Forall fname dst_h.
  Hypothesis Hwk : walkable src_path.

  (** everything that was there is as before *)
  Let kept (w' : node) : Prop := tree w' /\ forall q, look w q <> None -> look w' q = look w q.

  Lemma acts_kept {A} (x : io A) w' : kept w' -> acts_at P x w' -> kept (after x w').
  Proof.
    intros [T K] Ha. split; [now apply (acts_tree P)|]. intros q Hq. rewrite (acts_other P x w' q T Ha); [now apply K|]. exact Hq.
  Qed.
  Lemma kept_none w' q : kept w' -> look w' q = None -> P q.
  Proof. intros [T K] Hq. unfold P. destruct (look w q) as [e|] eqn:E; [|reflexivity]. rewrite K in Hq by (rewrite E; discriminate). congruence. Qed.

  Lemma acts_copy_one w' rel : kept w' -> look w dst = None -> rel <> [] -> Forall fname rel -> acts_at P (copy_one src_h src_path dst_h dst_path (join [slash] rel)) w'.
  Proof.
    intros K Hd Hr Hf. unfold copy_one. apply acts_bind; [apply acts_read|]. intros e _. rewrite after_iread. apply acts_bind.
    - destruct (negb _ && negb e); [|apply acts_ret]. apply acts_makedirs; [apply K|exact Hdh|]. intros q r _ Hq. exact (kept_none w' q K Hq).
    - intros [] _. apply acts_copyfile; [exact Hdh|]. rewrite at_path_rel by auto. fold dst. unfold P. apply look_below_leaf; [exact Hr|]. rewrite Hd. discriminate.
  Qed.

  Lemma leaf_names n f : tree n -> is_dir n = true -> leaf n f -> f <> [] /\ Forall fname f.
  Proof. intros Tn Dn Hl. split; [|now apply (leaf_fnames n)]. intros ->. destruct Hl as [_ Hl]. apply Hl. rewrite look_nil. f_equal. now apply is_dir_entry. Qed.

  Lemma acts_copydir : acts_at P (fsw_copydir src_h src_path dst_h dst_path) w.
  Proof.
    assert (K0 : kept w) by (split; auto).
    unfold fsw_copydir. apply acts_bind; [apply acts_read|]. intros u0 Ed. rewrite after_iread. apply acts_bind; [apply acts_read|]. intros u1 Ex. rewrite after_iread.
    assert (Hs : look w src = Some EDir).
    { unfold result, iread in Ed. cbn in Ed. destruct (fs_isdir w src_h src_path) eqn:X; [|discriminate]. now apply fs_isdir_look in X. }
    assert (Hd : look w dst = None).
    { unfold result, iread in Ex. cbn in Ex. destruct (fs_exists w dst_h dst_path) eqn:X; [discriminate|]. now apply fs_exists_false in X. }
    assert (Am : acts_at P (fs_makedirs dst_h dst_path false) w) by (apply acts_makedirs; auto).
    apply acts_bind; [exact Am|]. intros [] _. pose proof (acts_kept _ w K0 Am) as K1. set (w1 := after (fs_makedirs dst_h dst_path false) w) in *.
    apply acts_bind; [apply acts_read|]. intros files Ef. rewrite after_iread. unfold result, iread in Ef. cbn in Ef.
    assert (Hs1 : look w1 src = Some EDir) by (rewrite (proj2 K1); [exact Hs|rewrite Hs; discriminate]). apply look_dir in Hs1 as [d Eg].
    rewrite (fsw_walk_files_ok w1 src_h src_path (Dir d) (proj1 K1) Hwk Eg eq_refl) in Ef. apply Ok_inv in Ef. subst files.
    apply (acts_iter P kept (copy_one src_h src_path dst_h dst_path)); [|exact K1]. intros a w' Ha Kw. apply in_map_iff in Ha as (f & <- & Hf).
    assert (Tn : tree (Dir d)) by (eapply tree_get; [apply K1|exact Eg]). apply (leaves_spec _ _ Tn eq_refl) in Hf. destruct (leaf_names (Dir d) f Tn eq_refl Hf) as [Nf Ff].
    pose proof (acts_copy_one w' f Kw Hd Nf Ff) as Ac. split; [exact Ac|]. now apply acts_kept.
  Qed.

  Lemma iter_inv {A} (J : node -> Prop) (f : A -> io unit) l a : In a l -> (forall x w', J w' -> In x l -> J (after (f x) w')) ->
    forall w', J w' -> result (iter f l) w' = Ok tt -> exists w1, J w1 /\ result (f a) w1 = Ok tt.
  Proof.
    intros Ha Hj. induction l as [|x l IH]; [destruct Ha|]. intros w' Jw E. rewrite iter_cons in E. apply seq_ok in E as ([] & E1 & E2 & _).
    destruct Ha as [->|Ha]; [eauto|]. apply (IH Ha) with (w' := after (f x) w'); auto. intros; apply Hj; auto. now right. apply Hj; auto. now left.
  Qed.

  (** If it succeeds then there are only files and directories in the source. *)
  Lemma copydir_files : result (fsw_copydir src_h src_path dst_h dst_path) w = Ok tt ->
    look w src = Some EDir /\ look w dst = None /\ dirs_to w dst /\ forall rel, leaf w (src ++ rel) -> exists b, look w (src ++ rel) = Some (EFile b).
  Proof.
    intros E. assert (K0 : kept w) by (split; auto). unfold fsw_copydir in E. apply seq_ok in E as (u0 & Ed & E & _). rewrite after_iread in E. apply seq_ok in E as (u1 & Ex & E & _). rewrite after_iread in E.
    assert (Hs : look w src = Some EDir).
    { unfold result, iread in Ed. cbn in Ed. destruct (fs_isdir w src_h src_path) eqn:X; [|discriminate]. now apply fs_isdir_look in X. }
    assert (Hd : look w dst = None).
    { unfold result, iread in Ex. cbn in Ex. destruct (fs_exists w dst_h dst_path) eqn:X; [discriminate|]. now apply fs_exists_false in X. }
    assert (Am : acts_at P (fs_makedirs dst_h dst_path false) w) by (apply acts_makedirs; auto).
    apply seq_ok in E as ([] & Em & E & _). pose proof (acts_kept _ w K0 Am) as K1. set (w1 := after (fs_makedirs dst_h dst_path false) w) in *.
    split; [exact Hs|]. split; [exact Hd|].
    assert (Way : dirs_to w dst).
    { intros q r Eq. destruct (look w q) as [e|] eqn:El; [|auto]. right. f_equal. unfold result, fs_makedirs in Em. fold dst in Em. destruct (missing w [] dst) as [l|] eqn:Emi; [|discriminate].
      destruct (missing_places w dst [] l Emi) as [->|(a & r' & Ep & Hr & A & B & _)]; [discriminate|]. rewrite Ep in Eq. 
      destruct (app_eq_app _ _ _ _ Eq) as (m & [[E1 E2]|[E1 E2]]).
      - destruct m as [|c m]; [rewrite app_nil_r in E1; subst q; congruence|]. assert (X : look w q = Some EDir) by (apply (look_prefix_dir w a q (c :: m)); [rewrite A; discriminate|exact E1|discriminate]). congruence.
      - destruct m as [|c m]; [rewrite app_nil_r in E1; subst q; congruence|]. exfalso. rewrite E2 in B. cbn [app hd] in B. subst q. destruct m as [|c' m]; [pose proof (eq_trans (eq_sym El) B) as X; discriminate X|].
        change (a ++ c :: c' :: m) with (a ++ [c] ++ c' :: m) in El. rewrite app_assoc in El. rewrite look_below_leaf in El; [discriminate|discriminate|]. intros X. pose proof (eq_trans (eq_sym B) X) as Y. discriminate Y. }
    split; [exact Way|]. apply seq_ok in E as (files & Ef & E & _). rewrite after_iread in E. unfold result, iread in Ef. cbn in Ef.
    assert (Hs1 : look w1 src = Some EDir) by (rewrite (proj2 K1); [exact Hs|rewrite Hs; discriminate]). apply look_dir in Hs1 as [d Eg].
    rewrite (fsw_walk_files_ok w1 src_h src_path (Dir d) (proj1 K1) Hwk Eg eq_refl) in Ef. apply Ok_inv in Ef. subst files.
    assert (Tn : tree (Dir d)) by (eapply tree_get; [apply K1|exact Eg]).
    intros rel Hl. assert (Hl1 : leaf (Dir d) rel).
    { destruct Hl as [L1 L2]. assert (E1 : look (Dir d) rel = look w (src ++ rel)) by (rewrite <- (proj2 K1 _ L1), look_app; fold src in Eg; rewrite Eg; reflexivity). split; rewrite E1; auto. }
    destruct (leaf_names (Dir d) rel Tn eq_refl Hl1) as [Nf Ff].
    destruct (iter_inv kept (copy_one src_h src_path dst_h dst_path) (map (join [slash]) (leaves (Dir d))) (join [slash] rel)) with (w' := w1) as (w2 & K2 & R2); auto.
    - apply in_map. now apply leaves_spec.
    - intros x w' Kw Hx. apply in_map_iff in Hx as (f & <- & Hf). apply (leaves_spec _ _ Tn eq_refl) in Hf. destruct (leaf_names (Dir d) f Tn eq_refl Hf) as [Nf' Ff']. apply acts_kept; [exact Kw|]. now apply acts_copy_one.
    - unfold copy_one in R2. apply seq_ok in R2 as (e & _ & R2 & _). rewrite after_iread in R2. 
      match type of R2 with result (?y ;; _) _ = _ => assert (Ay : acts_at P y w2) by (destruct (negb _ && negb e); [|apply acts_ret]; apply acts_makedirs; [apply K2|exact Hdh|]; intros q r _ Hq; exact (kept_none w2 q K2 Hq)) end.
      apply seq_ok in R2 as ([] & R2 & R3 & _). pose proof (acts_kept _ w2 K2 Ay) as K3. unfold fsw_copyfile in R3. rewrite result_read in R3. match type of R3 with context [fs_read ?x ?y ?z] => destruct (fs_read x y z) as [b|] eqn:Er; [|discriminate] end.
      apply fs_read_look in Er. rewrite at_path_rel in Er by auto. fold src in Er. exists b. rewrite <- Er. symmetry. apply K3. apply Hl.
  Qed.
End Copy.
