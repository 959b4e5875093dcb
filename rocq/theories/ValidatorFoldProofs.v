(** All the inventories of the versions (ocfl/validator.py:296-404). *)
From Verif Require Import Base Unicode Regex Utf8 Json PyJson Log TextFile DigestModel ObjectUtilsModel LayoutProofs.
From Verif Require Import InventorySpec InventoryValidatorModel InventoryValidatorProofs InventoryRulesProofs InventoryPriorProofs.
From Verif Require Import PathModel FsModel FsSpec FsProofs FswModel FswSpec FswProofs FswCopyProofs NamasteModel NamasteSpec NamasteProofs.
From Verif Require Import ValidatorModel ValidatorSpec ValidatorBasicProofs ValidatorVersionProofs.
Open Scope N_scope.

Lemma clean_wfold_app {A S} (f : S -> A -> wexc S) a b s s' : clean (wfold f (a ++ b) s) s' <->
  exists m, clean (wfold f a s) m /\ clean (wfold f b m) s'.
Proof.
  revert s. induction a as [|x a IH]; intros s; cbn [app wfold].
  - split; [intros H; exists s; split; [now apply clean_ret|exact H]|]. intros (m & H1 & H2). apply clean_ret in H1. now subst.
  - rewrite clean_bind. split.
    + intros (y & H1 & H2). apply IH in H2 as (m & H2 & H3). exists m. split; [|exact H3]. apply clean_bind. eauto.
    + intros (m & H1 & H2). apply clean_bind in H1 as (y & H1 & H3). exists y. split; [exact H1|]. apply IH. eauto.
Qed.
Lemma clean_wfold_one {A S} (f : S -> A -> wexc S) x s s' : clean (wfold f [x] s) s' <-> clean (f s x) s'.
Proof.
  cbn [wfold]. rewrite clean_bind. split.
  - intros (y & H1 & H2). apply clean_ret in H2. now subst.
  - intros H1. exists s'. split; [exact H1|now apply clean_ret].
Qed.

Lemma before_app l x v v' : before (l ++ [x]) v v' <-> before l v v' \/ (In v l /\ v' = x).
Proof.
  unfold before. split.
  - intros (a & b & c & E). destruct c as [|y c _] using rev_ind.
    + right. change (v :: b ++ [v']) with ((v :: b) ++ [v']) in E. rewrite app_assoc in E. apply app_inj_tail in E as [-> ->]. split; [|reflexivity]. apply in_app_iff. right. now left.
    + left. exists a, b, c. replace (a ++ v :: b ++ v' :: c ++ [y]) with ((a ++ v :: b ++ v' :: c) ++ [y]) in E by (rewrite <- app_assoc; cbn [app]; rewrite <- app_assoc; reflexivity). now apply app_inj_tail in E as [-> _].
  - intros [(a & b & c & ->)|[Hv ->]].
    + exists a, b, (c ++ [x]). rewrite <- app_assoc. cbn [app]. rewrite <- app_assoc. reflexivity.
    + apply in_split in Hv as (a & b & ->). exists a, b, []. now rewrite <- app_assoc.
Qed.

Section Fold.
  Variable H : hashfn.
  Variable c : vconf.
  Variable w : node.
  Variable h : place.
  Variables (root : json) (fr : facts) (rb : bytes) (head spec : str).
  Hypothesis Hlax : vc_lax_digests c = false.
  Hypothesis Hh : Forall fname h.
  Hypothesis Hwr : json_wf root.
  Hypothesis Hor : obeys as_coded root fr.
  Hypothesis Hrb : at_root w h [`"inventory.json"] = Some (EFile rb).
  Hypothesis Hspec : In spec [`"1.0"; `"1.1"].

  Let ri := mkRoot root (accepted fr head) spec.
  Let step := unless_aborted (validate_version_dir H c w h ri head).
  Let s0 := mkVis [] [] [] (`"1.0").
  Notation chk := (vc_check_digests c).

  Lemma inventory_of_fun v j f j' f' : inventory_of w h head v j f -> inventory_of w h head v j' f' -> j = j' /\ f = f'.
  Proof using.
    intros (_ & b & (E1 & E2) & Ho) (_ & b' & (E1' & E2') & Ho'). rewrite E1 in E1'. injection E1' as <-. rewrite E2 in E2'. apply Ok_inv in E2'. subst j'.
    split; [reflexivity|]. apply (facts_unique j); auto. eapply json_load_wf; eauto.
  Qed.
  Lemma inventory_of_has v j f : inventory_of w h head v j f -> has_inventory w h v.
  Proof using. intros (_ & b & (E & _) & _). unfold has_inventory. cbn [app] in E. rewrite E. discriminate. Qed.
  Lemma earlier_of v b j f : v <> head -> earlier_inventory H chk w h root fr v b j f -> inventory_of w h head v j f.
  Proof using. intros Hv (Hi & Ho & _). split; [exact Hv|]. exists b. auto. Qed.
  Lemma inventory_spec v j f : inventory_of w h head v j f -> In (f_spec f) [`"1.0"; `"1.1"].
  Proof using. intros (_ & b & _ & Ho). destruct Ho as (_ & (t & _ & _ & Hs) & _). exact Hs. Qed.

  (** What is kept after the versions [pre]. *)
  Record kept (pre : list str) (s : vistate) : Prop := {
    k_manifest : forall p alg d, recorded (vi_manifest s) p alg d <->
      exists v j f d0, In v pre /\ inventory_of w h head v j f /\ alg = f_alg f /\ lists (f_manifest f) d0 p /\ d = normalized_digest d0 alg;
    k_fixity : forall p alg d, recorded (vi_fixity s) p alg d <->
      exists v j f d0, In v pre /\ inventory_of w h head v j f /\ fixity_lists j alg d0 p /\ d = normalized_digest d0 alg;
    k_good : good (vi_manifest s) /\ good (vi_fixity s);
    k_keys : forall p, In p (keys (vi_manifest s)) <-> exists v j f, In v pre /\ inventory_of w h head v j f /\ In p (listed (f_manifest f));
    k_sidecars : forall v name, dget v (vi_sidecars s) = Some name <->
      In v pre /\ exists j f, inventory_of w h head v j f /\ name = `"inventory.json." ++ f_alg f;
    k_spec : In (vi_prev_spec s) [`"1.0"; `"1.1"];
    k_max : forall v j f, In v pre -> inventory_of w h head v j f -> no_later (f_spec f) (vi_prev_spec s);
    k_from : vi_prev_spec s = `"1.0" \/ exists v j f, In v pre /\ inventory_of w h head v j f /\ vi_prev_spec s = f_spec f
  }.
  Definition fine (pre : list str) : Prop :=
    (forall v, In v pre -> has_inventory w h v -> exists b j f, earlier_inventory H chk w h root fr v b j f) /\
    (forall v v' j j' f f', before pre v v' -> inventory_of w h head v j f -> inventory_of w h head v' j' f' ->
       incl (listed (f_manifest f)) (listed (f_manifest f')) /\ no_later (f_spec f) (f_spec f')).

  Lemma kept_nil : kept [] s0.
  Proof using.
    constructor.
    - intros p alg d. split; [intros (a & ds & E & _); discriminate E|intros (v & j & f & d0 & [] & _)].
    - intros p alg d. split; [intros (a & ds & E & _); discriminate E|intros (v & j & f & d0 & [] & _)].
    - split; intros p algs E; discriminate E.
    - intros p. split; [intros []|intros (v & j & f & [] & _)].
    - intros v name. split; [discriminate|intros ([] & _)].
    - now left.
    - intros v j f [].
    - now left.
  Qed.

  Lemma kept_none pre v s : kept pre s -> ~ has_inventory w h v -> kept (pre ++ [v]) s.
  Proof using.
    intros K Hn. assert (A : forall u j f, inventory_of w h head u j f -> (In u (pre ++ [v]) <-> In u pre)).
    { intros u j f Hu. rewrite in_app_iff. split; [|auto]. intros [Hi|[<-|[]]]; [exact Hi|]. destruct Hn. eapply inventory_of_has; eauto. }
    destruct K as [K1 K2 K3 K4 K5 K6 K7 K8]. constructor; auto.
    - intros p alg d. rewrite K1. split; intros (u & j & f & d0 & Hu & Hi & R); exists u, j, f, d0; (split; [now apply (A u j f)|auto]).
    - intros p alg d. rewrite K2. split; intros (u & j & f & d0 & Hu & Hi & R); exists u, j, f, d0; (split; [now apply (A u j f)|auto]).
    - intros p. rewrite K4. split; intros (u & j & f & Hu & Hi & R); exists u, j, f; (split; [now apply (A u j f)|auto]).
    - intros u name. rewrite K5. split; intros (Hu & j & f & Hi & R); (split; [now apply (A u j f)|eauto]).
    - intros u j f Hu Hi. apply (K7 u j f); [now apply (A u j f)|exact Hi].
    - destruct K8 as [E|(u & j & f & Hu & Hi & E)]; [auto|]. right. exists u, j, f. split; [now apply (A u j f)|auto].
  Qed.

  Lemma kept_earlier pre v s b j f pf : kept pre s -> v <> head -> earlier_inventory H chk w h root fr v b j f ->
    no_later (vi_prev_spec s) (f_spec f) -> record_fixity j (vi_fixity s) = Ok pf ->
    kept (pre ++ [v]) (mkVis (add_all (fun d => normalized_digest d (f_alg f)) (f_alg f) (pairs (f_manifest f)) (vi_manifest s)) pf
              (dset v (`"inventory.json." ++ f_alg f) (vi_sidecars s)) (f_spec f)).
  Proof using rb step.
    intros K Hv He Hsp Hpf. pose proof (earlier_of _ _ _ _ Hv He) as Hiv. destruct K as [K1 K2 [K3 K3'] K4 K5 K6 K7 K8].
    assert (Hw : json_wf j) by (destruct He as ((_ & E) & _); eapply json_load_wf; eauto).
    assert (Ho : obeys as_coded j f) by apply He.
    destruct (record_fixity_ok j f (vi_fixity s) Hw Ho) as (pf' & Epf & Hpr & Hpg). rewrite Hpf in Epf. apply Ok_inv in Epf. subst pf'.
    assert (A : forall u, In u (pre ++ [v]) <-> In u pre \/ u = v) by (intros u; rewrite in_app_iff; cbn; intuition).
    constructor; cbn [vi_manifest vi_fixity vi_sidecars vi_prev_spec].
    - intros p alg d. rewrite recorded_add_all, K1. split.
      + intros [(u & j' & f' & d0 & Hu & R)|(-> & d0 & Hi & ->)].
        * exists u, j', f', d0. split; [apply A; auto|exact R].
        * exists v, j, f, d0. split; [apply A; auto|]. split; [exact Hiv|]. split; [reflexivity|]. split; [now apply In_pairs|reflexivity].
      + intros (u & j' & f' & d0 & Hu & Hi & -> & Hl & ->). apply A in Hu as [Hu| ->].
        * left. exists u, j', f', d0. auto.
        * destruct (inventory_of_fun _ _ _ _ _ Hiv Hi) as [-> ->]. right. split; [reflexivity|]. exists d0. split; [now apply In_pairs|reflexivity].
    - intros p alg d. rewrite Hpr, K2. split.
      + intros [(u & j' & f' & d0 & Hu & R)|(d0 & Hi & ->)].
        * exists u, j', f', d0. split; [apply A; auto|exact R].
        * exists v, j, f, d0. split; [apply A; auto|auto].
      + intros (u & j' & f' & d0 & Hu & Hi & Hl & ->). apply A in Hu as [Hu| ->].
        * left. exists u, j', f', d0. auto.
        * destruct (inventory_of_fun _ _ _ _ _ Hiv Hi) as [-> ->]. right. exists d0. auto.
    - split; [now apply good_add_all|now apply Hpg].
    - intros p. rewrite keys_add_all, map_snd_pairs, K4. split.
      + intros [Hp|(u & j' & f' & Hu & R)].
        * exists v, j, f. split; [apply A; auto|auto].
        * exists u, j', f'. split; [apply A; auto|exact R].
      + intros (u & j' & f' & Hu & Hi & Hp). apply A in Hu as [Hu| ->]; [right; exists u, j', f'; auto|].
        destruct (inventory_of_fun _ _ _ _ _ Hiv Hi) as [-> ->]. now left.
    - intros u name. rewrite dget_dset. destruct (str_eqb_spec u v) as [->|Hne].
      + split.
        * intros E. apply Some_inv in E. split; [apply A; auto|]. exists j, f. auto.
        * intros (_ & j' & f' & Hi & ->). destruct (inventory_of_fun _ _ _ _ _ Hiv Hi) as [-> ->]. reflexivity.
      + rewrite K5. split; intros (Hu & R); (split; [|exact R]); [apply A; auto|]. apply A in Hu as [Hu|Hu]; [exact Hu|contradiction].
    - eapply inventory_spec; eauto.
    - intros u j' f' Hu Hi. apply A in Hu as [Hu| ->].
      + eapply no_later_trans; [eapply K7; eauto|exact Hsp].
      + destruct (inventory_of_fun _ _ _ _ _ Hiv Hi) as [-> ->]. now left.
    - right. exists v, j, f. split; [apply A; auto|auto].
  Qed.

  Lemma low a : In a [`"1.0"; `"1.1"] -> no_later (`"1.0") a.
  Proof using. intros [<-|[<-|[]]]; [left|right]; auto. Qed.

  Lemma fold_pre pre : Forall fname pre -> (forall v, In v pre -> ~ In 10 v) -> ~ In head pre ->
    (forall s, clean (wfold step pre (Some s0)) (Some s) -> fine pre /\ kept pre s) /\ (fine pre -> exists s, clean (wfold step pre (Some s0)) (Some s)).
  Proof using Hlax Hh Hwr Hor rb.
    induction pre as [|v pre IH] using rev_ind; intros Hf Hnl Hhd.
    - cbn [wfold]. split.
      + intros s E. apply clean_ret in E. apply Some_inv in E. subst s. split; [|apply kept_nil]. split; [intros v []|].
        intros v v' j j' f f' (a & b & x & E). destruct a; discriminate E.
      + intros _. exists s0. now apply clean_ret.
    - apply Forall_app in Hf as [Hf Hfv]. inversion Hfv as [|? ? Hv _]; subst. clear Hfv.
      destruct IH as [IH1 IH2]; [exact Hf|intros u Hu; apply Hnl, in_app_iff; auto|intros E; apply Hhd, in_app_iff; auto|].
      assert (Hnlv : ~ In 10 v) by (apply Hnl, in_app_iff; right; now left).
      assert (Hvh : v <> head) by (intros ->; apply Hhd, in_app_iff; right; now left).
      assert (Hdec : {has_inventory w h v} + {~ has_inventory w h v}).
      { unfold has_inventory. destruct (at_root w h [v; `"inventory.json"]); [left; discriminate|right; congruence]. }
      split.
      + intros s E. apply clean_wfold_app in E as (om & E1 & E2). rewrite clean_wfold_one in E2. destruct om as [m|]; [|apply clean_ret in E2; discriminate]. cbn [unless_aborted step] in E2. apply IH1 in E1 as [[F1 F2] K]. destruct Hdec as [Hi|Hn].
        * apply (step_earlier H c w h root fr rb head spec Hlax Hh Hwr Hor v m (Some s) Hv Hnlv Hvh Hi (k_spec _ _ K)) in E2 as (b & j & f & pf & He & Hin & Hsp & Hpf & E2). apply Some_inv in E2. subst s.
          pose proof (earlier_of _ _ _ _ Hvh He) as Hiv. split; [|eapply kept_earlier; eauto]. split.
          -- intros u Hu Hui. apply in_app_iff in Hu as [Hu|[<-|[]]]; [auto|eauto].
          -- intros u u' j1 j2 f1 f2 Hb I1 I2. apply before_app in Hb as [Hb|[Hu ->]]; [eapply F2; eauto|].
             destruct (inventory_of_fun _ _ _ _ _ Hiv I2) as [-> ->]. split.
             ++ intros p Hp. apply Hin. apply (k_keys _ _ K). exists u, j1, f1. auto.
             ++ eapply no_later_trans; [eapply (k_max _ _ K); eauto|exact Hsp].
        * apply (step_none H c w h root fr head spec Hh v m (Some s) Hv Hn) in E2. apply Some_inv in E2. subst s. split; [|now apply kept_none]. split.
          -- intros u Hu Hui. apply in_app_iff in Hu as [Hu|[<-|[]]]; [auto|contradiction].
          -- intros u u' j1 j2 f1 f2 Hb I1 I2. apply before_app in Hb as [Hb|[Hu ->]]; [eapply F2; eauto|].
             destruct Hn. eapply inventory_of_has; eauto.
      + intros [F1 F2]. destruct IH2 as [m Em].
        { split; [intros u Hu; apply F1, in_app_iff; auto|]. intros u u' j1 j2 f1 f2 Hb. apply F2. apply before_app. auto. }
        pose proof (IH1 _ Em) as [_ K]. destruct Hdec as [Hi|Hn].
        * destruct (F1 v) as (b & j & f & He); [apply in_app_iff; right; now left|exact Hi|]. pose proof (earlier_of _ _ _ _ Hvh He) as Hiv.
          assert (Hw : json_wf j) by (destruct He as ((_ & E) & _); eapply json_load_wf; eauto).
          assert (Ho : obeys as_coded j f) by apply He.
          destruct (record_fixity_ok j f (vi_fixity m) Hw Ho) as (pf & Epf & _).
          eexists. apply clean_wfold_app. exists (Some m). split; [exact Em|]. rewrite clean_wfold_one.
          apply (step_earlier H c w h root fr rb head spec Hlax Hh Hwr Hor v m _ Hv Hnlv Hvh Hi (k_spec _ _ K)).
          exists b, j, f, pf. split; [exact He|]. split; [|split; [|split; [exact Epf|reflexivity]]].
          -- intros p Hp. apply (k_keys _ _ K) in Hp as (u & j' & f' & Hu & Hi' & Hp).
             refine (proj1 (F2 u v j' j f' f _ Hi' Hiv) p Hp). apply before_app. auto.
          -- destruct (k_from _ _ K) as [->|(u & j' & f' & Hu & Hi' & ->)]; [apply low; eapply inventory_spec; eauto|].
             refine (proj2 (F2 u v j' j f' f _ Hi' Hiv)). apply before_app. auto.
        * exists m. apply clean_wfold_app. exists (Some m). split; [exact Em|]. rewrite clean_wfold_one.
          now apply (step_none H c w h root fr head spec Hh v m (Some m) Hv Hn).
  Qed.

  Lemma vvd_none s v : ~ clean (validate_version_dir H c w h ri head s v) None.
  Proof using.
    unfold validate_version_dir. cbv zeta. destruct (negb _); [rewrite clean_bind_warning, clean_ret; discriminate|].
    rewrite clean_bind. intros (o & H1 & H2). destruct o as [[s' sp]|].
    - apply clean_bind in H2 as (u & _ & H2). apply clean_ret in H2. discriminate.
    - clear H2. destruct (str_eqb v head).
      + apply clean_bind in H1 as (same & _ & H1). apply clean_bind in H1 as (u & _ & H1). destruct (iv_digest_algorithm _); try (now apply clean_raise in H1).
        apply clean_ret in H1. discriminate.
      + apply clean_bind in H1 as ([[j st]|] & H1 & H2); [|now apply clean_validate_inventory_none in H1].
        do 6 (apply clean_bind in H2 as (? & _ & H2)). apply clean_bind in H2 as (? & _ & H2). apply clean_ret in H2. discriminate.
  Qed.

  (** ** All versions *)

  Record kept_all (s : vistate) : Prop := {
    a_manifest : forall p alg d, recorded (vi_manifest s) p alg d <->
      exists v j f d0, In v (f_versions fr) /\ inventory_of w h head v j f /\ alg = f_alg f /\ lists (f_manifest f) d0 p /\ d = normalized_digest d0 alg;
    a_fixity : forall p alg d, recorded (vi_fixity s) p alg d <->
      exists v j f d0, In v (f_versions fr) /\ inventory_of w h head v j f /\ fixity_lists j alg d0 p /\ d = normalized_digest d0 alg;
    a_good : good (vi_manifest s) /\ good (vi_fixity s);
    a_sidecars : forall v name, dget v (vi_sidecars s) = Some name <-> In v (f_versions fr) /\ sidecar_name w h fr head v name
  }.

  Theorem version_inventories_iff pre : f_versions fr = pre ++ [head] ->
    ~ clean (validate_version_inventories H c w h ri (f_versions fr)) None /\
    (forall s, clean (validate_version_inventories H c w h ri (f_versions fr)) (Some s) ->
       version_inventories H chk w h spec root fr rb head /\ kept_all s) /\
    (version_inventories H chk w h spec root fr rb head ->
       exists s, clean (validate_version_inventories H c w h ri (f_versions fr)) (Some s)).
  Proof using Hlax Hh Hwr Hor Hrb Hspec.
    intros Hvs. destruct (obeys_versions _ _ Hor) as [ww Hseq].
    assert (Hfn : forall v, In v (f_versions fr) -> fname v /\ ~ In 10 v) by (intros v Hv; eapply version_seq_fname; eauto).
    assert (Hnd : NoDup (f_versions fr)) by (eapply version_seq_nodup; eauto).
    assert (Hhd : ~ In head pre).
    { rewrite Hvs in Hnd. apply NoDup_remove_2 in Hnd. now rewrite app_nil_r in Hnd. }
    assert (Hin : forall v, In v (f_versions fr) <-> In v pre \/ v = head) by (intros v; rewrite Hvs, in_app_iff; cbn; intuition).
    assert (Hin' : forall v j f, inventory_of w h head v j f -> (In v (f_versions fr) <-> In v pre)).
    { intros v j f (Hne & _). rewrite Hin. split; [|auto]. intros [Hi|E]; [exact Hi|contradiction]. }
    assert (Hf : Forall fname pre) by (apply Forall_forall; intros v Hv; apply Hfn, Hin; auto).
    assert (Hnl : forall v, In v pre -> ~ In 10 v) by (intros v Hv; apply Hfn, Hin; auto).
    destruct (fold_pre pre Hf Hnl Hhd) as [P1 P2].
    assert (Hhf : fname head /\ ~ In 10 head) by (apply Hfn, Hin; auto). destruct Hhf as [Hhf Hhn].
    assert (Hlast : last_opt (f_versions fr) = Some head) by (rewrite Hvs; apply last_opt_app).
    unfold validate_version_inventories. cbv zeta. rewrite Hlast. fold step s0.
    assert (Hfine : fine pre <-> (forall v, In v (f_versions fr) -> v <> head -> has_inventory w h v ->
       exists b j f, earlier_inventory H chk w h root fr v b j f) /\
      (forall v v' j j' f f', before (f_versions fr) v v' -> inventory_of w h head v j f -> inventory_of w h head v' j' f' ->
       incl (listed (f_manifest f)) (listed (f_manifest f')) /\ no_later (f_spec f) (f_spec f'))).
    { unfold fine. split; intros [F1 F2]; (split; [|]).
      - intros v Hv Hne. apply F1. apply Hin in Hv as [Hv|E]; [exact Hv|contradiction].
      - intros v v' j j' f f' Hb I1 I2. rewrite Hvs in Hb. apply before_app in Hb as [Hb|[_ ->]]; [eapply F2; eauto|]. destruct I2 as [E _]. contradiction.
      - intros v Hv Hi. apply F1; [apply Hin; auto| |exact Hi]. intros ->. contradiction.
      - intros v v' j j' f f' Hb. apply F2. rewrite Hvs. apply before_app. auto. }
    assert (Hdec : {has_inventory w h head} + {~ has_inventory w h head}).
    { unfold has_inventory. destruct (at_root w h [head; `"inventory.json"]); [left; discriminate|right; congruence]. }
    assert (Hkept : forall s m, kept pre m -> vi_manifest s = vi_manifest m -> vi_fixity s = vi_fixity m ->
      (forall v name, dget v (vi_sidecars s) = Some name <-> In v (f_versions fr) /\ sidecar_name w h fr head v name) -> kept_all s).
    { intros s m K E1 E2 E3. constructor.
      - intros p alg d. rewrite E1, (k_manifest _ _ K). split; intros (v & j & f & d0 & Hv & Hi & R); exists v, j, f, d0; (split; [now apply (Hin' v j f)|auto]).
      - intros p alg d. rewrite E2, (k_fixity _ _ K). split; intros (v & j & f & d0 & Hv & Hi & R); exists v, j, f, d0; (split; [now apply (Hin' v j f)|auto]).
      - rewrite E1, E2. apply (k_good _ _ K).
      - exact E3. }
    split; [|split].
    - assert (A : forall l s, ~ clean (wfold step l (Some s)) None); [|apply A]. induction l as [|v l IH]; intros s E; cbn [wfold] in E.
      + apply clean_ret in E. discriminate.
      + apply clean_bind in E as ([m|] & E1 & E2); [now apply IH in E2|]. now apply vvd_none in E1.
    - intros s E. rewrite Hvs in E. apply clean_wfold_app in E as (om & E1 & E2). rewrite clean_wfold_one in E2. destruct om as [m|]; [|apply clean_ret in E2; discriminate]. cbn [unless_aborted step] in E2. apply P1 in E1 as [F K].
      apply Hfine in F as [F1 F2]. destruct Hdec as [Hi|Hn].
      + apply (step_head H c w h root fr rb head spec Hh Hor Hrb Hspec m (Some s) Hhf Hhn Hi (k_spec _ _ K)) in E2 as (Hl & Hsd & Hsp & E2). apply Some_inv in E2. subst s.
        split.
        * split; [auto|]. split; [exact F1|]. split; [exact F2|]. intros _ v j f Hv Hiv.
          eapply no_later_trans; [|exact Hsp]. eapply (k_max _ _ K); [now apply (Hin' v j f)|exact Hiv].
        * eapply Hkept; [exact K|reflexivity|reflexivity|]. cbn [vi_sidecars]. intros v name. rewrite dget_dset. unfold sidecar_name.
          destruct (str_eqb_spec v head) as [->|Hne].
          -- split.
             ++ intros E. apply Some_inv in E. split; [apply Hin; auto|]. left. auto.
             ++ intros (_ & [(_ & _ & ->)|(j & f & (E & _) & _)]); [reflexivity|contradiction].
          -- rewrite (k_sidecars _ _ K). split.
             ++ intros (Hv & j & f & R). split; [apply Hin; auto|]. right. eauto.
             ++ intros (Hv & [(E & _)|(j & f & Hiv & R)]); [contradiction|]. split; [now apply (Hin' v j f)|eauto].
      + apply (step_none H c w h root fr head spec Hh head m (Some s) Hhf Hn) in E2. apply Some_inv in E2. subst s. split.
        * split; [tauto|]. split; [exact F1|]. split; [exact F2|tauto].
        * eapply Hkept; [exact K|reflexivity|reflexivity|]. intros v name. unfold sidecar_name. rewrite (k_sidecars _ _ K). split.
          -- intros (Hv & j & f & R). split; [apply Hin; auto|]. right. eauto.
          -- intros (Hv & [(-> & E & _)|(j & f & Hiv & R)]); [contradiction|]. split; [now apply (Hin' v j f)|eauto].
    - intros (V1 & V2 & V3 & V4). destruct P2 as [m Em]; [apply Hfine; auto|]. pose proof (P1 _ Em) as [_ K]. rewrite Hvs. destruct Hdec as [Hi|Hn].
      + eexists. apply clean_wfold_app. exists (Some m). split; [exact Em|]. rewrite clean_wfold_one.
        destruct (V1 Hi) as [Hl Hsd].
        apply (step_head H c w h root fr rb head spec Hh Hor Hrb Hspec m _ Hhf Hhn Hi (k_spec _ _ K)).
        split; [exact Hl|]. split; [exact Hsd|]. split; [|reflexivity].
        destruct (k_from _ _ K) as [->|(u & j & f & Hu & Hiv & ->)]; [now apply low|].
        eapply V4; eauto. now apply (Hin' u j f).
      + exists m. apply clean_wfold_app. exists (Some m). split; [exact Em|]. rewrite clean_wfold_one.
        now apply (step_none H c w h root fr head spec Hh head m (Some m) Hhf Hn).
  Qed.
End Fold.
