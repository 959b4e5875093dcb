(** When InventoryValidator.validate raises no exception. *)
From Verif Require Import Base Unicode Utf8 Regex Json PyJson Log DigestModel DatetimeModel InventorySpec InventoryValidatorModel
  InventoryValidatorProofs InventoryRulesProofs.

Definition safe {A} (w : wexc A) : Prop := exists a, snd w = Ok a.

Lemma safe_ret {A} (a : A) : safe (wret a).
Proof. now exists a. Qed.
Lemma safe_error c : safe (werror c).
Proof. now exists tt. Qed.
Lemma safe_warning c : safe (wwarning c).
Proof. now exists tt. Qed.
Lemma safe_bind {A B} (x : wexc A) (g : A -> wexc B) : safe x -> (forall a, snd x = Ok a -> safe (g a)) -> safe (wbind x g).
Proof.
  intros [a Ha] H. destruct (H a Ha) as [b Hb]. exists b. unfold wbind. now rewrite Ha.
Qed.
Lemma safe_lift {A} (x : exc A) a : x = Ok a -> safe (wlift x).
Proof. intros ->. now exists a. Qed.
Lemma safe_if {A} (b : bool) (x y : wexc A) : safe x -> safe y -> safe (if b then x else y).
Proof. now destruct b. Qed.
Lemma safe_wfold {A S} (P : S -> Prop) (g : S -> A -> wexc S) l : forall s, P s ->
  (forall s a, P s -> In a l -> safe (g s a) /\ forall s', snd (g s a) = Ok s' -> P s') ->
  safe (wfold g l s) /\ forall s', snd (wfold g l s) = Ok s' -> P s'.
Proof.
  induction l as [|a l IH]; intros s Hs H; cbn [wfold].
  - split; [apply safe_ret|]. intros s' E. apply Ok_inv in E. now subst.
  - destruct (H s a Hs (or_introl eq_refl)) as [H1 H2].
    assert (G : forall s1, snd (g s a) = Ok s1 -> safe (wfold g l s1) /\ forall s', snd (wfold g l s1) = Ok s' -> P s').
    { intros s1 E. apply IH; [now apply H2|]. intros s2 a2 Hs2 Ha2. apply H; [auto|now right]. }
    split.
    + apply safe_bind; [auto|]. intros s1 E. now apply G.
    + intros s' E. destruct H1 as [s1 E1]. unfold wbind in E. rewrite E1 in E. cbn [snd] in E. now apply (proj2 (G s1 E1)).
Qed.
Lemma safe_wfold_any {A S} (g : S -> A -> wexc S) l s :
  (forall s a, In a l -> safe (g s a)) -> safe (wfold g l s).
Proof. intros H. apply (safe_wfold (fun _ => True)); auto. Qed.

Lemma bind_ok {A B} (x : wexc A) (g : A -> wexc B) b :
  snd (wbind x g) = Ok b <-> exists a, snd x = Ok a /\ snd (g a) = Ok b.
Proof.
  unfold wbind. destruct (snd x) as [a|e]; cbn [snd]; split.
  - eauto.
  - intros [a' [E H]]. apply Ok_inv in E. now subst.
  - discriminate.
  - intros [a' [E _]]. discriminate.
Qed.

Ltac sf := repeat first
  [ apply safe_ret | apply safe_error | apply safe_warning
  | apply safe_if | apply safe_bind; [|intros ? ?] ].

Lemma py_in_obj k d : py_in k (JObj d) = Ok (dmem k d).
Proof. reflexivity. Qed.

Lemma safe_in_get {A} k d (F : json -> wexc A) G :
  safe G -> (forall v, dget k d = Some v -> safe (F v)) ->
  safe (let! c := wlift (py_in k (JObj d)) in if c then (let! v := wlift (py_getitem k (JObj d)) in F v) else G).
Proof.
  intros HG HF. apply safe_bind; [eapply safe_lift; reflexivity|]. intros c E. cbn [wlift snd py_in] in E. apply Ok_inv in E. subst c.
  unfold dmem. cbn [py_getitem]. destruct (dget k d) as [v|] eqn:Ev; [|exact HG].
  apply safe_bind; [eapply safe_lift; reflexivity|]. intros v' E'. apply Ok_inv in E'. subst v'. now apply HF.
Qed.
Lemma safe_notin_get {A} k d (F : json -> wexc A) G :
  safe G -> (forall v, dget k d = Some v -> safe (F v)) ->
  safe (let! c := wlift (py_in k (JObj d)) in if negb c then G else (let! v := wlift (py_getitem k (JObj d)) in F v)).
Proof.
  intros HG HF. apply safe_bind; [eapply safe_lift; reflexivity|]. intros c E. cbn [wlift snd py_in] in E. apply Ok_inv in E. subst c.
  unfold dmem. cbn [py_getitem]. destruct (dget k d) as [v|] eqn:Ev; cbn [negb]; [|exact HG].
  apply safe_bind; [eapply safe_lift; reflexivity|]. intros v' E'. apply Ok_inv in E'. subst v'. now apply HF.
Qed.

Definition alg_ok (alg : json) : Prop := exists re_, digest_regex_j alg = Ok re_.

Lemma safe_digest_regex alg : alg_ok alg -> safe (iv_digest_regex false alg).
Proof. intros [r E]. unfold iv_digest_regex. rewrite E. apply safe_ret. Qed.

Lemma safe_content_path cd p a b : safe (check_content_path cd p a b).
Proof.
  unfold check_content_path. cbn zeta. sf. destruct (re_match re_content_path p); sf.
Qed.

Lemma safe_manifest alg cd man : alg_ok alg -> (forall d, man = JObj d -> arrays_of_strings d) ->
  safe (validate_manifest false alg cd man).
Proof.
  intros Ha H. unfold validate_manifest. destruct man as [| | | | | |d]; sf.
  - apply safe_wfold_any. intros s [k x] Hi. unfold manifest_digest. apply safe_bind; [now apply safe_digest_regex|].
    intros r Er. destruct (re_match r k); [|sf]. destruct x as [| | | | |l|]; sf.
    apply safe_wfold_any. intros s' y Hy. specialize (H d eq_refl k l Hi). rewrite Forall_forall in H. destruct (H y Hy) as [f ->].
    unfold manifest_file. apply safe_bind; [apply safe_content_path|]. intros [[ok ps] ds] _. apply safe_ret.
  - unfold check_conflicts. apply safe_wfold_any. intros; sf.
Qed.

Lemma safe_state alg u st : alg_ok alg -> (forall d, st = JObj d -> arrays_of_strings d) ->
  safe (validate_state_block false alg st (Some u)).
Proof.
  intros Ha H. unfold validate_state_block. destruct st as [| | | | | |d]; sf.
  - now apply safe_digest_regex.
  - apply safe_wfold_any. intros s [k x] Hi. unfold state_digest. destruct (re_match a k); [|sf].
    destruct x as [| | | | |l|]; sf. apply safe_wfold_any. intros s' y Hy. specialize (H d eq_refl k l Hi).
    rewrite Forall_forall in H. destruct (H y Hy) as [f ->]. unfold state_path. sf.
    unfold check_logical_path. destruct s' as [lp ld]. sf.
  - unfold check_conflicts. apply safe_wfold_any. intros; sf.
Qed.

Lemma ebind_raise {A B} (x : exc A) (g : A -> exc B) e :
  ebind x g = Raise e -> x = Raise e \/ exists a, x = Ok a /\ g a = Raise e.
Proof. destruct x as [a|e0]; cbn [ebind]; intros H; [right; exists a; auto|left; now injection H as ->]. Qed.

Lemma str_to_datetime_exn s e : str_to_datetime s = Raise e -> e = ValueError.
Proof.
  unfold str_to_datetime. destruct s as [|c s]; [congruence|]. generalize (c :: s) as t. intros t.
  destruct (chop_fraction (complete_date t)) as [s2 frac]. intros H.
  apply ebind_raise in H as [H|[a [_ H]]]; [|discriminate].
  unfold datetime_no_fraction in H. destruct (re_match re_datetime s2) as [m|]; [|congruence].
  apply ebind_raise in H as [H|[a [_ H]]].
  - unfold dateutil_timegm in H. cbv zeta in H.
    match type of H with (if ?b then _ else _) = _ => destruct b end; [discriminate|congruence].
  - apply ebind_raise in H as [H|[o [_ H]]]; [|discriminate]. destruct (group 3 m) as [tz|]; [|discriminate].
    destruct (str_eqb tz (`"Z")); [discriminate|]. cbv zeta in H.
    match type of H with (if ?b then _ else _) = _ => destruct b end; [congruence|discriminate].
Qed.

Lemma safe_created d : safe (validate_created (JObj d)).
Proof.
  unfold validate_created. apply safe_notin_get; [sf|]. intros v _. destruct v as [| | | |s| |]; sf.
  destruct (str_to_datetime s) as [t|e] eqn:E; [sf|]. apply str_to_datetime_exn in E. subst e. sf.
Qed.
Lemma safe_message d : safe (validate_message (JObj d)).
Proof. unfold validate_message. apply safe_notin_get; [sf|]. intros v _. destruct v; sf. Qed.
Lemma safe_user d : safe (validate_user (JObj d)).
Proof.
  unfold validate_user. apply safe_notin_get; [sf|]. intros v _. destruct v as [| | | | | |ud]; sf.
  - destruct (dget (`"name") ud) as [[]|]; sf.
  - destruct (dget (`"address") ud) as [[| | | |a0| |]|]; sf. destruct (re_match re_address a0); sf.
Qed.

Lemma safe_version alg u (vs : dict json) used v : alg_ok alg -> In v (keys vs) ->
  (forall b, dget v vs = Some b -> (exists d, b = JObj d) /\ forall st, member b (`"state") (JObj st) -> arrays_of_strings st) ->
  safe (validate_version false alg (Some u) vs used v).
Proof.
  intros Ha Hv H. unfold validate_version. destruct (dget v vs) as [b|] eqn:E; [|apply dget_None in E; tauto].
  destruct (H b eq_refl) as [[d ->] Hs].
  apply safe_bind; [apply safe_created|intros _ _].
  apply safe_bind; [eapply safe_lift; reflexivity|]. intros c Ec. apply Ok_inv in Ec. subst c.
  apply safe_bind.
  - unfold dmem. cbn [py_getitem]. destruct (dget (`"state") d) as [st|] eqn:Es; [|sf].
    apply safe_bind; [eapply safe_lift; reflexivity|]. intros st' Ec. apply Ok_inv in Ec. subst st'.
    apply safe_state; [auto|]. intros sd ->. apply Hs. exists d. split; [auto|now apply dget_In].
  - intros us _. apply safe_bind; [apply safe_message|intros _ _]. apply safe_bind; [apply safe_user|intros _ _]. sf.
Qed.

Lemma version_loop_safe w max (d : dict json) : forall fuel a,
  NoDup (keys d) -> incl (names w a) (keys d) -> (S (List.length d) <= fuel + a)%nat ->
  safe (version_loop fuel w max d (N.of_nat a + 1) (names w a)) /\
  forall all, snd (version_loop fuel w max d (N.of_nat a + 1) (names w a)) = Ok all -> incl all (keys d).
Proof.
  induction fuel as [|fuel IH]; intros a Hk Hi Hf.
  - exfalso. assert (List.length (names w a) <= List.length (keys d))%nat by (apply NoDup_incl_length; [apply names_NoDup|auto]).
    rewrite names_length in H. unfold keys in H. rewrite map_length in H. lia.
  - cbn [version_loop]. destruct (max <? N.of_nat a + 1)%N.
    + split; [sf|]. intros all E. apply bind_ok in E as [u [_ E]]. apply Ok_inv in E. now subst.
    + destruct (dmem_spec (version_fmt w (N.of_nat a + 1)) d) as [Hin|Hin].
      * rewrite <- names_S. replace (N.of_nat a + 1 + 1)%N with (N.of_nat (S a) + 1)%N by lia.
        apply IH; [auto| |lia]. rewrite names_S. intros x Hx. apply in_app_or in Hx as [Hx|[<-|[]]]; auto.
      * split; [sf|]. intros all E. apply bind_ok in E as [u [_ E]]. apply Ok_inv in E. now subst.
Qed.

Lemma safe_version_sequence vs : (forall d, vs = JObj d -> NoDup (keys d)) ->
  safe (validate_version_sequence vs) /\
  forall all, snd (validate_version_sequence vs) = Ok all ->
    (exists d, vs = JObj d /\ incl all (keys d)) \/ all = [].
Proof.
  intros Hk. unfold validate_version_sequence.
  assert (E0 : forall c, safe (werror c ;! wret ([] : list str)) /\
    forall all, snd (werror c ;! wret []) = Ok all -> (exists d, vs = JObj d /\ incl all (keys d)) \/ all = []).
  { intros c. split; [sf|]. intros all E. apply Ok_inv in E. now right. }
  destruct vs as [| | | | | |d]; try apply E0. destruct d as [|kv d'] eqn:Ed; [apply E0|]. rewrite <- Ed in *. clear Ed.
  specialize (Hk d eq_refl). cbv zeta.
  destruct (dmem_spec (`"v1") d) as [H1|H1].
  - change [`"v1"] with (names None 1). change 2%N with (N.of_nat 1 + 1)%N.
    destruct (version_loop_safe None 999999 d (S (List.length d)) 1) as [S1 S2]; [auto| |lia|].
    + intros x [<-|[]]. exact H1.
    + split; [exact S1|]. intros all E. left. exists d. split; [auto|]. now apply S2.
  - destruct (find (fun n => dmem (version_fmt (Some n) 1) d) (seq 2 9)) as [w|] eqn:Ef; [|apply E0].
    apply find_some in Ef as [_ Ef]. apply dmem_true in Ef.
    change [version_fmt (Some w) 1] with (names (Some w) 1). change 2%N with (N.of_nat 1 + 1)%N.
    destruct (version_loop_safe (Some w) (10 ^ N.of_nat (w - 1) - 1) d (S (List.length d)) 1) as [S1 S2]; [auto| |lia|].
    + intros x [<-|[]]. exact Ef.
    + split; [apply safe_bind; [sf|intros; exact S1]|].
      intros all E. apply bind_ok in E as [u [_ E]]. left. exists d. split; [auto|]. now apply S2.
Qed.

Lemma safe_fixity spec fx mf : (forall d alg block, fx = JObj d -> In (alg, JObj block) d -> arrays_of_strings block) ->
  safe (validate_fixity false spec fx (Some mf)).
Proof.
  intros H. unfold validate_fixity. destruct fx as [| | | | | |d]; try apply safe_error.
  apply safe_wfold_any. intros s [alg x] Hi. unfold fixity_algorithm. cbv zeta.
  destruct (digest_regex alg) as [re_|e]; [|sf]. destruct x as [| | | | | |block]; sf.
  apply safe_wfold_any. intros s' [k y] Hk. unfold fixity_digest. destruct (re_match re_ k); [|sf].
  destruct y as [| | | | |l|]; sf. apply safe_wfold_any. intros s'' z Hz.
  specialize (H d alg block eq_refl Hi k l Hk). rewrite Forall_forall in H. destruct (H z Hz) as [t ->]. unfold fixity_file. sf.
Qed.

Theorem well_shaped_safe dsv force inv : json_wf inv -> well_shaped inv -> safe (iv_validate false dsv force inv).
Proof.
  intros Hw ([d ->] & [man Hman] & Hms & Hvs & Hfx).
  pose proof Hw as Hw'. apply json_wf_obj in Hw' as [Hn Hwv]. rewrite Forall_forall in Hwv.
  assert (G : safe (validate_body false dsv force (JObj d))).
  { unfold validate_body. cbv zeta.
    apply safe_bind.
    { unfold validate_id. apply safe_in_get; [sf|]. intros v _. destruct v as [| | | |s| |]; sf.
      destruct s; sf. destruct (re_match re_uri _); sf. }
    intros id _. apply safe_bind.
    { unfold validate_type. apply safe_notin_get; [sf|]. intros v _. destruct v as [| | | |s| |]; sf.
      destruct (re_match re_type s) as [m|]; sf. }
    intros spec _. apply safe_bind.
    { unfold validate_digest_algorithm. cbv zeta. apply safe_notin_get; [sf|]. intros v _. sf. }
    intros alg Ealg. destruct alg as [alg|]; [|sf].
    assert (Ha : alg_ok alg).
    { unfold validate_digest_algorithm in Ealg. cbv zeta in Ealg. apply bind_ok in Ealg as [c [_ E]].
      assert (K512 : alg_ok (JStr (`"sha512"))) by (eexists; reflexivity).
      assert (K256 : alg_ok (JStr (`"sha256"))) by (eexists; reflexivity).
      destruct c; cbn [negb] in E.
      - apply bind_ok in E as [a [_ E]]. destruct (json_eq_str a (`"sha512")).
        + apply Ok_inv, Some_inv in E. now subst.
        + destruct (json_eq_str a (`"sha256")) eqn:E2.
          * apply bind_ok in E as [u [_ E]]. apply Ok_inv, Some_inv in E. subst. apply json_eq_str_iff in E2. now subst.
          * apply bind_ok in E as [u [_ E]]. apply Ok_inv in E. discriminate.
      - apply bind_ok in E as [u [_ E]]. apply Ok_inv, Some_inv in E. now subst. }
    apply safe_bind.
    { unfold validate_content_directory. cbv zeta. apply safe_notin_get; [sf|]. intros v _. destruct v; sf. }
    intros cd _.
    assert (B : safe (validate_blocks false id spec alg cd (JObj d)) /\
      forall st k u, snd (validate_blocks false id spec alg cd (JObj d)) = Ok (st, k, u) -> exists mf, iv_manifest_files st = Some mf).
    { unfold validate_blocks.
      destruct (member_py _ _ _ Hw Hman) as [E1 E2]. rewrite E1, E2.
      assert (Sm : safe (validate_manifest false alg (fst cd) man)).
      { apply safe_manifest; [auto|]. intros md ->. now apply Hms. }
      destruct Sm as [[[f0 k0] u0] Sm].
      assert (Sv : forall u, safe (let! c := wlift (py_in (`"versions") (JObj d)) in
        (if c then let! vs := wlift (py_getitem (`"versions") (JObj d)) in
           let! all := validate_version_sequence vs in
           let! used := validate_versions false alg (Some u) vs all in wret (all, used)
         else werror (`"E041b") ;! wret ([], [])))).
      { intros u. apply safe_in_get; [sf|]. intros vs Ev.
        assert (Hvw : json_wf vs) by (apply dget_In in Ev; apply (Hwv _ Ev)).
        destruct (safe_version_sequence vs) as [S1 S2]; [intros vd ->; now apply json_wf_obj in Hvw|].
        apply safe_bind; [exact S1|]. intros all Eall. apply safe_bind; [|intros; sf].
        unfold validate_versions. destruct vs as [| | | | | |vd]; sf. apply safe_wfold_any. intros us v Hv.
        apply S2 in Eall as [[vd' [Ed Hi]]| ->]; [|destruct Hv]. injection Ed as <-.
        apply safe_version; [auto|now apply Hi|]. intros b Hb. apply (Hvs vd v b); [exists d; split; [auto|now apply dget_In]|now apply dget_In]. }
      split.
      - apply safe_bind; [eapply safe_lift; reflexivity|]. intros c Ec. apply Ok_inv in Ec. subst c.
        apply safe_bind.
        { apply safe_bind; [eapply safe_lift; reflexivity|]. intros m Em. apply Ok_inv in Em. subst m.
          apply safe_bind; [eexists; exact Sm|intros; sf]. }
        intros m Em. apply bind_ok in Em as [m1 [Em1 Em]]. apply Ok_inv in Em1. subst m1.
        apply bind_ok in Em as [[[f1 k1] u1] [_ Em]]. apply Ok_inv in Em. subst m. cbv zeta iota.
        specialize (Sv u1). destruct Sv as [r Sv]. apply bind_ok in Sv as [c2 [Ec2 Sv]].
        apply safe_bind; [eapply safe_lift; exact Ec2|]. intros c2' Ec2'. rewrite Ec2 in Ec2'. apply Ok_inv in Ec2'. subst c2'.
        apply safe_bind; [eexists; exact Sv|]. intros [all used] _.
        apply safe_bind; [eapply safe_lift; reflexivity|]. intros c3 Ec3. apply Ok_inv in Ec3. subst c3.
        apply safe_bind; [|intros; sf]. unfold dmem. cbn [py_getitem]. destruct (dget (`"head") d) as [h|]; cbn [negb]; [|sf].
        destruct (last_opt all); [|sf]. apply safe_bind; [eapply safe_lift; reflexivity|]. intros; sf.
      - intros st k u E. apply bind_ok in E as [c [Ec E]]. apply Ok_inv in Ec. subst c.
        apply bind_ok in E as [m [Em E]]. apply bind_ok in Em as [m1 [Em1 Em]]. apply Ok_inv in Em1. subst m1.
        apply bind_ok in Em as [[[f1 k1] u1] [_ Em]]. apply Ok_inv in Em. subst m. cbv zeta iota in E.
        apply bind_ok in E as [c2 [_ E]]. apply bind_ok in E as [[all used] [_ E]].
        apply bind_ok in E as [c3 [_ E]]. apply bind_ok in E as [h [_ E]]. apply Ok_inv in E. injection E as <- _ _.
        cbn [iv_manifest_files]. eauto. }
    destruct B as [B1 B2]. apply safe_bind; [exact B1|]. intros [[st k] us] E. destruct (B2 _ _ _ E) as [mf Emf].
    destruct (iv_all_versions st) eqn:Eav; [sf|]. apply safe_bind; [|intros; sf].
    unfold validate_rest. rewrite Emf.
    apply safe_bind.
    { destruct k as [k|]; [|sf]. unfold check_content_paths_map_to_versions. apply safe_wfold_any. intros; sf. }
    intros _ _. apply safe_bind.
    { unfold check_digests_present_and_used. cbv zeta. sf. }
    intros _ _. apply safe_in_get; [sf|]. intros fx Efx. apply safe_fixity. intros fd al bl -> Hb.
    apply (Hfx fd al bl); [|auto]. exists d. split; [auto|now apply dget_In]. }
  destruct G as [[st b] G]. unfold iv_validate. destruct (validate_body false dsv force (JObj d)) as [log r]. cbn [snd] in G. subst r.
  destruct b; eexists; reflexivity.
Qed.

Lemma iv_validate_false lax dsv force inv st :
  snd (iv_validate lax dsv force inv) = Ok (st, false) -> (num_errors (fst (iv_validate lax dsv force inv)) >= 1)%nat.
Proof.
  unfold iv_validate. destruct (validate_body lax dsv force inv) as [log [[st' [|]]|e]]; cbn [fst snd]; intros H.
  - apply Ok_inv in H. injection H as _ H. destruct (num_errors log) eqn:E; [|lia]. apply num_errors_0 in E. congruence.
  - destruct (no_errors log) eqn:E; cbn [fst].
    + rewrite num_errors_app. change (num_errors [LError (`"E008")]) with 1%nat. lia.
    + destruct (num_errors log) eqn:E'; [|lia]. apply num_errors_0 in E'. congruence.
  - discriminate.
Qed.
