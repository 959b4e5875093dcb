(** The version directories and their files (ocfl/validator.py:406-475). *)
From Verif Require Import Base Unicode Regex Utf8 Json PyJson Log TextFile DigestModel ObjectUtilsModel LayoutProofs.
From Verif Require Import InventorySpec InventoryValidatorModel InventoryValidatorProofs InventoryRulesProofs InventoryPriorProofs.
From Verif Require Import PathModel FsModel FsSpec FsProofs FswModel FswSpec FswProofs FswCopyProofs NamasteModel NamasteSpec NamasteProofs.
From Verif Require Import ValidatorModel ValidatorSpec ValidatorBasicProofs ValidatorVersionProofs ValidatorFoldProofs.
Open Scope N_scope.

(** ** Paths *)

Lemma app_ne {A} (a b : list A) : a <> [] -> a ++ b <> [].
Proof. destruct a; [congruence|discriminate]. Qed.

Lemma join_last base : base <> [] -> Forall fname base -> last_opt (join [slash] base) <> Some slash /\ join [slash] base <> [].
Proof.
  destruct base as [|k base _] using rev_ind; [congruence|]. intros _ Hf. apply Forall_app in Hf as [_ Hk]. inversion Hk as [|? ? Hk' _]; subst.
  pose proof (fname_ne _ Hk') as Hne. destruct base as [|b base].
  - split; [now apply fname_last|exact Hne].
  - rewrite join_snoc by discriminate. split.
    + rewrite last_opt_app2 by discriminate. change (slash :: k) with ([slash] ++ k). rewrite last_opt_app2 by exact Hne. now apply fname_last.
    + intros E. apply app_eq_nil in E as [_ E]. discriminate E.
Qed.

Lemma path_join_slash base k : base <> [] -> Forall fname base -> fname k ->
  path_join (slash :: join [slash] base) k = slash :: join [slash] (base ++ [k]).
Proof.
  intros Hb Hf Hk. rewrite path_join_name by auto. destruct (join_last base Hb Hf) as [Hl Hn].
  change (slash :: join [slash] base) with ([slash] ++ join [slash] base). rewrite last_opt_app2 by exact Hn.
  rewrite join_snoc by exact Hb. destruct base as [|b base]; [congruence|]. set (J := join [slash] (b :: base)) in *.
  destruct (last_opt J) as [x|] eqn:E.
  - destruct (N.eqb_spec x slash) as [->|]; [congruence|]. cbn [app]. reflexivity.
  - destruct J as [|y J _] using rev_ind; [congruence|]. now rewrite last_opt_app in E.
Qed.
Lemma fold_join_slash rel : forall base, base <> [] -> Forall fname base -> Forall fname rel ->
  fold_left path_join rel (slash :: join [slash] base) = slash :: join [slash] (base ++ rel).
Proof.
  induction rel as [|k rel IH]; intros base Hb Hf Hr; [now rewrite app_nil_r|]. inversion Hr; subst. cbn [fold_left].
  rewrite path_join_slash by auto. rewrite IH; auto.
  - now rewrite <- app_assoc.
  - destruct base; discriminate.
  - apply Forall_app. split; [exact Hf|]. constructor; [auto|constructor].
Qed.
Lemma lstrip_join_fnames base : base <> [] -> Forall fname base -> lstrip_slash (slash :: join [slash] base) = join [slash] base.
Proof.
  intros Hb Hf. rewrite lstrip_slash_cons. apply lstrip_noslash. destruct base as [|b base]; [congruence|]. inversion Hf as [|? ? (Hn & _ & _ & Hs) _]; subst.
  destruct b as [|x b]; [congruence|]. destruct base; cbn [join app startswith]; (destruct (N.eqb_spec slash x) as [Ex|]; [exfalso; apply Hs; left; symmetry; exact Ex|reflexivity]).
Qed.

Lemma relpath_child v k : fname v -> fname k -> os_relpath (entry_name v k) v = k.
Proof.
  intros Hv Hk.
  assert (Ev : entry_name v k = v ++ slash :: k).
  { unfold entry_name. rewrite rstrip_noslash by now apply fname_last. destruct v; [now destruct Hv|reflexivity]. }
  rewrite Ev.
  assert (F1 : Forall fname [v]) by (constructor; auto). assert (F2 : Forall fname [v; k]) by (constructor; auto).
  assert (E1 : split_on slash (v ++ slash :: k) = [v; k]) by (apply (split_fnames [v; k]); [discriminate|exact F2]).
  assert (E2 : split_on slash v = [v]) by (apply (split_fnames [v]); [discriminate|exact F1]).
  unfold os_relpath. rewrite E1, E2, !resolve_fnames by auto.
  cbn [os_rel]. rewrite str_eqb_refl. cbn [os_rel List.length repeat app join]. reflexivity.
Qed.
Lemma relpath_same v : fname v -> os_relpath (rstrip_slash v) v = `".".
Proof.
  intros Hv. rewrite rstrip_noslash by now apply fname_last. assert (F1 : Forall fname [v]) by (constructor; auto).
  assert (E2 : split_on slash v = [v]) by (apply (split_fnames [v]); [discriminate|exact F1]).
  unfold os_relpath. rewrite E2, !resolve_fnames by auto. cbn [os_rel]. rewrite str_eqb_refl. reflexivity.
Qed.

(** ** Walking the content of one version *)

Definition walk_step (cp : str) (files : list str) (y : yield) : wexc (list str) :=
  let '(dirpath, (dirs, names)) := y in
  (if negb (str_eqb dirpath (slash :: cp)) && Nat.eqb (List.length dirs + List.length names) 0
   then werror (`"E024") else wret tt) ;!
  wret (files ++ map (fun n => lstrip_slash (path_join dirpath n)) names).
Definition yield_files (y : yield) : list str := map (fun n => lstrip_slash (path_join (fst y) n)) (snd (snd y)).
Definition not_empty (cp : str) (y : yield) : Prop := fst y = slash :: cp \/ fst (snd y) <> [] \/ snd (snd y) <> [].

Lemma clean_walk_fold cp ys : forall fs r, clean (wfold (walk_step cp) ys fs) r <-> Forall (not_empty cp) ys /\ r = fs ++ flat_map yield_files ys.
Proof.
  induction ys as [|[dp [ds ns]] ys IH]; intros fs r; cbn [wfold flat_map].
  - rewrite clean_ret, app_nil_r. split; [intros ->; auto|intros [_ ->]; auto].
  - rewrite clean_bind. unfold walk_step at 1. assert (E : forall m, clean ((if negb (str_eqb dp (slash :: cp)) && Nat.eqb (List.length ds + List.length ns) 0
   then werror (`"E024") else wret tt) ;! wret (fs ++ map (fun n => lstrip_slash (path_join dp n)) ns)) m <->
      not_empty cp (dp, (ds, ns)) /\ m = fs ++ yield_files (dp, (ds, ns))).
    { intros m. unfold not_empty, yield_files. cbn [fst snd]. destruct (str_eqb_spec dp (slash :: cp)) as [->|Hne]; cbn [negb andb].
      - rewrite clean_bind_ret, clean_ret. split; [intros <-; auto|intros [_ ->]; auto].
      - destruct (Nat.eqb_spec (List.length ds + List.length ns) 0) as [E0|E0].
        + rewrite clean_bind_error. split; [tauto|]. intros [[?|[Hd|Hd]] _]; [contradiction| |]; apply Hd; [destruct ds|destruct ns]; auto; cbn in E0; lia.
        + rewrite clean_bind_ret, clean_ret. split; [|intros [_ ->]; auto]. intros <-. split; [|auto]. right.
          destruct ds; [right|left; discriminate]. destruct ns; [cbn in E0; lia|discriminate]. }
    split.
    + intros (m & H1 & H2). apply E in H1 as [H1 ->]. apply IH in H2 as [H2 ->]. split; [constructor; auto|]. now rewrite <- app_assoc.
    + intros [HF ->]. inversion HF; subst. exists (fs ++ yield_files (dp, (ds, ns))). split; [apply E; auto|]. apply IH. split; [auto|]. now rewrite <- app_assoc.
Qed.

Lemma walk_fold_result cp ys : forall fs, snd (wfold (walk_step cp) ys fs) = Ok (fs ++ flat_map yield_files ys).
Proof.
  induction ys as [|[dp [ds ns]] ys IH]; intros fs; cbn [wfold flat_map]; [cbn [wret snd]; now rewrite app_nil_r|].
  assert (E : snd (walk_step cp fs (dp, (ds, ns))) = Ok (fs ++ yield_files (dp, (ds, ns)))).
  { unfold walk_step. destruct (negb _ && _); reflexivity. }
  unfold wbind. rewrite E. cbn [snd]. rewrite IH. now rewrite <- app_assoc.
Qed.

Lemma reached_all rel : forall n s d, get n rel = Ok (Dir d) -> reached keep_all s n rel.
Proof.
  induction rel as [|k rel IH]; intros n s d E; cbn [get reached] in *.
  - apply Ok_inv in E. subst n. exact I.
  - destruct n as [b|d'|]; try discriminate. split; [reflexivity|]. destruct (dget k d'); [|discriminate]. eapply IH; eauto.
Qed.

Definition no_empty_below (w : node) (p : place) : Prop :=
  forall r, r <> [] -> look w (p ++ r) = Some EDir -> exists k, look w (p ++ r ++ [k]) <> None.

Lemma walk_content_ok w h base n : tree w -> Forall fname h -> base <> [] -> Forall fname base -> get w (h ++ base) = Ok n ->
  exists files, (forall r, clean (walk_content w h (join [slash] base)) r <-> no_empty_below w (h ++ base) /\ r = files) /\
    (forall p, In p files <-> exists r, r <> [] /\ leaf w (h ++ base ++ r) /\ p = join [slash] (base ++ r)) /\
    snd (walk_content w h (join [slash] base)) = Ok files.
Proof.
  intros Hw Hh Hb Hf Hg. set (cp := join [slash] base). destruct (join_last base Hb Hf) as [Hl Hn]. fold cp in Hl, Hn.
  assert (Hat : at_path h cp = h ++ base) by now apply at_path_join.
  assert (Hstart : startswith [slash] cp = false).
  { pose proof (lstrip_join_fnames base Hb Hf) as E. rewrite lstrip_slash_cons in E. fold cp in E. rewrite <- E. apply lstrip_start. }
  assert (Hwalk : walkable cp).
  { unfold walkable. rewrite lstrip_noslash by auto. exact Hl. }
  assert (Hwc : forall ys, fsw_walk keep_all w h cp = (ys, Ok tt) -> forall r, clean (walk_content w h cp) r <-> Forall (not_empty cp) ys /\ r = flat_map yield_files ys).
  { intros ys E r. unfold walk_content. rewrite E. fold (walk_step cp).
    change (wfold _ ys []) with (wfold (walk_step cp) ys []). rewrite clean_bind. split.
    - intros (fs & H1 & H2). apply clean_walk_fold in H1 as [H1 ->]. apply clean_bind in H2 as (u & _ & H2). apply clean_ret in H2. subst r. auto.
    - intros [H1 ->]. exists (flat_map yield_files ys). split; [apply clean_walk_fold; auto|]. apply clean_bind. exists tt. split; [now apply clean_lift|now apply clean_ret]. }
  assert (Hwr : forall ys, fsw_walk keep_all w h cp = (ys, Ok tt) -> snd (walk_content w h cp) = Ok (flat_map yield_files ys)).
  { intros ys E. unfold walk_content. rewrite E. change (wfold _ ys []) with (wfold (walk_step cp) ys []).
    unfold wbind at 1. now rewrite walk_fold_result. }
  destruct (is_dir n) eqn:Hd.
  - pose proof (fsw_walk_ok keep_all w h cp n Hw Hwalk) as Hy. rewrite Hat in Hy. specialize (Hy Hg Hd). rewrite Hstart in Hy.
    pose proof (tree_get _ _ _ Hw Hg) as Htn. pose proof (walk_at_spec keep_all n Htn (slash :: cp)) as Hspec.
    assert (Hsp : forall y, In y (walk_at keep_all (slash :: cp) n) <-> exists rel d, Forall fname rel /\ get n rel = Ok (Dir d) /\
        y = (slash :: join [slash] (base ++ rel), (dirs_of d, others_of d))).
    { intros y. rewrite Hspec. split.
      - intros (rel & d & R & G & ->). exists rel, d. pose proof (reached_fnames _ _ Htn _ _ R) as Hr. split; [exact Hr|]. split; [exact G|].
        unfold cp. now rewrite fold_join_slash.
      - intros (rel & d & Hr & G & ->). exists rel, d. split; [eapply reached_all; eauto|]. split; [exact G|]. unfold cp. now rewrite fold_join_slash. }
    assert (Hlook : forall rel k d, get n rel = Ok (Dir d) -> look w (h ++ base ++ rel ++ [k]) = option_map entry_of (dget k d)).
    { intros rel k d G. rewrite app_assoc, look_app, Hg. now apply look_child. }
    assert (Hnd : forall rel d, get n rel = Ok (Dir d) -> NoDup (keys d) /\ Forall fname (keys d)).
    { intros rel d G. split; [apply (dir_names n rel d Htn G)|eapply keys_fnames; eauto]. }
    eexists. split; [intros r; rewrite (Hwc _ Hy r)|split; [|exact (Hwr _ Hy)]].
    + split; [intros [H1 ->]; split; [|reflexivity]|intros [H1 ->]; split; [|reflexivity]].
      * rewrite Forall_forall in H1. intros r Hr Hlr. rewrite look_app, Hg in Hlr. apply look_dir in Hlr as [d G].
        assert (Hfr : Forall fname r) by (eapply look_fnames; [exact Htn|]; rewrite (proj2 (look_dir n r)) by eauto; discriminate).
        destruct (H1 _ (proj2 (Hsp _) (ex_intro _ r (ex_intro _ d (conj Hfr (conj G eq_refl)))))) as [E|Hne].
        -- cbn [fst] in E. injection E as E. unfold cp in E. apply join_fnames_inj in E; [|apply Forall_app; auto|auto].
           rewrite <- (app_nil_r base) in E at 2. apply app_inv_head in E. contradiction.
        -- cbn [fst snd] in Hne. assert (Hk : exists k m, In (k, m) d).
           { destruct d as [|[k m] d]; [|exists k, m; now left]. destruct Hne as [Hne|Hne]; exfalso; apply Hne; reflexivity. }
           destruct Hk as (k & m & Hk). exists k. rewrite <- app_assoc. rewrite (Hlook r k d G).
           rewrite (In_dget _ _ _ (proj1 (Hnd _ _ G)) Hk). discriminate.
      * apply Forall_forall. intros y Hin. apply Hsp in Hin as (rel & d & Hr & G & ->). unfold not_empty. cbn [fst snd].
        destruct rel as [|x rel]; [left; now rewrite app_nil_r|]. right.
        destruct (H1 (x :: rel)) as [k Hk]; [discriminate|rewrite look_app, Hg; apply look_dir; eauto|].
        rewrite <- app_assoc in Hk. rewrite (Hlook _ k d G) in Hk. destruct (dget k d) as [m|] eqn:E; [|exfalso; apply Hk; reflexivity].
        destruct (is_dir m) eqn:Em; [left|right]; intros E0.
        -- assert (Hi : In k (dirs_of d)) by (apply dirs_of_spec; [apply (Hnd _ _ G)|eauto]). rewrite E0 in Hi. destruct Hi.
        -- assert (Hi : In k (others_of d)) by (apply others_of_spec; [apply (Hnd _ _ G)|eauto]). rewrite E0 in Hi. destruct Hi.
    + intros p. rewrite in_flat_map. split.
      * intros (y & Hin & Hp). apply Hsp in Hin as (rel & d & Hr & G & ->). unfold yield_files in Hp. cbn [fst snd] in Hp.
        apply in_map_iff in Hp as (k & <- & Hk). pose proof Hk as Hk'. apply others_of_spec in Hk' as (m & E & Em); [|apply (Hnd _ _ G)].
        assert (Hfk : fname k).
        { pose proof (proj2 (Hnd _ _ G)) as HF. rewrite Forall_forall in HF. apply HF. apply dget_In in E. apply (in_map fst _ _ E). }
        exists (rel ++ [k]). split; [destruct rel; discriminate|]. split.
        -- unfold leaf. rewrite (Hlook _ _ _ G), E. cbn [option_map]. split; [discriminate|]. destruct m; cbn in Em |- *; congruence.
        -- rewrite path_join_slash; [|now repeat apply app_ne|apply Forall_app; auto|exact Hfk].
           rewrite lstrip_join_fnames; [rewrite <- app_assoc; reflexivity|now repeat apply app_ne|].
           apply Forall_app. split; [apply Forall_app; auto|]. constructor; [auto|constructor].
      * intros (r & Hr & Hlf & ->). assert (Hfr : Forall fname (h ++ base ++ r)) by (apply (leaf_fnames w); assumption).
        apply Forall_app in Hfr as [_ Hfr]. apply Forall_app in Hfr as [_ Hfr].
        destruct r as [|k rel _] using rev_ind; [congruence|]. apply Forall_app in Hfr as [Hfr Hfk]. inversion Hfk as [|? ? Hfk' _]; subst.
        assert (G : exists d, get n rel = Ok (Dir d)).
        { apply look_dir. destruct Hlf as [Hlf _]. rewrite !app_assoc in Hlf. apply look_above in Hlf. now rewrite look_app, Hg in Hlf. }
        destruct G as [d G]. exists (slash :: join [slash] (base ++ rel), (dirs_of d, others_of d)). split; [apply Hsp; eauto|].
        unfold yield_files. cbn [fst snd]. apply in_map_iff. exists k. split.
        -- rewrite path_join_slash; [|now repeat apply app_ne|apply Forall_app; auto|exact Hfk'].
           rewrite lstrip_join_fnames; [rewrite <- app_assoc; reflexivity|now repeat apply app_ne|].
           apply Forall_app. split; [apply Forall_app; auto|]. constructor; [auto|constructor].
        -- apply others_of_spec; [apply (Hnd _ _ G)|]. unfold leaf in Hlf. rewrite (Hlook _ _ _ G) in Hlf. destruct (dget k d) as [m|]; [|cbn in Hlf; tauto].
           exists m. split; [reflexivity|]. destruct m; cbn in *; try reflexivity. tauto.
  - (* not a directory: listed as itself *)
    assert (Hy : fsw_walk keep_all w h cp = ([(slash :: cp, ([], []))], Ok tt)).
    { unfold fsw_walk. rewrite Hstart. assert (Hsz : exists k, size w = S k) by (destruct w; cbn; eauto). destruct Hsz as [k ->]. cbn [walk_loop].
      rewrite lstrip_slash_cons, lstrip_noslash by auto. unfold fs_ls. rewrite Hat, Hg. cbn [ebind].
      assert (E : fsw_relpath (rstrip_slash cp) (slash :: cp) = Ok []).
      { rewrite rstrip_noslash by auto. rewrite relpath_unfold by (rewrite lstrip_slash_cons, lstrip_noslash; auto).
        rewrite <- (relpath_self (slash :: cp)) by (rewrite lstrip_slash_cons, lstrip_noslash; auto). rewrite (relpath_unfold (slash :: cp)) by (rewrite lstrip_slash_cons, lstrip_noslash; auto).
        rewrite lstrip_slash_cons. reflexivity. }
      destruct n as [b|d|]; try discriminate; cbn [ebind type_of walk_entries]; rewrite E; cbn [ebind str_in existsb]; rewrite str_eqb_refl, !orb_true_r; reflexivity. }
    exists []. split; [|split; [|exact (Hwr _ Hy)]].
    + intros r. rewrite (Hwc _ Hy r). split.
      * intros [_ ->]. split; [|reflexivity]. intros r Hr E. exfalso. rewrite look_app, Hg in E.
        destruct n as [b|d|]; try discriminate; destruct r; try congruence; discriminate E.
      * intros [_ ->]. split; [|reflexivity]. constructor; [|constructor]. left. reflexivity.
    + intros p. split; [intros []|]. intros (r & Hr & [Hlf _] & _). rewrite app_assoc, look_app, Hg in Hlf.
      destruct n as [b|d|]; try discriminate; destruct r; try congruence; cbn in Hlf; tauto.
Qed.

(** ** A version directory *)

Lemma clean_catch_missing {A} (x : wexc A) code a r : clean (wcatch_missing x code a) r <-> clean x r.
Proof.
  unfold wcatch_missing, clean. destruct x as [log [y|e]]; cbn [snd fst]; [tauto|].
  destruct e; cbn [snd fst]; try tauto. split; [|intros [E _]; discriminate]. intros [_ E]. rewrite no_errors_app in E. cbn in E. rewrite andb_false_r in E. discriminate.
Qed.

Definition add_files (files seen : list str) : list str := fold_left (fun s x => set_add x s) files seen.
Lemma In_add_files files : forall seen p, In p (add_files files seen) <-> In p seen \/ In p files.
Proof.
  induction files as [|f files IH]; intros seen p; cbn [add_files fold_left]; [cbn; tauto|].
  fold (add_files files (set_add f seen)). rewrite IH, In_set_add. cbn [In]. intuition.
Qed.

(** A fold whose steps are each clean under a condition. *)
Lemma clean_wfold_fun {A S} (g : S -> A -> wexc S) (C : A -> Prop) (u : A -> S -> S) l :
  (forall s k r, In k l -> (clean (g s k) r <-> C k /\ r = u k s)) ->
  forall s r, clean (wfold g l s) r <-> (forall k, In k l -> C k) /\ r = fold_left (fun s k => u k s) l s.
Proof.
  induction l as [|k l IH]; intros Hg s r; cbn [wfold fold_left].
  - rewrite clean_ret. split; [intros ->; split; [intros k []|reflexivity]|intros [_ ->]; reflexivity].
  - rewrite clean_bind. split.
    + intros (m & H1 & H2). apply Hg in H1 as [H1 ->]; [|now left]. apply IH in H2 as [H2 ->]; [|intros; apply Hg; now right].
      split; [|reflexivity]. intros k' [<-|Hk]; auto.
    + intros [HC ->]. exists (u k s). split; [apply Hg; [now left|split; [apply HC; now left|reflexivity]]|].
      apply IH; [intros; apply Hg; now right|]. split; [intros k' Hk; apply HC; now right|reflexivity].
Qed.

Section Content.
  Variable H : hashfn.
  Variable c : vconf.
  Variable w : node.
  Variable h : place.
  Variables (root : json) (fr : facts) (head : str) (prior : vistate).
  Hypothesis Hw : tree w.
  Hypothesis Hh : Forall fname h.
  Hypothesis Hwr : json_wf root.
  Hypothesis Hor : obeys as_coded root fr.
  Hypothesis Hprior : kept_all w h fr head prior.

  Lemma cdir_not_dot : f_cdir fr <> `".".
  Proof using Hor.
    destruct Hor as (_ & _ & _ & Hc & _). unfold content_directory_rule in Hc. destruct (f_cdir_set fr).
    - destruct Hc as [_ (_ & E & _)]. exact E.
    - destruct Hc as [_ ->]. discriminate.
  Qed.

  Lemma sidecar_dget v name : In v (f_versions fr) -> (dget v (vi_sidecars prior) = Some name <-> sidecar_name w h fr head v name).
  Proof using Hprior. intros Hv. rewrite (a_sidecars _ _ _ _ _ Hprior). tauto. Qed.

  Lemma sidecar_not_dot v : In v (f_versions fr) -> dget v (vi_sidecars prior) <> Some (`".").
  Proof using Hprior.
    intros Hv E. apply sidecar_dget in E; auto. destruct E as [(_ & _ & E)|(j & f & _ & E)]; discriminate E.
  Qed.

  (** What the content directory of one version has. *)
  Definition files_of (v : str) (files : list str) : Prop :=
    forall p, In p files <-> content_seen w h fr head v /\ exists r, r <> [] /\ leaf w (h ++ v :: f_cdir fr :: r) /\ p = join [slash] (v :: f_cdir fr :: r).

  Lemma version_content_ok v : In v (f_versions fr) -> exists files, files_of v files /\
    forall seen r, clean (check_version_content w h (f_cdir fr) (vi_sidecars prior) seen v) r <->
      version_directory w h fr head v /\ (forall p, In p r <-> In p seen \/ In p files) /\ r = add_files files seen.
  Proof using Hw Hh Hor Hprior.
    intros Hv. destruct (obeys_versions _ _ Hor) as [ww Hseq]. destruct (version_seq_fname _ _ _ Hseq Hv) as [Hvf _].
    assert (Hat : at_path h v = h ++ [v]).
    { change v with (join [slash] [v]) at 1. apply at_path_join; auto. }
    assert (Hnone : look w (h ++ [v]) <> Some EDir -> files_of v [] /\ forall seen r, ~ clean (check_version_content w h (f_cdir fr) (vi_sidecars prior) seen v) r).
    { intros Hl. split.
      - intros p. split; [intros []|]. intros (_ & r & _ & [Hlf _] & _). exfalso. apply Hl.
        change (h ++ v :: f_cdir fr :: r) with (h ++ [v] ++ f_cdir fr :: r) in Hlf. rewrite app_assoc in Hlf. now apply look_above in Hlf.
      - intros seen r E. unfold check_version_content in E. apply clean_catch_missing, clean_bind in E as (l & E1 & E2). apply clean_lift in E1.
        unfold fs_ls in E1. rewrite Hat in E1. apply ebind_ok in E1 as (n & E0 & E1).
        assert (Hls : l = [(rstrip_slash v, type_of n)]).
        { destruct n as [b|d|]; try (apply Ok_inv in E1; now subst). exfalso. apply Hl. apply look_dir. eauto. }
        subst l. cbn [map fst] in E2. rewrite clean_wfold_one in E2. unfold check_version_entry in E2. rewrite relpath_same in E2 by auto.
        change (str_eqb (`".") INVENTORY_FILENAME) with false in E2. cbn [orb] in E2.
        assert (Es : match dget v (vi_sidecars prior) with Some s => str_eqb (`".") s | None => false end = false).
        { destruct (dget v (vi_sidecars prior)) as [s|] eqn:E; [|reflexivity]. destruct (str_eqb_spec (`".") s) as [<-|]; [|reflexivity].
          now apply sidecar_not_dot in E. }
        rewrite Es in E2. destruct (str_eqb_spec (`".") (f_cdir fr)) as [E|_]; [symmetry in E; now apply cdir_not_dot in E|].
        assert (Ed : fs_isdir w h (rstrip_slash v) = false).
        { unfold fs_isdir. rewrite rstrip_noslash by now apply fname_last. rewrite Hat, E0. destruct n; try reflexivity. exfalso. apply Hl. apply look_dir. eauto. }
        rewrite Ed in E2. now apply clean_bind_error in E2. }
    destruct (look w (h ++ [v])) as [e|] eqn:El.
    2:{ destruct Hnone as [Hn1 Hn2]; [discriminate|]. exists []. split; [exact Hn1|]. intros seen r. split; [intros E; now apply Hn2 in E|].
        intros ((E & _) & _). unfold at_root in E. congruence. }
    destruct e as [b| |].
    1,3: (destruct Hnone as [Hn1 Hn2]; [discriminate|]; exists []; split; [exact Hn1|]; intros seen r; split; [intros E; now apply Hn2 in E|];
        intros ((E & _) & _); unfold at_root in E; congruence).
    clear Hnone. pose proof El as El'. apply look_dir in El' as [d Hg].
    destruct (dir_names w (h ++ [v]) d Hw Hg) as (Hnd & Hfk & _). rewrite Forall_forall in Hfk.
    assert (Hchild : forall k, at_root w h [v; k] = option_map entry_of (dget k d)).
    { intros k. unfold at_root. change [v; k] with ([v] ++ [k]). rewrite app_assoc. now apply look_child. }
    set (seen_b := negb (str_eqb (f_cdir fr) INVENTORY_FILENAME || match dget v (vi_sidecars prior) with Some s => str_eqb (f_cdir fr) s | None => false end)).
    assert (Hseen : seen_b = true <-> content_seen w h fr head v).
    { unfold seen_b, content_seen. rewrite negb_true_iff, orb_false_iff. split.
      - intros [E1 E2]. split; [destruct (str_eqb_spec (f_cdir fr) INVENTORY_FILENAME); [discriminate|auto]|].
        intros Hs. apply sidecar_dget in Hs; auto. rewrite Hs, str_eqb_refl in E2. discriminate.
      - intros [E1 E2]. split; [destruct (str_eqb_spec (f_cdir fr) INVENTORY_FILENAME); [contradiction|auto]|].
        destruct (dget v (vi_sidecars prior)) as [s|] eqn:E; [|reflexivity]. destruct (str_eqb_spec (f_cdir fr) s) as [<-|]; [|reflexivity].
        destruct E2. now apply sidecar_dget. }
    (* the walk of the content directory *)
    assert (Hwalk : exists files, (forall p, In p files <-> exists r, r <> [] /\ leaf w (h ++ v :: f_cdir fr :: r) /\ p = join [slash] (v :: f_cdir fr :: r)) /\
      (In (f_cdir fr) (keys d) -> forall r, clean (walk_content w h (path_join v (f_cdir fr))) r <-> no_empty_below w (h ++ [v; f_cdir fr]) /\ r = files)).
    { destruct (in_dec (list_eq_dec N.eq_dec) (f_cdir fr) (keys d)) as [Hi|Hi].
      - apply in_map_iff in Hi as ([k n] & Ek & Hi). cbn [fst] in Ek. subst k. pose proof (In_dget _ _ _ Hnd Hi) as Hdg.
        assert (Hcf : fname (f_cdir fr)) by (apply Hfk; apply (in_map fst _ _ Hi)).
        assert (Hgc : get w (h ++ [v; f_cdir fr]) = Ok n).
        { change [v; f_cdir fr] with ([v] ++ [f_cdir fr]). rewrite app_assoc. eapply get_child; eauto. }
        destruct (walk_content_ok w h [v; f_cdir fr] n) as (files & F1 & F2 & _); auto; [discriminate|].
        exists files. split; [|intros _ r; rewrite path_join_two by auto; apply F1].
        intros p. rewrite F2. reflexivity.
      - exists []. split; [|intros E; contradiction]. intros p. split; [intros []|]. intros (r & _ & [Hlf _] & _). apply Hi.
        change (h ++ v :: f_cdir fr :: r) with (h ++ [v] ++ [f_cdir fr] ++ r) in Hlf. rewrite !app_assoc in Hlf.
        destruct r as [|x r].
        + rewrite app_nil_r in Hlf. rewrite (look_child _ _ _ _ Hg) in Hlf. destruct (dget (f_cdir fr) d) eqn:E; [|cbn in Hlf; tauto].
          apply dget_In in E. apply (in_map fst _ _ E).
        + apply look_above in Hlf. rewrite (look_child _ _ _ _ Hg) in Hlf. destruct (dget (f_cdir fr) d) eqn:E; [|discriminate].
          apply dget_In in E. apply (in_map fst _ _ E). }
    destruct Hwalk as (wf & Hwf & Hwc). set (files := if seen_b then wf else []). exists files. split.
    { intros p. unfold files. destruct seen_b; [rewrite Hwf; rewrite <- Hseen; tauto|]. rewrite <- Hseen. split; [intros []|]. intros [E _]. discriminate E. }
    (* one entry *)
    set (C := fun k => k = INVENTORY_FILENAME \/ sidecar_name w h fr head v k \/
       (k = f_cdir fr /\ (seen_b = true -> no_empty_below w (h ++ [v; f_cdir fr]))) \/ (k <> f_cdir fr /\ at_root w h [v; k] = Some EDir)).
    set (u := fun (k : str) (s : list str) => if str_eqb k (f_cdir fr) then add_files files s else s).
    assert (Hentry : forall s k r, In k (keys d) -> (clean (check_version_entry w h (f_cdir fr) (dget v (vi_sidecars prior)) v s (entry_name v k)) r <->
        C k /\ r = u k s)).
    { intros s k r Hk. unfold check_version_entry. rewrite relpath_child by auto. cbv zeta.
      destruct (str_eqb k INVENTORY_FILENAME || match dget v (vi_sidecars prior) with Some s => str_eqb k s | None => false end) eqn:Eb.
      - rewrite clean_ret. assert (Hc : k = INVENTORY_FILENAME \/ sidecar_name w h fr head v k).
        { apply orb_true_iff in Eb as [Eb|Eb]; [left; now apply str_eqb_eq|right]. destruct (dget v (vi_sidecars prior)) as [s'|] eqn:E; [|discriminate].
          apply str_eqb_eq in Eb. subst s'. now apply sidecar_dget. }
        assert (Hu : u k s = s).
        { unfold u. destruct (str_eqb_spec k (f_cdir fr)) as [->|]; [|reflexivity]. unfold files, seen_b. rewrite Eb. reflexivity. }
        rewrite Hu. split; [intros <-; split; [|reflexivity]; unfold C; tauto|intros [_ ->]; reflexivity].
      - assert (Hno : k <> INVENTORY_FILENAME /\ ~ sidecar_name w h fr head v k).
        { apply orb_false_iff in Eb as [E1 E2]. split; [destruct (str_eqb_spec k INVENTORY_FILENAME); [discriminate|auto]|].
          intros Hs. apply sidecar_dget in Hs; auto. rewrite Hs, str_eqb_refl in E2. discriminate. }
        unfold C, u. destruct (str_eqb_spec k (f_cdir fr)) as [->|Hkc].
        + assert (Esb : seen_b = true) by (unfold seen_b; now rewrite Eb). unfold files. rewrite Esb. rewrite clean_bind. split.
          * intros (fs & H1 & H2). apply Hwc in H1 as [H1 ->]; auto. split; [tauto|].
            apply clean_bind in H2 as (x & _ & H2). apply clean_ret in H2. now subst.
          * intros [HC ->]. exists wf. split; [apply Hwc; auto; split; [|reflexivity]; tauto|].
            apply clean_bind. exists tt. split; [destruct wf; [now apply clean_warning|now apply clean_ret]|now apply clean_ret].
        + assert (Hent : at_path h (entry_name v k) = h ++ [v; k]).
          { assert (Ev : entry_name v k = join [slash] [v; k]).
            { unfold entry_name. rewrite rstrip_noslash by now apply fname_last. destruct v; [now destruct Hvf|reflexivity]. }
            rewrite Ev. apply at_path_join; auto. }
          destruct (fs_isdir w h (entry_name v k)) eqn:Ed.
          * rewrite clean_bind_warning, clean_ret. apply fs_isdir_look in Ed. rewrite Hent in Ed.
            split; [intros <-; split; [|reflexivity]; tauto|intros [_ ->]; reflexivity].
          * rewrite clean_bind_error. split; [tauto|]. intros [[E|[E|[[E _]|[_ E]]]] _]; [tauto|tauto|tauto|].
            unfold at_root in E. rewrite <- Hent in E. apply fs_isdir_look in E. congruence. }
    intros seen r. unfold check_version_content. rewrite clean_catch_missing, clean_bind.
    assert (Els : fs_ls w h v = Ok (map (fun kv => (entry_name v (fst kv), type_of (snd kv))) d)).
    { unfold fs_ls. rewrite Hat, Hg. reflexivity. }
    assert (Emap : map fst (map (fun kv : str * node => (entry_name v (fst kv), type_of (snd kv))) d) = map (entry_name v) (keys d)).
    { unfold keys. rewrite !map_map. reflexivity. }
    assert (Efold : forall (g : list str -> str -> wexc (list str)) l s, wfold g (map (entry_name v) l) s = wfold (fun s k => g s (entry_name v k)) l s).
    { intros g l. induction l as [|k l IH]; intros s; cbn [map wfold]; [reflexivity|]. unfold wbind. destruct (g s (entry_name v k)) as [lg [x|e]]; [|reflexivity]. cbn [fst snd]. rewrite IH. reflexivity. }
    transitivity ((forall k, In k (keys d) -> C k) /\ r = fold_left (fun s k => u k s) (keys d) seen).
    { rewrite Els. split.
      - intros (l & H1 & H2). apply clean_lift in H1. apply Ok_inv in H1. subst l. rewrite Emap, Efold in H2.
        apply (clean_wfold_fun _ C u (keys d) Hentry) in H2. exact H2.
      - intros H1. eexists. split; [apply clean_lift; reflexivity|]. rewrite Emap, Efold. apply (clean_wfold_fun _ C u (keys d) Hentry). exact H1. }
    assert (HC : (forall k, In k (keys d) -> C k) <-> version_directory w h fr head v).
    { split.
      - intros HC. split; [exact El|]. split.
        + intros k e Hk. rewrite Hchild in Hk. destruct (dget k d) as [n|] eqn:E; [|discriminate]. pose proof (dget_In _ _ _ E) as Hi. apply (in_map fst) in Hi.
          destruct (HC k Hi) as [Hc|[Hc|[[Hc _]|[_ Hc]]]]; [tauto|tauto|tauto|]. rewrite Hchild, E in Hc. rewrite Hc in Hk. injection Hk as <-. auto.
        + intros Hs r' Hr' Hl. apply Hseen in Hs.
          assert (Hi : In (f_cdir fr) (keys d)).
          { unfold at_root in Hl. change (h ++ v :: f_cdir fr :: r') with (h ++ [v] ++ [f_cdir fr] ++ r') in Hl. rewrite !app_assoc in Hl.
            destruct r' as [|x r']; [congruence|]. assert (Hx : look w (((h ++ [v]) ++ [f_cdir fr]) ++ x :: r') <> None) by (rewrite Hl; discriminate).
            apply look_above in Hx. rewrite (look_child _ _ _ _ Hg) in Hx. destruct (dget (f_cdir fr) d) eqn:E; [|discriminate]. apply dget_In in E. apply (in_map fst _ _ E). }
          destruct (HC _ Hi) as [Hc|[Hc|[[_ Hc]|[Hc _]]]].
          * apply Hseen in Hs. destruct Hs as [Hs _]. contradiction.
          * apply Hseen in Hs. destruct Hs as [_ Hs]. contradiction.
          * specialize (Hc Hs r' Hr'). rewrite <- app_assoc in Hc. destruct (Hc Hl) as [k Hk]. exists k. unfold at_root. rewrite <- app_assoc in Hk. exact Hk.
          * congruence.
      - intros (_ & D1 & D2) k Hk. apply in_map_iff in Hk as ([k' n] & Ek & Hi). cbn [fst] in Ek. subst k'. pose proof (In_dget _ _ _ Hnd Hi) as E.
        destruct (D1 k (entry_of n)) as [D|[D|[D|D]]]; [rewrite Hchild, E; reflexivity|left; exact D|right; left; exact D| |].
        + right. right. left. split; [exact D|]. intros Hs r' Hr' Hl. apply Hseen in Hs. destruct (D2 Hs r' Hr') as [k' Hk'].
          * unfold at_root. rewrite <- app_assoc in Hl. exact Hl.
          * exists k'. rewrite <- app_assoc. exact Hk'.
        + destruct (str_eqb_spec k (f_cdir fr)) as [->|Hne].
          * right. right. left. split; [reflexivity|]. intros Hs r' Hr' Hl. apply Hseen in Hs. destruct (D2 Hs r' Hr') as [k' Hk'].
            -- unfold at_root. rewrite <- app_assoc in Hl. exact Hl.
            -- exists k'. rewrite <- app_assoc. exact Hk'.
          * right. right. right. split; [exact Hne|]. rewrite Hchild, E. cbn [option_map]. now rewrite D. }
    assert (Hfold : fold_left (fun s k => u k s) (keys d) seen = add_files files seen).
    { destruct (in_dec (list_eq_dec N.eq_dec) (f_cdir fr) (keys d)) as [Hi|Hi].
      - apply in_split in Hi as (a & b & Ek). assert (Hn : NoDup (a ++ f_cdir fr :: b)) by exact (eq_ind (keys d) (fun l => NoDup l) Hnd _ Ek). apply NoDup_remove_2 in Hn.
        assert (Hid : forall l s, (forall k, In k l -> k <> f_cdir fr) -> fold_left (fun s k => u k s) l s = s).
        { induction l as [|k l IH]; intros s Hl; cbn [fold_left]; [reflexivity|]. unfold u at 2. destruct (str_eqb_spec k (f_cdir fr)) as [E|_].
          - exfalso. apply (Hl k); [now left|exact E].
          - apply IH. intros k' Hk'. apply Hl. now right. }
        rewrite Ek, fold_left_app. cbn [fold_left]. rewrite (Hid a).
        + unfold u at 2. rewrite str_eqb_refl. rewrite Hid; [reflexivity|]. intros k Hk ->. apply Hn. apply in_app_iff. auto.
        + intros k Hk ->. apply Hn. apply in_app_iff. auto.
      - assert (Hfe : files = []).
        { destruct files as [|p fs] eqn:Ef; [reflexivity|]. exfalso. apply Hi. assert (Hp : In p wf).
          { unfold files in Ef. destruct seen_b; [|discriminate]. rewrite Ef. now left. }
          apply Hwf in Hp as (r' & Hr' & [Hlf _] & _). change (h ++ v :: f_cdir fr :: r') with (h ++ [v] ++ [f_cdir fr] ++ r') in Hlf. rewrite !app_assoc in Hlf.
          destruct r' as [|x r']; [congruence|]. apply look_above in Hlf. rewrite (look_child _ _ _ _ Hg) in Hlf. destruct (dget (f_cdir fr) d) eqn:E; [|discriminate].
          apply dget_In in E. apply (in_map fst _ _ E). }
        rewrite Hfe. cbn [add_files fold_left]. unfold u. rewrite Hfe. clear. generalize seen. induction (keys d) as [|k l IH]; intros s; cbn [fold_left]; [reflexivity|].
        destruct (str_eqb k (f_cdir fr)); apply IH. }
    rewrite HC, Hfold. split.
    - intros [D ->]. split; [exact D|]. split; [|reflexivity]. intros p. apply In_add_files.
    - intros (D & _ & ->). auto.
  Qed.

  Lemma contents_ok : exists seen, (forall p, In p seen <-> content w h fr head p) /\
    forall r, clean (wfold (check_version_content w h (f_cdir fr) (vi_sidecars prior)) (f_versions fr) []) r <->
      (forall v, In v (f_versions fr) -> version_directory w h fr head v) /\ r = seen.
  Proof using Hw Hh Hor Hprior.
    assert (G : forall vs, incl vs (f_versions fr) -> forall s, exists seen,
      (forall p, In p seen <-> In p s \/ exists v r, In v vs /\ content_seen w h fr head v /\ r <> [] /\ leaf w (h ++ v :: f_cdir fr :: r) /\ p = join [slash] (v :: f_cdir fr :: r)) /\
      forall r, clean (wfold (check_version_content w h (f_cdir fr) (vi_sidecars prior)) vs s) r <->
        (forall v, In v vs -> version_directory w h fr head v) /\ r = seen).
    { induction vs as [|v vs IH]; intros Hi s.
      - exists s. split; [intros p; split; [auto|intros [E|(v & r & [] & _)]; exact E]|]. intros r. cbn [wfold]. rewrite clean_ret.
        split; [intros ->; split; [intros v []|reflexivity]|intros [_ ->]; reflexivity].
      - destruct (version_content_ok v) as (files & Hf & Hc); [apply Hi; now left|].
        destruct (IH (fun x Hx => Hi x (or_intror Hx)) (add_files files s)) as (seen & Hs & Hr). exists seen. split.
        + intros p. rewrite Hs, In_add_files, (Hf p). split.
          * intros [[E|(C1 & r & R)]|(v' & r & Hv' & R)]; [auto|right; exists v, r; split; [now left|tauto]|right; exists v', r; split; [now right|exact R]].
          * intros [E|(v' & r & [<-|Hv'] & C1 & R)]; [auto|left; right; split; [exact C1|]; exists r; exact R|right; exists v', r; auto].
        + intros r. cbn [wfold]. rewrite clean_bind. split.
          * intros (m & H1 & H2). apply Hc in H1 as (D & _ & ->). apply Hr in H2 as [H2 ->]. split; [|reflexivity]. intros v' [<-|Hv']; auto.
          * intros [D ->]. exists (add_files files s). split; [apply Hc; split; [apply D; now left|split; [intros p; apply In_add_files|reflexivity]]|].
            apply Hr. split; [|reflexivity]. intros v' Hv'. apply D. now right. }
    destruct (G (f_versions fr) (incl_refl _) []) as (seen & Hs & Hr). exists seen. split; [|exact Hr]. intros p. rewrite Hs. unfold content. split.
    - intros [[]|R]; exact R.
    - auto.
  Qed.
End Content.
