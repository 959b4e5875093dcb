(** The inventories of the versions (ocfl/validator.py:296-404). *)
From Verif Require Import Base Unicode Regex Utf8 Json PyJson Log TextFile DigestModel ObjectUtilsModel LayoutProofs.
From Verif Require Import InventorySpec InventoryValidatorModel InventoryValidatorProofs InventoryRulesProofs InventoryPriorProofs.
From Verif Require Import PathModel FsModel FsSpec FsProofs FswModel FswSpec FswProofs FswCopyProofs NamasteModel NamasteSpec NamasteProofs.
From Verif Require Import ValidatorModel ValidatorSpec ValidatorBasicProofs.
Open Scope N_scope.

(** ** Facts of an inventory *)

Lemma obeys_head j f : obeys as_coded j f -> exists h before, member j (`"head") (JStr h) /\ f_versions f = before ++ [h].
Proof. intros (_ & _ & _ & _ & _ & H & _). exact H. Qed.

Lemma facts_unique j f f' : json_wf j -> obeys as_coded j f -> obeys as_coded j f' -> f = f'.
Proof.
  intros Hw Ho Ho'. destruct (obeys_head _ _ Ho) as (h & b & Hh & Hb). destruct (obeys_head _ _ Ho') as (h' & b' & Hh' & Hb').
  assert (E : accepted f h = accepted f' h').
  { assert (E1 : snd (iv_validate false [] None j) = Ok (accepted f h, true)).
    { apply iv_validate_iff; auto. exists f, h, b. split; [exact Ho|]. split; [exact I|auto]. }
    assert (E2 : snd (iv_validate false [] None j) = Ok (accepted f' h', true)).
    { apply iv_validate_iff; auto. exists f', h', b'. split; [exact Ho'|]. split; [exact I|auto]. }
    rewrite E1 in E2. apply Ok_inv in E2. exact (f_equal fst E2). }
  destruct Ho as (_ & _ & _ & _ & (Hm & _) & _). destruct Ho' as (_ & _ & _ & _ & (Hm' & _) & _).
  pose proof (member_fun _ _ _ _ Hw Hm Hm') as Em. injection Em as Em.
  unfold accepted in E. injection E. intros. destruct f, f'. cbn in *. congruence.
Qed.

(** ** Reading an inventory *)

Lemma clean_iv_validate spec j st b : json_wf j ->
  (clean (iv_validate false spec None j) (st, b) <->
   b = true /\ exists f hd, obeys as_coded j f /\ member j (`"head") (JStr hd) /\ st = accepted f hd).
Proof.
  intros Hw. transitivity (b = true /\ snd (iv_validate false spec None j) = Ok (st, true)).
  - unfold iv_validate, clean. destruct (validate_body false spec None j) as [log [[st' [|]]|e]]; cbn [fst snd].
    + split.
      * intros [E Hn]. rewrite Hn in *. apply Ok_inv in E. injection E as -> <-. auto.
      * intros [-> E]. split; [auto|]. apply Ok_inv in E. now injection E as _ ->.
    + split.
      * intros [E Hn]. exfalso. destruct (no_errors log) eqn:E2; [|congruence]. rewrite no_errors_app in Hn. cbn in Hn. rewrite andb_false_r in Hn. discriminate.
      * intros [_ E]. apply Ok_inv in E. discriminate.
    + split; [intros [E _]; discriminate|intros [_ E]; discriminate].
  - rewrite iv_validate_iff by auto. split; intros [-> H]; split; auto.
    + destruct H as (f & hd & be & Ho & _ & _ & Hm & ->). exists f, hd. auto.
    + destruct H as (f & hd & Ho & Hm & ->). destruct (obeys_head _ _ Ho) as (hd' & be & Hm' & Hb).
      assert (hd' = hd) as -> by (pose proof (member_fun _ _ _ _ Hw Hm Hm') as E; congruence).
      exists f, hd, be. split; [exact Ho|]. split; [exact I|auto].
Qed.

Lemma clean_validate_inventory_none c w h f spec : ~ clean (validate_inventory c w h f spec) None.
Proof.
  unfold validate_inventory. intros H. destruct (let* b := fs_read w h f in json_load b) as [j|e].
  - apply clean_bind in H as ([st x] & _ & H). apply clean_ret in H. discriminate.
  - destruct e; rewrite ?clean_bind_error, ?clean_raise in H; exact H.
Qed.
Lemma clean_validate_inventory c w h f spec j st : vc_lax_digests c = false ->
  (clean (validate_inventory c w h f spec) (Some (j, st)) <->
   exists b fa hd, look w (at_path h f) = Some (EFile b) /\ json_load b = Ok j /\ obeys as_coded j fa /\ member j (`"head") (JStr hd) /\
     st = accepted fa hd).
Proof.
  intros Hlax. unfold validate_inventory. rewrite Hlax. destruct (let* b := fs_read w h f in json_load b) as [j'|e] eqn:E.
  - apply ebind_ok in E as (b & E1 & E2). apply fs_read_look in E1. pose proof (json_load_wf _ _ E2) as Hw. rewrite clean_bind. split.
    + intros ([st' x] & H1 & H2). apply clean_ret in H2. injection H2 as -> ->.
      apply clean_iv_validate in H1 as (_ & fa & hd & Ho & Hm & ->); auto. exists b, fa, hd. auto 10.
    + intros (b' & fa & hd & E1' & E2' & Ho & Hm & ->). rewrite E1 in E1'. injection E1' as <-. rewrite E2 in E2'. apply Ok_inv in E2'. subst j'.
      exists (accepted fa hd, true). split; [|now apply clean_ret]. apply clean_iv_validate; auto. split; auto. exists fa, hd. auto.
  - split.
    + intros H. exfalso. destruct e; rewrite ?clean_bind_error, ?clean_raise in H; exact H.
    + intros (b & fa & hd & E1 & E2 & _). apply fs_read_look in E1. rewrite E1 in E. cbn [ebind] in E. congruence.
Qed.

(** ** Recorded digests *)

Definition recorded (m : digests_of_files) (p alg d : str) : Prop :=
  exists algs ds, dget p m = Some algs /\ dget alg algs = Some ds /\ In d ds.
Definition good (m : digests_of_files) : Prop := forall p algs, dget p m = Some algs -> NoDup (keys algs) /\ forall alg ds, dget alg algs = Some ds -> ds <> [].

Lemma recorded_add alg d m p p' alg' d' : recorded (add_digest alg d m p) p' alg' d' <->
  (p' = p /\ alg' = alg /\ d' = d) \/ recorded m p' alg' d'.
Proof.
  unfold recorded, add_digest. cbv zeta. rewrite dget_dset. destruct (str_eqb_spec p' p) as [->|Hp].
  - destruct (dget p m) as [algs|] eqn:Ep.
    + split.
      * intros (a & ds & Ea & Ed & Hi). apply Some_inv in Ea. subst a. rewrite dget_dset in Ed.
        destruct (str_eqb_spec alg' alg) as [->|Ha].
        -- apply Some_inv in Ed. subst ds. apply In_set_add in Hi as [->|Hi]; [auto|]. right.
           destruct (dget alg algs) as [l|] eqn:El; [|destruct Hi]. exists algs, l. auto.
        -- right. exists algs, ds. auto.
      * intros [(_ & -> & ->)|(a & ds & Ea & Ed & Hi)].
        -- eexists _, _. split; [reflexivity|]. rewrite dget_dset_same. split; [reflexivity|]. apply In_set_add. auto.
        -- apply Some_inv in Ea. subst a. destruct (str_eqb_spec alg' alg) as [->|Ha].
           ++ eexists _, _. split; [reflexivity|]. rewrite dget_dset_same. split; [reflexivity|]. rewrite Ed. apply In_set_add. auto.
           ++ eexists _, _. split; [reflexivity|]. rewrite dget_dset_other by auto. split; [exact Ed|auto].
    + split.
      * intros (a & ds & Ea & Ed & Hi). apply Some_inv in Ea. subst a. cbn [dget dset] in Ed.
        destruct (str_eqb_spec alg' alg) as [->|Ha]; [|discriminate]. apply Some_inv in Ed. subst ds.
        apply In_set_add in Hi as [->|[]]. auto.
      * intros [(_ & -> & ->)|(a & ds & Ea & _)]; [|discriminate].
        eexists _, _. split; [reflexivity|]. rewrite dget_dset_same. split; [reflexivity|]. apply In_set_add. auto.
  - split; [intros H; right; exact H|]. intros [(E & _)|H]; [contradiction|exact H].
Qed.

Lemma good_add alg d m p : good m -> good (add_digest alg d m p).
Proof.
  intros Hg q algs. unfold add_digest. cbv zeta. rewrite dget_dset. destruct (str_eqb_spec q p) as [->|]; [|apply Hg].
  intros E. apply Some_inv in E. subst algs. split.
  - apply NoDup_dset. destruct (dget p m) eqn:E; [eapply Hg; eauto|constructor].
  - intros a ds. rewrite dget_dset. destruct (str_eqb_spec a alg) as [->|].
    + intros E. apply Some_inv in E. subst ds. intros E. assert (Hi : In d []) by (rewrite <- E; apply In_set_add; auto). destruct Hi.
    + destruct (dget p m) eqn:E; [eapply Hg; eauto|discriminate].
Qed.
Lemma keys_add alg d m p x : In x (keys (add_digest alg d m p)) <-> x = p \/ In x (keys m).
Proof. unfold add_digest. apply In_keys_dset. Qed.

(** The additions of one block *)
Definition add_all (nd : str -> str) (alg : str) (items : list (str * str)) (m : digests_of_files) : digests_of_files :=
  fold_left (fun m dp => add_digest alg (nd (fst dp)) m (snd dp)) items m.
Lemma recorded_add_all nd alg items : forall m p alg' d, recorded (add_all nd alg items m) p alg' d <->
  recorded m p alg' d \/ (alg' = alg /\ exists d0, In (d0, p) items /\ d = nd d0).
Proof.
  induction items as [|[d0 q] items IH]; intros m p alg' d; cbn [add_all fold_left].
  - split; [auto|]. intros [H|(_ & d1 & [] & _)]. exact H.
  - fold (add_all nd alg items (add_digest alg (nd (fst (d0, q))) m (snd (d0, q)))). rewrite IH, recorded_add. cbn [fst snd]. split.
    + intros [[(-> & -> & ->)|H]|(-> & d1 & Hi & ->)]; [right|auto|right].
      * split; auto. exists d0. split; [now left|auto].
      * split; auto. exists d1. split; [now right|auto].
    + intros [H|(-> & d1 & [E|Hi] & ->)]; [auto| |right; eauto]. injection E as -> ->. left. left. auto.
Qed.
Lemma good_add_all nd alg items : forall m, good m -> good (add_all nd alg items m).
Proof. induction items as [|x items IH]; intros m Hm; [exact Hm|]. apply IH. now apply good_add. Qed.
Lemma keys_add_all nd alg items : forall m x, In x (keys (add_all nd alg items m)) <-> In x (map snd items) \/ In x (keys m).
Proof.
  induction items as [|y items IH]; intros m x; cbn [map]; [cbn; tauto|]. unfold add_all. cbn [fold_left].
  fold (add_all nd alg items (add_digest alg (nd (fst y)) m (snd y))). rewrite IH, keys_add. cbn [In]. intuition.
Qed.

(** ** Blocks of digests *)

Definition pairs (block : dict json) : list (str * str) := flat_map (fun kv => map (pair (fst kv)) (strings (snd kv))) block.
Lemma In_pairs block d p : In (d, p) (pairs block) <-> lists block d p.
Proof.
  unfold pairs, lists. rewrite in_flat_map. split.
  - intros ([k x] & Hk & Hi). apply in_map_iff in Hi as (q & E & Hq). cbn [fst snd] in *. injection E as -> ->. eauto.
  - intros (x & Hx & Hp). exists (d, x). split; auto. apply in_map_iff. eauto.
Qed.
Lemma map_snd_pairs block : map snd (pairs block) = listed block.
Proof.
  unfold pairs, listed. induction block as [|kv block IH]; cbn [flat_map]; [reflexivity|]. rewrite map_app, IH. f_equal.
  rewrite map_map. apply map_id.
Qed.
Lemma lists_listed block d p : lists block d p -> In p (listed block).
Proof. intros H. rewrite <- map_snd_pairs. apply in_map_iff. exists (d, p). split; [reflexivity|]. now apply In_pairs. Qed.
Lemma listed_lists block p : In p (listed block) -> exists d, lists block d p.
Proof. rewrite <- map_snd_pairs. intros H. apply in_map_iff in H as ([d q] & <- & H). exists d. now apply In_pairs. Qed.

Lemma path_items_ok x : string_array x -> path_items x = Ok (strings x).
Proof.
  intros [l ->]. unfold path_items. cbn [py_iter ebind]. rewrite strings_map.
  assert (E : emap (fun x => if hashable x then Ok (match x with JStr s => [s] | _ => [] end) else Raise TypeError) (map JStr l) = Ok (map (fun s => [s]) l)).
  { induction l as [|s l IH]; cbn [map emap]; [reflexivity|]. cbn [hashable ebind]. rewrite IH. reflexivity. }
  rewrite E. cbn [ebind]. f_equal. clear E. induction l as [|s l IH]; cbn; [reflexivity|]. now rewrite IH.
Qed.
Lemma digest_paths_ok block : (forall d x, In (d, x) block -> string_array x) -> digest_paths (JObj block) = Ok (pairs block).
Proof.
  intros Hs. unfold digest_paths. cbn [block_items ebind].
  assert (E : emap (fun kv : str * json => let* ps := path_items (snd kv) in Ok (map (fun p => (fst kv, p)) ps)) block =
    Ok (map (fun kv => map (pair (fst kv)) (strings (snd kv))) block)).
  { induction block as [|[d x] block IH]; cbn [map emap]; [reflexivity|]. cbn [snd fst]. rewrite path_items_ok by (apply (Hs d); now left).
    cbn [ebind]. rewrite IH by (intros; eapply Hs; right; eauto). reflexivity. }
  rewrite E. cbn [ebind]. f_equal. unfold pairs. now rewrite flat_map_concat_map.
Qed.

Lemma obeys_manifest j f : obeys as_coded j f -> member j (`"manifest") (JObj (f_manifest f)) /\
  forall d x, In (d, x) (f_manifest f) -> string_array x.
Proof. intros (_ & _ & _ & _ & (Hm & Hs & _) & _). split; auto. intros d x Hd. now apply Hs in Hd. Qed.

(** ** Fixity *)

Lemma fixity_cases j f : obeys as_coded j f -> lacks j (`"fixity") \/
  exists fx, member j (`"fixity") (JObj fx) /\ forall alg x, In (alg, x) fx ->
    exists block, x = JObj block /\ (forall d y, In (d, y) block -> string_array y) /\ incl (listed block) (listed (f_manifest f)) /\
      exists n, digest_size alg n \/ In alg [`"sha512-spec-ex"; `"sha256-spec-ex"].
Proof.
  intros (_ & _ & _ & _ & _ & _ & [H|(fx & Hm & Hf)] & _); [now left|right]. exists fx. split; auto. intros alg x Hi.
  destruct (Hf _ _ Hi) as (Ha & block & -> & Hb & _). exists block. repeat split; auto.
  - intros d y Hd. now apply Hb in Hd.
  - intros p Hp. unfold listed in Hp. apply in_flat_map in Hp as ([d y] & Hd & Hp). apply Hb in Hd as (_ & _ & Hi'). now apply Hi'.
  - destruct Ha as [[n Hn]|Ha]; [exists n; auto|exists 0%nat; auto].
Qed.

Lemma obeys_obj j f : obeys as_coded j f -> exists d, j = JObj d.
Proof. intros ((( d & -> & _) & _) & _). eauto. Qed.

Lemma py_in_member j f k : json_wf j -> obeys as_coded j f -> (exists v, member j k v /\ py_in k j = Ok true /\ py_getitem k j = Ok v) \/
  (lacks j k /\ py_in k j = Ok false).
Proof.
  intros Hw Ho. destruct (obeys_obj _ _ Ho) as [d ->]. destruct (dmem k d) eqn:E.
  - left. apply dmem_true in E. apply in_map_iff in E as ([k' v] & <- & Hi). exists v. assert (Hm : member (JObj d) k' v) by (exists d; auto).
    split; [exact Hm|]. now apply member_py.
  - right. assert (Hl : lacks (JObj d) k) by now apply lacks_obj. split; auto. now apply lacks_py.
Qed.

Lemma record_fixity_ok j f m : json_wf j -> obeys as_coded j f -> exists m', record_fixity j m = Ok m' /\
  (forall p alg d, recorded m' p alg d <-> recorded m p alg d \/ exists d0, fixity_lists j alg d0 p /\ d = normalized_digest d0 alg) /\
  (good m -> good m').
Proof.
  intros Hw Ho. unfold record_fixity. destruct (fixity_cases _ _ Ho) as [Hl|(fx & Hm & Hf)].
  - destruct (py_in_member j f (`"fixity") Hw Ho) as [(v & Hv & _)|[_ E]]; [destruct (member_lacks _ _ _ Hv Hl)|].
    rewrite E. cbn [ebind negb]. exists m. split; [reflexivity|]. split; [|auto]. intros p alg d. split; [auto|]. intros [H|(d0 & (fx & block & Hm & _) & _)]; [exact H|].
    destruct (member_lacks _ _ _ Hm Hl).
  - destruct (member_py _ _ _ Hw Hm) as [E1 E2]. rewrite E1. cbn [ebind negb]. rewrite E2. cbn [ebind block_items].
    assert (G : forall fx', (forall alg x, In (alg, x) fx' -> exists block, x = JObj block /\ forall d y, In (d, y) block -> string_array y) ->
      forall m, exists m', efold (fun m (ab : str * json) =>
             let* items := digest_paths (snd ab) in
             Ok (fold_left (fun m dp => add_digest (fst ab) (normalized_digest (fst dp) (fst ab)) m (snd dp)) items m)) fx' m = Ok m' /\
        (forall p alg d, recorded m' p alg d <-> recorded m p alg d \/ exists d0 block, In (alg, JObj block) fx' /\ lists block d0 p /\ d = normalized_digest d0 alg) /\
        (good m -> good m')).
    { clear. induction fx' as [|[alg x] fx' IH]; intros Hx m; cbn [efold].
      - exists m. split; [reflexivity|]. split; [|auto]. intros p a d. split; [auto|]. intros [H|(d0 & block & [] & _)]. exact H.
      - destruct (Hx alg x) as (block & -> & Hs); [now left|]. cbn [fst snd]. rewrite (digest_paths_ok _ Hs). cbn [ebind].
        fold (add_all (fun d => normalized_digest d alg) alg (pairs block) m).
        destruct (IH (fun a y Hi => Hx a y (or_intror Hi)) (add_all (fun d => normalized_digest d alg) alg (pairs block) m)) as (m' & E & Hr & Hg).
        exists m'. split; [exact E|]. split; [|intros Hm; now apply Hg, good_add_all].
        intros p a d. rewrite Hr, recorded_add_all. split.
        + intros [[H|(-> & d0 & Hi & ->)]|(d0 & b & Hi & Hl & ->)]; [auto| |].
          * right. exists d0, block. split; [now left|]. split; [now apply In_pairs|auto].
          * right. exists d0, b. split; [now right|auto].
        + intros [H|(d0 & b & [E'|Hi] & Hl & ->)]; [auto| |].
          * injection E' as -> ->. left. right. split; auto. exists d0. split; [now apply In_pairs|auto].
          * right. exists d0, b. auto. }
    destruct (G fx) with (m := m) as (m' & E & Hr & Hg).
    { intros alg x Hi. destruct (Hf _ _ Hi) as (block & -> & Hs & _). eauto. }
    exists m'. split; [exact E|]. split; [|exact Hg]. intros p alg d. rewrite Hr. split.
    + intros [H|(d0 & b & Hi & Hl & ->)]; [auto|]. right. exists d0. split; auto. exists fx, b. auto.
    + intros [H|(d0 & (fx' & b & Hm' & Hi & Hl) & ->)]; [auto|]. right.
      pose proof (member_fun _ _ _ _ Hw Hm Hm') as E'. injection E' as <-. exists d0, b. auto.
Qed.

(** ** Names of versions *)

Lemma version_seq_fname ww vs v : version_sequence ww vs -> In v vs -> fname v /\ ~ In 10 v.
Proof.
  intros [_ Hn] Hv. apply In_nth_error in Hv as [i Hi]. destruct (Hn _ _ Hi) as (ds & -> & _ & Hd & _ & _). rewrite Forall_forall in Hd.
  assert (Hc : forall c, In c (`"v" ++ ds) -> c = 118 \/ 48 <= c <= 57).
  { intros c [<-|Hc]; [left; reflexivity|]. right. apply (Hd c Hc). }
  split.
  - split; [discriminate|]. split; [discriminate|]. split; [discriminate|]. intros Hs. apply Hc in Hs. unfold slash in Hs. lia.
  - intros Hs. apply Hc in Hs. lia.
Qed.
Lemma version_seq_nodup ww vs : version_sequence ww vs -> NoDup vs.
Proof.
  intros [_ Hn]. apply NoDup_nth_error. intros i j Hi E. destruct (nth_error vs i) as [v|] eqn:Ei; [|apply nth_error_None in Ei; lia].
  symmetry in E. destruct (Hn _ _ Ei) as (ds & -> & _ & _ & E1 & _). destruct (Hn _ _ E) as (ds' & E' & _ & _ & E2 & _).
  apply app_inv_head in E'. subst ds'. lia.
Qed.
Lemma obeys_versions j f : obeys as_coded j f -> exists ww, version_sequence ww (f_versions f).
Proof. intros (_ & _ & _ & _ & _ & _ & _ & vs & (_ & (ww & Hs & _) & _) & _). eauto. Qed.

Lemma spec_gt a b : In a [`"1.0"; `"1.1"] -> In b [`"1.0"; `"1.1"] -> (str_gt a b = false <-> no_later a b).
Proof.
  intros [<-|[<-|[]]] [<-|[<-|[]]]; (split; [|]); intros E; unfold no_later in *; auto; try reflexivity; try discriminate E.
  destruct E as [E|[E _]]; discriminate E.
Qed.
Lemma no_later_trans a b c : no_later a b -> no_later b c -> no_later a c.
Proof. unfold no_later. intros [->|[-> ->]] [->|[E ->]]; auto. Qed.

Lemma path_join_two v k : fname v -> fname k -> path_join v k = join [slash] [v; k].
Proof.
  intros Hv Hk. rewrite path_join_name by auto. destruct (last_opt v) as [c|] eqn:E.
  - destruct (N.eqb_spec c slash) as [->|Hc]; [|reflexivity]. exfalso. apply (proj2 (proj2 (proj2 Hv))). apply last_opt_some in E as [r ->].
    apply in_app_iff. right. now left.
  - destruct v as [|x v] using rev_ind; [now destruct Hv|]. now rewrite last_opt_app in E.
Qed.

Lemma notin_b (x : N) l : existsb (N.eqb x) l = false -> ~ In x l.
Proof. intros E Hi. apply not_true_iff_false in E. apply E. apply existsb_exists. exists x. split; [exact Hi|apply N.eqb_refl]. Qed.

Lemma C13_same sizes w h f1 f2 : fsw_files_identical sizes w h f1 f2 = Ok true ->
  f1 = f2 \/ exists b, look w (at_path h f1) = Some (EFile b) /\ look w (at_path h f2) = Some (EFile b).
Proof.
  intros H. unfold fsw_files_identical in H.
  apply ebind_ok in H as (i1 & _ & H). apply ebind_ok in H as (i2 & _ & H).
  destruct (_ || _); [discriminate|]. destruct (str_eqb_spec f1 f2) as [|Hne]; [auto|]. right.
  apply ebind_ok in H as (b1 & E1 & H). apply ebind_ok in H as (b2 & E2 & H).
  rewrite same_content_ok in H. apply Ok_inv in H. destruct (str_eqb_spec b1 b2) as [E|]; [|discriminate].
  exists b1. apply fs_read_look in E1, E2. rewrite <- E in E2. auto.
Qed.

(** ** One version *)

Section Versions.
  Variable H : hashfn.
  Variable c : vconf.
  Variable w : node.
  Variable h : place.
  Variables (root : json) (fr : facts) (rb : bytes) (head spec : str).
  Hypothesis Hlax : vc_lax_digests c = false.
  Hypothesis Hh : Forall fname h.
  Hypothesis Hwr : json_wf root.
  Hypothesis Hor : obeys as_coded root fr.
  Hypothesis Hrb : at_root w h [`"inventory.json"] = Some (EFile rb).
  Hypothesis Hspec : In spec [`"1.0"; `"1.1"].

  Let ri := mkRoot root (accepted fr head) spec.
  Let step := validate_version_dir H c w h ri head.
  Notation chk := (vc_check_digests c).

  Lemma inv_fname : fname (`"inventory.json").
  Proof using. apply fname_b_ok. reflexivity. Qed.
  Lemma sidecar_fname alg : In alg [`"sha512"; `"sha256"] -> fname (`"inventory.json." ++ alg).
  Proof using. intros [<-|[<-|[]]]; apply fname_b_ok; reflexivity. Qed.

  Lemma inv_place v : fname v -> at_path h (path_join v INVENTORY_FILENAME) = h ++ [v; `"inventory.json"].
  Proof using Hh.
    intros Hv. change INVENTORY_FILENAME with (`"inventory.json"). rewrite path_join_two by (auto; apply inv_fname).
    apply at_path_join; auto. constructor; [auto|]. constructor; [apply inv_fname|constructor].
  Qed.
  Lemma sidecar_place v alg : fname v -> In alg [`"sha512"; `"sha256"] ->
    at_path h (path_join v INVENTORY_FILENAME ++ `"." ++ alg) = h ++ [v] ++ [`"inventory.json." ++ alg].
  Proof using Hh.
    intros Hv Ha. change INVENTORY_FILENAME with (`"inventory.json"). rewrite path_join_two by (auto; apply inv_fname).
    replace (join [slash] [v; `"inventory.json"] ++ `"." ++ alg) with (join [slash] [v; `"inventory.json." ++ alg]).
    - apply at_path_join; auto. constructor; [auto|]. constructor; [now apply sidecar_fname|constructor].
    - cbn [join]. rewrite <- !app_assoc. reflexivity.
  Qed.
  Lemma inv_exists v : fname v -> (fs_exists w h (path_join v INVENTORY_FILENAME) = true <-> has_inventory w h v).
  Proof using Hh.
    intros Hv. unfold has_inventory, at_root. rewrite <- (inv_place v Hv). apply fs_exists_look.
  Qed.

  Lemma step_none v s s' : fname v -> ~ has_inventory w h v -> (clean (step s v) s' <-> s' = Some s).
  Proof using Hh.
    intros Hv Hn. unfold step, validate_version_dir. cbv zeta. destruct (fs_exists w h (path_join v INVENTORY_FILENAME)) eqn:E.
    - apply inv_exists in E; auto. contradiction.
    - cbn [negb]. rewrite clean_bind_warning, clean_ret. split; congruence.
  Qed.

  Lemma clean_check_id j f u : json_wf j -> obeys as_coded j f -> (clean (check_id (iv_id (accepted fr head)) j) u <-> f_id f = f_id fr).
  Proof using Hor.
    intros Hw Ho. destruct Ho as ((Hid & _) & _). destruct Hor as ((_ & Hne) & _). unfold check_id. cbn [iv_id accepted].
    destruct (f_id fr) as [|x l] eqn:E; [congruence|]. cbn [truthy]. destruct (member_py _ _ _ Hw Hid) as [E1 E2].
    rewrite E1, E2. rewrite clean_bind. split.
    - intros (a & H1 & H2). apply clean_lift in H1. apply Ok_inv in H1. subst a. apply clean_bind in H2 as (a & H1 & H2).
      apply clean_lift in H1. apply Ok_inv in H1. subst a. destruct (json_eq_str _ _) eqn:Ej.
      + apply json_eq_str_iff in Ej. congruence.
      + now apply clean_error in H2.
    - intros Ei. exists true. split; [now apply clean_lift|]. apply clean_bind. exists (JStr (f_id f)). split; [now apply clean_lift|].
      rewrite (proj2 (json_eq_str_iff _ _)) by congruence. apply clean_ret. now destruct u.
  Qed.

  Lemma clean_check_cdir f hd u : clean (check_content_directory (accepted fr head) (accepted f hd)) u <->
    f_cdir f = f_cdir fr /\ (f_cdir_set fr = true -> f_cdir_set f = true).
  Proof using.
    unfold check_content_directory. cbn [iv_content_directory iv_content_directory_set accepted].
    destruct (f_cdir_set f); cbn [negb andb]; [|destruct (f_cdir_set fr)]; rewrite ?clean_bind_error, ?clean_bind_ret.
    - destruct (str_eqb_spec (f_cdir fr) (f_cdir f)) as [E|E]; rewrite ?clean_ret, ?clean_error.
      + split; [auto|]. intros _. now destruct u.
      + split; [tauto|]. intros [E' _]. congruence.
    - split; [tauto|]. intros [_ E]. discriminate E. reflexivity.
    - destruct (str_eqb_spec (f_cdir fr) (f_cdir f)) as [E|E]; rewrite ?clean_ret, ?clean_error.
      + split; [|intros _; now destruct u]. intros _. split; [auto|discriminate].
      + split; [tauto|]. intros [E' _]. congruence.
  Qed.

  Lemma clean_check_manifest j f a m m' : json_wf j -> obeys as_coded j f ->
    (clean (check_manifest (JStr a) j m) m' <-> incl (keys m) (listed (f_manifest f)) /\
       m' = add_all (fun d => normalized_digest d a) a (pairs (f_manifest f)) m).
  Proof using.
    intros Hw Ho. destruct (obeys_manifest _ _ Ho) as [Hm Hs]. destruct (member_py _ _ _ Hw Hm) as [E1 E2].
    unfold check_manifest. rewrite E1, E2. cbn [wlift].
    rewrite clean_bind. cbn [negb]. transitivity (clean ((if forallb (fun p => str_in p (map snd (pairs (f_manifest f)))) (keys m) then wret tt else werror (`"E023b")) ;!
      wret (add_all (fun d => normalized_digest d a) a (pairs (f_manifest f)) m)) m').
    - split.
      + intros (x & H1 & H2). apply clean_lift in H1. apply Ok_inv in H1. subst x. cbn [negb] in H2. apply clean_bind in H2 as (x & H1 & H2).
        apply clean_lift in H1. apply Ok_inv in H1. subst x. rewrite (digest_paths_ok _ Hs) in H2. apply clean_bind in H2 as (x & H1 & H2).
        apply clean_lift in H1. apply Ok_inv in H1. subst x. exact H2.
      + intros H1. exists true. split; [now apply clean_lift|]. cbn [negb]. apply clean_bind. exists (JObj (f_manifest f)). split; [now apply clean_lift|].
        rewrite (digest_paths_ok _ Hs). apply clean_bind. exists (pairs (f_manifest f)). split; [now apply clean_lift|exact H1].
    - rewrite map_snd_pairs. destruct (forallb _ (keys m)) eqn:E.
      + rewrite clean_bind_ret, clean_ret. rewrite forallb_forall in E. split; [|intros [_ ->]; reflexivity].
        intros <-. split; [|reflexivity]. intros p Hp. apply str_in_true. now apply E.
      + rewrite clean_bind_error. split; [tauto|]. intros [Hi _]. apply not_true_iff_false in E. apply E.
        apply forallb_forall. intros p Hp. apply str_in_true. now apply Hi.
  Qed.

  Lemma clean_prior_version j f hd x : json_wf j -> obeys as_coded j f ->
    (clean (validate_as_prior_version root (accepted fr head) j (accepted f hd)) x <->
     x = true /\ earlier_part j root f fr /\
     (f_alg f = f_alg fr -> forall v d, In v (f_versions f) -> (has_digest j v d <-> has_digest root v d))).
  Proof using Hwr Hor.
    intros Hw Ho. rewrite <- (prior_version_iff root j fr f head hd Hwr Hw Hor Ho).
    unfold validate_as_prior_version. destruct (if negb _ then _ else _) as [log [[]|e]]; unfold clean; cbn [fst snd].
    - split.
      + intros [E1 E2]. rewrite E2 in *. apply Ok_inv in E1. auto.
      + intros [-> E]. apply Ok_inv in E. rewrite E. auto.
    - split; [intros [E _]; discriminate|intros [_ E]; discriminate].
  Qed.

  Lemma step_earlier v s s' : fname v -> ~ In 10 v -> v <> head -> has_inventory w h v -> In (vi_prev_spec s) [`"1.0"; `"1.1"] ->
    (clean (step s v) s' <-> exists b j f pf, earlier_inventory H chk w h root fr v b j f /\
       incl (keys (vi_manifest s)) (listed (f_manifest f)) /\ no_later (vi_prev_spec s) (f_spec f) /\
       record_fixity j (vi_fixity s) = Ok pf /\
       s' = Some (mkVis (add_all (fun d => normalized_digest d (f_alg f)) (f_alg f) (pairs (f_manifest f)) (vi_manifest s)) pf
              (dset v (`"inventory.json." ++ f_alg f) (vi_sidecars s)) (f_spec f))).
  Proof using Hlax Hh Hwr Hor rb.
    intros Hv Hnl Hne Hi Hps. unfold step, validate_version_dir. cbv zeta. rewrite (proj2 (inv_exists v Hv) Hi). cbn [negb].
    destruct (str_eqb_spec v head) as [|_]; [contradiction|]. rewrite clean_bind.
    assert (Hnl' : ~ In 10 (path_join v INVENTORY_FILENAME)).
    { change INVENTORY_FILENAME with (`"inventory.json"). rewrite path_join_two by (auto; apply inv_fname). cbn [join]. rewrite !in_app_iff.
      intros [E|[E|E]]; [tauto| |]; revert E; apply notin_b; reflexivity. }
    split.
    - intros (o & H1 & H2).
      apply clean_bind in H1 as ([[j st]|] & H1 & H3); [|now apply clean_validate_inventory_none in H1]. apply clean_validate_inventory in H1 as (b & f & hd & Hl & Hj & Ho & Hm & ->); [|exact Hlax].
      rewrite (inv_place v Hv) in Hl. pose proof (json_load_wf _ _ Hj) as Hw. pose proof Ho as Ho'. destruct Ho' as (_ & (t & _ & _ & Hsp) & (_ & Ha) & _).
      apply clean_bind in H3 as (u & H1 & H3). cbn [iv_digest_algorithm accepted] in H1.
      apply (clean_inventory_digest H c w h _ [v] (f_alg f) b u Hnl' Ha) in H1; [|exact (inv_place v Hv)|exact (sidecar_place v _ Hv Ha)|exact Hl].
      apply clean_bind in H3 as (sc & Hsc & H3). cbn [iv_digest_algorithm accepted] in Hsc. apply clean_ret in Hsc. subst sc.
      apply clean_bind in H3 as (u1 & Hid & H3). change (iv_id (ri_iv ri)) with (iv_id (accepted fr head)) in Hid. apply (clean_check_id j f) in Hid; [|exact Hw|exact Ho].
      apply clean_bind in H3 as (u2 & Hcd & H3). change (ri_iv ri) with (accepted fr head) in Hcd. apply clean_check_cdir in Hcd as [Hcd Hcs].
      apply clean_bind in H3 as (pm & Hpm & H3). cbn [iv_digest_algorithm accepted] in Hpm. apply (clean_check_manifest j f) in Hpm as [Hin ->]; [|exact Hw|exact Ho].
      apply clean_bind in H3 as (u3 & Hpv & H3). change (ri_iv ri) with (accepted fr head) in Hpv. change (ri_inventory ri) with root in Hpv. apply (clean_prior_version j f hd) in Hpv as (_ & Hep & Hdg); [|exact Hw|exact Ho].
      apply clean_bind in H3 as (pf & Hpf & H3). apply clean_lift in Hpf. apply clean_ret in H3. cbn [iv_spec_version accepted] in H3. subst o.
      cbn [vi_manifest vi_fixity vi_sidecars] in H2.
      destruct (str_gt (vi_prev_spec s) (f_spec f)) eqn:Eg; [now rewrite clean_bind_error in H2|]. rewrite clean_bind_ret, clean_ret in H2.
      exists b, j, f, pf. split; [|split; [exact Hin|split; [now apply spec_gt|auto]]].
      split; [split; [exact Hl|exact Hj]|]. split; [exact Ho|]. split; [exact H1|]. auto 10.
    - intros (b & j & f & pf & ((Hl & Hj) & Ho & Hsd & Hid & Hcd & Hcs & Hep & Hdg) & Hin & Hsg & Hpf & ->).
      unfold at_root in Hl. cbn [app] in Hl. rewrite <- (inv_place v Hv) in Hl. pose proof (json_load_wf _ _ Hj) as Hw.
      destruct (obeys_head _ _ Ho) as (hd & be & Hm & Hbe). pose proof Ho as Ho'. destruct Ho' as (_ & (t & _ & _ & Hsp) & (_ & Ha) & _).
      eexists (Some (_, _)). split.
      + apply clean_bind. exists (Some (j, accepted f hd)). split; [apply clean_validate_inventory; [exact Hlax|]; exists b, f, hd; auto|].
        cbn [iv_digest_algorithm iv_spec_version accepted].
        apply clean_bind. exists tt. split.
        { apply (clean_inventory_digest H c w h _ [v] (f_alg f) b tt Hnl' Ha); [exact (inv_place v Hv)|exact (sidecar_place v _ Hv Ha)| |exact Hsd].
          unfold at_root. cbn [app]. now rewrite <- (inv_place v Hv). }
        apply clean_bind. exists (`"inventory.json." ++ f_alg f). split; [now apply clean_ret|].
        apply clean_bind. exists tt. split; [apply (clean_check_id j f); auto|].
        apply clean_bind. exists tt. split; [apply clean_check_cdir; auto|].
        apply clean_bind. eexists. split; [apply (clean_check_manifest j f); [exact Hw|exact Ho|split; [exact Hin|reflexivity]]|].
        apply clean_bind. exists true. split; [apply (clean_prior_version j f hd); auto|].
        apply clean_bind. exists pf. split; [now apply clean_lift|]. now apply clean_ret.
      + cbn [vi_manifest vi_fixity vi_sidecars]. rewrite (proj2 (spec_gt _ _ Hps Hsp) Hsg). rewrite clean_bind_ret. now apply clean_ret.
  Qed.

  Lemma step_head s s' : fname head -> ~ In 10 head -> has_inventory w h head -> In (vi_prev_spec s) [`"1.0"; `"1.1"] ->
    (clean (step s head) s' <-> at_root w h [head; `"inventory.json"] = Some (EFile rb) /\ sidecar H chk w h [head] (f_alg fr) rb /\
       no_later (vi_prev_spec s) spec /\
       s' = Some (mkVis (vi_manifest s) (vi_fixity s) (dset head (`"inventory.json." ++ f_alg fr) (vi_sidecars s)) spec)).
  Proof using Hh Hor Hrb Hspec.
    intros Hv Hnl Hi Hps. unfold step, validate_version_dir. cbv zeta. rewrite (proj2 (inv_exists head Hv) Hi). cbn [negb].
    rewrite str_eqb_refl. rewrite clean_bind. pose proof Hor as Ho'. destruct Ho' as (_ & _ & (_ & Ha) & _).
    assert (Hnl' : ~ In 10 (path_join head INVENTORY_FILENAME)).
    { change INVENTORY_FILENAME with (`"inventory.json"). rewrite path_join_two by (auto; apply inv_fname). cbn [join]. rewrite !in_app_iff.
      intros [E|[E|E]]; [tauto| |]; revert E; apply notin_b; reflexivity. }
    assert (Hrp : at_path h INVENTORY_FILENAME = h ++ [`"inventory.json"]).
    { change INVENTORY_FILENAME with (join [slash] [`"inventory.json"]). apply at_path_join; auto. constructor; [apply inv_fname|constructor]. }
    assert (Hrl : look w (at_path h INVENTORY_FILENAME) = Some (EFile rb)) by (rewrite Hrp; exact Hrb).
    cbn [ri_iv ri iv_digest_algorithm accepted ri_spec]. split.
    - intros (o & H1 & H2). apply clean_bind in H1 as (same & Hsame & H1). apply clean_lift in Hsame.
      apply clean_bind in H1 as (u & Hd & H1). apply clean_ret in H1. subst o. destruct same; [|now apply clean_error in Hd].
      assert (Hl : look w (at_path h (path_join head INVENTORY_FILENAME)) = Some (EFile rb)).
      { destruct (C13_same _ _ _ _ _ Hsame) as [E|(b & E1 & E2)].
        - now rewrite E.
        - rewrite E1. rewrite Hrl in E2. congruence. }
      rewrite inv_place in Hl by auto.
      apply (clean_inventory_digest H c w h _ [head] (f_alg fr) rb u Hnl' Ha) in Hd; [|exact (inv_place head Hv)|exact (sidecar_place head _ Hv Ha)|exact Hl].
      cbn [vi_manifest vi_fixity vi_sidecars] in H2. destruct (str_gt (vi_prev_spec s) spec) eqn:Eg; [now rewrite clean_bind_error in H2|].
      rewrite clean_bind_ret, clean_ret in H2. split; [exact Hl|]. split; [exact Hd|]. split; [now apply spec_gt|]. now subst.
    - intros (Hl & Hsd & Hsg & ->). unfold at_root in Hl. rewrite <- (inv_place head Hv) in Hl. eexists (Some (_, _)). split.
      + apply clean_bind. exists true. split.
        { apply clean_lift. rewrite (files_identical_ok _ _ _ _ _ rb rb) by auto. now rewrite str_eqb_refl. }
        apply clean_bind. exists tt. split.
        { apply (clean_inventory_digest H c w h _ [head] (f_alg fr) rb tt Hnl' Ha); [exact (inv_place head Hv)|exact (sidecar_place head _ Hv Ha)| |exact Hsd].
          unfold at_root. cbn [app]. now rewrite <- (inv_place head Hv). }
        now apply clean_ret.
      + cbn [vi_manifest vi_fixity vi_sidecars]. rewrite (proj2 (spec_gt _ _ Hps Hspec) Hsg). rewrite clean_bind_ret. now apply clean_ret.
  Qed.
End Versions.
