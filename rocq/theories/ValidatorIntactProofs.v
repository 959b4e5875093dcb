(** The digests of the files, and the whole of validate_object (ocfl/validator.py:109-182, 406-502). *)
From Verif Require Import Base Unicode Regex Utf8 Json PyJson Log TextFile DigestModel ObjectUtilsModel LayoutProofs.
From Verif Require Import InventoryParseProofs.
From Verif Require Import InventorySpec InventoryValidatorModel InventoryValidatorProofs InventoryRulesProofs InventoryPriorProofs.
From Verif Require Import PathModel FsModel FsSpec FsProofs FswModel FswSpec FswProofs FswCopyProofs NamasteModel NamasteSpec NamasteProofs.
From Verif Require Import ValidatorModel ValidatorSpec ValidatorBasicProofs ValidatorVersionProofs ValidatorFoldProofs ValidatorContentProofs.
Open Scope N_scope.

(** ** The fixity block of the root inventory *)

Definition fixity_add (ab : str * json) (m : digests_of_files) : digests_of_files :=
  match snd ab with JObj block => add_all (fun d => d) (fst ab) (pairs block) m | _ => m end.
Definition fixity_all (fx : dict json) : digests_of_files := fold_left (fun m ab => fixity_add ab m) fx [].

Lemma fixity_all_ok fx : (forall p alg d, recorded (fixity_all fx) p alg d <-> exists block, In (alg, JObj block) fx /\ lists block d p) /\ good (fixity_all fx).
Proof.
  unfold fixity_all.
  assert (G : forall fx m, (forall p alg d, recorded (fold_left (fun m ab => fixity_add ab m) fx m) p alg d <->
      recorded m p alg d \/ exists block, In (alg, JObj block) fx /\ lists block d p) /\ (good m -> good (fold_left (fun m ab => fixity_add ab m) fx m))).
  { clear. induction fx as [|[a x] fx IH]; intros m; cbn [fold_left].
    - split; [|auto]. intros p alg d. split; [auto|]. intros [R|(b & [] & _)]. exact R.
    - destruct (IH (fixity_add (a, x) m)) as [I1 I2]. split.
      + intros p alg d. rewrite I1. unfold fixity_add. cbn [fst snd].
        assert (E : recorded (match x with JObj block => add_all (fun d0 => d0) a (pairs block) m | _ => m end) p alg d <->
          recorded m p alg d \/ exists block, (a, x) = (alg, JObj block) /\ lists block d p).
        { destruct x as [| | | | |b|b]; try (split; [auto|]; intros [R|(b' & E & _)]; [exact R|discriminate E]).
          rewrite recorded_add_all. split.
          - intros [R|(-> & d0 & Hi & ->)]; [auto|]. right. exists b. split; [reflexivity|]. now apply In_pairs.
          - intros [R|(b' & E & Hl)]; [auto|]. injection E as -> ->. right. split; [reflexivity|]. exists d. split; [now apply In_pairs|reflexivity]. }
        rewrite E. split.
        * intros [[R|(b & Eb & Hl)]|(b & Hi & Hl)]; [auto| |]; right; exists b; (split; [|exact Hl]); [now left|now right].
        * intros [R|(b & [Eb|Hi] & Hl)]; [auto|left; right; eauto|right; eauto].
      + intros Hg. apply I2. unfold fixity_add. cbn [fst snd]. destruct x; auto. now apply good_add_all. }
  destruct (G fx []) as [G1 G2]. split.
  - intros p alg d. rewrite G1. split; [|auto]. intros [(a & ds & E & _)|R]; [discriminate E|exact R].
  - apply G2. intros p algs E. discriminate E.
Qed.

Lemma clean_fixity_items alg seen items m r :
  clean (wfold (fun m (dp : str * str) => if str_in (snd dp) seen then wret (add_digest alg (fst dp) m (snd dp))
                                else werror (`"E093b") ;! wret m) items m) r <->
  (forall dp, In dp items -> In (snd dp) seen) /\ r = add_all (fun d => d) alg items m.
Proof.
  apply (clean_wfold_fun _ (fun dp => In (snd dp) seen) (fun dp m => add_digest alg (fst dp) m (snd dp))).
  intros s k r' _. destruct (str_in (snd k) seen) eqn:E.
  - apply str_in_true in E. rewrite clean_ret. split; [intros <-; auto|intros [_ ->]; auto].
  - apply str_in_false in E. rewrite clean_bind_error. tauto.
Qed.

Lemma clean_root_fixity root fr seen : json_wf root -> obeys as_coded root fr ->
  exists m, good m /\ (forall p alg d, recorded m p alg d <-> fixity_lists root alg d p) /\
    forall r, clean (root_fixity root seen) r <-> (forall alg d p, fixity_lists root alg d p -> In p seen) /\ r = m.
Proof.
  intros Hw Ho. unfold root_fixity. destruct (fixity_cases _ _ Ho) as [Hl|(fx & Hm & Hf)].
  - assert (Hno : forall alg d p, ~ fixity_lists root alg d p) by (intros alg d p (fx & b & Hm & _); destruct (member_lacks _ _ _ Hm Hl)).
    exists []. split; [intros p algs E; discriminate E|]. split; [intros p alg d; split; [intros (a & ds & E & _); discriminate E|intros R; now apply Hno in R]|].
    intros r. destruct (py_in_member root fr (`"fixity") Hw Ho) as [(v & Hv & _)|[_ E]]; [destruct (member_lacks _ _ _ Hv Hl)|].
    rewrite E. rewrite clean_bind. split.
    + intros (x & H1 & H2). apply clean_lift in H1. apply Ok_inv in H1. subst x. cbn [negb] in H2. apply clean_ret in H2. subst r. split; [|reflexivity].
      intros alg d p R. now apply Hno in R.
    + intros [_ ->]. exists false. split; [now apply clean_lift|]. now apply clean_ret.
  - destruct (fixity_all_ok fx) as [F1 F2]. exists (fixity_all fx). split; [exact F2|].
    assert (Hfl : forall alg d p, fixity_lists root alg d p <-> exists block, In (alg, JObj block) fx /\ lists block d p).
    { intros alg d p. split.
      - intros (fx' & b & Hm' & R). pose proof (member_fun _ _ _ _ Hw Hm Hm') as E. injection E as <-. eauto.
      - intros (b & R). exists fx, b. auto. }
    split; [intros p alg d; rewrite F1, Hfl; reflexivity|].
    intros r. destruct (member_py _ _ _ Hw Hm) as [E1 E2]. rewrite E1, E2.
    set (g := fun (m : digests_of_files) (ab : str * json) => let! items := wlift (digest_paths (snd ab)) in
             wfold (fun m dp => if str_in (snd dp) seen then wret (add_digest (fst ab) (fst dp) m (snd dp))
                                else werror (`"E093b") ;! wret m) items m).
    transitivity (clean (wfold g fx []) r).
    { rewrite clean_bind. split.
      - intros (x & H1 & H2). apply clean_lift in H1. apply Ok_inv in H1. subst x. cbn [negb] in H2. apply clean_bind in H2 as (x & H1 & H2).
        apply clean_lift in H1. apply Ok_inv in H1. subst x. cbn [block_items] in H2. apply clean_bind in H2 as (x & H1 & H2).
        apply clean_lift in H1. apply Ok_inv in H1. subst x. exact H2.
      - intros R. exists true. split; [now apply clean_lift|]. cbn [negb]. apply clean_bind. exists (JObj fx). split; [now apply clean_lift|].
        apply clean_bind. exists fx. split; [now apply clean_lift|exact R]. }
    rewrite (clean_wfold_fun g (fun ab => forall block, snd ab = JObj block -> forall p, In p (listed block) -> In p seen) fixity_add fx).
    + fold (fixity_all fx). split.
      * intros [C ->]. split; [|reflexivity]. intros alg d p R. apply Hfl in R as (b & Hi & Hl). apply (C _ Hi b eq_refl). eapply lists_listed; eauto.
      * intros [C ->]. split; [|reflexivity]. intros [a x] Hi b Eb p Hp. cbn [snd] in Eb. subst x. apply listed_lists in Hp as [d Hp].
        apply (C a d p). apply Hfl. eauto.
    + intros s [a x] r' Hi. destruct (Hf _ _ Hi) as (block & -> & Hs & _). unfold g. cbn [fst snd]. rewrite (digest_paths_ok _ Hs). rewrite clean_bind. split.
      * intros (items & H1 & H2). apply clean_lift in H1. apply Ok_inv in H1. subst items. apply clean_fixity_items in H2 as [H2 ->]. split.
        -- intros b Eb p Hp. injection Eb as <-. rewrite <- map_snd_pairs in Hp. apply in_map_iff in Hp as (dp & <- & Hp). now apply H2.
        -- reflexivity.
      * intros [C ->]. exists (pairs block). split; [now apply clean_lift|]. apply clean_fixity_items. split; [|reflexivity].
        intros dp Hdp. apply (C block eq_refl). rewrite <- map_snd_pairs. now apply in_map.
Qed.

(** ** The digests of one file *)

Section File.
  Variable H : hashfn.
  Variable w : node.
  Variable h : place.
  Variable p : str.

  Definition fits (alg d : str) : Prop := fs_digest H w h p alg = Ok (normalized_digest d alg).
  Definition knows (known : dict str) : Prop := forall a d, dget a known = Some d -> fs_digest H w h p a = Ok d.

  Lemma clean_additional known m code : good m -> knows known ->
    (forall k', clean (check_additional_digests H w h p known m code) k' -> knows k' /\ forall alg d, recorded m p alg d -> fits alg d) /\
    ((forall alg d, recorded m p alg d -> fits alg d) -> exists k', clean (check_additional_digests H w h p known m code) k' /\ knows k').
  Proof using.
    intros Hg Hk. unfold check_additional_digests. destruct (dget p m) as [algs|] eqn:Ep.
    2:{ split.
        - intros k' E. apply clean_ret in E. subst k'. split; [exact Hk|]. intros alg d (a & ds & E & _). congruence.
        - intros _. exists known. split; [now apply clean_ret|exact Hk]. }
    destruct (Hg _ _ Ep) as [Hnd Hne].
    assert (Hrec : forall alg d, recorded m p alg d <-> exists ds, In (alg, ds) algs /\ In d ds).
    { intros alg d. unfold recorded. split.
      - intros (a & ds & E & Ed & Hd). rewrite Ep in E. apply Some_inv in E. subst a. exists ds. split; [now apply dget_In|exact Hd].
      - intros (ds & Hi & Hd). exists algs, ds. split; [exact Ep|]. split; [now apply In_dget|exact Hd]. }
    assert (Hne' : forall alg ds, In (alg, ds) algs -> ds <> []) by (intros alg ds Hi; apply (Hne alg); now apply In_dget).
    clear Hg Ep Hnd Hne.
    set (g := fun (known : dict str) (ad : str * list str) =>
               let! d := (match dget (fst ad) known with Some d => wret d | None => wlift (fs_digest H w h p (fst ad)) end) in
               wfold (fun _ x => if str_eqb d (normalized_digest x (fst ad)) then wret tt else werror code) (snd ad) tt ;!
               wret (dset (fst ad) d known)).
    assert (Hstep : forall k ad k', knows k -> snd ad <> [] -> (clean (g k ad) k' <->
        exists d, fs_digest H w h p (fst ad) = Ok d /\ (forall x, In x (snd ad) -> d = normalized_digest x (fst ad)) /\ k' = dset (fst ad) d k)).
    { intros k [a ds] k' Hkk Hds. unfold g. cbn [fst snd] in *. rewrite clean_bind.
      assert (Hd : forall d, clean (match dget a k with Some d => wret d | None => wlift (fs_digest H w h p a) end) d <-> fs_digest H w h p a = Ok d).
      { intros d. destruct (dget a k) as [d'|] eqn:E.
        - rewrite clean_ret. rewrite (Hkk _ _ E). split; [intros ->; reflexivity|intros E'; now apply Ok_inv in E'].
        - apply clean_lift. }
      assert (Hall : forall d u, clean (wfold (fun (_ : unit) x => if str_eqb d (normalized_digest x a) then wret tt else werror code) ds tt) u <->
         forall x, In x ds -> d = normalized_digest x a).
      { intros d u. rewrite (clean_wfold_unit (fun x => if str_eqb d (normalized_digest x a) then wret tt else werror code)). rewrite Forall_forall.
        split; intros A x Hx.
        - specialize (A x Hx). destruct (str_eqb_spec d (normalized_digest x a)) as [E|E]; [exact E|now apply clean_error in A].
        - rewrite <- (A x Hx), str_eqb_refl. now apply clean_ret. }
      split.
      - intros (d & H1 & H2). apply Hd in H1. apply clean_bind in H2 as (u & H2 & H3). pose proof (proj1 (Hall d u) H2) as H2'. apply clean_ret in H3. subst k'. eauto.
      - intros (d & H1 & H2 & ->). exists d. split; [now apply Hd|]. apply clean_bind. exists tt. split; [now apply (proj2 (Hall d tt))|now apply clean_ret]. }
    assert (Hset : forall k a d, knows k -> fs_digest H w h p a = Ok d -> knows (dset a d k)).
    { intros k a d Hkk E a' d'. rewrite dget_dset. destruct (str_eqb_spec a' a) as [->|]; [intros E'; apply Some_inv in E'; now subst|apply Hkk]. }
    assert (G : forall l, (forall alg ds, In (alg, ds) l -> ds <> []) -> forall k, knows k ->
      (forall k', clean (wfold g l k) k' -> knows k' /\ forall alg ds d, In (alg, ds) l -> In d ds -> fits alg d) /\
      ((forall alg ds d, In (alg, ds) l -> In d ds -> fits alg d) -> exists k', clean (wfold g l k) k' /\ knows k')).
    { induction l as [|[a ds] l IH]; intros Hl k Hkk; cbn [wfold].
      - split; [intros k' E; apply clean_ret in E; subst k'; split; [exact Hkk|intros alg ds d []]|]. intros _. exists k. split; [now apply clean_ret|exact Hkk].
      - assert (Hds : ds <> []) by (apply (Hl a); now left).
        split.
        + intros k' E. apply clean_bind in E as (k1 & E1 & E2). apply Hstep in E1 as (d & Ed & Hx & ->); [|exact Hkk|exact Hds]. cbn [fst snd] in *.
          apply IH in E2 as [K1 K2]; [|intros; eapply Hl; right; eauto|now apply Hset]. split; [exact K1|].
          intros alg ds' d' [E|Hi] Hd'; [|eapply K2; eauto]. injection E as <- <-. unfold fits. rewrite Ed. now rewrite (Hx _ Hd').
        + intros A. destruct ds as [|x ds]; [congruence|]. assert (Ex : fits a x) by (apply (A a (x :: ds)); now left).
          destruct (IH (fun alg ds Hi => Hl alg ds (or_intror Hi)) (dset a (normalized_digest x a) k)) as [_ I2]; [now apply Hset|].
          destruct I2 as (k' & K1 & K2); [intros alg ds' d Hi; apply (A alg ds' d); now right|]. exists k'. split; [|exact K2].
          apply clean_bind. eexists. split; [|exact K1]. apply Hstep; [exact Hkk|exact Hds|]. cbn [fst snd]. exists (normalized_digest x a).
          split; [exact Ex|]. split; [|reflexivity]. intros y Hy. assert (Ey : fits a y) by (apply (A a (x :: ds)); [now left|exact Hy]).
          unfold fits in Ex, Ey. rewrite Ex in Ey. now apply Ok_inv in Ey. }
    destruct (G algs Hne' known Hk) as [G1 G2]. split.
    - intros k' E. apply G1 in E as [K1 K2]. split; [exact K1|]. intros alg d R. apply Hrec in R as (ds & Hi & Hd). eapply K2; eauto.
    - intros A. apply G2. intros alg ds d Hi Hd. apply A. apply Hrec. eauto.
  Qed.

  Lemma fits_iff r alg d : Forall fname h -> Forall fname r -> p = join [slash] r -> tree w -> (fits alg d <-> file_fits H w h alg d p).
  Proof using.
    unfold fits, file_fits, digest_fits, fs_digest. intros Hh Hr Ep Hw. rewrite Ep. split.
    - intros E. apply ebind_ok in E as (b & E1 & E2). apply fs_read_look in E1. rewrite at_path_join in E1 by auto.
      exists r, b. split; [reflexivity|]. split; [exact E1|]. exists (normalized_digest d alg). split; [now apply file_digest_iff|].
      apply records_iff. apply str_eqb_refl.
    - intros (r' & b & Ej & El & x & Hd & Hx). assert (Hr' : Forall fname r').
      { assert (Hf : Forall fname (h ++ r')) by (eapply look_fnames; [exact Hw|]; unfold at_root in El; rewrite El; discriminate). now apply Forall_app in Hf as [_ Hf]. }
      apply join_fnames_inj in Ej; auto. subst r'. assert (El' : fs_read w h (join [slash] r) = Ok b) by (apply fs_read_look; rewrite at_path_join by auto; exact El).
      rewrite El'. cbn [ebind]. apply records_iff in Hx. apply str_eqb_eq in Hx. subst x. now apply file_digest_iff.
  Qed.
  Lemma fits_normal alg d : fits alg (normalized_digest d alg) <-> fits alg d.
  Proof using.
    assert (E : normalized_digest (normalized_digest d alg) alg = normalized_digest d alg).
    { unfold normalized_digest. destruct (str_in alg _); [reflexivity|apply lower_idem]. }
    unfold fits. now rewrite E.
  Qed.
End File.

(** ** All files of the root manifest *)

Section Files.
  Variable H : hashfn.
  Variable c : vconf.
  Variable w : node.
  Variable h : place.
  Variables (root : json) (fr : facts) (head spec : str) (prior : vistate).
  Hypothesis Hw : tree w.
  Hypothesis Hh : Forall fname h.
  Hypothesis Hwr : json_wf root.
  Hypothesis Hor : obeys as_coded root fr.
  Hypothesis Hprior : kept_all w h fr head prior.
  Notation chk := (vc_check_digests c).

  Definition file_ok (fixity : digests_of_files) (dp : str * str) : Prop :=
    chk = true -> fits H w h (snd dp) (f_alg fr) (fst dp) /\
      (forall alg d, recorded fixity (snd dp) alg d -> fits H w h (snd dp) alg d) /\
      (forall alg d, recorded (vi_manifest prior) (snd dp) alg d -> fits H w h (snd dp) alg d) /\
      (forall alg d, recorded (vi_fixity prior) (snd dp) alg d -> fits H w h (snd dp) alg d).

  Lemma clean_check_file fixity remaining dp r : good fixity ->
    (clean (check_file H c w h (f_alg fr) fixity prior remaining dp) r <->
     In (snd dp) remaining /\ file_ok fixity dp /\ r = filter (fun x => negb (str_eqb (snd dp) x)) remaining).
  Proof using Hprior.
    intros Hg. destruct (a_good _ _ _ _ _ Hprior) as [Hgm Hgf]. destruct dp as [d p]. unfold check_file, file_ok. cbn [fst snd]. destruct (str_in p remaining) eqn:Ei; cbn [negb].
    2:{ apply str_in_false in Ei. rewrite clean_bind_error. tauto. }
    apply str_in_true in Ei. rewrite clean_bind. destruct chk.
    2:{ split.
        - intros (u & _ & E). apply clean_ret in E. split; [exact Ei|]. split; [discriminate|]. now symmetry.
        - intros (_ & _ & ->). exists tt. split; [now apply clean_ret|now apply clean_ret]. }
    split.
    - intros (u & E & Er). apply clean_ret in Er. apply clean_bind in E as (x & Ex & E). apply clean_lift in Ex. apply clean_bind in E as (u1 & Eu & E).
      destruct (str_eqb_spec x (normalized_digest d (f_alg fr))) as [->|]; [|now apply clean_error in Eu].
      assert (K0 : knows H w h p [(f_alg fr, normalized_digest d (f_alg fr))]).
      { intros a d'. cbn [dget]. destruct (str_eqb_spec a (f_alg fr)) as [->|]; [|discriminate]. intros E'. apply Some_inv in E'. now subst. }
      apply clean_bind in E as (k1 & E1 & E). apply (clean_additional H w h p _ _ _ Hg K0) in E1 as [K1 A1].
      apply clean_bind in E as (k2 & E2 & E). apply (clean_additional H w h p _ _ _ Hgm K1) in E2 as [K2 A2].
      apply clean_bind in E as (k3 & E3 & E). apply (clean_additional H w h p _ _ _ Hgf K2) in E3 as [K3 A3].
      split; [exact Ei|]. split; [|now symmetry]. intros _. auto.
    - intros (_ & A & ->). destruct (A eq_refl) as (A0 & A1 & A2 & A3). exists tt. split; [|now apply clean_ret].
      apply clean_bind. exists (normalized_digest d (f_alg fr)). split; [now apply clean_lift|]. rewrite str_eqb_refl. apply clean_bind. exists tt. split; [now apply clean_ret|].
      assert (K0 : knows H w h p [(f_alg fr, normalized_digest d (f_alg fr))]).
      { intros a d'. cbn [dget]. destruct (str_eqb_spec a (f_alg fr)) as [->|]; [|discriminate]. intros E'. apply Some_inv in E'. now subst. }
      destruct (clean_additional H w h p [(f_alg fr, normalized_digest d (f_alg fr))] fixity (`"E093a") Hg K0) as [_ B1]. destruct (B1 A1) as (k1 & E1 & K1).
      destruct (clean_additional H w h p k1 (vi_manifest prior) (`"E092a") Hgm K1) as [_ B2]. destruct (B2 A2) as (k2 & E2 & K2).
      destruct (clean_additional H w h p k2 (vi_fixity prior) (`"E093a") Hgf K2) as [_ B3]. destruct (B3 A3) as (k3 & E3 & K3).
      apply clean_bind. exists k1. split; [exact E1|]. apply clean_bind. exists k2. split; [exact E2|]. apply clean_bind. exists k3. split; [exact E3|]. now apply clean_ret.
  Qed.

  Lemma clean_files fixity items : good fixity -> NoDup (map snd items) -> forall seen,
    forall r, clean (wfold (check_file H c w h (f_alg fr) fixity prior) items seen) r ->
      (forall dp, In dp items -> In (snd dp) seen /\ file_ok fixity dp) /\ (forall x, In x r <-> In x seen /\ ~ In x (map snd items)).
  Proof using Hprior.
    intros Hg Hnd. induction items as [|dp items IH]; intros seen r E; cbn [wfold map] in *.
    - apply clean_ret in E. subst r. split; [intros dp []|]. intros x. split; [auto|tauto].
    - inversion Hnd as [|? ? Hn Hnd']; subst. apply clean_bind in E as (m & E1 & E2). apply clean_check_file in E1 as (H1 & H2 & ->); [|exact Hg].
      apply (IH Hnd') in E2 as [I1 I2]. split.
      + intros dp' [<-|Hi]; [auto|]. destruct (I1 _ Hi) as [J1 J2]. apply filter_In in J1 as [J1 _]. auto.
      + intros x. rewrite I2, filter_In. cbn [In]. split.
        * intros [[X1 X2] X3]. split; [exact X1|]. intros [E|E]; [|tauto]. subst x. rewrite str_eqb_refl in X2. discriminate.
        * intros [X1 X2]. split; [|tauto]. split; [exact X1|]. destruct (str_eqb_spec (snd dp) x); [tauto|reflexivity].
  Qed.
  Lemma clean_files_ex fixity items : good fixity -> NoDup (map snd items) -> forall seen,
    (forall dp, In dp items -> In (snd dp) seen /\ file_ok fixity dp) ->
    exists r, clean (wfold (check_file H c w h (f_alg fr) fixity prior) items seen) r.
  Proof using Hprior.
    intros Hg Hnd. induction items as [|dp items IH]; intros seen A; cbn [wfold map] in *.
    - exists seen. now apply clean_ret.
    - inversion Hnd as [|? ? Hn Hnd']; subst. destruct (A dp (or_introl eq_refl)) as [A1 A2].
      destruct (IH Hnd' (filter (fun x => negb (str_eqb (snd dp) x)) seen)) as [r E].
      { intros dp' Hi. destruct (A dp' (or_intror Hi)) as [B1 B2]. split; [|exact B2]. apply filter_In. split; [exact B1|].
        destruct (str_eqb_spec (snd dp) (snd dp')) as [Eq|]; [|reflexivity]. exfalso. apply Hn. rewrite Eq. now apply in_map. }
      exists r. apply clean_bind. eexists. split; [apply clean_check_file; [exact Hg|]; split; [exact A1|split; [exact A2|reflexivity]]|exact E].
  Qed.

  Theorem validate_content_iff u : clean (validate_content H c w h (mkRoot root (accepted fr head) spec) (f_versions fr) prior) u <->
    (forall v, In v (f_versions fr) -> version_directory w h fr head v) /\
    (forall p, In p (listed (f_manifest fr)) <-> content w h fr head p) /\
    (chk = true -> content_digests H w h root fr head).
  Proof using Hw Hh Hwr Hor Hprior.
    destruct (contents_ok w h root fr head prior Hw Hh Hor Hprior) as (seen & Hseen & Hdirs).
    destruct (clean_root_fixity root fr seen Hwr Hor) as (fx & Hgfx & Hrfx & Hfx).
    destruct (obeys_manifest _ _ Hor) as [Hm Hs]. destruct (member_py _ _ _ Hwr Hm) as [E1 E2].
    assert (Hndl : NoDup (map snd (pairs (f_manifest fr)))).
    { rewrite map_snd_pairs. destruct Hor as (_ & _ & _ & _ & (_ & _ & _ & _ & Hn & _) & _). exact Hn. }
    assert (Hfxl : forall alg d p, fixity_lists root alg d p -> In p (listed (f_manifest fr))).
    { intros alg d p (fx' & b & Hm' & Hi & Hl). destruct (fixity_cases _ _ Hor) as [Hlk|(fx2 & Hm2 & Hf)]; [destruct (member_lacks _ _ _ Hm' Hlk)|].
      pose proof (member_fun _ _ _ _ Hwr Hm2 Hm') as E. injection E as <-. destruct (Hf _ _ Hi) as (b2 & Eb & _ & Hin & _). injection Eb as <-.
      apply Hin. eapply lists_listed; eauto. }
    (* digests of the files *)
    assert (Hdig : (forall p, In p (listed (f_manifest fr)) -> content w h fr head p) ->
      ((forall dp, In dp (pairs (f_manifest fr)) -> file_ok fx dp) <-> (chk = true -> content_digests H w h root fr head))).
    { intros Hc. assert (Hfit : forall p alg d, In p (listed (f_manifest fr)) -> (fits H w h p alg d <-> file_fits H w h alg d p)).
      { intros p alg d Hp. apply Hc in Hp as (v & r & _ & _ & _ & Hlf & ->). apply leaf_fnames in Hlf; [|exact Hw]. apply Forall_app in Hlf as [_ Hf].
        apply (fits_iff H w h _ (v :: f_cdir fr :: r)); auto. }
      split.
      - intros A Hchk. pose proof (fun d p Hi => A (d, p) Hi Hchk) as A'. cbn [fst snd] in A'.
        assert (A2 : forall p, In p (listed (f_manifest fr)) -> exists d, In (d, p) (pairs (f_manifest fr))).
        { intros p Hp. apply listed_lists in Hp as [d Hp]. exists d. now apply In_pairs. }
        split; [|split].
        + intros d p Hl. pose proof (lists_listed _ _ _ Hl) as Hp. apply (Hfit p _ _ Hp). apply In_pairs in Hl. exact (proj1 (A' _ _ Hl)).
        + intros alg d p Hl. pose proof (Hfxl _ _ _ Hl) as Hp. apply (Hfit p _ _ Hp). destruct (A2 _ Hp) as [d0 Hd0].
          apply (proj1 (proj2 (A' _ _ Hd0))). now apply Hrfx.
        + intros v j f Hv Hi. split.
          * intros d p Hl Hp. apply (Hfit p _ _ Hp). destruct (A2 _ Hp) as [d0 Hd0]. apply fits_normal. apply (proj1 (proj2 (proj2 (A' _ _ Hd0)))).
            apply (a_manifest _ _ _ _ _ Hprior). exists v, j, f, d. auto.
          * intros alg d p Hl Hp. apply (Hfit p _ _ Hp). destruct (A2 _ Hp) as [d0 Hd0]. apply fits_normal. apply (proj2 (proj2 (proj2 (A' _ _ Hd0)))).
            apply (a_fixity _ _ _ _ _ Hprior). exists v, j, f, d. auto.
      - intros A [d p] Hi Hchk. destruct (A Hchk) as (D1 & D2 & D3). cbn [fst snd]. apply In_pairs in Hi. pose proof (lists_listed _ _ _ Hi) as Hp.
        split; [apply (Hfit p _ _ Hp); now apply D1|]. split; [|split].
        + intros alg d' R. apply Hrfx in R. apply (Hfit p _ _ Hp). now apply D2.
        + intros alg d' R. apply (a_manifest _ _ _ _ _ Hprior) in R as (v & j & f & d0 & Hv & Hiv & -> & Hl & ->).
          apply fits_normal, (Hfit p _ _ Hp). apply (proj1 (D3 v j f Hv Hiv)); auto.
        + intros alg d' R. apply (a_fixity _ _ _ _ _ Hprior) in R as (v & j & f & d0 & Hv & Hiv & Hl & ->).
          apply fits_normal, (Hfit p _ _ Hp). apply (proj2 (D3 v j f Hv Hiv)); auto. }
    unfold validate_content. cbn [ri_iv ri_inventory iv_content_directory accepted iv_digest_algorithm]. rewrite E1, E2.
    split.
    - intros E. apply clean_bind in E as (s & Es & E). apply Hdirs in Es as [D ->]. apply clean_bind in E as (m & Em & E). apply Hfx in Em as [F ->].
      apply clean_bind in E as (b & Eb & E). apply clean_lift in Eb. apply Ok_inv in Eb. subst b.
      apply clean_bind in E as (rest & Er & E). cbv iota in Er. apply clean_bind in Er as (man & Eman & Er). apply clean_lift in Eman. apply Ok_inv in Eman. subst man.
      apply clean_bind in Er as (items & Ei & Er). rewrite (digest_paths_ok _ Hs) in Ei. apply clean_lift in Ei. apply Ok_inv in Ei. subst items.
      destruct (clean_files fx (pairs (f_manifest fr)) Hgfx Hndl seen rest Er) as [A1 A2].
      destruct rest as [|x rest]; [|now apply clean_error in E].
      assert (HL : forall p, In p (listed (f_manifest fr)) <-> content w h fr head p).
      { intros p. rewrite <- Hseen, <- map_snd_pairs. split.
        - intros Hp. apply in_map_iff in Hp as (dp & <- & Hp). now apply A1.
        - intros Hp. destruct (in_dec (list_eq_dec N.eq_dec) p (map snd (pairs (f_manifest fr)))) as [Hy|Hn]; [exact Hy|]. exfalso. apply (A2 p). auto. }
      split; [exact D|]. split; [exact HL|]. apply Hdig; [intros p Hp; now apply HL|]. intros dp Hdp. now apply A1.
    - intros (D & HL & A). apply clean_bind. exists seen. split; [now apply Hdirs|]. apply clean_bind. exists fx. split.
      { apply Hfx. split; [|reflexivity]. intros alg d p R. apply Hseen, HL. eapply Hfxl; eauto. }
      apply clean_bind. exists true. split; [now apply clean_lift|]. 
      assert (A1 : forall dp, In dp (pairs (f_manifest fr)) -> In (snd dp) seen /\ file_ok fx dp).
      { intros dp Hi. split.
        - apply Hseen, HL. rewrite <- map_snd_pairs. now apply in_map.
        - apply Hdig; [intros p Hp; now apply HL|exact A|exact Hi]. }
      destruct (clean_files_ex fx (pairs (f_manifest fr)) Hgfx Hndl seen A1) as [rest Er]. apply clean_bind. exists rest. split.
      { apply clean_bind. exists (JObj (f_manifest fr)). split; [now apply clean_lift|]. apply clean_bind. exists (pairs (f_manifest fr)).
        split; [rewrite (digest_paths_ok _ Hs); now apply clean_lift|exact Er]. }
      destruct (clean_files fx (pairs (f_manifest fr)) Hgfx Hndl seen rest Er) as [_ A2].
      destruct rest as [|x rest]; [destruct u; now apply clean_ret|]. exfalso. destruct (proj1 (A2 x) (or_introl eq_refl)) as [B1 B2].
      apply B2. rewrite map_snd_pairs. now apply HL, Hseen.
  Qed.
End Files.

(** ** The whole object *)

Lemma clean_parts H c w h spec namastes u : vc_lax_digests c = false -> tree w -> look w h = Some EDir ->
  map filename namastes = [`"0=ocfl_object_" ++ spec] -> declaration w h spec ->
  (clean (validate_parts H c w h 0 spec namastes) u <-> exists rb root fr head, intact H (vc_check_digests c) w h spec rb root fr head).
Proof.
  intros Hlax Hw Hl Hn Hd. pose proof (look_fnames_root w h Hw Hl) as Hh. destruct Hd as (Hspec & Hd1 & Hd2).
  assert (Hat : at_path h INVENTORY_FILENAME = h ++ [] ++ [`"inventory.json"]).
  { change INVENTORY_FILENAME with (join [slash] [`"inventory.json"]). rewrite at_path_join; [reflexivity|exact Hh|]. repeat constructor; try discriminate; try reflexivity. apply notin_b. reflexivity. }
  assert (Hats : forall alg, In alg [`"sha512"; `"sha256"] -> at_path h (INVENTORY_FILENAME ++ `"." ++ alg) = h ++ [] ++ [`"inventory.json." ++ alg]).
  { intros alg Ha. change (INVENTORY_FILENAME ++ `"." ++ alg) with (join [slash] [`"inventory.json." ++ alg]). rewrite at_path_join; [reflexivity|exact Hh|].
    destruct Ha as [<-|[<-|[]]]; repeat constructor; try discriminate; try reflexivity; apply notin_b; reflexivity. }
  assert (Halg : forall j f, obeys as_coded j f -> In (f_alg f) [`"sha512"; `"sha256"]).
  { intros j f (_ & _ & (_ & Ha) & _). exact Ha. }
  unfold validate_parts. destruct (validate_inventory c w h INVENTORY_FILENAME spec) as [log [[[inv st]|]|e]] eqn:Ev.
  3:{ split; [intros [E _]; discriminate E|]. intros (rb & root & fr & head & I).
      assert (E : clean (validate_inventory c w h INVENTORY_FILENAME spec) (Some (root, accepted fr head))).
      { apply clean_validate_inventory; [exact Hlax|]. destruct (in_inventory _ _ _ _ _ _ _ _ _ I) as [Ib Ij]. exists rb, fr, head.
        rewrite Hat. split; [exact Ib|]. split; [exact Ij|]. split; [apply (in_rules _ _ _ _ _ _ _ _ _ I)|]. split; [apply (in_head _ _ _ _ _ _ _ _ _ I)|reflexivity]. }
      rewrite Ev in E. destruct E as [E _]. discriminate E. }
  2:{ split.
      - intros [_ E]. cbn [fst] in E. exfalso. apply (clean_validate_inventory_none c w h INVENTORY_FILENAME spec). rewrite Ev. split; [reflexivity|exact E].
      - intros (rb & root & fr & head & I).
      assert (E : clean (validate_inventory c w h INVENTORY_FILENAME spec) (Some (root, accepted fr head))).
      { apply clean_validate_inventory; [exact Hlax|]. destruct (in_inventory _ _ _ _ _ _ _ _ _ I) as [Ib Ij]. exists rb, fr, head.
        rewrite Hat. split; [exact Ib|]. split; [exact Ij|]. split; [apply (in_rules _ _ _ _ _ _ _ _ _ I)|]. split; [apply (in_head _ _ _ _ _ _ _ _ _ I)|reflexivity]. }
      rewrite Ev in E. destruct E as [E _]. discriminate E. }
  cbv zeta. rewrite clean_bind.
  assert (Hlog : forall v : unit, clean (log, Ok tt) v <-> clean (validate_inventory c w h INVENTORY_FILENAME spec) (Some (inv, st))).
  { intros []. rewrite Ev. unfold clean. cbn [fst snd]. tauto. }
  split.
  - intros (v & E0 & E). apply Hlog in E0. assert (Hlg : no_errors log = true) by (rewrite Ev in E0; apply E0).
    apply clean_validate_inventory in E0 as (rb & fr & head & Ib & Ij & Ho & Hm & ->); [|exact Hlax]. rewrite Hat in Ib.
    apply num_errors_0 in Hlg. rewrite Hlg in E. cbn [iv_digest_algorithm iv_all_versions accepted Nat.add Nat.eqb] in E.
    apply clean_bind in E as (u1 & E1 & E). apply (clean_inventory_digest H c w h INVENTORY_FILENAME [] (f_alg fr) rb u1) in E1;
      [|apply notin_b; reflexivity|eapply Halg; eauto|exact Hat|apply Hats; eapply Halg; eauto|exact Ib].
    apply clean_bind in E as (u2 & E2 & E). rewrite Hn in E2. pose proof (proj1 (clean_object_root w h spec fr u2 Hw Hl) E2) as E2'. clear E2.
    pose proof (json_load_wf _ _ Ij) as Hwr. destruct (obeys_head _ _ Ho) as (head' & pre & Hm' & Hpre).
    pose proof (member_fun _ _ _ _ Hwr Hm Hm') as Eh. injection Eh as <-.
    destruct (version_inventories_iff H c w h inv fr rb head spec Hlax Hh Hwr Ho Ib Hspec pre Hpre) as (V1 & V2 & V3).
    apply clean_bind in E as (o & E3 & E). destruct o as [prior|]; [|destruct (V1 E3)]. apply V2 in E3 as [E3 Hp].
    apply (validate_content_iff H c w h inv fr head spec prior Hw Hh Hwr Ho Hp) in E as (C1 & C2 & C3).
    exists rb, inv, fr, head. constructor; try assumption; [exact (conj Hspec (conj Hd1 Hd2))|exact (conj Ib Ij)].
  - intros (rb & root & fr & head & I). destruct (in_inventory _ _ _ _ _ _ _ _ _ I) as [Ib Ij].
    assert (E : clean (validate_inventory c w h INVENTORY_FILENAME spec) (Some (root, accepted fr head))).
    { apply clean_validate_inventory; [exact Hlax|]. exists rb, fr, head.
      rewrite Hat. split; [exact Ib|]. split; [exact Ij|]. split; [apply (in_rules _ _ _ _ _ _ _ _ _ I)|]. split; [apply (in_head _ _ _ _ _ _ _ _ _ I)|reflexivity]. }
    assert (Es : inv = root /\ st = accepted fr head).
    { rewrite Ev in E. destruct E as [E _]. cbn [snd] in E. apply Ok_inv, Some_inv in E. symmetry in E. split; [exact (f_equal fst E)|exact (f_equal snd E)]. }
    destruct Es as [-> ->]. exists tt. split; [now apply Hlog|]. assert (Hlg : no_errors log = true) by (rewrite Ev in E; apply E).
    apply num_errors_0 in Hlg. rewrite Hlg. cbn [iv_digest_algorithm iv_all_versions accepted Nat.add Nat.eqb].
    pose proof (in_rules _ _ _ _ _ _ _ _ _ I) as Ho. pose proof (in_head _ _ _ _ _ _ _ _ _ I) as Hm.
    pose proof (json_load_wf _ _ Ij) as Hwr. destruct (obeys_head _ _ Ho) as (head' & pre & Hm' & Hpre).
    pose proof (member_fun _ _ _ _ Hwr Hm Hm') as Eh. injection Eh as <-.
    destruct (version_inventories_iff H c w h root fr rb head spec Hlax Hh Hwr Ho Ib Hspec pre Hpre) as (V1 & V2 & V3).
    apply clean_bind. exists tt. split.
    { apply (clean_inventory_digest H c w h INVENTORY_FILENAME [] (f_alg fr) rb tt);
        [apply notin_b; reflexivity|eapply Halg; eauto|exact Hat|apply Hats; eapply Halg; eauto|exact Ib|apply (in_sidecar _ _ _ _ _ _ _ _ _ I)]. }
    apply clean_bind. exists tt. split.
    { rewrite Hn. apply clean_object_root; [exact Hw|exact Hl|apply (in_root _ _ _ _ _ _ _ _ _ I)]. }
    destruct (V3 (in_versions _ _ _ _ _ _ _ _ _ I)) as [prior E3]. pose proof (V2 _ E3) as [_ Hp].
    apply clean_bind. exists (Some prior). split; [exact E3|]. destruct u.
    apply (validate_content_iff H c w h root fr head spec prior Hw Hh Hwr Ho Hp).
    split; [apply (in_directories _ _ _ _ _ _ _ _ _ I)|]. split; [apply (in_content _ _ _ _ _ _ _ _ _ I)|apply (in_digests _ _ _ _ _ _ _ _ _ I)].
Qed.

Theorem validate_opened_iff H c w h n : vc_lax_digests c = false -> tree w -> look w h = Some EDir ->
  (snd (validate_opened H c w h n) = Ok true <->
   n = O /\ exists spec rb root fr head, intact H (vc_check_digests c) w h spec rb root fr head).
Proof.
  intros Hlax Hw Hl. pose proof (look_fnames_root w h Hw Hl) as Hh.
  assert (Hat : at_path h INVENTORY_FILENAME = h ++ [`"inventory.json"]).
  { change INVENTORY_FILENAME with (join [slash] [`"inventory.json"]). rewrite at_path_join; [reflexivity|exact Hh|]. repeat constructor; try discriminate; try reflexivity. apply notin_b. reflexivity. }
  unfold validate_opened. split.
  - destruct (find_namastes w h (`"0") [] 10) as [ns|e] eqn:En; [|intros E; discriminate E]. unfold wlift, wbind. cbn [fst snd app].
    destruct (check_declarations c w h ns) as [log [spec|e]] eqn:Ec; [|intros E; discriminate E].
    destruct (negb (fs_exists w h INVENTORY_FILENAME)); [intros E; discriminate E|].
    destruct (validate_parts H c w h (n + num_errors log) spec ns) as [log' [u|e]] eqn:Ep; [|intros E; discriminate E].
    cbn [fst snd app]. intros E. apply Ok_inv in E. apply Nat.eqb_eq in E. rewrite num_errors_app in E.
    assert (E1 : n = O) by lia. assert (E2 : num_errors log = O) by lia. assert (E3 : num_errors log' = O) by lia. clear E. subst n. split; [reflexivity|].
    rewrite E2 in Ep. cbn [Nat.add] in Ep. apply num_errors_0 in E2, E3.
    assert (Hc : clean (check_declarations c w h ns) spec) by (rewrite Ec; split; [reflexivity|exact E2]).
    destruct (clean_declarations c w h spec Hw Hl) as [D1 D2]. pose proof (D2 _ En Hc) as Hf.
    assert (Hd : declaration w h spec) by (apply D1; eauto).
    exists spec. apply (clean_parts H c w h spec ns u Hlax Hw Hl Hf Hd). rewrite Ep. split; [reflexivity|exact E3].
  - intros (-> & spec & rb & root & fr & head & I). destruct (clean_declarations c w h spec Hw Hl) as [D1 D2].
    destruct (proj2 D1 (in_declaration _ _ _ _ _ _ _ _ _ I)) as (ns & En & Hf & Hc). rewrite En. unfold wlift, wbind. cbn [fst snd app].
    destruct (check_declarations c w h ns) as [log r] eqn:Ec. destruct Hc as [Hc1 Hc2]. cbn [fst snd] in Hc1, Hc2. subst r.
    assert (Hex : fs_exists w h INVENTORY_FILENAME = true).
    { apply fs_exists_look. rewrite Hat. destruct (in_inventory _ _ _ _ _ _ _ _ _ I) as [Ib _]. unfold at_root in Ib. cbn [app] in Ib. rewrite Ib. discriminate. }
    rewrite Hex. cbn [negb]. apply num_errors_0 in Hc2. rewrite Hc2. cbn [Nat.add].
    assert (Hp : clean (validate_parts H c w h 0 spec ns) tt).
    { apply clean_parts; auto; [apply (in_declaration _ _ _ _ _ _ _ _ _ I)|]. eauto. }
    destruct (validate_parts H c w h 0 spec ns) as [log' r]. destruct Hp as [Hp1 Hp2]. cbn [fst snd] in Hp1, Hp2. subst r.
    apply num_errors_0 in Hp2. cbn [fst snd]. rewrite num_errors_app, Hc2, Hp2. reflexivity.
Qed.
