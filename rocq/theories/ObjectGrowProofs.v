(** Adding all files of a source directory to a new version (C34-C36, C39). *)
From Coq Require Import Permutation Sorted.
From Verif Require Import Base Unicode Regex Utf8 Json PyJson JsonTextModel JsonTextSpec JsonTextProofs JsonFileProofs Log DigestModel LayoutModel LayoutProofs
  ObjectUtilsModel ObjectUtilsProofs InventorySpec InventoryValidatorModel InventoryValidatorProofs InventoryRulesProofs
  InventoryModel InventoryOpsSpec InventoryOpsProofs NewVersionModel NewVersionProofs NewVersionOpsProofs VersionNumberProofs InventoryParseProofs ParseModel
  ContentPathProofs TextFile PathModel FsModel FsSpec FsProofs ValidatorSpec ValidatorBasicProofs ObjectModel ObjectSpec ObjectInvProofs ObjectRulesProofs ObjectParseProofs ObjectAddProofs ContentNameProofs.

Lemma sound_dicts alg spec n i : sound alg spec n i -> dicts_ok i.
Proof.
  intros So. destruct (so_versions _ _ _ _ So) as (vs & Hv & P). split; [|split].
  - intros m Hm. pose proof (so_keys _ _ _ _ So) as K. unfold manifest in K. rewrite Hm in K. exact K.
  - intros vs' Hv'. assert (vs' = vs) by congruence. subst. eapply Permutation_NoDup; [apply Permutation_sym, P|apply names_NoDup].
  - intros vs' v b st Hv' Hb Hs. destruct (so_blocks _ _ _ _ So vs' v b Hv' Hb) as (_ & st' & Hs' & G). assert (st' = st) by congruence. subst. apply (sg_keys _ _ _ G).
Qed.

Lemma sound_is_version alg spec n i v : sound alg spec n i -> is_version i v <-> In v (names None n).
Proof.
  intros So. destruct (so_versions _ _ _ _ So) as (vs & Hv & P). split.
  - intros (vs' & b & Hv' & Hb). assert (vs' = vs) by congruence. subst. apply (Permutation_in _ P). apply in_map_iff. exists (v, b). auto.
  - intros Hi. apply (Permutation_in _ (Permutation_sym P)) in Hi. apply in_map_iff in Hi as ([v' b] & <- & Hb). exists vs, b. auto.
Qed.
Lemma sound_head_name alg spec n i : sound alg spec n i -> In (version_fmt None (N.of_nat n)) (names None n).
Proof. intros So. pose proof (so_range _ _ _ _ So) as [R1 _]. apply In_names. exists (n - 1)%nat. split; [lia|]. f_equal. lia. Qed.

(** ** The digests that are used *)

Lemma hash_digest H alg b : hash_ok H -> In alg [`"sha512"; `"sha256"] -> file_digest H alg b = Ok (H alg b) /\ lower_digest alg (H alg b).
Proof.
  intros HH Ha. assert (L : exists k, hash_len alg = Some k /\ digest_size alg k).
  { destruct Ha as [<-|[<-|[]]]; eexists; (split; [reflexivity|]); constructor. }
  destruct L as (k & L1 & L2). destruct (HH alg k b L1) as [Hl Hf]. split.
  - destruct Ha as [<-|[<-|[]]]; unfold file_digest; cbn; apply file_digest_blocks_ok; unfold BUFSIZE; lia.
  - exists k. split; [auto|]. split; [auto|]. eapply Forall_impl; [|exact Hf]. intros c Hc. unfold is_lower_hex, is_ascii_digit in Hc.
    rewrite orb_true_iff, !andb_true_iff, !N.leb_le in Hc. unfold lower_hex. lia.
Qed.

(** ** One file *)

Lemma nv_add_step H src nv h alg p c b d vb : i_head (nv_inv nv) = Some h -> map_filepath H nv p = Ok c -> ~ In c (content_paths (nv_inv nv)) ->
  ~ In p (logical_paths (nv_inv nv) h) -> src p = Ok b -> i_alg (nv_inv nv) = Some alg -> file_digest H alg b = Ok d ->
  dget h (versions_block (nv_inv nv)) = Some vb ->
  exists oc, nv_add H src p p None nv =
      (mk_nv (add_step h d p oc (nv_inv nv)) (nv_norm nv) (nv_forward_delta nv) (nv_dedupe nv) (nv_old_alg nv)
         (match oc with Some c => dset p c (nv_copy nv) | None => nv_copy nv end), Ok tt) /\
    (oc = Some c \/ (oc = None /\ exists c' cs, In (d, c' :: cs) (manifest (nv_inv nv)))).
Proof.
  intros Hh Hm Hc Hp Hs Ha Hd Hv. unfold nv_add, head_of. rewrite Hh, Hm. rewrite (proj2 (str_in_false _ _) Hp). rewrite Hs. cbn [ebind]. rewrite Ha, Hd, Hv.
  set (i1 := set_state h (append_to d p (state (nv_inv nv) h)) (nv_inv nv)).
  assert (Em : manifest i1 = manifest (nv_inv nv)) by apply manifest_set_state.
  set (cur := existsb (startswith (h ++ `"/")) (content_paths_for_digest i1 d)). set (prev := existsb (fun q => negb (startswith (h ++ `"/") q)) (content_paths_for_digest i1 d)).
  destruct ((negb prev && negb cur) || (negb cur && negb (nv_forward_delta nv)) || (cur && negb (nv_dedupe nv))) eqn:Et.
  - exists (Some c). unfold add_file_to_manifest. unfold i1. rewrite content_paths_set_state. rewrite (proj2 (str_in_false _ _) Hc). fold i1. rewrite Em.
    split; [reflexivity|now left].
  - exists None. split; [reflexivity|]. right. split; [auto|]. apply orb_false_iff in Et as [Et _]. apply orb_false_iff in Et as [Et _].
    assert (Nn : content_paths_for_digest i1 d <> []). { intros E. unfold cur, prev in Et. rewrite E in Et. discriminate. }
    unfold content_paths_for_digest in Nn. rewrite Em in Nn. destruct (dget d (manifest (nv_inv nv))) as [[|c' cs]|] eqn:E; cbn [or_empty] in Nn; try congruence.
    exists c', cs. now apply dget_In.
Qed.

(** ** All files *)

Section Grow.
  Variables (H : hashfn) (alg spec : str) (n : nat) (i0 : inventory) (norm : option str) (fd dd : bool) (old : option str).
  Notation h := (version_fmt None (N.of_nat n)).
  Notation cd := (content_directory_to_use i0).
  Notation J := (join [PathModel.slash]).

  (** [D] are the files that have been added to [i0], whose new version was empty. *)
  Record growing (D : list (list str * bytes)) (nv : new_version) : Prop := {
    gw_sound : sound alg spec n (nv_inv nv);
    gw_options : nv_norm nv = norm /\ nv_forward_delta nv = fd /\ nv_dedupe nv = dd /\ nv_old_alg nv = old;
    gw_rest : same_rest i0 (nv_inv nv);
    gw_others : forall v s, v <> h -> (state_block (nv_inv nv) v s <-> state_block i0 v s);
    gw_state : forall v d p, in_state (nv_inv nv) v d p <->
      in_state i0 v d p \/ (v = h /\ exists es b, In (es, b) D /\ p = J es /\ d = H alg b);
    gw_stored : forall d c, stored (nv_inv nv) d c <->
      stored i0 d c \/ exists es b, In (es, b) D /\ In (J es, c) (nv_copy nv) /\ d = H alg b;
    gw_copy : forall s c, In (s, c) (nv_copy nv) -> exists es b r, In (es, b) D /\ s = J es /\ c = J (h :: cd :: r) /\
      content_of norm es r /\ r <> [] /\ Forall cname r;
    gw_keys : NoDup (keys (nv_copy nv));
    gw_dests : NoDup (map snd (nv_copy nv));
    gw_dedupe : dd = true -> forall es b c es' b' c', In (es, b) D -> In (es', b') D -> In (J es, c) (nv_copy nv) -> In (J es', c') (nv_copy nv) ->
      H alg b = H alg b' -> es = es';
    gw_delta : fd = true -> forall es b c, In (es, b) D -> In (J es, c) (nv_copy nv) -> forall c', ~ stored i0 (H alg b) c';
    gw_all : dd = false -> fd = false -> forall es b, In (es, b) D -> exists c, In (J es, c) (nv_copy nv);
    gw_full : full i0 -> full (nv_inv nv)
  }.

  (** The files of the source directory, none of which is in another one *)
  Record sources (F : list (list str * bytes)) (src : str -> exc bytes) : Prop := {
    sr_names : forall es b, In (es, b) F -> es <> [] /\ Forall (name_ok norm) es;
    sr_nodup : NoDup (map fst F);
    sr_apart : forall es b es' b', In (es, b) F -> In (es', b') F -> begins es es' -> es = es';
    sr_read : forall es b, In (es, b) F -> src (J es) = Ok b
  }.

  Hypothesis HH : hash_ok H.
  Hypothesis Hnorm : In norm [None; Some (`"uri"); Some (`"md5")].
  Hypothesis Hold : forall p, In p (paths_of (manifest i0)) -> exists v r, In v (names None (n - 1)) /\ Forall fname r /\ p = J (v :: cd :: r).
  Hypothesis Hempty : forall d p, ~ in_state i0 h d p.

  Lemma old_not_head v : In v (names None (n - 1)) -> (1 <= n)%nat -> v <> h.
  Proof using.
    intros Hv Hn E. subst v. apply In_names in Hv as (k & Hk & E). apply version_fmt_inj in E. clear -Hk E Hn. lia.
  Qed.
  Lemma cname_fname r : Forall cname r -> Forall fname r.
  Proof using. intros F. eapply Forall_impl; [|exact F]. intros q Hq. apply Hq. Qed.

  Lemma grow_step D nv es b F src : growing D nv -> sources F src -> incl ((es, b) :: D) F -> NoDup (map fst ((es, b) :: D)) ->
    exists nv', nv_add H src (J es) (J es) None nv = (nv', Ok tt) /\ growing ((es, b) :: D) nv'.
  Proof using HH Hnorm Hold Hempty.
    intros G Sr Hin Hnd. pose proof (gw_sound _ _ G) as So. destruct (gw_options _ _ G) as (O1 & O2 & O3 & O4).
    pose proof (sound_dicts _ _ _ _ So) as Dk. pose proof (so_range _ _ _ _ So) as [R1 R2].
    assert (Hhead : i_head (nv_inv nv) = Some h) by apply (so_head _ _ _ _ So).
    assert (Ecd : content_directory_to_use (nv_inv nv) = cd).
    { unfold content_directory_to_use. destruct (gw_rest _ _ G) as (_ & _ & _ & _ & Ec & _). now rewrite Ec. }
    assert (Fcd : fname cd) by (rewrite <- Ecd; apply (so_cdir _ _ _ _ So)).
    assert (Fh : fname h) by apply version_fname.
    assert (HF : In (es, b) F) by (apply Hin; now left). destruct (sr_names _ _ Sr _ _ HF) as [Nes Ces].
    assert (Fes : Forall fname es) by (eapply Forall_impl; [|exact Ces]; intros e He; apply He).
    assert (HD : forall es' b', In (es', b') D -> In (es', b') F) by (intros es' b' Hi; apply Hin; now right).
    assert (Hne : forall es' b', In (es', b') D -> es' <> es).
    { intros es' b' Hi E. subst es'. inversion Hnd as [|x l Hx _]; subst. apply Hx. apply in_map_iff. exists (es, b'). auto. }
    assert (Used : forall q, In q (content_paths (nv_inv nv)) ->
      (exists v r, In v (names None (n - 1)) /\ Forall fname r /\ q = J (v :: cd :: r)) \/
      (exists es' b' r, In (es', b') D /\ q = J (h :: cd :: r) /\ content_of norm es' r /\ r <> [] /\ Forall cname r)).
    { intros q Hq. apply stored_any in Hq as [d Hq]. apply (gw_stored _ _ G) in Hq as [Hq|(es' & b' & H1 & H2 & _)].
      - left. apply Hold. apply stored_iff in Hq. destruct Hq as (l & H1 & H2). apply In_paths_of. exists d, l. auto.
      - right. destruct (gw_copy _ _ G _ _ H2) as (es1 & b1 & r & K1 & K2 & K3 & K4 & K5 & K6). exists es1, b1, r. auto. }
    assert (Lst : forall x r y s, J (x :: cd :: r) = J (y :: cd :: s) -> fname x -> fname y -> Forall fname r -> Forall fname s -> x = y /\ r = s).
    { intros x r y s E X Y Fr Fs. apply names_join_inj in E; [|constructor; auto|constructor; auto|discriminate|discriminate]. split; congruence. }
    destruct (map_filepath_head H nv h es HH Hhead Fh) as (r & M1 & M2 & M3 & M4 & M5).
    { rewrite Ecd. auto. } { rewrite O1. auto. } { rewrite O1. auto. } { auto. }
    { rewrite Ecd, O1. intros r' Fr' Nr' Hi. destruct (Used _ Hi) as [(v & r1 & V1 & V2 & V3)|(es' & b' & r1 & K1 & K2 & K3 & K4 & K5)].
      - exfalso. apply Lst in V3 as [E _]; auto; [|now apply (names_fname (n - 1))]. symmetry in E. revert E. now apply old_not_head.
      - apply Lst in K2 as [_ ->]; auto; [|now apply cname_fname]. exists es'. split; [auto|]. intros Hb. apply (Hne _ _ K1). symmetry. apply (sr_apart _ _ Sr es b es' b'); auto. }
    rewrite Ecd in M1, M5. rewrite O1 in M2. set (c := J (h :: cd :: r)) in *. pose proof (cname_fname _ M4) as Fr.
    destruct (sound_head_block _ _ _ _ So) as (vs & vb & st & Hv & Hb & Hs & Es & Nv).
    assert (Hlp : forall q, In q (logical_paths (nv_inv nv) h) -> exists es' b', In (es', b') D /\ q = J es').
    { intros q Hq. assert (In q (paths_of (state (nv_inv nv) h))) by exact Hq. apply In_paths_of in H0 as (d & l & H1 & H2).
      assert (Hi : in_state (nv_inv nv) h d q). { exists vs, vb, st, l. split; [auto|]. split; [now apply dget_In|]. split; [auto|]. rewrite Es in H1. auto. }
      apply (gw_state _ _ G) in Hi as [Hi|(_ & es' & b' & K1 & K2 & _)]; [exfalso; eapply Hempty; eauto|eauto]. }
    assert (Hdist : forall es' b', In (es', b') D -> ~ begins es es' /\ ~ begins es' es).
    { intros es' b' Hi. split; intros Hb'; apply (Hne _ _ Hi); [symmetry|]; eapply (sr_apart _ _ Sr); eauto. }
    assert (Fes' : forall es' b', In (es', b') D -> es' <> [] /\ Forall fname es').
    { intros es' b' Hi. destruct (sr_names _ _ Sr _ _ (HD _ _ Hi)) as [N1 N2]. split; [auto|]. eapply Forall_impl; [|exact N2]. intros e He. apply He. }
    assert (Hp : ~ In (J es) (logical_paths (nv_inv nv) h)).
    { intros Hi. destruct (Hlp _ Hi) as (es' & b' & K1 & K2). destruct (Fes' _ _ K1). apply names_join_inj in K2; auto. subst es'. eapply Hne; eauto. }
    destruct (hash_digest H alg b HH (so_algs _ _ _ _ So)) as [Hd Hl].
    destruct (nv_add_step H src nv h alg (J es) c b (H alg b) vb Hhead M1 M5 Hp (sr_read _ _ Sr _ _ HF) (so_alg _ _ _ _ So) Hd) as (oc & E & Hoc).
    { unfold versions_block. rewrite Hv. exact Hb. }
    eexists. split; [exact E|].
    assert (Hap : forall q, In q (logical_paths (nv_inv nv) h) -> ~ above (J es) q /\ ~ above q (J es)).
    { intros q Hq. destruct (Hlp _ Hq) as (es' & b' & K1 & ->). destruct (Fes' _ _ K1). destruct (Hdist _ _ K1). split; apply begins_not_above; auto. }
    assert (Tp : exists r0, r0 <> [] /\ Forall fname r0 /\ J es = J r0 /\ text (J es)).
    { exists es. split; [auto|]. split; [auto|]. split; [auto|]. apply text_join. eapply Forall_impl; [|exact Ces]. intros e He. apply He. }
    assert (Hc : content_name n (content_directory_to_use (nv_inv nv)) c /\ text c /\ ~ In c (content_paths (nv_inv nv)) /\
      (forall q, In q (content_paths (nv_inv nv)) -> ~ above c q /\ ~ above q c)).
    { rewrite Ecd. split; [|split; [|split; [auto|]]].
      - exists h, r. split; [now apply (sound_head_name alg spec n (nv_inv nv))|]. split; [auto|]. split; [auto|]. split; [|reflexivity].
        intros x Hx. rewrite Forall_forall in M4. apply M4, Hx.
      - unfold c. apply text_join. constructor; [apply text_version|]. constructor; [rewrite <- Ecd; apply (so_cdir _ _ _ _ So)|]. eapply Forall_impl; [|exact M4]. intros x Hx. apply Hx.
      - intros q Hq. assert (Nq : c <> q) by (intros Eq; apply M5; now rewrite Eq).
        destruct (Used _ Hq) as [(v & r1 & V1 & V2 & ->)|(es' & b' & r1 & K1 & -> & K3 & K4 & K5)].
        + assert (Fv : fname v) by (now apply (names_fname (n - 1))). pose proof (old_not_head v V1 R1) as Nv'.
          split; apply begins_not_above; try discriminate; try (constructor; auto); intros [x Ex]; cbn [app] in Ex; congruence.
        + pose proof (cname_fname _ K5) as Fr1. destruct (Hdist _ _ K1) as [D1 D2].
          assert (Nr : r <> r1) by (intros ->; now apply Nq).
          split; apply begins_not_above; try discriminate; try (constructor; auto); intros [x Ex]; cbn [app] in Ex.
          * assert (B : begins r r1) by (exists x; congruence). destruct (content_begins norm es r es' r1 M2 K3 B); auto.
          * assert (B : begins r1 r) by (exists x; congruence). destruct (content_begins norm es' r1 es r K3 M2 B); auto. }
    assert (Hoc' : match oc with
      | Some c => content_name n (content_directory_to_use (nv_inv nv)) c /\ text c /\ ~ In c (content_paths (nv_inv nv)) /\
          (forall q, In q (content_paths (nv_inv nv)) -> ~ above c q /\ ~ above q c)
      | None => exists c' cs, In (H alg b, c' :: cs) (manifest (nv_inv nv)) end).
    { destruct Hoc as [->|[-> Hoc]]; auto. }
    assert (Hcopy : forall s c', In (s, c') (match oc with Some c0 => dset (J es) c0 (nv_copy nv) | None => nv_copy nv end) <->
      In (s, c') (nv_copy nv) \/ (s = J es /\ oc = Some c')).
    { assert (Kn : ~ In (J es) (keys (nv_copy nv))).
      { intros Hi. apply in_map_iff in Hi as ([s c'] & Es' & Hi). cbn [fst] in Es'. subst s. destruct (gw_copy _ _ G _ _ Hi) as (es' & b' & _ & K1 & K2 & _).
        destruct (Fes' _ _ K1). apply names_join_inj in K2; auto. subst es'. eapply Hne; eauto. }
      intros s c'. destruct oc as [c0|].
      - rewrite dset_new by auto. rewrite in_app_iff. cbn [In]. split; intros [Hi|Hi]; auto; [destruct Hi as [Hi|[]]; right; split; congruence|right; left; destruct Hi; congruence].
      - split; [auto|]. intros [?|[_ ?]]; [auto|discriminate]. }
    pose proof (nv_add_correct H src (J es) (J es) None nv _ _ h Hhead Dk E) as Corr. destruct Corr as [[_ [ex F1]]|(_ & _ & _ & d1 & a1 & o1 & A1 & A2 & A3 & A4 & A5 & A6 & A7 & A8 & _ & _ & _ & _ & A9)]; [discriminate|].
    assert (a1 = alg) by (pose proof (so_alg _ _ _ _ So); congruence). subst a1.
    assert (d1 = H alg b). { destruct A2 as (c0 & Q1 & Q2). rewrite (sr_read _ _ Sr _ _ HF) in Q1. apply Ok_inv in Q1. subst c0. congruence. } subst d1.
    cbn [nv_inv] in A3, A4, A5, A6. cbn [nv_copy] in A8.
    assert (Eo : oc = o1).
    { destruct Hoc as [->|[-> _]].
      - assert (Q : stored (add_step h (H alg b) (J es) (Some c) (nv_inv nv)) (H alg b) c) by (apply (step_stored alg spec n); auto).
        apply A6 in Q as [Q|[_ Q]]; [|auto]. exfalso. apply M5. apply stored_any. eauto.
      - destruct o1 as [c1|]; [|auto]. exfalso. assert (Q : stored (add_step h (H alg b) (J es) None (nv_inv nv)) (H alg b) c1) by (apply A6; auto).
        apply (step_stored alg spec n) in Q; auto. destruct Q as [Q|[_ Q]]; [|discriminate]. destruct (A7 c1 eq_refl) as [Q1 _]. eapply Q1; eauto. }
    subst o1.
    constructor; cbn [nv_inv nv_norm nv_forward_delta nv_dedupe nv_old_alg nv_copy].
    - apply step_sound; auto.
    - auto.
    - eapply same_rest_trans; [apply (gw_rest _ _ G)|exact A4].
    - intros v s Hvh. rewrite add_step_others by auto. exact (gw_others _ _ G v s Hvh).
    - intros v d p. rewrite A5, (gw_state _ _ G). split.
      + intros [[Hi|(-> & es' & b' & K1 & K2 & K3)]|(-> & -> & ->)]; [now left| |].
        * right. split; [auto|]. exists es', b'. split; [now right|auto].
        * right. split; [auto|]. exists es, b. split; [now left|auto].
      + intros [Hi|(-> & es' & b' & [K1|K1] & K2 & K3)]; [now left; left| |].
        * right. injection K1 as <- <-. auto.
        * left. right. split; [auto|]. exists es', b'. auto.
    - intros d c'. rewrite A6, (gw_stored _ _ G). split.
      + intros [[Hi|(es' & b' & K1 & K2 & K3)]|(-> & Eo)]; [now left| |].
        * right. exists es', b'. split; [now right|]. split; [|auto]. apply Hcopy. now left.
        * right. exists es, b. split; [now left|]. split; [|auto]. apply Hcopy. auto.
      + intros [Hi|(es' & b' & K1 & K2 & K3)]; [now left; left|]. apply Hcopy in K2 as [K2|[K2 K4]].
        * left. right. destruct K1 as [K1|K1]; [|exists es', b'; auto]. injection K1 as <- <-. exfalso.
          destruct (gw_copy _ _ G _ _ K2) as (es' & b' & _ & K1 & K4 & _). destruct (Fes' _ _ K1). apply names_join_inj in K4; auto. subst es'. eapply Hne; eauto.
        * right. split; [|auto]. destruct K1 as [K1|K1]; [congruence|]. exfalso. destruct (Fes' _ _ K1). apply names_join_inj in K2; auto. subst es'. eapply Hne; eauto.
    - intros s c' Hi. apply Hcopy in Hi as [Hi|[-> Eo]].
      + destruct (gw_copy _ _ G _ _ Hi) as (es' & b' & r' & K1 & K2). exists es', b', r'. split; [now right|auto].
      + exists es, b, r. split; [now left|]. split; [auto|]. split; [|auto]. destruct Hoc as [Q|[Q _]]; rewrite Q in Eo; [apply Some_inv in Eo; exact Eo|discriminate].
    - destruct oc; [apply NoDup_dset|]; apply (gw_keys _ _ G).
    - destruct oc as [c0|]; [|apply (gw_dests _ _ G)]. destruct Hoc as [Q|[Q _]]; [|discriminate]. apply Some_inv in Q. subst c0.
      assert (Kn : ~ In (J es) (keys (nv_copy nv))).
      { intros Hi. apply in_map_iff in Hi as ([s c'] & Es' & Hi). cbn [fst] in Es'. subst s. destruct (gw_copy _ _ G _ _ Hi) as (es' & b' & _ & K1 & K2 & _).
        destruct (Fes' _ _ K1). apply names_join_inj in K2; auto. subst es'. eapply Hne; eauto. }
      rewrite dset_new by auto. rewrite map_app. cbn [map snd]. eapply Permutation_NoDup; [apply Permutation_cons_append|]. constructor; [|apply (gw_dests _ _ G)].
      intros Hi. apply in_map_iff in Hi as ([s c'] & Es' & Hi). cbn [snd] in Es'. subst c'. destruct (gw_copy _ _ G _ _ Hi) as (es' & b' & _ & K1 & K2 & _).
      apply M5. apply stored_any. exists (H alg b'). apply (gw_stored _ _ G). right. exists es', b'. subst s. auto.
    - intros Edd es1 b1 c1 es2 b2 c2 I1 I2 C1 C2 Eh. apply Hcopy in C1, C2.
      assert (Old : forall es1 b1 c1, In (es1, b1) ((es, b) :: D) -> In (J es1, c1) (nv_copy nv) -> In (es1, b1) D).
      { intros es3 b3 c3 [I3|I3] C3; [|auto]. injection I3 as <- <-. exfalso.
        destruct (gw_copy _ _ G _ _ C3) as (es' & b' & _ & K1 & K2 & _). destruct (Fes' _ _ K1). apply names_join_inj in K2; auto. subst es'. eapply Hne; eauto. }
      assert (New : forall es1 b1 c1, In (es1, b1) ((es, b) :: D) -> J es1 = J es -> oc = Some c1 -> es1 = es /\ b1 = b).
      { intros es3 b3 c3 [I3|I3] C3 _; [injection I3 as <- <-; auto|]. exfalso. destruct (Fes' _ _ I3). apply names_join_inj in C3; auto. subst es3. eapply Hne; eauto. }
      assert (Clash : forall es1 b1 c1 c2, In (es1, b1) D -> In (J es1, c1) (nv_copy nv) -> oc = Some c2 -> H alg b1 = H alg b -> False).
      { intros es3 b3 c3 c4 I3 C3 Eo Eb. assert (Q : oc = None); [|congruence]. apply A9. left. rewrite O3. split; [auto|]. exists c3. split.
        - apply (gw_stored _ _ G). right. exists es3, b3. auto.
        - destruct (gw_copy _ _ G _ _ C3) as (es' & b' & r' & _ & _ & K3 & _). exists (J (cd :: r')). rewrite K3, join_cons by discriminate. reflexivity. }
      destruct C1 as [C1|[C1 Eo1]], C2 as [C2|[C2 Eo2]].
      + apply (gw_dedupe _ _ G Edd es1 b1 c1 es2 b2 c2); eauto.
      + destruct (New _ _ _ I2 C2 Eo2) as [-> ->]. exfalso. apply (Clash es1 b1 c1 c2); auto. eapply Old; eauto.
      + destruct (New _ _ _ I1 C1 Eo1) as [-> ->]. exfalso. apply (Clash es2 b2 c2 c1); auto. eapply Old; eauto.
      + destruct (New _ _ _ I1 C1 Eo1) as [-> ->], (New _ _ _ I2 C2 Eo2) as [-> ->]. reflexivity.
    - intros Efd es1 b1 c1 I1 C1 c' Hst. apply Hcopy in C1 as [C1|[C1 Eo1]].
      + destruct I1 as [I1|I1]; [|eapply (gw_delta _ _ G Efd); eauto]. injection I1 as <- <-.
        destruct (gw_copy _ _ G _ _ C1) as (es' & b' & _ & K1 & K2 & _). destruct (Fes' _ _ K1). apply names_join_inj in K2; auto. subst es'. eapply Hne; eauto.
      + assert (I1' : es1 = es /\ b1 = b). { destruct I1 as [I1|I1]; [injection I1 as <- <-; auto|]. exfalso. destruct (Fes' _ _ I1). apply names_join_inj in C1; auto. subst es1. eapply Hne; eauto. }
        destruct I1' as [-> ->]. assert (Q : oc = None); [|congruence]. apply A9.
        right. rewrite O2. split; [auto|]. split; [exists c'; apply (gw_stored _ _ G); now left|].
        intros c0 Q1 [y Q2]. apply (gw_stored _ _ G) in Q1 as [Q1|(es' & b' & K1 & K2 & K3)].
        * apply stored_iff in Q1. destruct Q1 as (l & Q3 & Q4). destruct (Hold c0) as (v & r1 & V1 & V2 & V3); [apply In_paths_of; exists (H alg b), l; auto|].
          apply (old_not_head v V1 R1). rewrite V3, join_cons in Q2 by discriminate. change (`"/" ++ y) with (InventorySpec.slash :: y) in Q2.
          change ([PathModel.slash] ++ J (cd :: r1)) with (InventorySpec.slash :: J (cd :: r1)) in Q2.
          destruct (slash_cut v h _ _ (proj2 (proj2 (proj2 (names_fname _ _ V1)))) (proj2 (proj2 (proj2 Fh))) Q2). auto.
        * rewrite K3 in Hst. eapply (gw_delta _ _ G Efd); eauto.
    - intros Edd Efd es1 b1 I1. assert (Q : oc <> None).
      { intros Q. apply A9 in Q as [[Q _]|[Q _]]; congruence. }
      destruct I1 as [I1|I1].
      + injection I1 as <- <-. destruct oc as [c0|]; [|congruence]. exists c0. apply Hcopy. auto.
      + destruct (gw_all _ _ G Edd Efd es1 b1 I1) as [c0 C0]. exists c0. apply Hcopy. auto.
    - intros Fu. apply step_full; [|exact (gw_full _ _ G Fu)]. intros vs0 Hv0. congruence.
  Qed.

  Lemma grow_all L : forall D nv F src, growing D nv -> sources F src -> incl (L ++ D) F -> NoDup (map fst (L ++ D)) ->
    exists nv', nv_add_all H src (map (fun eb => J (fst eb)) L) nv = (nv', Ok tt) /\ growing (rev L ++ D) nv'.
  Proof using HH Hnorm Hold Hempty.
    induction L as [|[es b] L IH]; intros D nv F src G Sr Hi Hn; [exists nv; auto|].
    assert (P : Permutation (((es, b) :: L) ++ D) (L ++ (es, b) :: D)) by apply Permutation_middle.
    assert (Hn' : NoDup (map fst (L ++ (es, b) :: D))) by (eapply Permutation_NoDup; [apply Permutation_map, P|auto]).
    assert (Hi' : incl (L ++ (es, b) :: D) F) by (intros x Hx; apply Hi; apply (Permutation_in _ (Permutation_sym P)); auto).
    destruct (grow_step D nv es b F src G Sr) as (nv1 & E1 & G1).
    - intros x Hx. apply Hi'. apply in_or_app. now right.
    - rewrite map_app in Hn'. clear -Hn'. revert Hn'. induction (map fst L) as [|x l IHl]; [auto|]. intros Hn'. inversion Hn'; subst. auto.
    - cbn [map fst nv_add_all]. rewrite E1. destruct (IH _ _ _ _ G1 Sr Hi' Hn') as (nv' & E2 & G2). exists nv'. split; [auto|].
      cbn [rev]. rewrite <- app_assoc. exact G2.
  Qed.
End Grow.
