(** validate_as_prior_version on inventories that validate accepts. *)
From Coq Require Import Permutation.
From Verif Require Import Base Json PyJson Log DigestModel InventorySpec InventoryValidatorModel
  InventoryValidatorProofs InventoryRulesProofs.

Lemma str_list_ok j l : str_list j = Ok l <-> j = JArr (map JStr l).
Proof.
  destruct j as [| | | | |js|]; simpl; try (split; discriminate).
  rewrite emap_ok. split.
  - intros H. f_equal. induction H as [|x s js l Hx _ IH]; [reflexivity|]. destruct x; try discriminate.
    apply Ok_inv in Hx. subst s. cbn [map]. now rewrite IH.
  - intros H. injection H as ->. induction l; constructor; auto.
Qed.
Lemma str_list_array j : string_array j -> str_list j = Ok (strings j).
Proof. intros [l ->]. rewrite strings_map. now apply str_list_ok. Qed.

Section Map.
  Variables (inv : json) (f : facts) (v : str).
  Hypothesis Hw : json_wf inv.
  Hypothesis Hob : obeys as_coded inv f.
  Hypothesis Hv : In v (f_versions f).

  Lemma obeys_state : exists st, state_of inv v st /\ state_rule as_coded f st.
  Proof using Hob Hv.
    pose proof Hob as Ho. destruct Ho as (_ & _ & _ & _ & _ & _ & _ & vs & (Hvs & _ & Hp) & Hb & _). pose proof Hv as Hv0.
    apply (Permutation_in _ (Permutation_sym Hp)), in_map_iff in Hv0 as [[v' b] [E Hi]]. cbn [fst] in E. subst v'.
    destruct (Hb _ _ Hi) as [st (_ & _ & _ & Hm & Hs)]. exists st. split; [|auto]. exists vs, b. auto.
  Qed.

  Lemma state_of_fun st st' : state_of inv v st -> state_of inv v st' -> st = st'.
  Proof using Hw.
    intros (vs & b & H1 & H2 & H3) (vs' & b' & H1' & H2' & H3').
    pose proof (member_fun _ _ _ _ Hw H1 H1') as E. injection E as <-.
    pose proof (member_wf _ _ _ Hw H1) as Hvw. apply json_wf_obj in Hvw as [Hn Hf]. rewrite Forall_forall in Hf.
    pose proof (Hf _ H2) as Hb. cbn [snd] in Hb.
    apply In_dget in H2, H2'; auto. rewrite H2 in H2'. injection H2' as <-.
    pose proof (member_fun _ _ _ _ Hb H3 H3') as E. now injection E.
  Qed.

  Lemma version_state_ok st : state_of inv v st -> version_state inv v = Ok st.
  Proof using Hw.
    intros (vs & b & H1 & H2 & H3). unfold version_state.
    pose proof (member_wf _ _ _ Hw H1) as Hvw. pose proof Hvw as Hvw'. apply json_wf_obj in Hvw as [Hn Hf]. rewrite Forall_forall in Hf.
    pose proof (Hf _ H2) as Hb. cbn [snd] in Hb.
    destruct (member_py _ _ _ Hw H1) as [_ ->]. cbn [ebind py_getitem]. rewrite (In_dget _ _ _ Hn H2). cbn [ebind].
    destruct (member_py _ _ _ Hb H3) as [_ ->]. reflexivity.
  Qed.

  Lemma version_block_ok : exists vs b, member inv (`"versions") (JObj vs) /\ In (v, JObj b) vs /\ version_block inv v = Ok b.
  Proof using Hw Hob Hv.
    destruct obeys_state as [st [(vs & b & H1 & H2 & H3) _]].
    assert (Hb : exists d, b = JObj d) by (destruct H3 as (d & E & _); eauto). destruct Hb as [d ->].
    exists vs, d. split; [exact H1|]. split; [exact H2|]. unfold version_block.
    pose proof (member_wf _ _ _ Hw H1) as Hvw. apply json_wf_obj in Hvw as [Hn _].
    destruct (member_py _ _ _ Hw H1) as [_ ->]. cbn [ebind py_getitem]. now rewrite (In_dget _ _ _ Hn H2).
  Qed.

  (** The map is the concatenation of the maps of the digests. *)
  Definition pieces (man st : dict json) : dict (list str) :=
    flat_map (fun kv => match dget (fst kv) man with
                        | Some y => map (fun p => (p, strings y)) (strings (snd kv))
                        | None => [] end) st.

  Lemma fold_dset_app (content : list str) (l : list str) : forall m : dict (list str), NoDup l ->
    (forall p, In p l -> ~ In p (keys m)) ->
    fold_left (fun m f => dset f content m) l m = m ++ map (fun p => (p, content)) l.
  Proof using.
    induction l as [|p l IH]; intros m Hn Hd; simpl; [now rewrite app_nil_r|]. inversion Hn; subst.
    rewrite dset_absent by (apply Hd; now left). rewrite IH; [now rewrite <- app_assoc|auto|].
    intros q Hq. rewrite keys_app, in_app_iff. intros [Hk|[<-|[]]]; [apply (Hd q); [now right|auto]|auto].
  Qed.

  Lemma keys_pieces man st : (forall k x, In (k, x) st -> exists y, dget k man = Some y) ->
    keys (pieces man st) = listed st.
  Proof using.
    unfold pieces, listed. induction st as [|[k x] st IH]; intros H; cbn [flat_map]; [reflexivity|]. cbn [fst snd].
    destruct (H k x (or_introl eq_refl)) as [y ->]. rewrite keys_app, keys_map_pair, IH; [auto|].
    intros k' x' Hi. apply (H k' x'). now right.
  Qed.

  Lemma map_fold man st : forall m : dict (list str),
    (forall k x, In (k, x) st -> string_array x /\ exists y, dget k man = Some y /\ string_array y) ->
    NoDup (listed st) -> (forall p, In p (listed st) -> ~ In p (keys m)) ->
    efold (fun (file_map : dict (list str)) (kv : str * json) =>
               match dget (fst kv) man with
               | None => Ok file_map
               | Some files =>
                   let* content := str_list files in
                   let* paths := str_list (snd kv) in
                   Ok (fold_left (fun m f => dset f content m) paths file_map)
               end) st m = Ok (m ++ pieces man st).
  Proof using.
    induction st as [|[k x] st IH]; intros m H Hn Hd; cbn [efold pieces flat_map fst snd].
    - now rewrite app_nil_r.
    - destruct (H k x (or_introl eq_refl)) as [Hx [y [Hy Hy']]]. rewrite Hy.
      rewrite (str_list_array y Hy'), (str_list_array x Hx). cbn [ebind].
      unfold listed in Hn, Hd. cbn [flat_map snd] in Hn, Hd. apply NoDup_app_inv in Hn as [N1 [N2 N3]].
      rewrite fold_dset_app; [|auto|intros p Hp; apply Hd, in_or_app; now left].
      rewrite IH; [now rewrite <- app_assoc| |auto|].
      + intros k' x' Hi. apply H. now right.
      + intros p Hp. rewrite keys_app, keys_map_pair, in_app_iff. intros [Hk|Hk].
        * apply (Hd p); [apply in_or_app; now right|auto].
        * exact (N3 p Hk Hp).
  Qed.

  Lemma path_map_ok : exists m, get_logical_path_map inv v = Ok m /\ NoDup (keys m) /\
    (forall p, In p (keys m) <-> has_path inv v p) /\
    (forall p s c, In (p, s) m -> (In c s <-> content_file inv v p c)).
  Proof using Hw Hob Hv.
    destruct obeys_state as [st [Hst (S1 & S2 & S3 & S4 & _)]].
    assert (Hman : manifest_rule as_coded inv f) by apply Hob. destruct Hman as (Hm & M1 & _).
    pose proof (member_wf _ _ _ Hw Hm) as Hmw. apply json_wf_obj in Hmw as [Hmn _].
    assert (Hy : forall k x, In (k, x) st -> exists y, dget k (f_manifest f) = Some y /\ string_array y).
    { intros k x Hi. destruct (S2 _ _ Hi) as [p [ps Hp]]. exists (JArr (JStr p :: ps)).
      split; [now apply In_dget|]. now apply (M1 k). }
    exists (pieces (f_manifest f) st). split; [|split; [|split]].
    - unfold get_logical_path_map. rewrite (version_state_ok st Hst). cbn [ebind].
      destruct (member_py _ _ _ Hw Hm) as [_ ->]. cbn [ebind].
      rewrite map_fold; [reflexivity| |auto|intros p _ []].
      intros k x Hi. split; [apply (S1 k x Hi)|now apply (Hy k x)].
    - rewrite keys_pieces; [auto|]. intros k x Hi. destruct (Hy k x Hi) as [y [E _]]. eauto.
    - intros p. rewrite keys_pieces; [|intros k x Hi; destruct (Hy k x Hi) as [y [E _]]; eauto].
      split; [intros H; exists st; auto|]. intros [st' [Hst' H]]. now rewrite (state_of_fun st st').
    - intros p s c Hi. unfold pieces in Hi. apply in_flat_map in Hi as [[k x] [Hk Hi]]. cbn [fst snd] in Hi.
      destruct (Hy k x Hk) as [y [E Hya]]. rewrite E in Hi. apply in_map_iff in Hi as [p' [Ep Hp]]. injection Ep as -> <-.
      split.
      + intros Hc. exists st, (f_manifest f), k, x, y. apply dget_In in E. repeat (split; [auto|]). auto.
      + intros (st' & man & d & x' & y' & Hst' & Hm' & Hd & Hp' & Hdy & Hc).
        rewrite <- (state_of_fun st st') in Hd by auto. pose proof (member_fun _ _ _ _ Hw Hm Hm') as Em. injection Em as <-.
        assert (Hk' : d = k /\ x' = x).
        { clear - S4 Hk Hd Hp Hp'. revert S4 Hk Hd. unfold listed. induction st as [|[k0 x0] st' IH]; cbn [flat_map snd]; [intros _ []|].
          intros Hn Hk Hd. apply NoDup_app_inv in Hn as [_ [N2 N3]].
          destruct Hk as [Hk|Hk]; destruct Hd as [Hd|Hd]; [split; congruence| | |auto].
          - injection Hk as -> ->. exfalso. apply (N3 p Hp), in_flat_map. exists (d, x'). auto.
          - injection Hd as -> ->. exfalso. apply (N3 p Hp'), in_flat_map. exists (k, x). auto. }
        destruct Hk' as [-> ->]. apply (In_dget k y' _ Hmn) in Hdy. rewrite E in Hdy. injection Hdy as <-. auto.
  Qed.
End Map.

Lemma subset_iff a b : subset a b = true <-> incl a b.
Proof.
  unfold subset. rewrite forallb_forall. split; intros H x Hx; apply str_in_true; auto. 
Qed.
Lemma proper_subset_iff a b : proper_subset a b = true <-> incl a b /\ exists x, In x b /\ ~ In x a.
Proof.
  unfold proper_subset. rewrite andb_true_iff, negb_true_iff. fold (subset a b). fold (subset b a). rewrite subset_iff.
  split; intros [H1 H2]; (split; [auto|]).
  - unfold subset in H2. clear H1. induction b as [|x b IH]; [discriminate|]. simpl in H2.
    destruct (str_in_spec x a) as [Hx|Hx].
    + destruct (IH H2) as [y [Hy Hy']]. exists y. split; [now right|auto].
    + exists x. split; [now left|auto].
  - destruct H2 as [x [Hx Hx']]. destruct (subset b a) eqn:E; [|auto]. apply subset_iff in E. exfalso. auto.
Qed.

Section Prior.
  Variables (root prior : json) (fr fp : facts) (hr hp : str).
  Hypothesis Hwr : json_wf root.
  Hypothesis Hwp : json_wf prior.
  Hypothesis Hor : obeys as_coded root fr.
  Hypothesis Hop : obeys as_coded prior fp.

  Lemma clean_compare v u : In v (f_versions fr) -> In v (f_versions fp) ->
    (clean (compare_states_for_version root prior v) u <-> forall d, has_digest prior v d <-> has_digest root v d).
  Proof using Hwr Hwp Hor Hop.
    intros Hr Hp. unfold compare_states_for_version.
    destruct (obeys_state root fr v Hor Hr) as [sr [Hsr _]]. destruct (obeys_state prior fp v Hop Hp) as [sp [Hsp _]].
    assert (Dr : forall d, has_digest root v d <-> In d (keys sr)).
    { intros d. split.
      - intros (st & x & Hst & Hd). rewrite (state_of_fun root v Hwr sr st) by auto. apply in_map_iff. exists (d, x). auto.
      - intros H. apply in_map_iff in H as [[k x] [E Hi]]. cbn [fst] in E. subst k. exists sr, x. auto. }
    assert (Dp : forall d, has_digest prior v d <-> In d (keys sp)).
    { intros d. split.
      - intros (st & x & Hst & Hd). rewrite (state_of_fun prior v Hwp sp st) by auto. apply in_map_iff. exists (d, x). auto.
      - intros H. apply in_map_iff in H as [[k x] [E Hi]]. cbn [fst] in E. subst k. exists sp, x. auto. }
    rewrite (version_state_ok root v Hwr sr Hsr), (version_state_ok prior v Hwp sp Hsp).
    rewrite clean_bind. split.
    - intros [x [E H]]. apply clean_lift, Ok_inv in E. subst x. rewrite clean_bind in H. destruct H as [y [E H]].
      apply clean_lift, Ok_inv in E. subst y.
      rewrite (clean_wfold_unit (fun digest => if negb (dmem digest sp) then werror (`"E066d")
           else if negb (dmem digest sr) then werror (`"E066e") else wret tt)) in H.
      rewrite Forall_forall in H. intros d. rewrite Dr, Dp.
      assert (G : In d (keys sr ++ keys sp) -> In d (keys sp) /\ In d (keys sr)).
      { intros Hd. apply H in Hd. destruct (dmem d sp) eqn:E1; [|now apply clean_error in Hd].
        destruct (dmem d sr) eqn:E2; [|now apply clean_error in Hd]. split; now apply dmem_true. }
      split; intros Hd; apply G, in_or_app; auto.
    - intros H. exists sr. split; [now apply clean_lift|]. rewrite clean_bind. exists sp. split; [now apply clean_lift|].
      rewrite (clean_wfold_unit (fun digest => if negb (dmem digest sp) then werror (`"E066d")
           else if negb (dmem digest sr) then werror (`"E066e") else wret tt)).
      apply Forall_forall. intros d Hd.
      assert (G : In d (keys sp) /\ In d (keys sr)).
      { rewrite <- Dr, <- Dp. apply in_app_or in Hd as [Hd|Hd]; [apply Dr in Hd|apply Dp in Hd]; split; auto; now apply H. }
      destruct G as [G1 G2]. apply dmem_true in G1, G2. rewrite G1, G2. now apply clean_ret.
  Qed.

  Lemma clean_metadata v u : In v (f_versions fr) -> In v (f_versions fp) -> clean (compare_metadata root prior v) u.
  Proof using Hwr Hwp Hor Hop.
    intros Hr Hp. destruct (version_block_ok root fr v Hwr Hor Hr) as (_ & br & _ & _ & Er).
    destruct (version_block_ok prior fp v Hwp Hop Hp) as (_ & bp & _ & _ & Ep). unfold compare_metadata. rewrite Er, Ep.
    change (wlift (Ok bp)) with (wret bp). change (wlift (Ok br)) with (wret br). rewrite !clean_bind_ret.
    rewrite (clean_wfold_unit (fun key => if py_eq (py_get key bp) (py_get key br) then wret tt else wwarning (`"W011"))).
    apply Forall_forall. intros k _. destruct (py_eq _ _); [now apply clean_ret|now apply clean_warning].
  Qed.

  Lemma clean_prior_version v u : In v (f_versions fr) -> In v (f_versions fp) ->
    (clean (prior_version_check root (accepted fr hr) prior (accepted fp hp) tt v) u <->
     (f_alg fp = f_alg fr -> forall d, has_digest prior v d <-> has_digest root v d) /\
     (forall p, has_path prior v p <-> has_path root v p) /\
     (forall p c, content_file prior v p c -> content_file root v p c)).
  Proof using Hwr Hwp Hor Hop.
    intros Hr Hp. unfold prior_version_check. cbn [iv_digest_algorithm accepted same_algorithm].
    destruct (path_map_ok root fr v Hwr Hor Hr) as (mr & Er & Nr & Pr & Cr).
    destruct (path_map_ok prior fp v Hwp Hop Hp) as (mp & Ep & Np & Pp & Cp).
    rewrite Er, Ep. rewrite clean_bind.
    assert (A : forall x, clean (if str_eqb (f_alg fp) (f_alg fr) then compare_states_for_version root prior v else wret tt) x <->
      (f_alg fp = f_alg fr -> forall d, has_digest prior v d <-> has_digest root v d)).
    { intros x. destruct (str_eqb (f_alg fp) (f_alg fr)) eqn:E.
      - apply str_eqb_eq in E. rewrite clean_compare by auto. tauto.
      - assert (f_alg fp <> f_alg fr) by (intros H; apply str_eqb_eq in H; congruence).
        rewrite clean_ret. destruct x. split; [tauto|auto]. }
    assert (B : forall x, clean (let! prior_map := wlift (Ok mp) in let! self_map := wlift (Ok mr) in
       let only_in_prior := negb (subset (keys prior_map) (keys self_map)) in
       let only_in_self := negb (subset (keys self_map) (keys prior_map)) in
       if only_in_prior || only_in_self then
         (if only_in_prior then werror (`"E066b") else wret tt) ;! (if only_in_self then werror (`"E066b") else wret tt)
       else wfold (fun (_ : unit) (kv : str * list str) => match dget (fst kv) self_map with
                        | None => wraise KeyError
                        | Some content => if subset (snd kv) content then wret tt else werror (`"E066c")
                        end) prior_map tt) x <->
       (forall p, has_path prior v p <-> has_path root v p) /\
       (forall p c, content_file prior v p c -> content_file root v p c)).
    { intros x. change (wlift (Ok mp)) with (wret mp). change (wlift (Ok mr)) with (wret mr).
      rewrite !clean_bind_ret. cbn zeta.
      destruct (subset (keys mp) (keys mr)) eqn:S1; cbn [negb orb].
      2:{ rewrite clean_bind_error. split; [tauto|]. intros [H _]. exfalso.
          assert (subset (keys mp) (keys mr) = true); [|congruence]. apply subset_iff. intros p Hi. apply Pr, H, Pp, Hi. }
      destruct (subset (keys mr) (keys mp)) eqn:S2; cbn [negb].
      2:{ rewrite clean_bind_ret, clean_error. split; [tauto|]. intros [H _].
          assert (subset (keys mr) (keys mp) = true); [|congruence]. apply subset_iff. intros p Hi. apply Pp, H, Pr, Hi. }
      apply subset_iff in S1, S2.
      rewrite (clean_wfold_unit (fun kv : str * list str => match dget (fst kv) mr with
                        | None => wraise KeyError
                        | Some content => if subset (snd kv) content then wret tt else werror (`"E066c")
                        end)).
      rewrite Forall_forall. split.
      - intros H. split; [intros p; rewrite <- Pr, <- Pp; split; [apply S1|apply S2]|].
        intros p c Hc.
        assert (Hk : In p (keys mp)). { apply Pp. destruct Hc as (st & man & d & y & z & Hst & _ & Hd & Hy & _). exists st. split; [auto|]. apply in_flat_map. exists (d, y). auto. }
        apply in_map_iff in Hk as [[p' s] [E Hi]]. cbn [fst] in E. subst p'. pose proof (H _ Hi) as G. cbn [fst snd] in G.
        destruct (dget p mr) as [s'|] eqn:E'; [|now apply clean_raise in G]. apply clean_when_ok, subset_iff in G.
        apply (Cr p s'); [now apply dget_In|]. apply G. now apply (Cp p s c).
      - intros [H1 H2] [p s] Hi. cbn [fst snd].
        assert (Hk : In p (keys mr)) by (apply S1, in_map_iff; exists (p, s); auto).
        destruct (dget p mr) as [s'|] eqn:E; [|apply dget_None in E; tauto].
        apply clean_when_ok, subset_iff. intros c Hc. apply (Cr p s'); [now apply dget_In|]. apply H2. now apply (Cp p s). }
    split.
    - intros [x [H1 H2]]. pose proof (proj1 (A x) H1) as H1A. apply clean_bind in H2 as [y [H2 _]]. apply B in H2. tauto.
    - intros [H1 H2]. exists tt. split; [exact (proj2 (A tt) H1)|]. rewrite clean_bind. exists tt. split; [now apply B|now apply clean_metadata].
  Qed.

  Theorem prior_version_iff :
    snd (validate_as_prior_version root (accepted fr hr) prior (accepted fp hp)) = Ok true <->
    earlier_part prior root fp fr /\
    (f_alg fp = f_alg fr -> forall v d, In v (f_versions fp) -> (has_digest prior v d <-> has_digest root v d)).
  Proof using Hwr Hwp Hor Hop.
    unfold validate_as_prior_version. cbn [iv_all_versions accepted].
    set (w := if negb (proper_subset (f_versions fp) (f_versions fr)) then werror (`"E066a")
              else wfold (prior_version_check root (accepted fr hr) prior (accepted fp hp)) (f_versions fp) tt).
    assert (E : snd (match w with (log, Ok _) => (log, Ok (no_errors log)) | (log, Raise e) => (log, Raise e) end) = Ok true <-> clean w tt).
    { destruct w as [log [[]|e]]; unfold clean; cbn [fst snd]; split; try discriminate.
      - intros H. apply Ok_inv in H. auto.
      - intros [_ ->]. auto.
      - intros [H _]. discriminate. }
    rewrite E. clear E. unfold w, earlier_part. clear w.
    destruct (proper_subset (f_versions fp) (f_versions fr)) eqn:Ps; cbn [negb].
    2:{ rewrite clean_error. split; [tauto|]. intros [[H1 [H2 _]] _].
        assert (proper_subset (f_versions fp) (f_versions fr) = true); [|congruence]. apply proper_subset_iff. auto. }
    apply proper_subset_iff in Ps as [P1 P2].
    change (wfold (prior_version_check root (accepted fr hr) prior (accepted fp hp)) (f_versions fp) tt) with
      (wfold (fun _ v => prior_version_check root (accepted fr hr) prior (accepted fp hp) tt v) (f_versions fp) tt).
    rewrite (clean_wfold_unit (fun v => prior_version_check root (accepted fr hr) prior (accepted fp hp) tt v)).
    rewrite Forall_forall. split.
    - intros H. split; [split; [auto|split; [auto|]]|].
      + intros v Hv. pose proof (H v Hv) as G. apply clean_prior_version in G; auto. tauto.
      + intros Ea v d Hv. pose proof (H v Hv) as G. apply clean_prior_version in G; auto. destruct G as [G _]. now apply G.
    - intros [[_ [_ H1]] H2] v Hv. apply clean_prior_version; [now apply P1|exact Hv|]. destruct (H1 v Hv) as [G1 G2]. split; [|split; auto]. intros Ea d. now apply H2.
  Qed.
End Prior.
