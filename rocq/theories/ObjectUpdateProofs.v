(** What writing a new version does (C35). *)
From Coq Require Import Permutation Sorted.
From Verif Require Import Base Unicode Regex Utf8 Json PyJson JsonTextModel JsonTextSpec JsonTextProofs JsonFileProofs Log DigestModel LayoutModel LayoutProofs
  ObjectUtilsModel ObjectUtilsProofs InventorySpec InventoryValidatorModel InventoryValidatorProofs InventoryRulesProofs
  InventoryModel InventoryOpsSpec InventoryOpsProofs NewVersionModel NewVersionProofs NewVersionOpsProofs VersionNumberProofs InventoryParseProofs ParseModel
  ContentPathProofs TextFile PathModel FsModel FsSpec FsProofs FswModel FswSpec FswProofs FswCopyProofs ValidatorSpec ValidatorBasicProofs ObjectModel ObjectSpec ObjectInvProofs ObjectRulesProofs
  ObjectParseProofs ObjectAddProofs ContentNameProofs ObjectGrowProofs ObjectStartProofs ObjectCopyProofs ObjectWriteProofs ObjectSourceProofs ObjectFactsProofs NamasteSpec ValidatorVersionProofs ObjectMadeProofs ObjectIntactProofs ObjectExtendProofs FsStepProofs NamasteModel NamasteProofs ObjectStoreProofs ObjectCreateProofs ValidatorModel.

(** A file of the object root is written, new or not, or removed. *)
Lemma put_holds w h L w' k b' L' : holds w h L -> changes w w' (h ++ [k]) (Some (EFile b')) ->
  (forall r0 b0, In (r0, b0) L' <-> (r0 = [k] /\ b0 = b') \/ (r0 <> [k] /\ In (r0, b0) L)) -> holds w' h L'.
Proof.
  intros Hh C E.
  assert (Hk : forall q, q <> [k] -> look w' (h ++ q) = look w (h ++ q)).
  { intros q Hq. apply (changes_other _ _ _ _ _ C). intros F. now apply app_inv_head in F. }
  constructor.
  - rewrite <- (app_nil_r h), Hk by discriminate. rewrite app_nil_r. apply Hh.
  - intros r0 b0 H0. apply E in H0 as [[-> ->]|[Hne H0]]; [exact (changes_at _ _ _ _ C)|]. rewrite Hk by auto. now apply (hl_files _ _ _ Hh).
  - intros r0 e H0 Hl. destruct (list_eq_dec (list_eq_dec N.eq_dec) r0 [k]) as [->|Hne].
    + exists [], b'. rewrite app_nil_r. apply E. auto.
    + rewrite Hk in Hl by auto. destruct (hl_only _ _ _ Hh r0 e H0 Hl) as (x & b0 & Hx). exists x, b0. apply E. right. split; [|auto].
      intros F. destruct r0 as [|c r0]; [congruence|]. cbn [app] in F. injection F as -> F. apply app_eq_nil in F as [-> _]. congruence.
Qed.
Lemma rm_holds w h L w' k L' : holds w h L -> changes w w' (h ++ [k]) None ->
  (forall r0 b0, In (r0, b0) L' <-> r0 <> [k] /\ In (r0, b0) L) -> holds w' h L'.
Proof.
  intros Hh C E.
  assert (Hk : forall q, q <> [k] -> look w' (h ++ q) = look w (h ++ q)).
  { intros q Hq. apply (changes_other _ _ _ _ _ C). intros F. now apply app_inv_head in F. }
  constructor.
  - rewrite <- (app_nil_r h), Hk by discriminate. rewrite app_nil_r. apply Hh.
  - intros r0 b0 H0. apply E in H0 as [Hne H0]. rewrite Hk by auto. now apply (hl_files _ _ _ Hh).
  - intros r0 e H0 Hl. destruct (list_eq_dec (list_eq_dec N.eq_dec) r0 [k]) as [->|Hne].
    + rewrite (changes_at _ _ _ _ C) in Hl. discriminate.
    + rewrite Hk in Hl by auto. destruct (hl_only _ _ _ Hh r0 e H0 Hl) as (x & b0 & Hx). exists x, b0. apply E. split; [|auto].
      intros F. destruct r0 as [|c r0]; [congruence|]. cbn [app] in F. injection F as -> F. apply app_eq_nil in F as [-> _]. congruence.
Qed.

Lemma rm_file w h k b : tree w -> Forall fname h -> fname k -> look w (h ++ [k]) = Some (EFile b) ->
  result (fs_rm h k) w = Ok tt /\ changes w (after (fs_rm h k) w) (h ++ [k]) None.
Proof.
  intros Tw Hh Hk Hl. pose proof (at_path_one h k Hh Hk) as E. apply look_file in Hl as Hg. unfold result, after, fs_rm. rewrite E, Hg. cbn [fst snd apply_all fold_left].
  split; [auto|]. apply unlink_changes; [auto|destruct h; discriminate|]. rewrite Hl. discriminate.
Qed.

Section Write.
  Variables (H : hashfn) (w : node) (h src : place) (sd : str) (n : nat) (alg spec : nat -> str) (ivs : nat -> inventory) (C : list (place * bytes)).
  Variables (a s : str) (i0 : inventory) (norm : option str) (fd dd : bool) (F : list (list str * bytes)) (nv : new_version)
    (K : list (str * (place * bytes))).
  Hypothesis HH : hash_ok H.
  Hypothesis M : made H w h sd n alg spec ivs C.
  Hypothesis G : growing H a s (S n) i0 norm fd dd (Some (alg n)) F nv.
  Hypothesis Kc : copied norm (vn (S n)) (content_directory_to_use i0) F (nv_copy nv) K.
  Hypothesis A1 : content_directory_to_use i0 <> inv_name.
  Hypothesis A2 : content_directory_to_use i0 <> side_name a.
  Hypothesis Hs : forall s r b, In (s, (r, b)) K -> look w (at_path src s) = Some (EFile b).
  Hypothesis Hout : forall s r b, In (s, (r, b)) K -> alg n = a \/ at_path src s <> h ++ [side_name (alg n)].
  Let i := nv_inv nv.
  Let L := object_files H sd n alg ivs C.
  Let V := map snd K ++ inv_files H a i [vn (S n)].
  Let x0 := (match nv_old_alg nv with
    | Some old => if (match i_alg i with Some a => str_eqb a old | None => false end) then iret tt else fs_rm h (INVENTORY_FILENAME ++ `"." ++ old)
    | None => iret tt end).

  Lemma old_file r b : In (r, b) L -> (exists k, r = [k] /\ (k = decl_name sd \/ k = inv_name \/ k = side_name (alg n))) \/ exists k c x, r = vn k :: c :: x /\ (1 <= k <= n)%nat.
  Proof using M.
    intros Hi. apply (in_object_iff _ _ _ _ _ _ _ _ _ M) in Hi. destruct r as [|k [|c x]].
    - inversion Hi.
    - left. exists k. split; [auto|]. eapply root_file; eauto.
    - right. destruct (below_root _ _ _ _ _ _ _ _ _ _ Hi) as (j & Hj & ->). eauto.
  Qed.

  Lemma first_step : exists w0 L0, result x0 w = Ok tt /\ after x0 w = w0 /\ holds w0 h L0 /\
    (forall r b, In (r, b) L0 <-> In (r, b) L /\ (alg n = a \/ r <> [side_name (alg n)])) /\
    (forall q, q <> h ++ [side_name (alg n)] -> look w0 q = look w q) /\ (alg n = a -> w0 = w).
  Proof using M G.
    pose proof (gw_sound _ _ _ _ _ _ _ _ _ _ _ G) as So. fold i in So. pose proof (so_alg _ _ _ _ So) as Ea.
    destruct (gw_options _ _ _ _ _ _ _ _ _ _ _ G) as (_ & _ & _ & Eo). unfold x0. rewrite Eo, Ea.
    destruct (str_eqb_spec a (alg n)) as [E|E].
    - exists w, L. split; [reflexivity|]. split; [reflexivity|]. split; [apply M|]. split; [|auto]. intros r b. split; [auto|tauto].
    - assert (Hf : look w (h ++ [side_name (alg n)]) = Some (EFile (sidecar_text H (alg n) (json_dumps (json_of_inventory (ivs n)))))).
      { apply (files_there _ _ _ _ _ _ _ _ _ M). constructor. }
      pose proof (md_head _ _ _ _ _ _ _ _ _ M) as So0.
      assert (Fs : fname (side_name (alg n))) by (apply fname_side, algs_no_slash, (so_algs _ _ _ _ So0)).
      destruct (rm_file w h (side_name (alg n)) _ (md_tree _ _ _ _ _ _ _ _ _ M) (md_names _ _ _ _ _ _ _ _ _ M) Fs Hf) as [R1 C1].
      exists (after (fs_rm h (side_name (alg n))) w), (filter (fun rb => negb (if list_eq_dec (list_eq_dec N.eq_dec) (fst rb) [side_name (alg n)] then true else false)) L).
      assert (Ef : forall r b, In (r, b) (filter (fun rb => negb (if list_eq_dec (list_eq_dec N.eq_dec) (fst rb) [side_name (alg n)] then true else false)) L) <-> r <> [side_name (alg n)] /\ In (r, b) L).
      { intros r b. rewrite filter_In. cbn [fst]. destruct (list_eq_dec (list_eq_dec N.eq_dec) r [side_name (alg n)]); cbn [negb]; split; intros [? ?]; split; auto; congruence. }
      split; [exact R1|]. split; [reflexivity|]. split; [eapply rm_holds; [apply M|exact C1|exact Ef]|]. split.
      + intros r b. rewrite Ef. split; [tauto|]. intros [? [?|?]]; [congruence|auto].
      + split; [|congruence]. intros q Hq. exact (changes_other _ _ _ _ _ C1 Hq).
  Qed.

  Lemma next_files r b : In (r, b) (object_files H sd (S n) (upd alg (S n) a) (upd ivs (S n) i) (C ++ map snd K)) <->
    In (r, b) [([decl_name sd], decl_text sd)] \/ In (r, b) (inv_files H a i []) \/ In (r, b) (flat_map (fun k => inv_files H (alg k) (ivs k) [vn k]) (seq 1 n)) \/
    In (r, b) C \/ In (r, b) V.
  Proof using.
    clear Hs Hout. unfold object_files, V. rewrite !upd_same. rewrite seq_S, flat_map_app. cbn [flat_map]. change (1 + n)%nat with (S n). rewrite !upd_same, app_nil_r.
    assert (E : flat_map (fun k => inv_files H (upd alg (S n) a k) (upd ivs (S n) i k) [vn k]) (seq 1 n) = flat_map (fun k => inv_files H (alg k) (ivs k) [vn k]) (seq 1 n)).
    { assert (Hk : forall k, In k (seq 1 n) -> k <> S n) by (intros k Hk; apply in_seq in Hk; lia). induction (seq 1 n) as [|k l IH]; [reflexivity|]. cbn [flat_map].
      rewrite IH by (intros; apply Hk; now right). rewrite !upd_other by (apply Hk; now left). reflexivity. }
    rewrite E. rewrite !in_app_iff. tauto.
  Qed.

  Theorem write_new_version_ok : let x := write_new_version H a h src nv in
    result x w = Ok i /\ tree (after x w) /\
    holds (after x w) h (object_files H sd (S n) (upd alg (S n) a) (upd ivs (S n) i) (C ++ map snd K)).
  Proof using HH M G Kc A1 A2 Hs Hout.
    intros x. pose proof (gw_sound _ _ _ _ _ _ _ _ _ _ _ G) as So. fold i in So. pose proof (so_algs _ _ _ _ So) as Ha. pose proof (sound_writable _ _ _ _ So) as Wr.
    pose proof (md_names _ _ _ _ _ _ _ _ _ M) as Hh.
    destruct first_step as (w0 & L0 & R0 & E0 & H0 & I0 & O0 & Same).
    assert (Hs0 : forall s0 r b, In (s0, (r, b)) K -> look w0 (at_path src s0) = Some (EFile b)).
    { intros s0 r b Hi. destruct (Hout _ _ _ Hi) as [E|E]; [rewrite (Same E)|rewrite O0 by exact E]; eapply Hs; eauto. }
    assert (Hno : look w0 (h ++ [vn (S n)]) = None).
    { destruct (look w0 (h ++ [vn (S n)])) eqn:E; [|auto]. exfalso. destruct (hl_only _ _ _ H0 [vn (S n)] e) as (y & b & Hi); [discriminate|exact E|].
      apply I0 in Hi as [Hi _]. destruct (old_file _ _ Hi) as [(k & Ek & Hk)|(k & c & z & Ek & Hk)].
      - apply (f_equal (hd [])) in Ek. cbn [app hd] in Ek. destruct (vn_starts (S n)) as [q Eq]. rewrite Eq in Ek. destruct Hk as [-> | [-> | ->]]; discriminate.
      - apply (f_equal (hd [])) in Ek. cbn [app hd] in Ek. apply vn_inj in Ek. clear -Ek Hk. lia. }
    pose proof (hl_dir _ _ _ H0) as Hd.
    destruct (makedir_one w0 h (vn (S n)) Hh (vn_fname _) Hd Hno) as [R1 C1]. set (w1 := after (fs_makedir h (vn (S n))) w0) in *.
    set (N := inv_files H a i [vn (S n)] ++ map snd K).
    assert (Pm : Permutation N V) by apply Permutation_app_comm.
    assert (In' : forall r b, In (r, b) V <-> In (r, b) N) by (intros r b; split; apply Permutation_in; [apply Permutation_sym|]; exact Pm).
    assert (Rm : room w0 h V).
    { apply room_fresh; [auto| | |].
      - intros r b Hi. apply In' in Hi. destruct (new_case H a s (S n) i0 norm fd dd _ F nv K G Kc r b Hi) as [Fr _].
        destruct (new_below H a s (S n) i0 norm fd dd _ F nv K G Kc r b Hi) as (c & r' & ->). eauto.
      - eapply Permutation_NoDup; [apply Permutation_map, Pm|]. exact (new_nodup H a s (S n) i0 norm fd dd _ F nv K G Kc A1 A2).
      - intros r b r' b' y H1 H2. apply In' in H1, H2. exact (new_apart H a s (S n) i0 norm fd dd _ F nv K G Kc A1 A2 _ _ _ _ _ H1 H2). }
    assert (Hno1 : forall b, ~ In ([vn (S n)], b) V).
    { intros b Hi. apply In' in Hi. destruct (new_below H a s (S n) i0 norm fd dd _ F nv K G Kc _ _ Hi) as (c & r' & E). discriminate. }
    pose proof (mkdir_room _ _ _ _ _ C1 Hno1 Rm) as Rm1.
    destruct (copy_files_ok h src K Hh w1 (room_prefix _ _ _ _ Rm1)) as [R2 P2].
    { intros s0 r b Hi. rewrite (changes_other _ _ _ _ _ C1).
      - eapply Hs0; eauto.
      - intros E. assert (Hx : look w0 (at_path src s0) = Some (EFile b)) by (eapply Hs0; eauto). rewrite E, Hno in Hx. discriminate. }
    match type of R2 with result (copy_files _ _ ?m) _ = _ => assert (Ek : m = nv_copy nv) by exact (eq_sym (cp_files _ _ _ _ _ _ Kc)) end.
    rewrite Ek in R2, P2. clear Ek. set (x2 := copy_files h src (nv_copy nv)) in *. set (w2 := after x2 w1) in *.
    pose proof (room_app _ _ _ _ _ Rm1 P2) as Rm2.
    assert (Hv1 : look w1 (h ++ [vn (S n)]) = Some EDir) by exact (changes_at _ _ _ _ C1).
    destruct (write_inventory_placed H a h i [vn (S n)] w2 HH Ha Hh) as [[s3 R3] P3].
    { constructor; [apply vn_fname|constructor]. }
    { exact Wr. }
    { exact (placed_keep _ _ _ _ _ _ (room_prefix _ _ _ _ Rm1) P2 Hv1). }
    { eapply (rm_free _ _ _ Rm2 [vn (S n); inv_name]). left. reflexivity. }
    { eapply (rm_free _ _ _ Rm2 [vn (S n); side_name a]). right. left. reflexivity. }
    change (join [PathModel.slash] [vn (S n)]) with (vn (S n)) in R3, P3. set (x3 := write_inventory_and_sidecar H a h (Some i) (vn (S n))) in *. set (w3 := after x3 w2) in *.
    pose proof (placed_app _ _ _ _ _ _ Rm1 P2 P3) as P13.
    assert (Pl : placed w0 h V w3).
    { apply (mkdir_placed w0 w1 w3 h (vn (S n)) V C1 Hno Hd); [|exact P13]. exists [inv_name], (json_dumps (json_of_inventory i)). split; [|discriminate]. apply in_or_app. right. left. reflexivity. }
    pose proof (placed_holds _ _ _ _ _ H0 Rm Pl) as H3.
    assert (Inv0 : In ([inv_name], json_dumps (json_of_inventory (ivs n))) L) by (apply (in_object_iff _ _ _ _ _ _ _ _ _ M); constructor).
    assert (Inv3 : In ([inv_name], json_dumps (json_of_inventory (ivs n))) (L0 ++ V)).
    { apply in_or_app. left. apply I0. split; [auto|]. right. intros E. exact (side_not_inv_name _ (eq_sym (f_equal (hd []) E))). }
    assert (Sd3 : look w3 (h ++ [] ++ [side_name a]) = None \/ exists z, look w3 (h ++ [] ++ [side_name a]) = Some (EFile z)).
    { cbn [app]. destruct (look w3 (h ++ [side_name a])) as [en|] eqn:E; [|auto]. right. destruct (holds_case _ _ _ [side_name a] en H3) as [(b & -> & _)|(-> & c & y & b & Hi)]; [discriminate|exact E|eauto|].
      exfalso. cbn [app] in Hi. apply in_app_or in Hi as [Hi|Hi].
      - apply I0 in Hi as [Hi _]. destruct (old_file _ _ Hi) as [(k & Ek & _)|(k & c' & z & Ek & _)]; [discriminate|]. destruct (vn_starts k) as [q Eq]. rewrite Eq in Ek. discriminate.
      - apply In' in Hi. destruct (new_below H a s (S n) i0 norm fd dd _ F nv K G Kc _ _ Hi) as (c' & r' & Ek). destruct (vn_starts (S n)) as [q Eq]. rewrite Eq in Ek. discriminate. }
    destruct (write_inventory_ok H a h i [] w3 HH Ha Hh (Forall_nil _) Wr) as [R4 (w4 & C4 & C5)].
    { rewrite app_nil_r. apply H3. }
    { right. eexists. exact (hl_files _ _ _ H3 _ _ Inv3). }
    { exact Sd3. }
    change (join [PathModel.slash] []) with (@List.nil BinNums.N) in R4, C5. cbn [app] in C4, C5. set (x4 := write_inventory_and_sidecar H a h (Some i) []) in *. set (w5 := after x4 w3) in *.
    assert (Ex : result x w = Ok i /\ after x w = w5).
    { unfold x, write_new_version. fold i. fold x0. rewrite (result_seq x0 _ w tt R0), (after_seq x0 _ w tt R0), E0. rewrite result_read, after_read. cbv beta.
      assert (Eh : head_of i = Ok (vn (S n))) by (unfold head_of; now rewrite (so_head _ _ _ _ So)). rewrite Eh.
      rewrite (result_seq _ _ w0 tt R1), (after_seq _ _ w0 tt R1). fold w1. fold x2. rewrite (result_seq x2 _ w1 tt R2), (after_seq x2 _ w1 tt R2). fold w2. fold x3.
      rewrite (result_seq x3 _ w2 s3 R3), (after_seq x3 _ w2 s3 R3). fold w3. fold x4. rewrite (result_seq x4 _ w3 _ R4), (after_seq x4 _ w3 _ R4). auto. }
    destruct Ex as [Ex1 Ex2]. split; [exact Ex1|]. split; [apply tree_after; [apply M|now apply named_write_new_version]|]. rewrite Ex2.
    set (L4 := ([inv_name], json_dumps (json_of_inventory i)) :: filter (fun rb => negb (if list_eq_dec (list_eq_dec N.eq_dec) (fst rb) [inv_name] then true else false)) (L0 ++ V)).
    assert (I4 : forall r b, In (r, b) L4 <-> (r = [inv_name] /\ b = json_dumps (json_of_inventory i)) \/ (r <> [inv_name] /\ In (r, b) (L0 ++ V))).
    { intros r b. unfold L4. cbn [In]. rewrite filter_In. cbn [fst]. destruct (list_eq_dec (list_eq_dec N.eq_dec) r [inv_name]); cbn [negb]; split.
      - intros [E|[_ E]]; [injection E as <- <-; auto|discriminate].
      - intros [[-> ->]|[? _]]; [auto|congruence].
      - intros [E|[E _]]; [injection E as <- <-; auto|auto].
      - intros [[-> ->]|[? ?]]; auto. }
    pose proof (put_holds _ _ _ _ _ _ _ H3 C4 I4) as H4.
    refine (put_holds _ _ _ _ _ _ _ H4 C5 _). intros r b. rewrite I4, in_app_iff, I0, next_files.
    assert (Eold : In (r, b) L <-> In (r, b) [([decl_name sd], decl_text sd)] \/ In (r, b) (inv_files H (alg n) (ivs n) []) \/
      In (r, b) (flat_map (fun k => inv_files H (alg k) (ivs k) [vn k]) (seq 1 n)) \/ In (r, b) C) by (unfold L, object_files; rewrite !in_app_iff; reflexivity).
    assert (Two : forall k, In (r, b) (flat_map (fun k => inv_files H (alg k) (ivs k) [vn k]) (seq 1 n)) \/ In (r, b) C \/ In (r, b) V -> r <> [k]).
    { intros k [Hi|[Hi|Hi]] ->.
      - apply in_flat_map in Hi as (j & _ & Hi). destruct Hi as [E|[E|[]]]; discriminate E.
      - destruct (content_shape _ _ _ _ _ _ _ _ _ M _ _ Hi) as (j & r' & _ & _ & _ & E). discriminate E.
      - apply In' in Hi. destruct (new_below H a s (S n) i0 norm fd dd _ F nv K G Kc _ _ Hi) as (c & r' & E). discriminate. }
    split.
    - intros [Hi|[Hi|Hi]].
      + destruct Hi as [E|[]]. injection E as <- <-. right. split; [discriminate|]. right. split; [discriminate|]. left. split; [apply Eold; left; now left|]. right. discriminate.
      + destruct Hi as [E|[E|[]]]; injection E as <- <-; [|left; auto]. right. split; [|auto]. intros E. exact (side_not_inv_name _ (eq_sym (f_equal (hd []) E))).
      + right. split; [apply Two; tauto|]. right. split; [apply Two; tauto|]. destruct Hi as [Hi|[Hi|Hi]]; [left|left|now right]; (split; [apply Eold; tauto|right; apply Two; tauto]).
    - intros [[-> ->]|[Hne [[-> ->]|[Hne2 [[Hi Hx]|Hi]]]]].
      + right. left. right. now left.
      + right. left. now left.
      + apply Eold in Hi as [Hi|[Hi|[Hi|Hi]]]; [auto| |tauto|tauto]. exfalso. destruct Hi as [E|[E|[]]]; injection E as <- <-; [now apply Hne2|].
        destruct Hx as [<-|Hx]; [now apply Hne|now apply Hx].
      + tauto.
  Qed.
End Write.
