(** Updating a valid object that other software may have written (C64). *)
From Coq Require Import Permutation Sorted.
From Verif Require Import Base Unicode Regex Utf8 Json PyJson JsonTextModel JsonTextSpec JsonTextProofs JsonFileProofs Log DigestModel LayoutModel LayoutProofs
  ObjectUtilsModel ObjectUtilsProofs InventorySpec InventoryValidatorModel InventoryValidatorProofs InventoryRulesProofs
  InventoryModel InventoryOpsSpec InventoryOpsProofs NewVersionModel NewVersionProofs NewVersionOpsProofs VersionNumberProofs InventoryParseProofs ParseModel
  ContentPathProofs TextFile PathModel FsModel FsSpec FsProofs FswModel FswSpec FswProofs FswCopyProofs ValidatorSpec ValidatorBasicProofs ObjectModel ObjectSpec ObjectInvProofs ObjectRulesProofs
  ObjectParseProofs ObjectAddProofs ContentNameProofs ObjectGrowProofs ObjectStartProofs ObjectCopyProofs ObjectWriteProofs ObjectSourceProofs ObjectFactsProofs NamasteSpec ValidatorVersionProofs ObjectMadeProofs ObjectIntactProofs ObjectExtendProofs FsStepProofs NamasteModel NamasteProofs ObjectStoreProofs ObjectCreateProofs ValidatorModel ValidatorIntactProofs ObjectUpdateProofs ObjectNextProofs ObjectDigestProofs ObjectVersionProofs ValidatorIntactProofs.

(** ** Writing the new version *)

Section Write.
  Variables (H : hashfn) (w : node) (h src : place) (n : nat) (b0 : bytes).
  Variables (a s : str) (i0 : inventory) (norm : option str) (fd dd : bool) (F : list (list str * bytes)) (nv : new_version)
    (K : list (str * (place * bytes))).
  Hypothesis HH : hash_ok H.
  Hypothesis Tw : tree w.
  Hypothesis Hh : Forall fname h.
  Hypothesis Hd : look w h = Some EDir.
  Hypothesis Hno : look w (h ++ [vn (S n)]) = None.
  Hypothesis Hinv : look w (h ++ [inv_name]) = Some (EFile b0).
  Hypothesis Hside : exists b, look w (h ++ [side_name a]) = Some (EFile b).
  Hypothesis G : growing H a s (S n) i0 norm fd dd (Some a) F nv.
  Hypothesis Kc : copied norm (vn (S n)) (content_directory_to_use i0) F (nv_copy nv) K.
  Hypothesis A1 : content_directory_to_use i0 <> inv_name.
  Hypothesis A2 : content_directory_to_use i0 <> side_name a.
  Hypothesis Hs : forall s r b, In (s, (r, b)) K -> look w (at_path src s) = Some (EFile b).
  Let i := nv_inv nv.
  Let V := map snd K ++ inv_files H a i [vn (S n)].
  Let bytes_of := json_dumps (json_of_inventory i).

  (** The new files are there, and besides them what was there before. *)
  Theorem write_other_ok : let x := write_new_version H a h src nv in let w' := after x w in
    result x w = Ok i /\ tree w' /\
    (forall r b, In (r, b) V -> look w' (h ++ r) = Some (EFile b)) /\
    (forall r e, look w' (h ++ vn (S n) :: r) = Some e -> exists y b, In (vn (S n) :: r ++ y, b) V) /\
    look w' (h ++ [inv_name]) = Some (EFile bytes_of) /\ look w' (h ++ [side_name a]) = Some (EFile (sidecar_text H a bytes_of)) /\
    look w' h = Some EDir /\
    (forall name r, name <> vn (S n) -> name :: r <> [inv_name] -> name :: r <> [side_name a] -> look w' (h ++ name :: r) = look w (h ++ name :: r)).
  Proof using HH Tw Hh Hd Hno Hinv Hside G Kc A1 A2 Hs.
    intros x w'. pose proof (gw_sound _ _ _ _ _ _ _ _ _ _ _ G) as So. fold i in So. pose proof (so_algs _ _ _ _ So) as Ha. pose proof (sound_writable _ _ _ _ So) as Wr.
    destruct (makedir_one w h (vn (S n)) Hh (vn_fname _) Hd Hno) as [R1 C1]. set (w1 := after (fs_makedir h (vn (S n))) w) in *.
    set (N := inv_files H a i [vn (S n)] ++ map snd K).
    assert (Pm : Permutation N V) by apply Permutation_app_comm.
    assert (In' : forall r b, In (r, b) V <-> In (r, b) N) by (intros r b; split; apply Permutation_in; [apply Permutation_sym|]; exact Pm).
    assert (Bel : forall r b, In (r, b) V -> exists c r', r = vn (S n) :: c :: r').
    { intros r b Hi. apply In' in Hi. exact (new_below H a s (S n) i0 norm fd dd _ F nv K G Kc r b Hi). }
    assert (Rm : room w h V).
    { apply room_fresh; [auto| | |].
      - intros r b Hi. destruct (Bel r b Hi) as (c & r' & E). apply In' in Hi. destruct (new_case H a s (S n) i0 norm fd dd _ F nv K G Kc r b Hi) as [Fr _]. subst r. eauto.
      - eapply Permutation_NoDup; [apply Permutation_map, Pm|]. exact (new_nodup H a s (S n) i0 norm fd dd _ F nv K G Kc A1 A2).
      - intros r b r' b' y H1 H2. apply In' in H1, H2. exact (new_apart H a s (S n) i0 norm fd dd _ F nv K G Kc A1 A2 _ _ _ _ _ H1 H2). }
    assert (Hno1 : forall b, ~ In ([vn (S n)], b) V) by (intros b Hi; destruct (Bel _ _ Hi) as (c & r' & E); discriminate).
    pose proof (mkdir_room _ _ _ _ _ C1 Hno1 Rm) as Rm1.
    destruct (copy_files_ok h src K Hh w1 (room_prefix _ _ _ _ Rm1)) as [R2 P2].
    { intros s0 r b Hi. rewrite (changes_other _ _ _ _ _ C1); [eapply Hs; eauto|].
      intros E. assert (Hx : look w (at_path src s0) = Some (EFile b)) by (eapply Hs; eauto). rewrite E, Hno in Hx. discriminate. }
    match type of R2 with result (copy_files _ _ ?m) _ = _ => assert (Ek : m = nv_copy nv) by exact (eq_sym (cp_files _ _ _ _ _ _ Kc)) end.
    rewrite Ek in R2, P2. clear Ek. set (x2 := copy_files h src (nv_copy nv)) in *. set (w2 := after x2 w1) in *.
    pose proof (room_app _ _ _ _ _ Rm1 P2) as Rm2.
    assert (Hv1 : look w1 (h ++ [vn (S n)]) = Some EDir) by exact (changes_at _ _ _ _ C1).
    destruct (write_inventory_placed H a h i [vn (S n)] w2 HH Ha Hh) as [[s3 R3] P3].
    { constructor; [apply vn_fname|constructor]. }
    { exact Wr. }
    { exact (placed_keep _ _ _ _ _ _ (room_prefix _ _ _ _ Rm1) P2 Hv1). }
    { eapply (rm_free _ _ _ Rm2 [vn (S n); inv_name]). left. reflexivity. }
    { eapply (rm_free _ _ _ Rm2 [vn (S n); side_name a]). right. left. reflexivity. }
    change (join [PathModel.slash] [vn (S n)]) with (vn (S n)) in R3, P3. set (x3 := write_inventory_and_sidecar H a h (Some i) (vn (S n))) in *. set (w3 := after x3 w2) in *.
    pose proof (placed_app _ _ _ _ _ _ Rm1 P2 P3) as P13.
    assert (Pl : placed w h V w3).
    { apply (mkdir_placed w w1 w3 h (vn (S n)) V C1 Hno Hd); [|exact P13]. exists [inv_name], bytes_of. split; [|discriminate]. apply in_or_app. right. left. reflexivity. }
    destruct Hside as [bs Hbs].
    pose proof (placed_keep _ _ _ _ _ _ Rm Pl Hd) as Hd3. pose proof (placed_keep _ _ _ _ _ _ Rm Pl Hinv) as Hinv3. pose proof (placed_keep _ _ _ _ _ _ Rm Pl Hbs) as Hside3.
    destruct (write_inventory_ok H a h i [] w3 HH Ha Hh (Forall_nil _) Wr) as [R4 (w4 & C4 & C5)].
    { now rewrite app_nil_r. }
    { right. eexists. exact Hinv3. }
    { right. eexists. exact Hside3. }
    change (join [PathModel.slash] []) with (@List.nil BinNums.N) in R4, C5. cbn [app] in C4, C5. set (x4 := write_inventory_and_sidecar H a h (Some i) []) in *. set (w5 := after x4 w3) in *.
    assert (Ex : result x w = Ok i /\ after x w = w5).
    { pose proof (so_alg _ _ _ _ So) as Ea. destruct (gw_options _ _ _ _ _ _ _ _ _ _ _ G) as (_ & _ & _ & Eo). unfold x, write_new_version. fold i. rewrite Eo, Ea, str_eqb_refl.
      rewrite (result_seq (iret tt) _ w tt eq_refl), (after_seq (iret tt) _ w tt eq_refl). change (after (iret tt) w) with w. rewrite result_read, after_read. cbv beta.
      assert (Eh : head_of i = Ok (vn (S n))) by (unfold head_of; now rewrite (so_head _ _ _ _ So)). rewrite Eh.
      rewrite (result_seq _ _ w tt R1), (after_seq _ _ w tt R1). fold w1. fold x2. rewrite (result_seq x2 _ w1 tt R2), (after_seq x2 _ w1 tt R2). fold w2. fold x3.
      rewrite (result_seq x3 _ w2 s3 R3), (after_seq x3 _ w2 s3 R3). fold w3. fold x4. rewrite (result_seq x4 _ w3 _ R4), (after_seq x4 _ w3 _ R4). auto. }
    destruct Ex as [Ex1 Ex2]. assert (Ew : w' = w5) by exact Ex2. split; [exact Ex1|].
    split; [apply tree_after; [exact Tw|now apply named_write_new_version]|]. rewrite Ew.
    assert (K5 : forall q, q <> [inv_name] -> q <> [side_name a] -> look w5 (h ++ q) = look w3 (h ++ q)).
    { intros q Q1 Q2. rewrite (changes_other _ _ _ _ _ C5) by (intros E; now apply app_inv_head in E). apply (changes_other _ _ _ _ _ C4). intros E; now apply app_inv_head in E. }
    assert (Vn : forall k r, k = inv_name \/ k = side_name a -> vn (S n) :: r <> [k]).
    { intros k r Hk E. apply (f_equal (hd [])) in E. cbn [hd] in E. destruct (vn_starts (S n)) as [q Eq]. rewrite Eq in E. destruct Hk as [-> | ->]; discriminate. }
    split; [|split; [|split; [|split; [|split]]]].
    - intros r b Hi. destruct (Bel r b Hi) as (c & r' & E). rewrite K5; [now apply Pl|subst r; apply Vn; auto|subst r; apply Vn; auto].
    - intros r e He. rewrite K5 in He by (apply Vn; auto). destruct (list_cases V (vn (S n) :: r)) as [(r' & b & y & Hi & ->)|No]; [exists y, b; exact Hi|].
      exfalso. destruct Pl as (_ & _ & P3'). rewrite P3' in He.
      + destruct r as [|c r]; [rewrite Hno in He; discriminate|]. replace (h ++ vn (S n) :: c :: r) with ((h ++ [vn (S n)]) ++ c :: r) in He by now rewrite <- app_assoc.
        rewrite look_below_leaf in He; [discriminate|discriminate|]. rewrite Hno. discriminate.
      + intros r' b' y Hi E. rewrite <- app_assoc in E. apply app_inv_head in E. exact (No r' b' y Hi E).
    - rewrite (changes_other _ _ _ _ _ C5); [exact (changes_at _ _ _ _ C4)|]. intros E. apply app_inv_head in E. exact (side_not_inv_name _ (eq_sym (f_equal (hd []) E))).
    - exact (changes_at _ _ _ _ C5).
    - replace h with (h ++ []) by apply app_nil_r. rewrite K5 by discriminate. now rewrite app_nil_r.
    - intros name r N1 N2 N3. rewrite K5 by auto. destruct Pl as (_ & _ & P3'). apply P3'. intros r' b' y Hi E. rewrite <- app_assoc in E. apply app_inv_head in E.
      destruct (Bel _ _ Hi) as (c & r0 & E'). rewrite E' in E. cbn [app] in E. injection E as E _. congruence.
  Qed.
End Write.

(** ** What an inventory file says *)

Record says (j : json) (f : facts) (i : inventory) : Prop := {
  sy_path : forall v p, has_path j v p <-> in_version i v p;
  sy_file : forall v p c, content_file j v p c <-> resolves i v p c;
  sy_digest : forall v d, has_digest j v d <-> state_key i v d;
  sy_lists : forall d p, lists (f_manifest f) d p <-> stored i d p;
  sy_id : f_id f = or_empty (i_id i);
  sy_cdir : f_cdir f = content_directory_to_use i;
  sy_set : f_cdir_set f = match i_cdir i with Some _ => true | None => false end
}.

Lemma sound_says alg spec n i : sound alg spec n i -> says (sort_json (json_of_inventory i)) (facts_of alg spec n i) i.
Proof.
  intros So. constructor; try reflexivity.
  - apply (has_path_json _ _ _ _ So).
  - apply (content_file_json _ _ _ _ So).
  - apply (has_digest_json _ _ _ _ So).
  - apply lists_manifest.
Qed.

Lemma listed_lists b p : In p (listed b) <-> exists d, lists b d p.
Proof.
  unfold listed, lists. rewrite in_flat_map. split.
  - intros ([d x] & Hx & Hp). exists d, x. auto.
  - intros (d & x & Hx & Hp). exists (d, x). auto.
Qed.

(** Files in the fixity block are in the manifest. *)
Lemma fixity_listed j f x d p : obeys as_coded j f -> json_wf j -> fixity_lists j x d p -> In p (listed (f_manifest f)).
Proof.
  intros (_ & _ & _ & _ & _ & _ & Hf & _) Hw (fx & block & Hm & Hb & (y & Hy & Hp)). destruct Hf as [L|(fx' & Hm' & Hx)]; [exfalso; exact (L _ Hm)|].
  assert (E : JObj fx = JObj fx') by (eapply member_fun; eauto). injection E as ->. destruct (Hx _ _ Hb) as (_ & b' & E & Hb' & _). injection E as ->.
  destruct (Hb' d y Hy) as (_ & _ & Hi). auto.
Qed.

(** ** The object after the update is intact *)

Section After.
  Variables (H : hashfn) (w w' : node) (h : place) (sd a s : str) (n : nat) (rb : bytes) (root : json) (f : facts) (i i' : inventory)
    (K : list (place * bytes)).
  Let V := K ++ inv_files H a i' [vn (S n)].
  Let file := json_dumps (json_of_inventory i').
  Let root' := sort_json (json_of_inventory i').
  Let f' := facts_of a s (S n) i'.
  Let cd := content_directory_to_use i.
  Hypothesis HH : hash_ok H.
  Hypothesis Tw : tree w.
  Hypothesis I : intact H true w h sd rb root f (vn n).
  Hypothesis Ef : f_versions f = names None n.
  Hypothesis Ea : f_alg f = a.
  Hypothesis Sy : says root f i.
  Hypothesis Sx : forall x d p, fixed i x d p -> fixity_lists root x d p /\ In p (listed (f_manifest f)) /\ exists z, digest_size x z.
  Hypothesis So : sound a s (S n) i'.
  Hypothesis Hn : (1 <= n)%nat.
  (* the earlier inventories *)
  Hypothesis Old : forall v j fv, In v (f_versions f) -> inventory_of w h (vn n) v j fv ->
    incl (listed (f_manifest fv)) (listed (f_manifest f)) /\ no_later (f_spec fv) (f_spec f).
  Hypothesis Sd : no_later (f_spec f) sd.
  Hypothesis Cn : forall x, cd <> `"inventory.json" ++ x.
  (* the new inventory *)
  Hypothesis Gid : i_id i' = i_id i.
  Hypothesis Gcd : i_cdir i' = i_cdir i.
  Hypothesis Gs : forall v d p, In v (names None n) -> (in_state i' v d p <-> in_state i v d p).
  Hypothesis Gk : forall v d, In v (names None n) -> (state_key i' v d <-> state_key i v d).
  Hypothesis Gst : forall d c, stored i' d c <-> stored i d c \/ exists r b, In (r, b) K /\ c = J r /\ d = H a b.
  Hypothesis Gf : forall x d c, fixed i' x d c -> fixed i x d c.
  Hypothesis GK : forall r b, In (r, b) K -> Forall fname r /\ exists r', r' <> [] /\ r = vn (S n) :: cd :: r'.
  (* the new files *)
  Hypothesis Wv : forall r b, In (r, b) V -> look w' (h ++ r) = Some (EFile b).
  Hypothesis Wo : forall r e, look w' (h ++ vn (S n) :: r) = Some e -> exists y b, In (vn (S n) :: r ++ y, b) V.
  Hypothesis Wi : look w' (h ++ [inv_name]) = Some (EFile file).
  Hypothesis Ws : look w' (h ++ [side_name a]) = Some (EFile (sidecar_text H a file)).
  Hypothesis Wr : forall name r, name <> vn (S n) -> name :: r <> [inv_name] -> name :: r <> [side_name a] -> look w' (h ++ name :: r) = look w (h ++ name :: r).

  Lemma root_wf : json_wf root.
  Proof using All. destruct (in_inventory _ _ _ _ _ _ _ _ _ I) as [_ E]. now apply json_load_wf in E. Qed.

  Lemma old_vn v : In v (f_versions f) <-> exists k, (1 <= k <= n)%nat /\ v = vn k.
  Proof using All. rewrite Ef. apply In_vn. Qed.
  Lemma old_not_new v : In v (f_versions f) -> v <> vn (S n).
  Proof using All. intros Hv ->. apply old_vn in Hv as (k & Hk & E). apply vn_inj in E. lia. Qed.
  Lemma new_vn v : In v (f_versions f') <-> In v (f_versions f) \/ v = vn (S n).
  Proof using All.
    change (f_versions f') with (names None (S n)). rewrite In_vn, old_vn. split.
    - intros (k & Hk & ->). destruct (Nat.eq_dec k (S n)) as [->|]; [auto|]. left. exists k. split; [lia|auto].
    - intros [(k & Hk & ->)| ->]; [exists k; split; [lia|auto]|exists (S n); split; [lia|auto]].
  Qed.
  Lemma head_old : In (vn n) (f_versions f).
  Proof using All. apply old_vn. exists n. split; [lia|auto]. Qed.

  Lemma old_look v r : In v (f_versions f) -> at_root w' h (v :: r) = at_root w h (v :: r).
  Proof using All.
    intros Hv. unfold at_root. assert (Hv' := Hv). apply old_vn in Hv' as (k & _ & ->). destruct (vn_starts k) as [q Eq]. apply Wr.
    - now apply old_not_new.
    - rewrite Eq. discriminate.
    - rewrite Eq. discriminate.
  Qed.

  Lemma cdir_same : f_cdir f = cd /\ f_cdir f' = cd.
  Proof using All. split; [apply Sy|]. unfold f', facts_of, cd, content_directory_to_use. cbn [f_cdir]. now rewrite Gcd. Qed.

  (** The inventories of the versions there were *)
  Lemma old_inventory v j fv : In v (f_versions f) -> (inventory_of w' h (vn (S n)) v j fv <->
    inventory_of w h (vn n) v j fv \/ (v = vn n /\ has_inventory w h v /\ j = root /\ fv = f)).
  Proof using All.
    intros Hv. unfold inventory_of, inventory_at. cbn [app]. rewrite (old_look v [`"inventory.json"]) by auto. split.
    - intros (_ & b & (Hb & Hj) & Ho). destruct (list_eq_dec N.eq_dec v (vn n)) as [->|Hne]; [|left; split; [auto|eauto]].
      right. split; [auto|]. assert (Hi : has_inventory w h (vn n)) by (unfold has_inventory; cbn [app] in Hb; congruence). split; [auto|].
      destruct (in_versions _ _ _ _ _ _ _ _ _ I) as (V1 & _). destruct (V1 Hi) as [E _]. cbn [app] in Hb. rewrite E in Hb. apply Some_inv in Hb. injection Hb as Eb. rewrite Eb in Hj.
      destruct (in_inventory _ _ _ _ _ _ _ _ _ I) as [_ Er]. rewrite Er in Hj. apply Ok_inv in Hj. subst j. split; [auto|].
      exact (facts_unique _ _ _ root_wf Ho (in_rules _ _ _ _ _ _ _ _ _ I)).
    - intros [(Hne & b & (Hb & Hj) & Ho)|(-> & Hi & -> & ->)].
      + split; [now apply old_not_new|]. eauto.
      + split; [now apply old_not_new|]. destruct (in_versions _ _ _ _ _ _ _ _ _ I) as (V1 & _). destruct (V1 Hi) as [E _]. exists rb.
        split; [split; [exact E|]|apply (in_rules _ _ _ _ _ _ _ _ _ I)]. apply (in_inventory _ _ _ _ _ _ _ _ _ I).
  Qed.

  Lemma old_sidecar_name v name : In v (f_versions f) -> (sidecar_name w' h f' (vn (S n)) v name <-> sidecar_name w h f (vn n) v name).
  Proof using All.
    intros Hv. unfold sidecar_name. split.
    - intros [(E & _)|(j & fv & Hi & ->)]; [exfalso; now apply (old_not_new v)|]. apply old_inventory in Hi as [Hi|(-> & Hi & -> & ->)]; [|left|auto]; [right; eauto|]. auto.
    - intros [(-> & Hi & ->)|(j & fv & Hi & ->)]; right; [exists root, f|exists j, fv]; (split; [apply old_inventory; auto|reflexivity]).
  Qed.
  Lemma old_seen v : In v (f_versions f) -> (content_seen w' h f' (vn (S n)) v <-> content_seen w h f (vn n) v).
  Proof using All.
    intros Hv. destruct cdir_same as [E1 E2]. unfold content_seen. rewrite E1, E2. rewrite (old_sidecar_name v cd Hv). reflexivity.
  Qed.

  Lemma old_sidecar v al b : In v (f_versions f) -> sidecar H true w h [v] al b -> sidecar H true w' h [v] al b.
  Proof using All. intros Hv. unfold sidecar. cbn [app]. now rewrite (old_look v [`"inventory.json." ++ al]). Qed.

  (** The new version directory *)
  Lemma V_case r b : In (r, b) V -> (r = [vn (S n); inv_name] /\ b = file) \/ (r = [vn (S n); side_name a] /\ b = sidecar_text H a file) \/ In (r, b) K.
  Proof using All. unfold V. rewrite in_app_iff. intros [Hi|Hi]; [auto|]. destruct Hi as [E|[E|[]]]; injection E as <- <-; auto. Qed.
  Lemma new_case r e : look w' (h ++ vn (S n) :: r) = Some e ->
    (exists b, e = EFile b /\ In (vn (S n) :: r, b) V) \/ (e = EDir /\ exists c y b, In (vn (S n) :: r ++ c :: y, b) V).
  Proof using All.
    intros He. destruct (Wo r e He) as ([|c y] & b & Hi).
    - left. exists b. rewrite app_nil_r in Hi. split; [|auto]. rewrite (Wv _ _ Hi) in He. now apply Some_inv in He.
    - right. split; [|eauto]. pose proof (Wv _ _ Hi) as Hf. assert (Hd : look w' (h ++ vn (S n) :: r) = Some EDir).
      { apply (look_above w' (h ++ vn (S n) :: r) c y). rewrite <- app_assoc. cbn [app]. rewrite Hf. discriminate. }
      rewrite Hd in He. now apply Some_inv in He.
  Qed.
  Lemma new_inv : look w' (h ++ [vn (S n); inv_name]) = Some (EFile file).
  Proof using All. apply Wv. unfold V. apply in_or_app. right. now left. Qed.
  Lemma new_side : look w' (h ++ [vn (S n); side_name a]) = Some (EFile (sidecar_text H a file)).
  Proof using All. apply Wv. unfold V. apply in_or_app. right. right. now left. Qed.
  Lemma new_dir : look w' (h ++ [vn (S n)]) = Some EDir.
  Proof using All. apply (look_above w' (h ++ [vn (S n)]) inv_name []). rewrite <- app_assoc. cbn [app]. rewrite new_inv. discriminate. Qed.
  Lemma new_has : has_inventory w' h (vn (S n)).
  Proof using All. intros E. pose proof new_inv as F. unfold at_root in E. unfold inv_name in F. rewrite E in F. discriminate. Qed.
  Lemma new_sidecar_name name : sidecar_name w' h f' (vn (S n)) (vn (S n)) name <-> name = side_name a.
  Proof using All.
    split.
    - intros [(_ & _ & ->)|(j & fv & (Hne & _) & _)]; [reflexivity|congruence].
    - intros ->. left. split; [auto|]. split; [exact new_has|reflexivity].
  Qed.
  Lemma cd_apart : cd <> inv_name /\ forall x, cd <> side_name x.
  Proof using All. split; [rewrite <- (app_nil_r inv_name); apply Cn|]. intros x. change (side_name x) with (`"inventory.json" ++ (`"." ++ x)). apply Cn. Qed.
  Lemma new_seen : content_seen w' h f' (vn (S n)) (vn (S n)).
  Proof using All. destruct cdir_same as [_ E]. destruct cd_apart as [B1 B2]. split; rewrite E; [exact B1|]. rewrite new_sidecar_name. apply B2. Qed.

  Lemma listed_new p : In p (listed (f_manifest f')) <-> In p (listed (f_manifest f)) \/ exists r b, In (r, b) K /\ p = J r.
  Proof using All.
    pose proof (sound_says _ _ _ _ So) as Sy'. rewrite !listed_lists. split.
    - intros [d Hd]. apply (sy_lists _ _ _ Sy') in Hd. apply Gst in Hd as [Hd|(r & b & Hi & -> & _)]; [left; exists d; now apply Sy|right; eauto].
    - intros [[d Hd]|(r & b & Hi & ->)].
      + exists d. apply (sy_lists _ _ _ Sy'), Gst. left. now apply Sy.
      + exists (H a b). apply (sy_lists _ _ _ Sy'), Gst. right. eauto.
  Qed.

  Lemma fits_new al d p : In p (listed (f_manifest f)) -> file_fits H w h al d p -> file_fits H w' h al d p.
  Proof using All.
    intros Hp (r & b & E & Hr & Hd). exists r, b. split; [auto|]. split; [|auto].
    assert (Fr : Forall fname r).
    { assert (X : Forall fname (h ++ r)) by (apply (look_fnames w); [auto|unfold at_root in Hr; congruence]). now apply Forall_app in X as [_ X]. }
    apply (in_content _ _ _ _ _ _ _ _ _ I) in Hp as (v & r' & Hv & _ & Hr' & [L _] & E').
    assert (Fr' : Forall fname (v :: f_cdir f :: r')).
    { assert (X : Forall fname (h ++ v :: f_cdir f :: r')) by (apply (look_fnames w); auto). now apply Forall_app in X as [_ X]. }
    assert (Er : r = v :: f_cdir f :: r').
    { apply names_join_inj; auto; [|discriminate|transitivity p; [symmetry; exact E|exact E']].
      intros ->. rewrite E' in E. change (J []) with (@List.nil N) in E. inversion Fr' as [|? ? (V1 & _) _]; subst. destruct v; [congruence|]. rewrite join_cons in E by discriminate. discriminate. }
    subst r. now rewrite old_look.
  Qed.

  Lemma earlier_grows j fv : incl (f_versions fv) (f_versions f) ->
    (forall v, In v (f_versions fv) -> (forall p, has_path j v p <-> has_path root v p) /\ (forall p c, content_file j v p c -> content_file root v p c)) ->
    earlier_part j root' fv f'.
  Proof using All.
    intros Hi He. pose proof (sound_says _ _ _ _ So) as Sy'. fold root' f' in Sy'. split; [|split].
    - intros v Hv. apply new_vn. left. auto.
    - exists (vn (S n)). split; [apply new_vn; auto|]. intros Hv. apply Hi in Hv. now apply old_not_new in Hv.
    - intros v Hv. destruct (He v Hv) as [E1 E2]. assert (Hv' : In v (names None n)) by (rewrite <- Ef; auto). split.
      + intros p. rewrite E1, (sy_path _ _ _ Sy), (sy_path _ _ _ Sy'). unfold in_version. split; intros [d Hd]; exists d; now apply Gs.
      + intros p c Hc. apply E2, (sy_file _ _ _ Sy) in Hc as (d & Hd & Hs). apply (sy_file _ _ _ Sy'). exists d. split; [now apply Gs|]. apply Gst. now left.
  Qed.
  Lemma digests_grow v d : In v (f_versions f) -> (has_digest root v d <-> has_digest root' v d).
  Proof using All.
    intros Hv. pose proof (sound_says _ _ _ _ So) as Sy'. fold root' f' in Sy'. rewrite (sy_digest _ _ _ Sy), (sy_digest _ _ _ Sy'). symmetry. apply Gk. now rewrite <- Ef.
  Qed.
  Lemma head_facts : f_id f = f_id f' /\ f_cdir f = f_cdir f' /\ f_cdir_set f = f_cdir_set f'.
  Proof using All.
    pose proof (sound_says _ _ _ _ So) as Sy'. fold root' f' in Sy'. rewrite (sy_id _ _ _ Sy), (sy_id _ _ _ Sy'), (sy_set _ _ _ Sy), (sy_set _ _ _ Sy'), Gid, Gcd.
    destruct cdir_same as [-> ->]. auto.
  Qed.

  Theorem other_intact : intact H true w' h sd file root' f' (vn (S n)).
  Proof using All.
    destruct I as [D Inv Rules Hd Side Rt (V1 & V2 & V3 & V4) Dirs Cont Dig]. specialize (Dig eq_refl). destruct Dig as (G1 & G2 & G3).
    destruct cdir_same as [Ec1 Ec2]. destruct cd_apart as [B1 B2]. pose proof (sound_says _ _ _ _ So) as Sy'. fold root' f' in Sy'.
    assert (Ha : In a [`"sha512"; `"sha256"]) by apply (so_algs _ _ _ _ So).
    assert (Sz : exists z, digest_size a z) by (destruct Ha as [<-|[<-|[]]]; eexists; constructor).
    assert (Se : forall p : list str, look w' (h ++ p ++ [side_name a]) = Some (EFile (sidecar_text H a file)) -> sidecar H true w' h p a file).
    { intros p Hp. assert (Hp' : at_root w' h (p ++ [`"inventory.json." ++ a]) = Some (EFile (sidecar_text H a file))) by exact Hp. unfold sidecar. rewrite Hp'. split; [discriminate|]. intros _.
      destruct (sidecar_file_ok H a file HH Ha) as (A & B & C & E). exists (sidecar_text H a file). eexists _, _, _. split; [reflexivity|]. split; [exact A|]. split; [exact B|]. split; [exact C|exact E]. }
    assert (Zero : forall t, at_root w' h [`"0=" ++ t] = at_root w h [`"0=" ++ t]).
    { intros t. unfold at_root. apply Wr; [|discriminate|discriminate]. destruct (vn_starts (S n)) as [q ->]. discriminate. }
    constructor.
    - destruct D as (D1 & D2 & b & t & D3 & D4 & D5). split; [auto|]. split.
      + intros name. rewrite <- D2. unfold tagged. split; intros [L (u & ->)]; (split; [|eauto]); intros E; apply L.
        * change (look w (h ++ [`"0=" ++ u]) = None) in E. change (look w' (h ++ [`"0=" ++ u]) = None). transitivity (look w (h ++ [`"0=" ++ u])); [exact (Zero u)|exact E].
        * change (look w' (h ++ [`"0=" ++ u]) = None) in E. change (look w (h ++ [`"0=" ++ u]) = None). transitivity (look w' (h ++ [`"0=" ++ u])); [symmetry; exact (Zero u)|exact E].
      + exists b, t. split; [|auto]. transitivity (at_root w h [`"0=" ++ (`"ocfl_object_" ++ sd)]); [exact (Zero (`"ocfl_object_" ++ sd))|exact D3].
    - split; [exact Wi|]. apply (sound_bytes _ _ _ _ So).
    - exact (sound_obeys _ _ _ _ So).
    - now apply (member_head _ _ _ _ So).
    - apply Se. exact Ws.
    - intros name e He. unfold at_root in He. destruct (list_eq_dec N.eq_dec name (vn (S n))) as [->|N1].
      { rewrite new_dir in He. apply Some_inv in He. subst e. left. apply new_vn. auto. }
      destruct (list_eq_dec N.eq_dec name inv_name) as [->|N2].
      { rewrite Wi in He. apply Some_inv in He. subst e. right. now left. }
      destruct (list_eq_dec N.eq_dec name (side_name a)) as [->|N3].
      { rewrite Ws in He. apply Some_inv in He. subst e. right. right. now left. }
      assert (Q : forall r, r <> [] \/ r = [] -> look w' (h ++ name :: r) = look w (h ++ name :: r)) by (intros r _; apply Wr; congruence).
      rewrite Q in He by auto. specialize (Rt name e He). destruct e as [b| |]; cbn [root_entry] in *.
      + rewrite Ea in Rt. exact Rt.
      + destruct Rt as [Rt|[Rt|[Rt Ext]]]; [left; apply new_vn; auto|auto|]. right. right. split; [auto|]. intros k e' He'. apply (Ext k). unfold at_root in *. now rewrite Q in He' by (left; discriminate).
      + exact Rt.
    - split; [|split; [|split]].
      + intros _. split; [exact new_inv|]. apply Se. exact new_side.
      + intros v Hv Hne Hi. apply new_vn in Hv as [Hv|?]; [|contradiction]. unfold has_inventory in Hi. rewrite old_look in Hi by auto.
        destruct head_facts as (F1 & F2 & F3). destruct (list_eq_dec N.eq_dec v (vn n)) as [->|Hvn].
        * destruct (V1 Hi) as [E1 E2]. exists rb, root, f. split; [|split; [auto|split; [|split; [auto|split; [auto|split]]]]].
          -- split; [cbn [app]; rewrite old_look by auto; exact E1|apply Inv].
          -- apply old_sidecar; auto.
          -- rewrite F3. auto.
          -- split; [apply earlier_grows; [apply incl_refl|]; intros u _; split; [reflexivity|auto]|]. intros _ u d Hu. now apply digests_grow.
        * destruct (V2 v Hv Hvn Hi) as (b & j & fv & E1 & E2 & E3 & E4 & E5 & E6 & (E7 & E8 & E9) & E10). exists b, j, fv. split; [|split; [auto|split; [|split; [|split; [|split; [|split]]]]]].
          -- unfold inventory_at in *. cbn [app] in *. rewrite old_look by auto. exact E1.
          -- apply old_sidecar; auto.
          -- congruence.
          -- congruence.
          -- intros E. apply E6. congruence.
          -- apply earlier_grows; auto.
          -- intros E u d Hu. rewrite <- (digests_grow u d) by auto. apply E10; auto. change (f_alg f') with a in E. congruence.
      + intros v v' j j' fv fv' Hb Hi Hi'. destruct (before_In _ _ _ Hb) as [Hv Hv']. destruct Hi as [Ne Hi]. destruct Hi' as [Ne' Hi'].
        apply new_vn in Hv as [Hv|?]; [|contradiction]. apply new_vn in Hv' as [Hv'|?]; [|contradiction].
        assert (Hi1 : inventory_of w' h (vn (S n)) v j fv) by (split; auto). assert (Hi2 : inventory_of w' h (vn (S n)) v' j' fv') by (split; auto).
        pose proof Hv as Kv. pose proof Hv' as Kv'. apply old_vn in Kv as (k & Hk & Ek). apply old_vn in Kv' as (k' & Hk' & Ek'). subst v v'. apply before_vn in Hb.
        apply old_inventory in Hi1 as [Hi1|(E & _)]; [|apply vn_inj in E; lia|auto].
        apply old_inventory in Hi2 as [Hi2|(E & _ & -> & ->)]; [| |auto].
        * apply (V3 (vn k) (vn k') j j' fv fv'); auto. rewrite Ef.
          exists (names None (k - 1)), (map vn (seq (S k) (k' - k - 1))), (map vn (seq (S k') (n - k'))).
          assert (Nm : forall m, names None m = map vn (seq 1 m)).
          { intros m. unfold names, vn. rewrite <- seq_shift, map_map. apply map_ext. intros x. f_equal. lia. }
          rewrite !Nm. assert (Es : seq 1 n = seq 1 (k - 1) ++ k :: seq (S k) (k' - k - 1) ++ k' :: seq (S k') (n - k')).
          { replace n with ((k - 1) + S ((k' - k - 1) + S (n - k')))%nat at 1 by lia. rewrite seq_app. f_equal. replace (1 + (k - 1))%nat with k by lia. cbn [seq]. f_equal.
            rewrite seq_app. f_equal. replace (S k + (k' - k - 1))%nat with k' by lia. reflexivity. }
          rewrite Es, map_app. cbn [map]. rewrite map_app. reflexivity.
        * apply (Old (vn k) j fv); auto.
      + intros _ v j fv Hv Hi. pose proof Hi as [Hne _]. apply new_vn in Hv as [Hv|?]; [|contradiction]. apply old_inventory in Hi as [Hi|(_ & _ & _ & ->)]; [| |auto].
        * eapply no_later_trans; [|exact Sd]. now apply (Old v j fv).
        * exact Sd.
    - intros v Hv. apply new_vn in Hv as [Hv|E].
      + destruct (Dirs v Hv) as (X1 & X2 & X3). split; [|split].
        * rewrite old_look by auto. exact X1.
        * intros c e He. rewrite old_look in He by auto. destruct (X2 c e He) as [?|[?|[?|?]]]; [auto| | |auto].
          -- right. left. now apply old_sidecar_name.
          -- right. right. left. congruence.
        * intros Hs r Hr Hx. apply old_seen in Hs; [|auto]. rewrite Ec2 in Hx |- *. rewrite Ec1 in X3. rewrite old_look in Hx by auto. destruct (X3 Hs r Hr Hx) as [k Hk]. exists k. now rewrite old_look.
      + subst v. split; [exact new_dir|]. split.
        * intros c e He. unfold at_root in He. apply new_case in He as [(b & -> & Hi)|(-> & _)]; [|auto]. apply V_case in Hi as [[E _]|[[E _]|Hi]].
          -- injection E as ->. now left.
          -- injection E as ->. right. left. now apply new_sidecar_name.
          -- destruct (GK _ _ Hi) as (_ & r' & Hr' & E). injection E as _ E. congruence.
        * intros _ r Hr Hx. rewrite Ec2 in Hx |- *. unfold at_root in Hx. apply new_case in Hx as [(b & E & _)|(_ & c & y & b & Hi)]; [discriminate|].
          exists c. pose proof (Wv _ _ Hi) as Hf. intros E. unfold at_root in E.
          assert (G : h ++ vn (S n) :: (cd :: r) ++ c :: y = (h ++ vn (S n) :: cd :: r ++ [c]) ++ y) by (rewrite <- !app_assoc; cbn [app]; now rewrite <- app_assoc).
          rewrite G in Hf. destruct y as [|z y]; [rewrite app_nil_r in Hf; congruence|]. rewrite look_below_leaf in Hf; [discriminate|discriminate|]. rewrite E. discriminate.
    - intros p. rewrite listed_new. split.
      + intros [Hp|(r & b & Hi & ->)].
        * apply Cont in Hp as (v & r & Hv & Hs & Hr & [L1 L2] & ->). exists v, r. split; [apply new_vn; auto|]. split; [now apply old_seen|]. split; [auto|]. rewrite Ec1 in L1, L2 |- *. rewrite Ec2.
          split; [|reflexivity]. unfold leaf in *. pose proof (old_look v (cd :: r) Hv) as E. unfold at_root in E. rewrite E. auto.
        * destruct (GK _ _ Hi) as (Fr & r' & Hr' & ->). exists (vn (S n)), r'. split; [apply new_vn; auto|]. split; [exact new_seen|]. split; [auto|]. rewrite Ec2. split; [|reflexivity].
          unfold leaf. rewrite (Wv (vn (S n) :: cd :: r') b) by (unfold V; apply in_or_app; auto). split; discriminate.
      + intros (v & r & Hv & Hs & Hr & [L1 L2] & ->). rewrite Ec2 in L1, L2 |- *. apply new_vn in Hv as [Hv|E].
        * left. apply Cont. exists v, r. split; [auto|]. split; [now apply old_seen|]. split; [auto|]. rewrite Ec1. split; [|reflexivity].
          pose proof (old_look v (cd :: r) Hv) as E. unfold at_root in E. unfold leaf. rewrite <- E. auto.
        * subst v. right. destruct (look w' (h ++ vn (S n) :: cd :: r)) as [e|] eqn:E; [|congruence]. apply new_case in E as [(b & -> & Hi)|(-> & _)]; [|congruence].
          apply V_case in Hi as [[E _]|[[E _]|Hi]].
          -- injection E as E _. now apply B1 in E.
          -- injection E as E _. now apply B2 in E.
          -- eauto.
    - intros _. split; [|split].
      + intros d p Hl. apply (sy_lists _ _ _ Sy') in Hl. apply Gst in Hl as [Hl|(r & b & Hi & -> & ->)].
        * apply (sy_lists _ _ _ Sy) in Hl. apply fits_new; [apply listed_lists; eauto|]. change (f_alg f') with a. rewrite <- Ea. now apply G1.
        * exists r, b. split; [reflexivity|]. split; [apply Wv; unfold V; apply in_or_app; auto|]. now apply hash_records.
      + intros x d p Hl. apply (fixity_json _ _ _ _ So), Gf, Sx in Hl as (Hl & Hp & _). apply fits_new; auto.
      + intros v j fv Hv Hi. pose proof Hi as [Hne _]. apply new_vn in Hv as [Hv|?]; [|contradiction]. apply old_inventory in Hi as [Hi|(-> & _ & -> & ->)]; [| |auto].
        * destruct (G3 v j fv Hv Hi) as [X1 X2]. destruct (Old v j fv Hv Hi) as [X3 _]. destruct (V2 v Hv) as (b & j2 & fv2 & Y1 & Y2 & _); [apply Hi|destruct Hi as (_ & b & (Hb & _) & _); unfold has_inventory; cbn [app] in Hb; congruence|].
          split.
          -- intros d p Hl _. assert (Hp : In p (listed (f_manifest f))) by (apply X3, listed_lists; eauto). apply fits_new; auto.
          -- intros x d p Hl Hp'. assert (Hp : In p (listed (f_manifest f))).
             { apply X3. destruct Hi as (_ & b' & (_ & Hj) & Ho). apply json_load_wf in Hj. exact (fixity_listed _ _ _ _ _ Ho Hj Hl). }
             apply fits_new; auto.
        * split.
          -- intros d p Hl _. apply fits_new; [apply listed_lists; eauto|]. now apply G1.
          -- intros x d p Hl _. apply fits_new; [exact (fixity_listed _ _ _ _ _ Rules root_wf Hl)|]. now apply G2.
  Qed.
End After.
