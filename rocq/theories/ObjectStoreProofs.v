(** Writing the files of an object and of a new version (C34, C35). *)
From Coq Require Import Permutation Sorted.
From Verif Require Import Base Unicode Regex Utf8 Json PyJson JsonTextModel JsonTextSpec JsonTextProofs JsonFileProofs Log DigestModel LayoutModel LayoutProofs
  ObjectUtilsModel ObjectUtilsProofs InventorySpec InventoryValidatorModel InventoryValidatorProofs InventoryRulesProofs
  InventoryModel InventoryOpsSpec InventoryOpsProofs NewVersionModel NewVersionProofs NewVersionOpsProofs VersionNumberProofs InventoryParseProofs ParseModel
  ContentPathProofs TextFile PathModel FsModel FsSpec FsProofs FswModel FswSpec FswProofs FswCopyProofs ValidatorSpec ValidatorBasicProofs ObjectModel ObjectSpec ObjectInvProofs ObjectRulesProofs
  ObjectParseProofs ObjectAddProofs ContentNameProofs ObjectGrowProofs ObjectStartProofs ObjectCopyProofs ObjectWriteProofs ObjectSourceProofs ObjectFactsProofs NamasteSpec ValidatorVersionProofs ObjectMadeProofs ObjectIntactProofs ObjectExtendProofs FsStepProofs NamasteModel.

(** * The file system stays a tree *)
Lemma named_copy_files h src files w : Forall fname h -> steps_named (copy_files h src files) w.
Proof.
  intros Hh. apply steps_named_iter. intros [s p] w'. unfold copy_into_object. apply steps_named_bind; [constructor|]. intros e _. apply steps_named_bind.
  - destruct (_ && _); [now apply named_makedirs|constructor].
  - intros _ _. now apply named_copyfile.
Qed.
Lemma named_write_inventory H alg h i v w : Forall fname h -> steps_named (write_inventory_and_sidecar H alg h i v) w.
Proof.
  intros Hh. unfold write_inventory_and_sidecar. apply steps_named_bind; [constructor|]. intros e _. apply steps_named_bind; [destruct e; [constructor|now apply named_makedir]|]. intros _ _.
  apply steps_named_bind; [destruct i; [now apply named_write_text|constructor]|]. intros _ _. apply steps_named_bind; [constructor|]. intros d _.
  apply steps_named_bind; [now apply named_write_text|]. intros _ _. constructor.
Qed.
Lemma named_declaration spec h w : Forall fname h -> steps_named (write_object_declaration spec h) w.
Proof. intros Hh. unfold write_object_declaration, namaste_write. now apply named_write_text. Qed.
Lemma named_write_new_version H alg h src nv w : Forall fname h -> steps_named (write_new_version H alg h src nv) w.
Proof.
  intros Hh. unfold write_new_version. apply steps_named_bind.
  { destruct (nv_old_alg nv); [|constructor]. destruct (match i_alg (nv_inv nv) with Some a => _ | None => _ end); [constructor|now apply named_rm]. }
  intros _ _. apply steps_named_bind; [constructor|]. intros hd _. apply steps_named_bind; [now apply named_makedir|]. intros _ _.
  apply steps_named_bind; [now apply named_copy_files|]. intros _ _. apply steps_named_bind; [now apply named_write_inventory|]. intros _ _.
  apply steps_named_bind; [now apply named_write_inventory|]. intros _ _. constructor.
Qed.

(** * The files of one version *)
Section Files.
  Variables (H : hashfn) (alg spec : str) (n : nat) (i0 : inventory) (norm : option str) (fd dd : bool) (old : option str)
    (F : list (list str * bytes)) (nv : new_version) (K : list (str * (place * bytes))) (C : list (place * bytes)).
  Hypothesis G : growing H alg spec n i0 norm fd dd old F nv.
  Hypothesis Kc : copied norm (vn n) (content_directory_to_use i0) F (nv_copy nv) K.
  Hypothesis Nf : forall es b, In (es, b) F -> es <> [] /\ Forall fname es.
  Hypothesis Nd : NoDup (map fst F).
  Hypothesis A1 : content_directory_to_use i0 <> inv_name.
  Hypothesis A2 : content_directory_to_use i0 <> side_name alg.
  Let cd := content_directory_to_use i0.
  Let N := inv_files H alg (nv_inv nv) [vn n] ++ map snd K.

  Lemma new_cd : fname cd.
  Proof using G. unfold cd. rewrite <- (rest_cd _ _ (gw_rest _ _ _ _ _ _ _ _ _ _ _ G)). apply (so_cdir _ _ _ _ (gw_sound _ _ _ _ _ _ _ _ _ _ _ G)). Qed.
  Lemma new_case r b : In (r, b) N -> Forall fname r /\ (r = [vn n; inv_name] \/ r = [vn n; side_name alg] \/
    exists s r', In (s, (r, b)) K /\ r' <> [] /\ r = vn n :: cd :: r').
  Proof using G Kc.
    intros Hi. apply in_app_or in Hi as [Hi|Hi].
    - unfold inv_files in Hi. cbn [app In] in Hi. destruct Hi as [E|[E|[]]]; injection E as <- _.
      + split; [|auto]. constructor; [apply vn_fname|]. constructor; [exact fname_inv|constructor].
      + split; [|auto]. constructor; [apply vn_fname|]. constructor; [|constructor]. apply fname_side, algs_no_slash, (so_algs _ _ _ _ (gw_sound _ _ _ _ _ _ _ _ _ _ _ G)).
    - destruct (copied_facts _ _ _ _ _ _ (vn_fname n) new_cd Kc (gw_dests _ _ _ _ _ _ _ _ _ _ _ G)) as [X _]. destruct (X r b Hi) as (X1 & r' & X2 & X3).
      split; [auto|]. right. right. apply in_map_iff in Hi as ([s rb] & E & Hi). cbn [snd] in E. subst rb. eauto.
  Qed.
  Lemma new_nodup : NoDup (map fst N).
  Proof using G Kc A1 A2.
    unfold N. rewrite map_app. destruct (copied_facts _ _ _ _ _ _ (vn_fname n) new_cd Kc (gw_dests _ _ _ _ _ _ _ _ _ _ _ G)) as [X1 X2].
    apply NoDup_app_iff. split; [|split; [exact X2|]].
    - unfold inv_files. cbn [app map fst]. constructor; [|constructor; [intros []|constructor]]. intros [E|[]]. exact (side_not_inv_name alg (f_equal (fun l => hd [] (tl l)) E)).
    - intros r Hr Hk. apply in_map_iff in Hk as ([r0 b] & E & Hk). cbn [fst] in E. subst r0. destruct (X1 r b Hk) as (_ & r' & Hr' & ->).
      unfold inv_files in Hr. cbn [app map fst In] in Hr. destruct Hr as [E|[E|[]]]; injection E as E1 E2; [now apply A1|now apply A2].
  Qed.
  Lemma new_apart r b r' b' x : In (r, b) N -> In (r', b') N -> r' = r ++ x -> x = [].
  Proof using G Kc A1 A2.
    intros H1 H2 E. destruct (new_case _ _ H1) as [F1 [->|[->|(s & q & K1 & Q1 & E1)]]].
    - destruct (new_case _ _ H2) as [_ [->|[->|(s' & q' & _ & _ & ->)]]]; cbn [app] in E; injection E; intros; subst; auto; exfalso; now apply A1.
    - destruct (new_case _ _ H2) as [_ [->|[->|(s' & q' & _ & _ & ->)]]]; cbn [app] in E; injection E; intros; subst; auto; exfalso; now apply A2.
    - destruct (new_case _ _ H2) as [F2 [->|[->|(s' & q' & K2 & Q2 & E2)]]]; subst r.
      + destruct q; [congruence|discriminate].
      + destruct q; [congruence|discriminate].
      + assert (L : forall s r b, In (s, (r, b)) K -> In (J r) (paths_of (manifest (nv_inv nv)))).
        { intros s0 r0 b0 Hk. destruct (cp_each _ _ _ _ _ _ Kc _ _ _ Hk) as (es & r1 & Hf & -> & _). apply In_paths_of. exists (H alg b0). apply stored_iff.
          apply (gw_stored _ _ _ _ _ _ _ _ _ _ _ G). right. exists es, b0. split; [auto|]. split; [|auto]. eapply copied_in; eauto. }
        apply (listed_apart alg spec n (nv_inv nv) (vn n :: cd :: q) r' x (gw_sound _ _ _ _ _ _ _ _ _ _ _ G)); auto; [discriminate|eapply L; eauto|eapply L; eauto].
  Qed.
  Lemma new_below r b : In (r, b) N -> exists c r', r = vn n :: c :: r'.
  Proof using G Kc. intros Hi. destruct (new_case _ _ Hi) as [_ [->|[->|(s & q & _ & _ & ->)]]]; eauto. Qed.
End Files.
