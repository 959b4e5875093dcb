(** The validator of inventories does not raise ObjectException: that of parse_inventory (object.py:801)
    means that errors were found. *)
From Verif Require Import Base Unicode Regex Utf8 Json PyJson Log DigestModel DatetimeModel InventorySpec InventoryValidatorModel InventoryRulesProofs Properties_InventoryValidator InventorySafeProofs.
Definition tame {A} (x : wexc A) : Prop := snd x <> Raise ObjectException.
Lemma tame_ret {A} (a : A) : tame (wret a). Proof. discriminate. Qed.
Lemma tame_error c : tame (werror c). Proof. discriminate. Qed.
Lemma tame_warning c : tame (wwarning c). Proof. discriminate. Qed.
Lemma tame_raise {A} e : e <> ObjectException -> tame (@wraise A e). Proof. intros H E. injection E as E. auto. Qed.
Lemma tame_lift {A} (x : exc A) : x <> Raise ObjectException -> tame (wlift x). Proof. auto. Qed.
Lemma tame_bind {A B} (x : wexc A) (g : A -> wexc B) : tame x -> (forall a, tame (g a)) -> tame (wbind x g).
Proof. unfold tame, wbind. destruct (snd x) as [a|e]; cbn [snd]; intros Hx Hg; [apply Hg|intros E; apply Hx; congruence]. Qed.
Lemma tame_wfold {A S} (g : S -> A -> wexc S) : (forall s a, tame (g s a)) -> forall l s, tame (wfold g l s).
Proof. intros H. induction l as [|a l IH]; intros s; cbn [wfold]; [apply tame_ret|]. apply tame_bind; auto. Qed.
Lemma py_in_tame k j : py_in k j <> Raise ObjectException. Proof. destruct j; discriminate. Qed.
Lemma py_getitem_tame k j : py_getitem k j <> Raise ObjectException. Proof. destruct j; try discriminate. cbn. destruct (dget k d); discriminate. Qed.
Lemma not_a_path_tame j : not_a_path j <> ObjectException. Proof. unfold not_a_path. destruct (hashable j); discriminate. Qed.
Lemma tame_loop w max vs : forall fuel n acc, tame (version_loop fuel w max vs n acc).
Proof.
  induction fuel as [|f IH]; intros n acc; cbn [version_loop]; destruct (max <? n)%N.
  - apply tame_bind; [destruct (max <? N.of_nat _)%N; [apply tame_error|apply tame_ret]|intros; apply tame_ret].
  - apply tame_raise. discriminate.
  - apply tame_bind; [destruct (max <? N.of_nat _)%N; [apply tame_error|apply tame_ret]|intros; apply tame_ret].
  - destruct (dmem _ _); [apply IH|]. apply tame_bind; [destruct (_ =? _)%N; [apply tame_ret|apply tame_error]|intros; apply tame_ret].
Qed.
Lemma datetime_tame s : str_to_datetime s <> Raise ObjectException.
Proof.
  unfold str_to_datetime, datetime_no_fraction, dateutil_timegm. destruct s as [|c s]; [discriminate|]. destruct (chop_fraction (complete_date (c :: s))) as [s2 fr].
  destruct (re_match re_datetime s2) as [m|]; [|discriminate]. match goal with |- context [if ?b then Ok (timegm _ _ _ _ _ _) else _] => destruct b end; [|discriminate]. cbn [ebind].
  destruct (group 3 m) as [tz|]; [|discriminate]. destruct (str_eqb tz (`"Z")); [discriminate|]. cbv zeta. match goal with |- context [if ?b then Raise ValueError else _] => destruct b end; discriminate.
Qed.
Ltac tame_step :=
  match goal with
  | |- tame (wret _) => apply tame_ret
  | |- tame (werror _) => apply tame_error
  | |- tame (wwarning _) => apply tame_warning
  | |- tame (wlift (py_in _ _)) => apply tame_lift, py_in_tame
  | |- tame (wlift (py_getitem _ _)) => apply tame_lift, py_getitem_tame
  | |- tame (wraise (not_a_path _)) => apply tame_raise, not_a_path_tame
  | |- tame (wraise _) => apply tame_raise; discriminate
  | |- tame (version_loop _ _ _ _ _ _) => apply tame_loop
  | |- tame (wbind _ _) => apply tame_bind; [|intros]
  | |- tame (wfold _ _ _) => apply tame_wfold; intros
  | |- tame (if ?b then _ else _) => destruct b
  | |- tame (let '(_, _) := ?x in _) => destruct x
  | |- tame (match ?x with _ => _ end) => destruct x eqn:?
  end.
Ltac tame_all := repeat tame_step.
Lemma tame_regex l a : tame (iv_digest_regex l a).
Proof. unfold iv_digest_regex, digest_regex_j. destruct a; tame_all; unfold digest_regex in *; destruct (dget _ _); discriminate. Qed.
Lemma tame_manifest l a c m : tame (validate_manifest l a c m).
Proof. unfold validate_manifest, check_conflicts. tame_all. unfold manifest_digest. tame_all; [apply tame_regex|]. unfold manifest_file, check_content_path. tame_all. Qed.
Lemma tame_fixity l s f m : tame (validate_fixity l s f m).
Proof. unfold validate_fixity. tame_all. unfold fixity_algorithm. cbv zeta. tame_all; unfold fixity_digest; tame_all; unfold fixity_file; tame_all. Qed.
Lemma tame_sequence v : tame (validate_version_sequence v).
Proof. unfold validate_version_sequence. tame_all. Qed.
Lemma tame_version l a u vs d v : tame (validate_version l a u vs d v).
Proof.
  unfold validate_version. tame_all.
  - unfold validate_created. tame_all. apply tame_raise. intros E. subst. eapply datetime_tame; eauto.
  - unfold validate_state_block, check_conflicts. tame_all; [apply tame_regex|]. unfold state_digest. tame_all. unfold state_path, check_logical_path. tame_all.
  - unfold validate_message. tame_all.
  - unfold validate_user. tame_all.
Qed.
Theorem tame_validate l dsv force inv : tame (iv_validate l dsv force inv).
Proof.
  assert (H : tame (validate_body l dsv force inv)).
  { unfold validate_body. tame_all.
    - unfold validate_id. tame_all.
    - unfold validate_type. tame_all.
    - unfold validate_digest_algorithm. tame_all.
    - unfold validate_content_directory. tame_all.
    - unfold validate_blocks. tame_all; [apply tame_manifest|apply tame_sequence|]. unfold validate_versions. tame_all. apply tame_version.
    - unfold validate_rest, check_content_paths_map_to_versions, check_digests_present_and_used. tame_all. apply tame_fixity. }
  unfold iv_validate, tame in *. destruct (validate_body l dsv force inv) as [lg [[st []]|e]]; try discriminate. exact H.
Qed.
