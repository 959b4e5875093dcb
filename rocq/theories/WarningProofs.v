(** The warnings of the validator have a reason. *)
From Verif Require Import Base Unicode Regex Utf8 Json PyJson TextFile Log LogProofs InventorySpec WarningSpec PathModel FsModel FsSpec FswModel FswSpec.
From Verif Require Import DigestModel LayoutProofs ObjectUtilsModel ObjectUtilsProofs InventoryValidatorModel InventoryValidatorProofs InventoryRulesProofs InventoryPriorProofs.
From Verif Require Import ValidatorModel ValidatorSpec.
From Verif Require Import FsProofs FswProofs FswCopyProofs ValidatorBasicProofs ValidatorVersionProofs ValidatorContentProofs.
Open Scope N_scope.

(** ** Equality of values *)

Ltac nums := repeat match goal with K : number _ _ |- _ => inversion K; subst; clear K end.

Lemma py_eq_iff a : forall b, json_wf a -> json_wf b -> (py_eq a b = true <-> same_value a b).
Proof.
  induction a as [|bo|z|t|s|l IH|d IH] using json_ind'; intros b Ha Hb.
  - destruct b; cbn [py_eq]; split; intros H; try discriminate; try reflexivity; try (inversion H; subst; nums; fail); constructor.
  - destruct b as [|b'|z'| | | |]; cbn [py_eq json_int]; split; intros H; try discriminate; try (inversion H; subst; nums; fail).
    + apply Z.eqb_eq in H. apply (sv_number _ _ (if bo then 1 else 0)%Z); [constructor|]. rewrite H. constructor.
    + inversion H; subst. nums. apply Z.eqb_eq. congruence.
    + apply Z.eqb_eq in H. apply (sv_number _ _ (if bo then 1 else 0)%Z); [constructor|]. rewrite H. constructor.
    + inversion H; subst. nums. apply Z.eqb_eq. congruence.
  - destruct b as [|b'|z'| | | |]; cbn [py_eq json_int]; split; intros H; try discriminate; try (inversion H; subst; nums; fail).
    + apply Z.eqb_eq in H. apply (sv_number _ _ z); [constructor|]. rewrite H. constructor.
    + inversion H; subst. nums. apply Z.eqb_eq. congruence.
    + apply Z.eqb_eq in H. apply (sv_number _ _ z); [constructor|]. rewrite H. constructor.
    + inversion H; subst. nums. apply Z.eqb_eq. congruence.
  - destruct b; cbn [py_eq]; split; intros H; try discriminate; try (inversion H; subst; nums; fail).
    + apply str_eqb_eq in H. subst. constructor.
    + inversion H; subst; nums. apply str_eqb_refl.
  - destruct b; cbn [py_eq]; split; intros H; try discriminate; try (inversion H; subst; nums; fail).
    + apply str_eqb_eq in H. subst. constructor.
    + inversion H; subst; nums. apply str_eqb_refl.
  - destruct b as [| | | | |m|]; cbn [py_eq]; try (split; [discriminate|]; intros H; inversion H; subst; match goal with K : number (JArr _) _ |- _ => inversion K end).
    assert (G : forall m, json_wf (JArr m) -> ((fix go (l m : list json) : bool :=
         match l, m with [], [] => true | x :: l', y :: m' => py_eq x y && go l' m' | _, _ => false end) l m = true <-> Forall2 same_value l m)).
    { clear m Hb. apply json_wf_arr in Ha. induction IH as [|x l Hx _ IHl]; intros m Hm.
      - destruct m; split; try discriminate; [constructor| |]; intros H; inversion H. reflexivity.
      - destruct m as [|y m]; [split; [discriminate|]; intros H; inversion H|]. apply json_wf_arr in Hm.
        inversion Ha; inversion Hm; subst. rewrite andb_true_iff, Hx, IHl by (auto; now apply json_wf_arr).
        split; [intros [Q1 Q2]; constructor; auto|]. intros Q. inversion Q; auto. }
    rewrite (G m Hb). split; [apply sv_arr|]. intros H. inversion H; subst; [match goal with K : number (JArr _) _ |- _ => inversion K end|assumption].
  - destruct b as [| | | | | |e]; cbn [py_eq]; try (split; [discriminate|]; intros H; inversion H; subst; match goal with K : number (JObj _) _ |- _ => inversion K end).
    apply json_wf_obj in Ha as [Na Fa]. apply json_wf_obj in Hb as [Nb Fb].
    assert (G : (fix go (d : list (str * json)) : bool :=
         match d with
         | [] => true
         | kv :: r => match dget (fst kv) e with Some y => py_eq (snd kv) y | None => false end && go r
         end) d = true <-> forall k x, In (k, x) d -> exists y, In (k, y) e /\ same_value x y).
    { clear Na. induction IH as [|[k x] r Hx _ IHr]; [split; [intros _ k x []|reflexivity]|]. inversion Fa as [|? ? Fx Fr]; subst.
      rewrite andb_true_iff, (IHr Fr). cbn [fst snd] in *. split.
      - intros [H1 H2] k' x' [E|Hi]; [|now apply H2]. injection E as <- <-. destruct (dget k e) as [y|] eqn:Ek; [|discriminate].
        apply dget_In in Ek. exists y. split; [exact Ek|]. apply Hx; auto. rewrite Forall_forall in Fb. apply (Fb _ Ek).
      - intros H. split; [|intros k' x' Hi; apply H; now right]. destruct (H k x (or_introl eq_refl)) as (y & Hy & S).
        rewrite (In_dget _ _ _ Nb Hy). apply Hx; auto. rewrite Forall_forall in Fb. apply (Fb _ Hy). }
    rewrite andb_true_iff, G, Nat.eqb_eq. clear G. split.
    + intros [L H]. assert (I1 : incl (keys d) (keys e)).
      { intros k Hk. apply in_map_iff in Hk as ([k' x] & E & Hi). cbn [fst] in E. subst k'. destruct (H k x Hi) as (y & Hy & _). apply (in_map fst _ _ Hy). }
      assert (I2 : incl (keys e) (keys d)).
      { apply NoDup_length_incl; [exact Na| |exact I1]. unfold keys. rewrite !map_length. lia. }
      apply sv_obj; [intros k; split; auto|]. intros k x y Hx Hy. destruct (H k x Hx) as (y' & Hy' & S).
      apply In_dget in Hy, Hy'; auto. rewrite Hy in Hy'. injection Hy' as <-. exact S.
    + intros H. inversion H as [|? ? ? K| | | |? ? Hk Hv]; subst; [inversion K|]. split.
      * assert (L : List.length (keys d) = List.length (keys e)).
        { apply Nat.le_antisymm; apply NoDup_incl_length; auto; intros k; apply Hk. }
        unfold keys in L. now rewrite !map_length in L.
      * intros k x Hx. assert (Hi : In k (keys e)) by (apply Hk, (in_map fst _ _ Hx)).
        apply in_map_iff in Hi as ([k' y] & E & Hi). cbn [fst] in E. subst k'. exists y. split; [exact Hi|]. eapply Hv; eauto.
Qed.

(** ** The texts looked for *)

Lemma uri_letter_iff c : uri_letter c <->
  ((65 <=? c) && (c <=? 90) || (97 <=? c) && (c <=? 122) || (c =? 304) || (c =? 305) || (c =? 383) || (c =? 8490)) = true.
Proof. unfold uri_letter. cbn [In]. rewrite !orb_true_iff, !andb_true_iff, !N.leb_le, !N.eqb_eq. lia. Qed.
Lemma scheme_char_iff c : scheme_char c <->
  ((65 <=? c) && (c <=? 90) || (97 <=? c) && (c <=? 122) || (c =? 304) || (c =? 305) || (c =? 383) || (c =? 8490) || is_digit c || (c =? 43) || (c =? 45) || (c =? 46)) = true.
Proof.
  unfold scheme_char. rewrite uri_letter_iff. set (L := (_ || _ || _)). cbn [In]. rewrite !(orb_true_iff (_ || _)), !(orb_true_iff L), !N.eqb_eq.
  intuition.
Qed.

Lemma uri_like_match s : uri_like s <-> re_match re_uri s <> None.
Proof.
  rewrite re_match_iff. split.
  - intros (a & m & c & r & -> & Ha & Hm & Hc). exists (a :: m ++ [58; c]), r, []. split; [cbn [app]; now rewrite <- app_assoc|].
    unfold re_uri. cbv zeta. apply Den_seq. exists [a], (m ++ [58; c]), []. split; [reflexivity|]. split.
    { apply Den_chr. exists a. split; [reflexivity|]. split; [now apply uri_letter_iff|reflexivity]. }
    apply Den_seq. exists m, [58; c], []. split; [reflexivity|]. split.
    { apply Den_star_chr. split; [|reflexivity]. eapply Forall_impl; [|exact Hm]. intros x Hx. now apply scheme_char_iff. }
    apply Den_seq. exists [58], [c], []. split; [reflexivity|]. split; [now apply Den_lit|].
    apply Den_plus_chr. split; [discriminate|]. split; [|reflexivity]. constructor; [|constructor].
    unfold is_dot. apply negb_true_iff, N.eqb_neq. exact Hc.
  - intros (x & rest & c & -> & D). unfold re_uri in D. cbv zeta in D. apply Den_seq in D as (x1 & x2 & c1 & -> & D1 & D).
    apply Den_chr in D1 as (a & -> & Ha & ->). apply Den_seq in D as (m & x3 & c2 & -> & Dm & D). apply Den_star_chr in Dm as [Dm ->].
    apply Den_seq in D as (x4 & x5 & c3 & -> & D4 & D). apply Den_lit in D4 as [-> ->]. apply Den_plus_chr in D as (Hne & Dr & _).
    destruct x5 as [|y x5]; [congruence|]. exists a, m, y, (x5 ++ rest). split; [cbn [app]; now rewrite <- app_assoc|].
    split; [now apply uri_letter_iff|]. split; [eapply Forall_impl; [|exact Dm]; intros z Hz; now apply scheme_char_iff|].
    inversion Dr as [|? ? Hy _]; subst. unfold is_dot in Hy. now apply negb_true_iff, N.eqb_neq in Hy.
Qed.
Lemma address_like_match s : address_like s <-> re_match re_address s <> None.
Proof.
  rewrite re_match_iff. split.
  - intros (m & r & -> & Hm & Hl). exists (m ++ [58]), r, []. split; [now rewrite <- app_assoc|].
    unfold re_address. apply Den_seq. exists m, [58], []. split; [reflexivity|]. split; [|now apply Den_lit].
    apply Den_range_chr; [lia|]. split; [exact Hl|]. split; [exact Hm|reflexivity].
  - intros (x & rest & c & -> & D). unfold re_address in D. apply Den_seq in D as (m & y & c1 & -> & D1 & D). apply Den_lit in D as [-> _].
    apply Den_range_chr in D1 as (Hl & Hm & _); [|lia]. exists m, rest. split; [now rewrite <- app_assoc|]. auto.
Qed.

(** ** Inventories *)

Definition why (R : str -> Prop) (e : Log.entry) : Prop := match e with LError _ => True | LWarning c => R c end.

Ltac no_warning := solve [exact Logic.I].
Create HintDb whys.
Ltac whygo := repeat first [logs_step | no_warning | solve [eauto 2 with whys]].

Lemma py_in_lacks k j : py_in k j = Ok false -> lacks j k.
Proof.
  intros H v (d & -> & Hi). cbn [py_in] in H. apply Ok_inv in H. assert (E : dmem k d = true) by (apply dmem_true, (in_map fst _ _ Hi)). congruence.
Qed.
Lemma py_getitem_member k j v : py_getitem k j = Ok v -> member j k v.
Proof.
  destruct j as [| | | | | |d]; try discriminate. cbn [py_getitem]. destruct (dget k d) eqn:E; [|discriminate]. intros H. apply Ok_inv in H. subst.
  apply dget_In in E. exists d. auto.
Qed.

Section Inventory.
  Variable R : str -> Prop.
  Notation P := (why R).
  Lemma y_digest_regex lax alg : logs P (iv_digest_regex lax alg).
  Proof using. unfold iv_digest_regex. whygo. Qed.
  Lemma y_content_path cd p a b : logs P (check_content_path cd p a b).
  Proof using. unfold check_content_path. cbn zeta. whygo. Qed.
  #[local] Hint Resolve y_digest_regex y_content_path : whys.
  Lemma y_manifest_file cd nd s f : logs P (manifest_file cd nd s f).
  Proof using. unfold manifest_file. whygo. Qed.
  #[local] Hint Resolve y_manifest_file : whys.
  Lemma y_manifest_digest lax alg cd s kv : logs P (manifest_digest lax alg cd s kv).
  Proof using. unfold manifest_digest. whygo. Qed.
  Lemma y_conflicts c a b : logs P (check_conflicts c a b).
  Proof using. unfold check_conflicts. whygo. Qed.
  #[local] Hint Resolve y_manifest_digest y_conflicts : whys.
  Lemma y_manifest lax alg cd m : logs P (validate_manifest lax alg cd m).
  Proof using. unfold validate_manifest. whygo. Qed.
  Lemma y_fixity_file m u f : logs P (fixity_file m u f).
  Proof using. unfold fixity_file. whygo. Qed.
  #[local] Hint Resolve y_manifest y_fixity_file : whys.
  Lemma y_fixity_digest m r k a s kv : logs P (fixity_digest m r k a s kv).
  Proof using. unfold fixity_digest. whygo. Qed.
  #[local] Hint Resolve y_fixity_digest : whys.
  Lemma y_fixity_algorithm l m u kv : logs P (fixity_algorithm l m u kv).
  Proof using. unfold fixity_algorithm. cbn zeta. whygo. Qed.
  #[local] Hint Resolve y_fixity_algorithm : whys.
  Lemma y_fixity l s f m : logs P (validate_fixity l s f m).
  Proof using. unfold validate_fixity. whygo. Qed.
  Lemma y_version_loop w max vs : forall fuel n acc, logs P (version_loop fuel w max vs n acc).
  Proof using. induction fuel as [|fuel IH]; intros n acc; cbn [version_loop]; whygo; auto. Qed.
  Lemma y_logical_path p s : logs P (check_logical_path p s).
  Proof using. unfold check_logical_path. cbn zeta. whygo. Qed.
  #[local] Hint Resolve y_fixity y_version_loop y_logical_path : whys.
  Lemma y_state_path s p : logs P (state_path s p).
  Proof using. unfold state_path. whygo. Qed.
  #[local] Hint Resolve y_state_path : whys.
  Lemma y_state_digest r a u s kv : logs P (state_digest r a u s kv).
  Proof using. unfold state_digest. whygo. Qed.
  #[local] Hint Resolve y_state_digest : whys.
  Lemma y_state_block lax alg st u : logs P (validate_state_block lax alg st u).
  Proof using. unfold validate_state_block. whygo. Qed.
  Lemma y_created v : logs P (validate_created v).
  Proof using. unfold validate_created. whygo. Qed.
  Lemma y_type f s i : logs P (validate_type f s i).
  Proof using. unfold validate_type. cbn zeta. whygo. Qed.
  Lemma y_cd i : logs P (validate_content_directory i).
  Proof using. unfold validate_content_directory. cbn zeta. whygo. Qed.
  Lemma y_map_to_versions a b : logs P (check_content_paths_map_to_versions a b).
  Proof using. unfold check_content_paths_map_to_versions. whygo. Qed.
  Lemma y_present a b : logs P (check_digests_present_and_used a b).
  Proof using. unfold check_digests_present_and_used. cbn zeta. whygo. Qed.
  #[local] Hint Resolve y_state_block y_created y_type y_cd y_map_to_versions y_present : whys.
  Lemma y_rest lax st c d i : logs P (validate_rest lax st c d i).
  Proof using. unfold validate_rest. whygo. Qed.

  Lemma y_compare a b v : logs P (compare_states_for_version a b v).
  Proof using. unfold compare_states_for_version. whygo. Qed.
  Lemma y_declaration w h s n : logs P (check_declaration w h s n).
  Proof using. unfold check_declaration. whygo. Qed.
  #[local] Hint Resolve y_declaration : whys.
  Lemma y_declarations c w h l : logs P (check_declarations c w h l).
  Proof using. unfold check_declarations. whygo. Qed.
  Lemma y_digest_match H c w h f g : logs P (validate_inventory_digest_match H c w h f g).
  Proof using. unfold validate_inventory_digest_match. whygo. Qed.
  #[local] Hint Resolve y_digest_match : whys.
  Lemma y_inventory_digest H c w h f a : logs P (validate_inventory_digest H c w h f a).
  Proof using. unfold validate_inventory_digest. cbn zeta. whygo. Qed.
  Lemma y_check_id r i : logs P (check_id r i).
  Proof using. unfold check_id. whygo. Qed.
  Lemma y_content_directory r v : logs P (check_content_directory r v).
  Proof using. unfold check_content_directory. whygo. Qed.
  Lemma y_check_manifest a i p : logs P (check_manifest a i p).
  Proof using. unfold check_manifest. whygo. Qed.
  Lemma y_walk w h p : logs P (walk_content w h p).
  Proof using. unfold walk_content. whygo. Qed.
  Lemma y_root_fixity i s : logs P (root_fixity i s).
  Proof using. unfold root_fixity. whygo. Qed.
  Lemma y_additional H w h f k a c : logs P (check_additional_digests H w h f k a c).
  Proof using. unfold check_additional_digests. whygo. Qed.
  #[local] Hint Resolve y_additional : whys.
  Lemma y_file H c w h a f p r d : logs P (check_file H c w h a f p r d).
  Proof using. unfold check_file. whygo. Qed.
End Inventory.
#[global] Hint Resolve y_digest_regex y_manifest y_fixity y_version_loop y_state_block y_created y_type y_cd y_map_to_versions y_present
  y_rest y_compare y_declarations y_inventory_digest y_check_id y_content_directory y_check_manifest y_walk y_root_fixity y_file : whys.

Lemma dget_lacks k d : dget k d = None -> lacks (JObj d) k.
Proof. intros E v (d' & [= <-] & Hi). apply dget_None in E. apply E, (in_map fst _ _ Hi). Qed.

Section OneInventory.
  Variable j : json.
  Notation P := (why (inventory_reason j)).

  Lemma y_id : logs P (validate_id j).
  Proof using.
    unfold validate_id. whygo. subst. eapply ir_id; [apply py_getitem_member; eassumption|]. intros U. now apply uri_like_match in U.
  Qed.
  Lemma y_algorithm lax : logs P (validate_digest_algorithm lax j).
  Proof using.
    unfold validate_digest_algorithm. cbn zeta. whygo.
    apply ir_sha256, py_getitem_member.
    match goal with K : json_eq_str ?a (`"sha256") = true |- _ => destruct a; try discriminate K; apply str_eqb_eq in K; subst end. assumption.
  Qed.
  Lemma y_message v b : block_of j v b -> logs P (validate_message b).
  Proof using.
    intros B. unfold validate_message. whygo. apply (ir_message j v b B), py_in_lacks.
    match goal with K : negb _ = true |- _ => apply negb_true_iff in K; subst end. assumption.
  Qed.
  Lemma y_user v b : block_of j v b -> logs P (validate_user b).
  Proof using.
    intros B. unfold validate_user. whygo; subst.
    - apply (ir_user j v b B), py_in_lacks. match goal with K : negb _ = true |- _ => apply negb_true_iff in K; subst end. assumption.
    - eapply (ir_address j v b _ _ B); [now apply py_getitem_member; eassumption| |intros U; apply address_like_match in U; eauto].
      eexists. split; [reflexivity|]. apply dget_In. eassumption.
    - eapply (ir_no_address j v b _ B); [apply py_getitem_member; eassumption|]. now apply dget_lacks.
  Qed.
  Lemma y_version lax alg u vs d v : member j (`"versions") (JObj vs) -> logs P (validate_version lax alg u vs d v).
  Proof using.
    intros M. unfold validate_version. whygo.
    - eapply (y_message v). exists vs. split; [exact M|]. now apply dget_In.
    - eapply (y_user v). exists vs. split; [exact M|]. now apply dget_In.
  Qed.
  Lemma y_versions lax alg u vs all : member j (`"versions") vs -> logs P (validate_versions lax alg u vs all).
  Proof using. intros M. unfold validate_versions. whygo. subst. now apply y_version. Qed.
  Lemma y_version_sequence vs : member j (`"versions") vs -> logs P (validate_version_sequence vs).
  Proof using.
    intros M. unfold validate_version_sequence. cbn zeta. whygo. subst. eapply ir_padded; [exact M|].
    match goal with K : dmem (`"v1") _ = false |- _ => intros Q; apply dmem_true in Q; congruence end.
  Qed.
  Lemma y_blocks lax id spec alg cd : logs P (validate_blocks lax id spec alg cd j).
  Proof using.
    unfold validate_blocks. cbn zeta. whygo.
    - apply y_version_sequence, py_getitem_member. assumption.
    - apply y_versions, py_getitem_member. assumption.
  Qed.
  Lemma y_body lax s f : logs P (validate_body lax s f j).
  Proof using.
    unfold validate_body. cbn zeta. whygo; [apply y_id|apply y_algorithm|apply y_blocks].
  Qed.
  Lemma y_iv lax s f : logs P (iv_validate lax s f j).
  Proof using.
    unfold iv_validate. pose proof (y_body lax s f) as H. destruct (validate_body lax s f j) as [l [[st []]|e]]; unfold logs in *; cbn [fst] in *; auto.
    destruct (no_errors l); cbn [fst]; [|exact H]. apply Forall_app. split; [exact H|]. constructor; [exact Logic.I|constructor].
  Qed.
End OneInventory.

(** ** Metadata *)

Lemma version_block_inv inv v d : version_block inv v = Ok d -> block_of inv v (JObj d).
Proof.
  unfold version_block. intros H. apply ebind_ok in H as (vs & E1 & H). apply ebind_ok in H as (b & E2 & H).
  destruct b as [| | | | | |d']; try discriminate. apply Ok_inv in H. subst d'.
  apply py_getitem_member in E1. destruct vs as [| | | | | |vs]; try discriminate. exists vs. split; [exact E1|].
  apply py_getitem_member in E2 as (d' & [= <-] & Hi). exact Hi.
Qed.
Lemma py_get_records inv v d key : block_of inv v (JObj d) -> records_under inv v key (py_get key d).
Proof.
  intros B. exists (JObj d). split; [exact B|]. unfold py_get. destruct (dget key d) as [x|] eqn:E.
  - left. exists d. split; [reflexivity|]. now apply dget_In.
  - right. split; [now apply dget_lacks|reflexivity].
Qed.
Lemma block_wf inv v d : json_wf inv -> block_of inv v (JObj d) -> json_wf (JObj d).
Proof.
  intros W (vs & (i & -> & Hi) & Hv). apply json_wf_obj in W as [_ W]. rewrite Forall_forall in W. apply W in Hi. cbn [snd] in Hi.
  apply json_wf_obj in Hi as [_ Hi]. rewrite Forall_forall in Hi. apply Hi in Hv. exact Hv.
Qed.
Lemma py_get_wf d key : json_wf (JObj d) -> json_wf (py_get key d).
Proof.
  intros W. apply json_wf_obj in W as [_ W]. rewrite Forall_forall in W. unfold py_get. destruct (dget key d) as [x|] eqn:E; [|exact Logic.I].
  apply dget_In in E. apply (W _ E).
Qed.
Lemma records_unique inv v d key x : json_wf inv -> block_of inv v (JObj d) -> records_under inv v key x -> x = py_get key d.
Proof.
  intros W (vs & M & Hv) (b & (vs' & M' & Hv') & K).
  destruct M as (i & -> & Hi). destruct M' as (i' & [= <-] & Hi'). apply json_wf_obj in W as [N W].
  rewrite Forall_forall in W. pose proof (W _ Hi) as W1. cbn [snd] in W1.
  apply In_dget in Hi, Hi'; auto. rewrite Hi in Hi'. injection Hi' as <-. apply json_wf_obj in W1 as [N1 W1]. rewrite Forall_forall in W1.
  pose proof (W1 _ Hv) as W2. cbn [snd] in W2. apply In_dget in Hv, Hv'; auto. rewrite Hv in Hv'. injection Hv' as <-.
  apply json_wf_obj in W2 as [N2 _]. unfold py_get. destruct K as [(d' & [= <-] & K)|[K ->]].
  - apply In_dget in K; auto. now rewrite K.
  - destruct (dget key d) as [y|] eqn:E; [|reflexivity]. exfalso. apply (K y). exists d. split; [reflexivity|]. now apply dget_In.
Qed.

Lemma wbind_lift {A B} (a : A) (f : A -> wexc B) : wbind (wlift (Ok a)) f = f a.
Proof. unfold wbind, wlift. cbn [fst snd app]. now destruct (f a). Qed.

(** The warning is given exactly if the metadata differs. *)
Lemma compare_metadata_iff root prior v d e : json_wf root -> json_wf prior -> version_block root v = Ok d -> version_block prior v = Ok e ->
  (logged (LWarning (`"W011")) (compare_metadata root prior v) <-> metadata_differs root prior v).
Proof.
  intros Wr Wp Ed Ee. apply version_block_inv in Ed as Bd. apply version_block_inv in Ee as Be.
  pose proof (block_wf _ _ _ Wr Bd) as Wd. pose proof (block_wf _ _ _ Wp Be) as We.
  unfold compare_metadata. rewrite Ed, Ee, !wbind_lift.
  transitivity (exists key, In key metadata_keys /\ py_eq (py_get key e) (py_get key d) = false).
  - rewrite logged_wfold_unit.
    2: { intros a _. destruct (py_eq _ _); eexists; reflexivity. }
    split; [|].
    + intros (a & Ha & K). exists a. split; [exact Ha|]. destruct (py_eq _ _); [destruct K|reflexivity].
    + intros (a & Ha & K). exists a. split; [exact Ha|]. rewrite K. now left.
  - split.
    + intros (key & Hk & K). exists key, (py_get key d), (py_get key e). split; [exact Hk|]. split; [now apply py_get_records|]. split; [now apply py_get_records|].
      intros S. apply (py_eq_iff _ _ (py_get_wf e key We) (py_get_wf d key Wd)) in S. congruence.
    + intros (key & x & y & Hk & Hx & Hy & K). exists key. split; [exact Hk|].
      rewrite (records_unique _ _ _ _ _ Wr Bd Hx) in K. rewrite (records_unique _ _ _ _ _ Wp Be Hy) in K.
      apply not_true_is_false. intros Q. apply K, (py_eq_iff _ _ (py_get_wf e key We) (py_get_wf d key Wd)), Q.
Qed.

(** ** The results of computations that log *)

Lemma snd_bind {A B} (x : wexc A) (f : A -> wexc B) b : snd (wbind x f) = Ok b -> exists a, snd x = Ok a /\ snd (f a) = Ok b.
Proof. unfold wbind. destruct x as [l [a|e]]; cbn [fst snd]; [eauto|discriminate]. Qed.

(** ** Names of versions in any inventory *)

Lemma version_fmt_fname w n : fname (version_fmt w n).
Proof.
  assert (K : exists s, version_fmt w n = `"v" ++ s /\ Forall (fun c => is_ascii_digit c = true) s).
  { destruct w as [w|]; [exists (zero_pad w (str_of_N n))|exists (str_of_N n)]; (split; [reflexivity|]); [apply zero_pad_ascii|apply str_of_N_digits]. }
  destruct K as (s & -> & Hs). split; [discriminate|]. split; [intros E; discriminate E|]. split; [intros E; discriminate E|].
  intros H. apply in_app_or in H as [H|H]; [destruct H as [H|[]]; discriminate|].
  rewrite Forall_forall in Hs. specialize (Hs _ H). discriminate.
Qed.

Definition listed (d : dict json) (v : str) : Prop := In v (keys d) /\ fname v.

Lemma version_loop_listed w max d : forall fuel n acc l, snd (version_loop fuel w max d n acc) = Ok l -> Forall (listed d) acc -> Forall (listed d) l.
Proof.
  induction fuel as [|fuel IH]; intros n acc l; cbn [version_loop]; (destruct (max <? n);
    [intros H; apply snd_bind in H as ([] & _ & H); cbn [wret snd] in H; apply Ok_inv in H; now subst|]); [discriminate|].
  cbn zeta. destruct (dmem (version_fmt w n) d) eqn:Em.
  - intros H Ha. eapply IH; [exact H|]. apply Forall_app. split; [exact Ha|]. constructor; [|constructor]. split; [now apply dmem_true|apply version_fmt_fname].
  - intros H. apply snd_bind in H as ([] & _ & H). cbn [wret snd] in H. apply Ok_inv in H. now subst.
Qed.
Lemma sequence_listed vs l : snd (validate_version_sequence vs) = Ok l -> l = [] \/ exists d, vs = JObj d /\ Forall (listed d) l.
Proof.
  unfold validate_version_sequence. destruct vs as [| | | | | |d]; try (cbn; intros H; apply Ok_inv in H; auto; fail). intros H. right. exists d. split; [reflexivity|]. revert H.
  destruct d as [|kv d]; [cbn; intros H; apply Ok_inv in H; subst; constructor|]. cbn zeta. destruct (dmem (`"v1") (kv :: d)) eqn:E1.
  - intros H. eapply version_loop_listed; [exact H|]. constructor; [|constructor]. split; [now apply dmem_true|]. apply fname_b_ok. reflexivity.
  - destruct (find _ _) as [w|] eqn:Ef; [|cbn; intros H; apply Ok_inv in H; subst; constructor].
    intros H. apply snd_bind in H as ([] & _ & H). eapply version_loop_listed; [exact H|]. apply find_some in Ef as [_ Ef].
    constructor; [|constructor]. split; [now apply dmem_true|apply version_fmt_fname].
Qed.
Lemma blocks_listed lax id spec alg cd j st a b : snd (validate_blocks lax id spec alg cd j) = Ok (st, a, b) ->
  forall v, In v (iv_all_versions st) -> fname v /\ exists x, block_of j v x.
Proof.
  unfold validate_blocks. intros H v Hv. apply snd_bind in H as (c1 & _ & H). apply snd_bind in H as (m & _ & H). cbn zeta in H.
  apply snd_bind in H as (c2 & E2 & H). apply snd_bind in H as ([all used] & E3 & H). apply snd_bind in H as (c3 & _ & H).
  apply snd_bind in H as (hd & _ & H). cbn [wret snd] in H. apply Ok_inv in H. injection H as <- _ _. cbn [iv_all_versions] in Hv.
  destruct c2.
  - apply snd_bind in E3 as (vs & E4 & E3). apply snd_bind in E3 as (all' & E5 & E3). apply snd_bind in E3 as (u & _ & E3). cbn [wret snd] in E3.
    apply Ok_inv in E3. injection E3 as -> _. cbn [wlift snd] in E4. apply py_getitem_member in E4.
    destruct (sequence_listed _ _ E5) as [->|(d & -> & F)]; [destruct Hv|]. rewrite Forall_forall in F. destruct (F v Hv) as [F1 F2]. split; [exact F2|].
    apply in_map_iff in F1 as ([k x] & Ek & F1). cbn [fst] in Ek. subst k. exists x, d. auto.
  - cbn in E3. apply Ok_inv in E3. injection E3 as <- _. destruct Hv.
Qed.
Lemma body_listed lax s f j st b : snd (validate_body lax s f j) = Ok (st, b) -> forall v, In v (iv_all_versions st) -> fname v /\ exists x, block_of j v x.
Proof.
  unfold validate_body. cbn zeta. intros H v Hv. apply snd_bind in H as (id & _ & H). apply snd_bind in H as (spec & _ & H). apply snd_bind in H as (alg & _ & H).
  destruct alg as [alg|]; [|cbn in H; apply Ok_inv in H; injection H as <- _; destruct Hv].
  apply snd_bind in H as (cd & _ & H). apply snd_bind in H as ([[st' a] u] & E & H). assert (K : st' = st).
  { destruct (iv_all_versions st'); [cbn in H; apply Ok_inv in H; now injection H|]. apply snd_bind in H as ([] & _ & H). cbn in H. apply Ok_inv in H. now injection H. }
  subst st'. eapply blocks_listed; eauto.
Qed.
Lemma iv_listed lax s f j st b : snd (iv_validate lax s f j) = Ok (st, b) -> forall v, In v (iv_all_versions st) -> fname v /\ exists x, block_of j v x.
Proof.
  unfold iv_validate. intros H. assert (K : exists b, snd (validate_body lax s f j) = Ok (st, b)); [|destruct K; eapply body_listed; eauto]. destruct (validate_body lax s f j) as [l [[st' []]|e]]; cbn [snd] in *; try discriminate.
  - apply Ok_inv in H. injection H as -> _. eauto.
  - apply Ok_inv in H. injection H as -> _. eauto.
Qed.

(** The content directory of an inventory without errors. *)
Lemma iv_content lax s f j st b : clean (iv_validate lax s f j) (st, b) -> content_name j (iv_content_directory st) /\ iv_content_directory st <> `".".
Proof.
  unfold iv_validate. intros H.
  assert (C : clean (validate_body lax s f j) (st, true)).
  { destruct (validate_body lax s f j) as [l [[st' []]|e]]; unfold clean in *; cbn [fst snd] in *.
    - destruct H as [H K]. apply Ok_inv in H. injection H as -> _. auto.
    - destruct H as [H K]. destruct (no_errors l) eqn:E; [|congruence]. rewrite no_errors_app in K. cbn in K. rewrite andb_false_r in K. discriminate.
    - destruct H. discriminate. }
  clear H. unfold validate_body in C. cbn zeta in C. apply clean_bind in C as (id & _ & C). apply clean_bind in C as (spec & _ & C). apply clean_bind in C as (alg & _ & C).
  destruct alg as [alg|]; [|apply clean_ret in C; discriminate]. apply clean_bind in C as (cd & Hcd & C). apply clean_bind in C as ([[st' a] u] & E & C).
  assert (K : st' = st).
  { destruct (iv_all_versions st'); [apply clean_ret in C; discriminate|]. apply clean_bind in C as ([] & _ & C). apply clean_ret in C. now injection C. }
  subst st'. assert (Ecd : iv_content_directory st = fst cd).
  { destruct E as [E _]. unfold validate_blocks in E. apply snd_bind in E as (c1 & _ & E). apply snd_bind in E as (m & _ & E). cbn zeta in E.
    apply snd_bind in E as (c2 & _ & E). apply snd_bind in E as ([all used] & _ & E). apply snd_bind in E as (c3 & _ & E).
    apply snd_bind in E as (hd & _ & E). cbn [wret snd] in E. apply Ok_inv in E. injection E as <- _ _. reflexivity. }
  rewrite Ecd. clear - Hcd. unfold validate_content_directory in Hcd. cbn zeta in Hcd. apply clean_bind in Hcd as (c & Ec & Hcd). apply clean_lift in Ec.
  destruct c; cbn [negb] in Hcd.
  - apply clean_bind in Hcd as (x & Ex & Hcd). apply clean_lift in Ex. apply py_getitem_member in Ex.
    destruct x as [| | | |s| |]; try (now apply clean_bind_error in Hcd). destruct (char_in 47 s); [now apply clean_bind_error in Hcd|].
    destruct (str_in s [`"."; `".."]) eqn:E; [now apply clean_bind_error in Hcd|]. apply clean_ret in Hcd. subst cd. cbn [fst]. split; [left; exact Ex|].
    intros ->. discriminate E.
  - apply clean_ret in Hcd. subst cd. cbn [fst]. split; [|discriminate]. right. split; [now apply py_in_lacks|reflexivity].
Qed.

(** ** The object *)

Section Warn.
  Variable H : hashfn.
  Variable c : vconf.
  Variable w : node.
  Variable h : place.
  Hypothesis Hw : tree w.
  Hypothesis Hh : Forall fname h.
  Notation P := (why (reason w h)).

  Lemma y_metadata root prior v : json_wf root -> json_wf prior -> is_inventory w h [] root -> (exists u b, block_of root u b /\ is_inventory w h [u] prior) ->
    logs P (compare_metadata root prior v).
  Proof using.
    intros Wr Wp Ir (u & bl & Bu & Iu). apply logs_iff. intros e He. destruct e as [k|k]; [exact Logic.I|].
    destruct (version_block prior v) as [e|x] eqn:Ee; [|unfold compare_metadata in He; rewrite Ee in He; destruct He].
    destruct (version_block root v) as [d|x] eqn:Ed; [|unfold compare_metadata in He; rewrite Ee, Ed in He; destruct He].
    assert (k = `"W011").
    { unfold compare_metadata in He. rewrite Ed, Ee, !wbind_lift in He. apply logged_wfold_unit in He as (a & _ & He).
      - destruct (py_eq _ _); [destruct He|]. destruct He as [He|[]]. now injection He.
      - intros a _. destruct (py_eq _ _); eexists; reflexivity. }
    subst k. apply (compare_metadata_iff root prior v d e Wr Wp Ed Ee) in He. eapply r_metadata; eauto.
  Qed.
  Lemma y_prior root sr prior sp : json_wf root -> json_wf prior -> is_inventory w h [] root -> (exists u b, block_of root u b /\ is_inventory w h [u] prior) ->
    logs P (validate_as_prior_version root sr prior sp).
  Proof using.
    intros Wr Wp Ir Iu. unfold validate_as_prior_version.
    assert (K : logs P (if negb (proper_subset (iv_all_versions sp) (iv_all_versions sr)) then werror (`"E066a")
         else wfold (prior_version_check root sr prior sp) (iv_all_versions sp) tt)).
    { whygo. unfold prior_version_check. cbn zeta. whygo. now apply y_metadata. }
    match type of K with logs _ ?x => destruct x as [l [y|e]] end; exact K.
  Qed.

  Lemma y_validate_inventory f dir spec : at_path h f = h ++ dir ++ [`"inventory.json"] -> (dir = [] \/ exists root v b, is_inventory w h [] root /\ block_of root v b /\ dir = [v]) ->
    logs P (validate_inventory c w h f spec).
  Proof using.
    intros Hp Hd. unfold validate_inventory. destruct (let* b := fs_read w h f in json_load b) as [j|e] eqn:E; [|destruct e; whygo].
    apply ebind_ok in E as (b & E1 & E2). apply fs_read_look in E1. rewrite Hp in E1.
    assert (Hj : is_inventory w h dir j) by (exists b; split; auto).
    whygo. eapply logs_imp; [|apply y_iv]. intros [k|k]; [auto|]. cbn [why]. intros K. destruct Hd as [->|(root & v & bl & Ir & Bv & ->)]; [eapply r_root; eauto|eapply r_version; eauto].
  Qed.
  Lemma inventory_read f dir spec j st : at_path h f = h ++ dir ++ [`"inventory.json"] -> snd (validate_inventory c w h f spec) = Ok (Some (j, st)) ->
    is_inventory w h dir j /\ json_wf j /\ exists b, snd (iv_validate (vc_lax_digests c) spec None j) = Ok (st, b).
  Proof using.
    intros Hp. unfold validate_inventory. destruct (let* b := fs_read w h f in json_load b) as [j'|e] eqn:E; [|destruct e; cbn; intros K; try discriminate K; apply Ok_inv in K; discriminate K].
    apply ebind_ok in E as (b & E1 & E2). apply fs_read_look in E1. rewrite Hp in E1. intros K. apply snd_bind in K as ([st' x] & E3 & K).
    cbn [wret snd] in K. apply Ok_inv in K. injection K as -> ->. split; [exists b; split; auto|]. split; [eapply json_load_wf; eauto|eauto].
  Qed.

  Lemma inventory_place : at_path h INVENTORY_FILENAME = h ++ [] ++ [`"inventory.json"].
  Proof using Hh. change INVENTORY_FILENAME with (join [slash] [`"inventory.json"]). apply at_path_join; auto. constructor; [apply inv_fname|constructor]. Qed.

  Section Root.
    Variables (root : json) (sr : iv) (spec : str).
    Hypothesis Ir : is_inventory w h [] root.
    Hypothesis Wr : json_wf root.
    Hypothesis Hl : forall v, In v (iv_all_versions sr) -> fname v /\ exists x, block_of root v x.

    Lemma y_version_dir last s v : In v (iv_all_versions sr) -> logs P (validate_version_dir H c w h (mkRoot root sr spec) last s v).
    Proof using Hh Ir Wr Hl.
      intros Hv. destruct (Hl v Hv) as [Fv [x Bx]].
      assert (Pl : at_path h (path_join v INVENTORY_FILENAME) = h ++ [v] ++ [`"inventory.json"]) by (now apply inv_place).
      unfold validate_version_dir. cbn zeta. cbn [ri_inventory ri_iv ri_spec].
      destruct (fs_exists w h (path_join v INVENTORY_FILENAME)) eqn:Ex; cbn [negb].
      - apply logs_bind.
        + destruct (str_eqb v last); [whygo|]. apply logs_bind; [eapply y_validate_inventory; [exact Pl|right; exists root, v, x; auto]|].
          intros [[j st]|] Ej; [|whygo]. destruct (inventory_read _ _ _ _ _ Pl Ej) as (Ij & Wj & _). whygo. apply y_prior; eauto.
        + intros [[s' sp]|] _; whygo.
      - whygo. eapply r_missing; eauto. destruct (look w (h ++ [v; `"inventory.json"])) eqn:E; [|reflexivity].
        assert (fs_exists w h (path_join v INVENTORY_FILENAME) = true); [|congruence]. apply inv_exists; auto. unfold has_inventory, at_root. congruence.
    Qed.
    Lemma y_version_inventories : logs P (validate_version_inventories H c w h (mkRoot root sr spec) (iv_all_versions sr)).
    Proof using Hh Ir Wr Hl.
      unfold validate_version_inventories. cbn zeta. destruct (last_opt (iv_all_versions sr)); [|whygo]. apply logs_wfold_any. intros o v Hv.
      unfold unless_aborted. destruct o; [|whygo]. now apply y_version_dir.
    Qed.

    Hypothesis Hc : content_name root (iv_content_directory sr) /\ iv_content_directory sr <> `".".

    Lemma y_version_content sidecars seen v : In v (iv_all_versions sr) ->
      logs P (check_version_content w h (iv_content_directory sr) sidecars seen v).
    Proof using Hw Hh Ir Hl Hc.
      intros Hv. destruct (Hl v Hv) as [Fv [x Bx]]. destruct Hc as [Cn Cd]. unfold check_version_content.
      set (y := wbind _ _). assert (K : logs P y).
      2: { unfold wcatch_missing. destruct (snd y) as [a|e]; [exact K|]. destruct e; try exact K. unfold logs. cbn [fst]. apply Forall_app. split; [exact K|]. constructor; [exact Logic.I|constructor]. }
      unfold y. clear y. apply logs_bind; [whygo|]. intros l El. cbn [wlift snd] in El.
      assert (Pv : at_path h v = h ++ [v]) by (change v with (join [slash] [v]) at 1; apply at_path_join; auto).
      unfold fs_ls in El. rewrite Pv in El. apply ebind_ok in El as (n & En & El).
      apply logs_wfold_any. intros s p Hp. unfold check_version_entry. cbn zeta.
      destruct n as [b|d|].
      2: { apply Ok_inv in El. subst l. rewrite map_map in Hp. apply in_map_iff in Hp as ([k m] & Ep & Hk). cbn [fst] in Ep. subst p.
        destruct (dir_names w (h ++ [v]) d Hw En) as (Nd & Fd & _). rewrite Forall_forall in Fd.
        assert (Fk : fname k) by (apply Fd, (in_map fst _ _ Hk)). rewrite (relpath_child v k Fv Fk). pose proof (In_dget _ _ _ Nd Hk) as Dk.
        assert (Lk : look w (h ++ [v; k]) = Some (entry_of m)).
        { change [v; k] with ([v] ++ [k]). rewrite app_assoc, (look_child _ _ _ _ En), Dk. reflexivity. }
        assert (Gk : get w (h ++ [v; k]) = Ok m).
        { change [v; k] with ([v] ++ [k]). rewrite app_assoc. eapply get_child; eauto. }
        destruct (_ || _); [whygo|]. destruct (str_eqb_spec k (iv_content_directory sr)) as [Ek|Ek].
        - rewrite <- Ek in Cn |- *. rewrite path_join_two by auto.
          destruct (walk_content_ok w h [v; k] m Hw Hh) as (files & _ & Hf & Hs); auto; [discriminate|].
          apply logs_bind; [apply y_walk|]. intros files' E'. rewrite Hs in E'. apply Ok_inv in E'. subst files'. whygo.
          eapply r_empty; eauto; [rewrite Lk; discriminate|]. intros r Hr Lf.
          assert (In (join [slash] ([v; k] ++ r)) []) as []. apply Hf. exists r. auto.
        - destruct (fs_isdir w h (entry_name v k)) eqn:Ed; whygo. eapply (r_directory w h root v x _ k); eauto. rewrite Lk.
          assert (Pk : at_path h (entry_name v k) = h ++ [v; k]).
          { assert (E2 : entry_name v k = join [slash] [v; k]).
            { unfold entry_name. rewrite rstrip_noslash by now apply fname_last. destruct v; [now destruct Fv|reflexivity]. }
            rewrite E2. apply at_path_join; auto. }
          unfold fs_isdir in Ed. rewrite Pk, Gk in Ed. destruct m; try discriminate Ed. reflexivity. }
      all: apply Ok_inv in El; subst l; destruct Hp as [<-|[]]; cbn [fst]; rewrite relpath_same by auto;
        destruct (_ || _); [whygo|]; (destruct (str_eqb_spec (`".") (iv_content_directory sr)) as [Ec|_]; [congruence|]);
        unfold fs_isdir; rewrite rstrip_noslash by (now apply fname_last); rewrite Pv, En; whygo.
    Qed.
    Lemma y_content prior : logs P (validate_content H c w h (mkRoot root sr spec) (iv_all_versions sr) prior).
    Proof using Hw Hh Ir Hl Hc.
      unfold validate_content. cbn [ri_iv ri_inventory]. apply logs_bind; [|intros; whygo].
      apply logs_wfold_any. intros s v Hv. now apply y_version_content.
    Qed.
  End Root.

  Lemma y_extensions : logs P (validate_extensions_dir w h).
  Proof using Hw Hh.
    unfold validate_extensions_dir. apply logs_bind; [whygo|]. intros l El. cbn [wlift snd] in El.
    assert (Fe : fname (`"extensions")) by (apply fname_b_ok; reflexivity).
    assert (Pe : at_path h (`"extensions") = h ++ [`"extensions"]).
    { change (`"extensions") with (join [slash] [`"extensions"]) at 1. apply at_path_join; auto. }
    unfold fs_ls in El. rewrite Pe in El. apply ebind_ok in El as (n & En & El). apply logs_wfold_any. intros [] [name t] Hi. cbn [fst snd].
    destruct t; whygo. destruct n as [b|d|]; apply Ok_inv in El; subst l.
    - destruct Hi as [Hi|[]]. discriminate Hi.
    - apply in_map_iff in Hi as ([k m] & Ek & Hi). cbn [fst snd] in Ek. injection Ek as _ Et. apply (r_extension w h k).
      destruct (dir_names w (h ++ [`"extensions"]) d Hw En) as (Nd & _). change [`"extensions"; k] with ([`"extensions"] ++ [k]).
      rewrite app_assoc, (look_child _ _ _ _ En), (In_dget _ _ _ Nd Hi). destruct m; try discriminate Et. reflexivity.
    - destruct Hi as [Hi|[]]. discriminate Hi.
  Qed.
  Lemma y_object_root spec alg vs ac : logs P (validate_object_root w h spec alg vs ac).
  Proof using Hw Hh.
    unfold validate_object_root. cbn zeta. whygo. unfold check_root_entry. destruct a0 as [name t]. destruct t; whygo. apply y_extensions.
  Qed.
  Lemma y_parts n spec ns : logs P (validate_parts H c w h n spec ns).
  Proof using Hw Hh.
    unfold validate_parts. pose proof (y_validate_inventory INVENTORY_FILENAME [] spec inventory_place (or_introl eq_refl)) as L.
    pose proof (inventory_read INVENTORY_FILENAME [] spec) as RD.
    destruct (validate_inventory c w h INVENTORY_FILENAME spec) as [log [[[inv st]|]|e]] eqn:E; [|exact L|exact L].
    destruct (RD inv st inventory_place eq_refl) as (Ij & Wj & b & Eb). clear RD.
    pose proof (iv_listed _ _ _ _ _ _ Eb) as Hl. cbn zeta. apply logs_bind; [exact L|]. intros [] _.
    apply logs_bind; [apply y_inventory_digest|]. intros [] _. apply logs_bind; [apply y_object_root|]. intros [] _.
    apply logs_bind; [now apply y_version_inventories|]. intros [prior|] _; [|whygo]. destruct (Nat.eqb_spec (n + num_errors log) 0) as [En|]; [|whygo].
    apply y_content; auto. apply (iv_content (vc_lax_digests c) spec None inv st b). split; [exact Eb|].
    assert (num_errors log = 0%nat) as E0 by lia. unfold validate_inventory in E.
    destruct (let* b := fs_read w h INVENTORY_FILENAME in json_load b) as [j|e]; [|destruct e; discriminate E].
    destruct (iv_validate (vc_lax_digests c) spec None j) as [l0 [[st0 b0]|e0]] eqn:Ev; [|discriminate E].
    cbn in E. injection E as E <- <-. rewrite Ev. cbn [fst]. rewrite app_nil_r in E. subst l0. now apply num_errors_0.
  Qed.
  Lemma y_opened n : logs P (validate_opened H c w h n).
  Proof using Hw Hh.
    unfold validate_opened. apply logs_bind; [whygo|]. intros ns _.
    pose proof (y_declarations (reason w h) c w h ns) as L. destruct (check_declarations c w h ns) as [log [spec|e]]; [|exact L].
    unfold logs in L. cbn [fst] in L. destruct (negb _).
    - unfold logs. cbn [fst]. apply Forall_app. split; [exact L|]. constructor; [exact Logic.I|constructor].
    - pose proof (y_parts (n + num_errors log) spec ns) as K. destruct (validate_parts _ _ _ _ _ _ _) as [log' [u|e]]; unfold logs in *; cbn [fst] in *; apply Forall_app; auto.
  Qed.
End Warn.
