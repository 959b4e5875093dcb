(** C78 and C80: the warnings of validation. *)
From Verif Require Import Base Unicode Regex Utf8 Json PyJson TextFile Log LogProofs InventorySpec WarningSpec PathModel FsModel FsSpec FswModel FswSpec.
From Verif Require Import DigestModel InventoryValidatorModel InventoryValidatorProofs InventoryRulesProofs InventoryPriorProofs InventorySafeProofs.
From Verif Require Import ValidatorModel ValidatorSpec FsProofs FswProofs FswCopyProofs ValidatorBasicProofs ValidatorVersionProofs WarningProofs WarningFullProofs Properties_InventoryValidator.
From Verif Require Import Properties_Layout.
From Verif Require Properties_Validator.
Open Scope N_scope.

(** ** C78: metadata that differs *)

(** For accepted inventories, one of them for fewer versions: there is the warning exactly if
    a version of the earlier one has another date, message or user in the later one. No other
    warning is given. *)
Theorem C78_metadata : forall root prior sr sp dsr dsp cr cp, json_wf root -> json_wf prior ->
  snd (iv_validate false dsr cr root) = Ok (sr, true) -> snd (iv_validate false dsp cp prior) = Ok (sp, true) ->
  incl (iv_all_versions sp) (iv_all_versions sr) -> (exists v, In v (iv_all_versions sr) /\ ~ In v (iv_all_versions sp)) ->
  (forall c, logged (LWarning c) (validate_as_prior_version root sr prior sp) -> c = `"W011") /\
  (logged (LWarning (`"W011")) (validate_as_prior_version root sr prior sp) <->
   exists v, In v (iv_all_versions sp) /\ metadata_differs root prior v).
Proof.
  intros root prior sr sp dsr dsp cr cp Hr Hp H1 H2 Hi Hx. apply iv_validate_iff in H1, H2; auto.
  destruct H1 as (fr & hr & br & Hor & _ & _ & _ & ->), H2 as (fp & hp & bp & Hop & _ & _ & _ & ->). cbn [iv_all_versions accepted] in *.
  assert (Ps : proper_subset (f_versions fp) (f_versions fr) = true) by (apply proper_subset_iff; auto).
  set (sr := accepted fr hr). set (sp := accepted fp hp). set (step := prior_version_check root sr prior sp tt).
  assert (E : forall e, logged e (validate_as_prior_version root sr prior sp) <-> logged e (wfold (fun _ v => step v) (f_versions fp) tt)).
  { intros e. unfold validate_as_prior_version. cbn [sr sp iv_all_versions accepted]. rewrite Ps. cbn [negb].
    change (wfold (prior_version_check root sr prior sp) (f_versions fp) tt) with (wfold (fun _ v => step v) (f_versions fp) tt).
    destruct (wfold _ _ _) as [l [x|e']]; reflexivity. }
  assert (S : forall v, In v (f_versions fp) -> exists u, snd (step v) = Ok u).
  { intros v Hv. destruct (safe_prior_version root prior fr fp hr hp tt v Hr Hp Hor Hop Hi Hv) as [u Hu]. exists u. exact Hu. }
  assert (V : forall v c, In v (f_versions fp) -> (logged (LWarning c) (step v) <-> c = `"W011" /\ metadata_differs root prior v)).
  { intros v c Hv. destruct (version_block_ok root fr v Hr Hor (Hi _ Hv)) as (_ & d & _ & _ & Ed).
    destruct (version_block_ok prior fp v Hp Hop Hv) as (_ & e & _ & _ & Ee).
    rewrite <- (compare_metadata_iff root prior v d e Hr Hp Ed Ee).
    destruct (S v Hv) as [u Su]. unfold step, prior_version_check in Su |- *. apply snd_bind in Su as ([] & E1 & Su). apply snd_bind in Su as ([] & E2 & _).
    rewrite logged_bind. assert (Q : forall A (x : wexc A), logs (why (fun _ => False)) x -> ~ logged (LWarning c) x).
    { intros A x L K. rewrite logs_iff in L. apply (L _ K). }
    split.
    - intros [K|(a & _ & K)]; [exfalso; revert K; apply Q; whygo|]. rewrite logged_bind in K. destruct K as [K|([] & _ & K)]; [exfalso; revert K; apply Q; cbn zeta; whygo|].
      assert (c = `"W011") as ->; [|split; [reflexivity|exact K]].
      unfold compare_metadata in K. rewrite Ed, Ee, !wbind_lift in K. apply logged_wfold_unit in K as (a' & _ & K).
      + destruct (py_eq _ _); [destruct K|]. destruct K as [K|[]]. now injection K.
      + intros a' _. destruct (py_eq _ _); eexists; reflexivity.
    - intros [-> K]. right. exists tt. split; [exact E1|]. rewrite logged_bind. right. exists tt. split; [exact E2|exact K]. }
  split.
  - intros c K. apply E in K. apply logged_wfold_unit in K as (v & Hv & K); [|exact S]. apply V in K as [K _]; auto.
  - rewrite E, logged_wfold_unit by exact S. split.
    + intros (v & Hv & K). exists v. split; [exact Hv|]. apply V in K as [_ K]; auto.
    + intros (v & Hv & K). exists v. split; [exact Hv|]. apply V; auto.
Qed.
Print Assumptions C78_metadata.

(** An inventory with another message for the first version. *)
Definition ex_reworded : json :=
  inventory type11 (`"v1") [(dA, strs [`"v1/content/a.txt"])]
    [(`"v1", match version_block now_ [(dA, strs [`"a.txt"])] with JObj d => JObj (dset (`"message") (JStr (`"Second thoughts")) d) | j => j end)] [].
Example C78_ex : exists sr sp sp',
  json_wf ex_inv /\ json_wf ex_prior /\ json_wf ex_reworded /\
  snd (iv_validate false (`"1.1") None ex_inv) = Ok (sr, true) /\ snd (iv_validate false (`"1.1") None ex_prior) = Ok (sp, true) /\
  snd (iv_validate false (`"1.1") None ex_reworded) = Ok (sp', true) /\
  incl (iv_all_versions sp') (iv_all_versions sr) /\ (exists v, In v (iv_all_versions sr) /\ ~ In v (iv_all_versions sp')) /\
  validate_as_prior_version ex_inv sr ex_prior sp = ([], Ok true) /\
  validate_as_prior_version ex_inv sr ex_reworded sp' = ([LWarning (`"W011")], Ok true).
Proof.
  eexists _, _, _. do 3 (split; [apply json_wfb_sound; vm_compute; reflexivity|]). do 3 (split; [vm_compute; reflexivity|]).
  split; [intros v [<-|[]]; now left|]. split; [exists (`"v2"); split; [right; now left|]; intros [E|[]]; discriminate E|].
  split; vm_compute; reflexivity.
Qed.

(** ** C80: every warning has a reason *)

Theorem C80_sound : forall H c w h n code, tree w -> look w h = Some EDir ->
  logged (LWarning code) (validate_opened H c w h n) -> reason w h code.
Proof.
  intros H c w h n code Hw Hh K. assert (Hf : Forall fname h) by (apply (look_fnames w); [exact Hw|congruence]).
  pose proof (y_opened H c w h Hw Hf n) as L. rewrite logs_iff in L. apply (L _ K).
Qed.
Print Assumptions C80_sound.

(** ** C80: in a valid object every reason gives its warning *)

(** No directory in place of an inventory or digest file, the content directory has another name. *)
Definition tidy (w : node) (h : place) : Prop :=
  (forall v k, startswith (`"inventory.json") k = true -> look w (h ++ [v; k]) <> Some EDir) /\
  (forall root k, is_inventory w h [] root -> content_name root k -> startswith (`"inventory.json") k = false).

Theorem C80_complete : forall H c w h code, tree w -> look w h = Some EDir -> vc_lax_digests c = false -> tidy w h ->
  snd (validate_opened H c w h 0) = Ok true -> reason w h code -> logged (LWarning code) (validate_opened H c w h 0).
Proof.
  intros H c w h code Hw Ld Hlax [Hd1 Hd2] V R. assert (Hh : Forall fname h) by (apply (look_fnames w); [exact Hw|congruence]).
  unfold validate_opened in V |- *. apply snd_bind in V as (ns & En & V). apply logged_bind. right. exists ns. split; [exact En|].
  destruct (check_declarations c w h ns) as [log [spec|e]]; [|discriminate V]. destruct (negb _); [apply Ok_inv in V; discriminate V|].
  destruct (validate_parts H c w h (0 + num_errors log) spec ns) as [log' [u|e]] eqn:Ep; [|discriminate V]. cbn [snd] in V. apply Ok_inv, Nat.eqb_eq in V.
  rewrite num_errors_app in V. assert (E0 : num_errors log = 0%nat) by lia. assert (E1 : num_errors log' = 0%nat) by lia. rewrite E0 in Ep. cbn [Nat.add] in Ep.
  unfold logged. cbn [fst]. apply in_or_app. right. change log' with (fst (log', Ok u)). fold (logged (LWarning code) (log', Ok u)).
  assert (Cp : clean (log', Ok u) u) by (split; [reflexivity|now apply num_errors_0]). rewrite <- Ep in Cp |- *. clear Ep V.
  unfold validate_parts in Cp |- *. destruct (validate_inventory c w h INVENTORY_FILENAME spec) as [lg [[[inv st]|]|e]] eqn:Ei.
  2: { exfalso. destruct (clean_validate_inventory_none c w h INVENTORY_FILENAME spec). rewrite Ei. destruct Cp as [_ Cp]. split; [reflexivity|exact Cp]. }
  2: { destruct Cp as [Cp _]. discriminate Cp. }
  cbn zeta in Cp |- *. apply clean_bind in Cp as ([] & C1 & Cp).
  assert (Ci : clean (validate_inventory c w h INVENTORY_FILENAME spec) (Some (inv, st))) by (rewrite Ei; destruct C1 as [_ C1]; split; [reflexivity|exact C1]).
  assert (Eg : Nat.eqb (0 + num_errors lg) 0 = true) by (apply Nat.eqb_eq; cbn [Nat.add]; destruct C1 as [_ C1]; now apply num_errors_0). rewrite Eg in *.
  assert (Lroot : forall e, logged e (validate_inventory c w h INVENTORY_FILENAME spec) -> logged e (wbind (lg, Ok tt) (fun _ : unit =>
      validate_inventory_digest H c w h INVENTORY_FILENAME (iv_digest_algorithm st) ;!
      validate_object_root w h spec (iv_digest_algorithm st) (iv_all_versions st) (map NamasteModel.filename ns) ;!
      (let! o := validate_version_inventories H c w h (mkRoot inv st spec) (iv_all_versions st) in
       match o with None => wret tt | Some prior => validate_content H c w h (mkRoot inv st spec) (iv_all_versions st) prior end)))).
  { intros e He. rewrite Ei in He. apply logged_left. exact He. }
  destruct (inventory_read c w h INVENTORY_FILENAME [] spec inv st (inventory_place h Hh) (clean_snd _ _ Ci)) as (Ir & Wr & _).
  pose proof Ci as Ci'. apply (clean_validate_inventory c w h _ spec inv st Hlax) in Ci' as (b & fa & hd & _ & _ & Or & Mh & Est).
  apply clean_bind in Cp as ([] & C2 & Cp). apply clean_bind in Cp as ([] & C3 & Cp). apply clean_bind in Cp as (o & C4 & Cp).
  subst st. cbn [iv_digest_algorithm iv_all_versions accepted] in *.
  assert (Last : last_opt (f_versions fa) = Some hd).
  { destruct (obeys_head _ _ Or) as (hd' & be & Mh' & ->). pose proof (member_fun _ _ _ _ Wr Mh Mh') as E. injection E as <-. now rewrite last_opt_app. }
  assert (Uq : forall j, is_inventory w h [] j -> j = inv) by (intros j Hj; eapply is_inventory_unique; eauto).
  assert (Cn : content_name inv (f_cdir fa)).
  { destruct Or as (_ & _ & _ & Hc & _). unfold content_directory_rule in Hc. destruct (f_cdir_set fa); [left|right]; apply Hc. }
  assert (L4 : forall e, logged e (validate_version_inventories H c w h (mkRoot inv (accepted fa hd) spec) (f_versions fa)) -> logged e (wbind (lg, Ok tt) (fun _ : unit =>
      validate_inventory_digest H c w h INVENTORY_FILENAME (JStr (f_alg fa)) ;!
      validate_object_root w h spec (JStr (f_alg fa)) (f_versions fa) (map NamasteModel.filename ns) ;!
      (let! o := validate_version_inventories H c w h (mkRoot inv (accepted fa hd) spec) (f_versions fa) in
       match o with None => wret tt | Some prior => validate_content H c w h (mkRoot inv (accepted fa hd) spec) (f_versions fa) prior end)))).
  { intros e He. eapply logged_right; [exact C1|]. eapply logged_right; [exact C2|]. eapply logged_right; [exact C3|]. apply logged_left, He. }
  assert (L5 : exists prior, side prior /\ clean (validate_content H c w h (mkRoot inv (accepted fa hd) spec) (f_versions fa) prior) u /\
    forall e, logged e (validate_content H c w h (mkRoot inv (accepted fa hd) spec) (f_versions fa) prior) -> logged e (wbind (lg, Ok tt) (fun _ : unit =>
      validate_inventory_digest H c w h INVENTORY_FILENAME (JStr (f_alg fa)) ;!
      validate_object_root w h spec (JStr (f_alg fa)) (f_versions fa) (map NamasteModel.filename ns) ;!
      (let! o := validate_version_inventories H c w h (mkRoot inv (accepted fa hd) spec) (f_versions fa) in
       match o with None => wret tt | Some prior => validate_content H c w h (mkRoot inv (accepted fa hd) spec) (f_versions fa) prior end)))).
  { destruct (inventories_going H c w h inv fa hd spec Last o C4) as (prior & -> & Hs). exists prior. split; [exact Hs|]. split; [exact Cp|].
    intros e He. eapply logged_right; [exact C1|]. eapply logged_right; [exact C2|]. eapply logged_right; [exact C3|]. eapply logged_right; [exact C4|]. exact He. }
  assert (Rv : forall v j, In v (f_versions fa) -> is_inventory w h [v] j -> forall code, inventory_reason j code \/ code = `"W011" /\ (exists x, metadata_differs inv j x) ->
    logged (LWarning code) (wbind (lg, Ok tt) (fun _ : unit =>
      validate_inventory_digest H c w h INVENTORY_FILENAME (JStr (f_alg fa)) ;!
      validate_object_root w h spec (JStr (f_alg fa)) (f_versions fa) (map NamasteModel.filename ns) ;!
      (let! o := validate_version_inventories H c w h (mkRoot inv (accepted fa hd) spec) (f_versions fa) in
       match o with None => wret tt | Some prior => validate_content H c w h (mkRoot inv (accepted fa hd) spec) (f_versions fa) prior end)))).
  { intros v j Hv Ij cd K. destruct (read_turn H c w h Hh inv fa hd spec Ir Or Last o v j C4 Hv Ij) as [->|(st & Cj & [bb Cv] & T1 & T2)].
    - destruct K as [K|[-> [x K]]]; [|now apply no_difference in K]. apply Lroot. eapply (full_inventory c w h Hlax _ []); eauto. apply inventory_place; auto.
    - pose proof (listed_name inv fa Or v Hv) as Fv. destruct K as [K|[-> [x K]]].
      + apply L4, T1. eapply (full_inventory c w h Hlax _ [v]); eauto. exact (inv_place h Hh v Fv).
      + apply L4, T2. pose proof Cj as Cj'. apply (clean_validate_inventory c w h _ spec j st Hlax) in Cj' as (bj & fj & hj & _ & Wj & Oj & Mj & ->). apply json_load_wf in Wj.
        assert (Pv : forall i f g, json_wf i -> obeys as_coded i f -> member i (`"head") (JStr g) -> snd (iv_validate false spec None i) = Ok (accepted f g, true)).
        { intros i f g Wi Oi Mi. apply iv_validate_iff; auto. destruct (obeys_head _ _ Oi) as (g' & be & Mg & Eb). pose proof (member_fun _ _ _ _ Wi Mi Mg) as E. injection E as <-.
          exists f, g, be. split; [exact Oi|]. split; [exact Logic.I|auto]. }
        assert (Ps : proper_subset (f_versions fj) (f_versions fa) = true).
        { destruct Cv as [_ Cv]. unfold validate_as_prior_version in Cv. cbn [iv_all_versions accepted] in Cv. destruct (proper_subset _ _); [reflexivity|discriminate Cv]. }
        apply proper_subset_iff in Ps as [P1 P2].
        destruct (C78_metadata inv j _ _ spec spec None None Wr Wj (Pv _ _ _ Wr Or Mh) (Pv _ _ _ Wj Oj Mj) P1 P2) as [_ Q]. apply Q. exists x. split; [|exact K].
        destruct K as (_ & _ & _ & _ & _ & (bx & Bx & _) & _). cbn [iv_all_versions accepted]. eapply block_listed; eauto. }
  destruct R as [j code Ij K|root v bl j code Ij Bv Iv K|root v bl Ij Bv K|root v bl j x Ij Bv Iv K|root v bl k1 k Ij Bv Kn Kd Kl|root v bl k1 Ij Bv Kn Kl Ke|k K];
    try (apply Uq in Ij; subst j || subst root); try (pose proof (block_listed _ _ _ _ Wr Or Bv) as Hv).
  - apply Lroot. eapply (full_inventory c w h Hlax _ []); eauto. apply inventory_place; auto.
  - eapply Rv; eauto.
  - apply L4. eapply full_missing; eauto.
  - eapply Rv; [exact Hv|exact Iv|]. right. split; [reflexivity|eauto].
  - destruct L5 as (prior & Hs & C5 & L5). apply L5. rewrite (content_name_unique inv k1 (f_cdir fa) Wr Kn Cn) in Kd. eapply full_directory; eauto.
  - destruct L5 as (prior & Hs & C5 & L5). apply L5. rewrite (content_name_unique inv k1 (f_cdir fa) Wr Kn Cn) in Kl, Ke. eapply full_empty; eauto.
  - eapply logged_right; [exact C1|]. eapply logged_right; [exact C2|]. apply logged_left. eapply full_extension; eauto.
Qed.
Print Assumptions C80_complete.

(** W013 is meant for extensions that are not registered; a registered one gets it as well,
    because its name is compared with the directory in front. *)
Theorem C80_registered_refuted : forall H c w h k, tree w -> look w h = Some EDir -> vc_lax_digests c = false -> tidy w h ->
  snd (validate_opened H c w h 0) = Ok true -> In k registered_extensions -> look w (h ++ [`"extensions"; k]) = Some EDir ->
  logged (LWarning (`"W013")) (validate_opened H c w h 0).
Proof. intros. apply C80_complete; auto. eapply r_extension; eauto. Qed.
Print Assumptions C80_registered_refuted.

(** The object of C30 with a directory for a registered extension. *)
Definition ex_extended : node :=
  Properties_Validator.ex_object_with Properties_Validator.ex_decl Properties_Validator.ex_decl_text Properties_Validator.ex_inv1 Properties_Validator.ex_inv2 (`"one") (`"two")
    [(`"extensions", Dir [(`"0001-digest-algorithms", Dir [])])].
Definition plain_b (d : dict node) : bool :=
  forallb (fun p => match snd p with
    | Dir e => forallb (fun q => match snd q with Dir _ => negb (startswith (`"inventory.json") (fst q)) | _ => true end) e
    | _ => true end) d.
Lemma plain_b_ok w h d v k : get w h = Ok (Dir d) -> plain_b d = true -> startswith (`"inventory.json") k = true -> look w (h ++ [v; k]) <> Some EDir.
Proof.
  intros G P Hk L. rewrite look_app, G in L. unfold look in L. cbn [get] in L. destruct (dget v d) as [n|] eqn:E1; [|discriminate L]. apply dget_In in E1.
  unfold plain_b in P. rewrite forallb_forall in P. specialize (P _ E1). cbn [snd] in P. destruct n as [|e|]; try discriminate L.
  destruct (dget k e) as [m|] eqn:E2; [|discriminate L]. apply dget_In in E2. rewrite forallb_forall in P. specialize (P _ E2). cbn [fst snd] in P.
  rewrite Hk in P. destruct m; discriminate.
Qed.
Lemma ex_extended_tidy : tidy ex_extended [`"o"].
Proof.
  split.
  - intros v k. eapply plain_b_ok; vm_compute; reflexivity.
  - intros root k (b & Lb & Jb) Kn. vm_compute in Lb. injection Lb as <-. vm_compute in Jb. injection Jb as <-.
    destruct Kn as [(d & E & Hi)|[_ ->]]; [|reflexivity]. injection E as <-. exfalso. vm_compute in Hi. repeat destruct Hi as [Hi|Hi]; try discriminate Hi; exact Hi.
Qed.
Example C80_ex : tree ex_extended /\ tidy ex_extended [`"o"] /\
  validate_opened toy_hash (Properties_Validator.ex_conf true) ex_extended [`"o"] 0 = ([LWarning (`"W004"); LWarning (`"W013"); LWarning (`"W004")], Ok true) /\
  reason ex_extended [`"o"] (`"W013") /\ In (`"0001-digest-algorithms") registered_extensions.
Proof.
  split; [apply tree_b_ok; vm_compute; reflexivity|]. split; [exact ex_extended_tidy|]. split; [vm_compute; reflexivity|].
  split; [apply (r_extension _ _ (`"0001-digest-algorithms")); vm_compute; reflexivity|]. now left.
Qed.
