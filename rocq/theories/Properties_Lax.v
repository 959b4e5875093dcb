(** C81: what lax_digests changes. *)
From Verif Require Import Base Unicode Regex Utf8 Json PyJson TextFile Log LogProofs InventorySpec WarningSpec LaxSpec PathModel FsModel FsSpec FswModel FswSpec.
From Verif Require Import DigestModel InventoryValidatorModel InventoryValidatorProofs InventoryRulesProofs InventoryPriorProofs InventorySafeProofs.
From Verif Require Import ValidatorModel ValidatorSpec FsProofs FswProofs FswCopyProofs ValidatorBasicProofs ValidatorVersionProofs ValidatorIntactProofs WarningProofs WarningFullProofs LaxProofs.
From Verif Require Import Properties_Layout.
From Verif Require Properties_Validator.
Open Scope N_scope.

(** Objects with standard algorithms only: the same result, exceptions included, and the same
    log but for the warnings about sha256. *)
Theorem C81_same : forall H check spec sizes w h n, tree w -> look w h = Some EDir -> standard_object w h ->
  alike (validate_opened H (mkVconf check true spec sizes) w h n) (validate_opened H (mkVconf check false spec sizes) w h n).
Proof.
  intros H check spec sizes w h n Hw Ld Std. apply (alike_opened H (mkVconf check false spec sizes) w h); auto.
  apply (look_fnames w); [exact Hw|congruence].
Qed.
Print Assumptions C81_same.

(** They are valid exactly if they are intact. *)
Theorem C81_exactly_intact : forall H c w h n, tree w -> look w h = Some EDir -> standard_object w h ->
  (snd (validate_opened H c w h n) = Ok true <->
   n = O /\ exists spec rb root f head, intact H (vc_check_digests c) w h spec rb root f head).
Proof.
  intros H [check lax spec sizes] w h n Hw Ld Std. assert (E : snd (validate_opened H (mkVconf check lax spec sizes) w h n) = snd (validate_opened H (mkVconf check false spec sizes) w h n)).
  { destruct lax; [apply C81_same; auto|reflexivity]. }
  rewrite E. exact (validate_opened_iff H (mkVconf check false spec sizes) w h n eq_refl Hw Ld).
Qed.
Print Assumptions C81_exactly_intact.

(** What obeys the rules uses standard algorithms. *)
Lemma obeys_standard j f : json_wf j -> obeys as_coded j f -> standard_algorithms j.
Proof.
  intros Wj O. pose proof O as (_ & _ & (Ma & Ia) & _ & _ & _ & Hf & _). split.
  - intros a M. pose proof (member_fun _ _ _ _ Wj M Ma) as ->. destruct Ia as [<-|[<-|[]]]; auto.
  - intros fx alg x M Hi. destruct Hf as [Hf|(fx' & M' & Hf)]; [now apply Hf in M|]. pose proof (member_fun _ _ _ _ Wj M M') as E. injection E as ->. now apply (Hf alg x).
Qed.

(** So do valid objects. *)
Lemma valid_standard H check spec sizes w h n : tree w -> look w h = Some EDir ->
  snd (validate_opened H (mkVconf check false spec sizes) w h n) = Ok true -> standard_object w h.
Proof.
  intros Hw Ld V. apply validate_opened_iff in V as (_ & sp & rb & root & f & head & I); auto.
  intros root' (b' & Ib'). destruct I as [_ Ir Or Mh _ _ [V1 [V2 _]] _ _ _]. cbn [vc_check_digests] in *.
  assert (root' = root) as -> by (eapply is_inventory_unique; [exists b'; exact Ib'|exists rb; exact Ir]).
  assert (Wr : json_wf root) by (destruct Ir as [_ Ir]; now apply json_load_wf in Ir). split; [eapply obeys_standard; eauto|].
  intros v b j Bv (bj & Ij). pose proof (block_listed _ _ _ _ Wr Or Bv) as Hv.
  assert (Hi : has_inventory w h v) by (destruct Ij as [Ij _]; unfold has_inventory; cbn [app] in Ij; congruence).
  destruct (list_eq_dec N.eq_dec v head) as [->|Hn].
  - destruct (V1 Hi) as [E _]. destruct Ij as [Ij Jj], Ir as [_ Jr]. cbn [app] in Ij. rewrite E in Ij. injection Ij as <-. rewrite Jr in Jj. apply Ok_inv in Jj. subst j. eapply obeys_standard; eauto.
  - destruct (V2 v Hv Hn Hi) as (b2 & j2 & f2 & (I2 & O2 & _)). assert (j = j2) as -> by (eapply is_inventory_unique; [exists bj; exact Ij|exists b2; exact I2]).
    eapply obeys_standard; eauto. destruct I2 as [_ I2]. now apply json_load_wf in I2.
Qed.

(** With lax_digests nothing becomes invalid. *)
Theorem C81_still_valid : forall H check spec sizes w h n, tree w -> look w h = Some EDir ->
  snd (validate_opened H (mkVconf check false spec sizes) w h n) = Ok true ->
  alike (validate_opened H (mkVconf check true spec sizes) w h n) (validate_opened H (mkVconf check false spec sizes) w h n).
Proof. intros H check spec sizes w h n Hw Ld V. apply C81_same; auto. eapply valid_standard; eauto. Qed.
Print Assumptions C81_still_valid.

(** An object with md5 as digest algorithm: valid with lax_digests only. *)
Import Properties_Validator.
Definition ex_md5_inventory : str :=
  `"{" ++ q (`"id") ++ `":" ++ q (`"info:a") ++ `"," ++ q (`"type") ++ `":" ++ q (`"https://ocfl.io/1.1/spec/#inventory") ++ `"," ++
  q (`"digestAlgorithm") ++ `":" ++ q (`"md5") ++ `"," ++ q (`"head") ++ `":" ++ q (`"v1") ++ `"," ++
  q (`"manifest") ++ `":{" ++ ex_entry (hex (`"md5") (`"one")) (`"v1/content/a") ++ `"}," ++
  q (`"versions") ++ `":{" ++ ex_version (`"v1") (ex_entry (hex (`"md5") (`"one")) (`"a")) ++ `"}}".
Definition ex_md5_sidecar : str := hex (`"md5") ex_md5_inventory ++ `" inventory.json" ++ [10].
Definition ex_md5 : node :=
  Dir [(`"o", Dir [(ex_decl, File ex_decl_text); (`"inventory.json", File ex_md5_inventory); (`"inventory.json.md5", File ex_md5_sidecar);
                   (`"v1", Dir [(`"inventory.json", File ex_md5_inventory); (`"inventory.json.md5", File ex_md5_sidecar); (`"content", Dir [(`"a", File (`"one"))])])])].
Example C81_ex :
  (tree ex_object /\ look ex_object [`"o"] = Some EDir /\
   snd (validate_opened toy_hash (mkVconf true false (`"1.1") (fun _ => 0)) ex_object [`"o"] 0) = Ok true /\ standard_object ex_object [`"o"]) /\
  validate_opened toy_hash (mkVconf true true (`"1.1") (fun _ => 0)) ex_object [`"o"] 0 = ([], Ok true) /\
  validate_opened toy_hash (mkVconf true true (`"1.1") (fun _ => 0)) ex_md5 [`"o"] 0 = ([], Ok true) /\
  snd (validate_opened toy_hash (mkVconf true false (`"1.1") (fun _ => 0)) ex_md5 [`"o"] 0) = Ok false.
Proof.
  split; [|split; [vm_compute; reflexivity|split; vm_compute; reflexivity]]. split; [exact ex_object_tree|]. split; [reflexivity|]. assert (V : snd (validate_opened toy_hash (mkVconf true false (`"1.1") (fun _ => 0)) ex_object [`"o"] 0) = Ok true) by (vm_compute; reflexivity).
  split; [exact V|]. eapply valid_standard; [exact ex_object_tree|reflexivity|exact V].
Qed.
