(** Validation with lax_digests, compared with validation without (C81). *)
From Verif Require Import Base Unicode Regex Utf8 Json PyJson TextFile Log LogProofs InventorySpec WarningSpec PathModel FsModel FsSpec FswModel FswSpec NamasteModel.
From Verif Require Import DigestModel InventoryValidatorModel InventoryValidatorProofs InventoryRulesProofs InventoryPriorProofs InventorySafeProofs.
From Verif Require Import ValidatorModel ValidatorSpec FsProofs FswProofs FswCopyProofs ValidatorBasicProofs ValidatorVersionProofs ValidatorFoldProofs ValidatorIntactProofs WarningProofs WarningFullProofs.
From Verif Require Import LaxSpec.
Open Scope N_scope.

Lemma others_app a b : others (a ++ b) = others a ++ others b.
Proof. apply filter_app. Qed.
Lemma others_errors l : num_errors (others l) = num_errors l.
Proof.
  induction l as [|[c|c] l IH]; [reflexivity| |].
  - cbn. now f_equal.
  - cbn [others filter]. destruct (negb _); cbn; exact IH.
Qed.
Lemma alike_errors {A} (x y : wexc A) : alike x y -> num_errors (fst x) = num_errors (fst y).
Proof. intros [E _]. rewrite <- (others_errors (fst x)), <- (others_errors (fst y)). now rewrite E. Qed.
Lemma no_errors_num l : no_errors l = Nat.eqb (num_errors l) 0.
Proof. destruct (Nat.eqb_spec (num_errors l) 0) as [E|E]; [now apply num_errors_0|]. destruct (no_errors l) eqn:F; [|reflexivity]. now apply num_errors_0 in F. Qed.
Lemma alike_no_errors {A} (x y : wexc A) : alike x y -> no_errors (fst x) = no_errors (fst y).
Proof. intros R. rewrite !no_errors_num. now rewrite (alike_errors x y R). Qed.

Lemma alike_refl {A} (x : wexc A) : alike x x. Proof. split; reflexivity. Qed.
Lemma alike_bind {A B} (x y : wexc A) (f g : A -> wexc B) : alike x y -> (forall a, snd y = Ok a -> alike (f a) (g a)) -> alike (wbind x f) (wbind y g).
Proof.
  intros [E1 E2] K. unfold wbind. rewrite E2. destruct (snd y) as [a|e] eqn:Ey; [|split; [exact E1|reflexivity]].
  destruct (K a eq_refl) as [K1 K2]. cbn zeta. split; cbn [fst snd]; [rewrite !others_app; congruence|exact K2].
Qed.
Lemma alike_same {A B} (x : wexc A) (f g : A -> wexc B) : (forall a, snd x = Ok a -> alike (f a) (g a)) -> alike (wbind x f) (wbind x g).
Proof. apply alike_bind, alike_refl. Qed.
Lemma alike_fold {A S} (f g : S -> A -> wexc S) l : (forall a, In a l -> forall s, alike (f s a) (g s a)) -> forall s, alike (wfold f l s) (wfold g l s).
Proof.
  induction l as [|a l IH]; intros K s; [apply alike_refl|]. cbn [wfold]. apply alike_bind; [apply K; now left|]. intros s' _. apply IH. intros b Hb. apply K. now right.
Qed.

(** ** Inventories *)

Lemma bind_eq {A B} (x y : wexc A) (f g : A -> wexc B) : x = y -> (forall a, snd y = Ok a -> f a = g a) -> wbind x f = wbind y g.
Proof. intros -> K. unfold wbind. destruct (snd y); [|reflexivity]. now rewrite K. Qed.
Lemma wfold_eq {A S} (f g : S -> A -> wexc S) l : (forall a, In a l -> forall s, f s a = g s a) -> forall s, wfold f l s = wfold g l s.
Proof.
  induction l as [|a l IH]; intros K s; [reflexivity|]. cbn [wfold]. apply bind_eq; [apply K; now left|]. intros s' _. apply IH. intros b Hb. apply K. now right.
Qed.

Section Inventory.
  Variable alg : json.
  Hypothesis Halg : exists r, digest_regex_j alg = Ok r.
  Lemma same_regex : iv_digest_regex true alg = iv_digest_regex false alg.
  Proof using Halg. unfold iv_digest_regex. destruct Halg as [r ->]. reflexivity. Qed.
  Lemma same_manifest cd m : validate_manifest true alg cd m = validate_manifest false alg cd m.
  Proof using Halg.
    unfold validate_manifest. destruct m; try reflexivity. apply bind_eq; [|reflexivity]. apply wfold_eq. intros [k x] _ s'. unfold manifest_digest. now rewrite same_regex.
  Qed.
  Lemma same_version u vs s v : validate_version true alg u vs s v = validate_version false alg u vs s v.
  Proof using Halg.
    unfold validate_version, validate_state_block. destruct (dget v vs); [|reflexivity]. now rewrite same_regex.
  Qed.
  Lemma same_versions u vs all : validate_versions true alg u vs all = validate_versions false alg u vs all.
  Proof using Halg. unfold validate_versions. destruct vs as [| | | | |l|d]; try reflexivity. apply wfold_eq. intros v _ s. apply same_version. Qed.
  Lemma same_blocks id spec cd j : validate_blocks true id spec alg cd j = validate_blocks false id spec alg cd j.
  Proof using Halg.
    unfold validate_blocks. apply bind_eq; [reflexivity|]. intros c _. apply bind_eq.
    - destruct c; [|reflexivity]. apply bind_eq; [reflexivity|]. intros m _. now rewrite same_manifest.
    - intros m _. cbn zeta. apply bind_eq; [reflexivity|]. intros c' _. apply bind_eq; [|reflexivity]. destruct c'; [|reflexivity].
      apply bind_eq; [reflexivity|]. intros vs _. apply bind_eq; [reflexivity|]. intros all _. now rewrite same_versions.
  Qed.
End Inventory.

Lemma same_rest st k u j : standard_algorithms j -> validate_rest true st k u j = validate_rest false st k u j.
Proof.
  intros [_ Hf]. unfold validate_rest. apply bind_eq; [reflexivity|]. intros _ _. apply bind_eq; [reflexivity|]. intros _ _. apply bind_eq; [reflexivity|].
  intros c _. destruct c; [|reflexivity]. apply bind_eq; [reflexivity|]. intros f Ef. cbn [wlift snd] in Ef. apply py_getitem_member in Ef.
  unfold validate_fixity. destruct f as [| | | | |l|d]; try reflexivity. apply wfold_eq. intros [a x] Hi s. specialize (Hf _ _ _ Ef Hi).
  apply known_algorithm in Hf as [r Er]. unfold fixity_algorithm. now rewrite Er.
Qed.

Lemma alike_algorithm j : standard_algorithms j -> alike (validate_digest_algorithm true j) (validate_digest_algorithm false j).
Proof.
  intros [Ha _]. unfold validate_digest_algorithm. cbn zeta. apply alike_same. intros c _. destruct c; cbn [negb]; [|apply alike_refl]. apply alike_same. intros a Ea.
  cbn [wlift snd] in Ea. apply py_getitem_member in Ea. destruct (Ha _ Ea) as [->| ->]; [apply alike_refl|]. split; reflexivity.
Qed.
Lemma algorithm_known j a : snd (validate_digest_algorithm false j) = Ok (Some a) -> exists r, digest_regex_j a = Ok r.
Proof.
  unfold validate_digest_algorithm. cbn zeta. intros K. apply snd_bind in K as (c & _ & K). destruct c; cbn [negb] in K; [|apply Ok_inv in K; injection K as <-; eexists; vm_compute; reflexivity].
  apply snd_bind in K as (b & _ & K). destruct (json_eq_str b (`"sha512")); [apply Ok_inv in K; injection K as <-; eexists; vm_compute; reflexivity|].
  destruct (json_eq_str b (`"sha256")) eqn:E; [|apply Ok_inv in K; discriminate K]. apply Ok_inv in K. injection K as <-. destruct b; try discriminate E. apply str_eqb_eq in E. subst. eexists; vm_compute; reflexivity.
Qed.

Lemma alike_body s f j : standard_algorithms j -> alike (validate_body true s f j) (validate_body false s f j).
Proof.
  intros Hs. unfold validate_body. cbn zeta. apply alike_same. intros id _. apply alike_same. intros spec _. apply alike_bind; [now apply alike_algorithm|].
  intros [a|] Ea; [|apply alike_refl]. apply algorithm_known in Ea. apply alike_same. intros cd _. rewrite (same_blocks a Ea). apply alike_same. intros [[st k] u] _.
  destruct (iv_all_versions st); [apply alike_refl|]. rewrite same_rest by exact Hs. apply alike_refl.
Qed.
Lemma alike_validate s f j : standard_algorithms j -> alike (iv_validate true s f j) (iv_validate false s f j).
Proof.
  intros Hs. pose proof (alike_body s f j Hs) as R. pose proof (alike_no_errors _ _ R) as N. unfold iv_validate.
  destruct (validate_body true s f j) as [l1 r1], (validate_body false s f j) as [l2 r2]. destruct R as [E1 E2]. cbn [fst snd] in *. subst r1.
  destruct r2 as [[st []]|e].
  - rewrite N. split; auto.
  - rewrite N. destruct (no_errors l2); split; auto. cbn [fst]. rewrite !others_app. congruence.
  - split; auto.
Qed.

(** ** Objects *)

Definition laxly (c : vconf) : vconf := mkVconf (vc_check_digests c) true (vc_default_spec c) (vc_sizes c).
Definition strictly (c : vconf) : vconf := mkVconf (vc_check_digests c) false (vc_default_spec c) (vc_sizes c).

Section Object.
  Variable H : hashfn.
  Variable c : vconf.
  Variable w : node.
  Variable h : place.
  Hypothesis Hh : Forall fname h.
  Let L := laxly c.
  Let S := strictly c.

  Lemma alike_inventory f dir spec : at_path h f = h ++ dir ++ [`"inventory.json"] -> (forall j, is_inventory w h dir j -> standard_algorithms j) ->
    alike (validate_inventory L w h f spec) (validate_inventory S w h f spec).
  Proof using.
    intros Hp Hs. unfold validate_inventory. destruct (let* b := fs_read w h f in json_load b) as [j|e] eqn:E; [|apply alike_refl].
    apply ebind_ok in E as (b & E1 & E2). apply fs_read_look in E1. rewrite Hp in E1. apply alike_bind; [|intros [st x] _; apply alike_refl].
    apply alike_validate. apply Hs. exists b. split; auto.
  Qed.

  Lemma alike_version_dir root last s v : fname v -> (forall j, is_inventory w h [v] j -> standard_algorithms j) ->
    alike (validate_version_dir H L w h root last s v) (validate_version_dir H S w h root last s v).
  Proof using Hh.
    intros Fv Hs. unfold validate_version_dir. cbn zeta. destruct (negb _); [apply alike_refl|]. apply alike_bind; [|intros [[s' sp]|] _; apply alike_refl].
    destruct (str_eqb v last); [apply alike_refl|]. apply alike_bind; [apply (alike_inventory _ [v]); [exact (inv_place h Hh v Fv)|exact Hs]|].
    intros [[j st]|] _; apply alike_refl.
  Qed.

  Hypothesis Std : standard_object w h.
  Lemma alike_parts n spec ns : alike (validate_parts H L w h n spec ns) (validate_parts H S w h n spec ns).
  Proof using Hh Std.
    unfold validate_parts. assert (R : alike (validate_inventory L w h INVENTORY_FILENAME spec) (validate_inventory S w h INVENTORY_FILENAME spec)).
    { apply (alike_inventory _ []); [now apply inventory_place|]. intros j Hj. now apply Std. }
    pose proof (alike_errors _ _ R) as N. pose proof (inventory_read S w h INVENTORY_FILENAME [] spec) as RD.
    destruct (validate_inventory L w h INVENTORY_FILENAME spec) as [l1 r1], (validate_inventory S w h INVENTORY_FILENAME spec) as [l2 r2]. destruct R as [E1 E2]. cbn [fst snd] in *. subst r1.
    destruct r2 as [[[inv st]|]|e]; [|split; auto|split; auto]. destruct (RD inv st (inventory_place h Hh) eq_refl) as (Ir & Wr & b & Eb).
    rewrite N. cbn zeta. apply alike_bind; [split; auto|]. intros _ _. apply alike_same. intros _ _. apply alike_same. intros _ _. apply alike_bind; [|intros [prior|] _; apply alike_refl].
    unfold validate_version_inventories. cbn zeta. destruct (last_opt (iv_all_versions st)); [|apply alike_refl]. apply alike_fold. intros v Hv [s'|]; [|cbn [unless_aborted]; apply alike_refl].
    cbn [unless_aborted]. destruct (iv_listed _ _ _ _ _ _ Eb v Hv) as (Fv & x & Bx). apply alike_version_dir; [exact Fv|]. intros j Hj. destruct (Std inv Ir) as [_ Sv]. eapply Sv; eauto.
  Qed.
  Lemma alike_opened n : alike (validate_opened H L w h n) (validate_opened H S w h n).
  Proof using Hh Std.
    unfold validate_opened. apply alike_same. intros ns _. change (check_declarations L w h ns) with (check_declarations S w h ns).
    destruct (check_declarations S w h ns) as [log [spec|e]]; [|apply alike_refl]. destruct (negb _); [apply alike_refl|].
    pose proof (alike_parts (n + num_errors log) spec ns) as R. pose proof (alike_errors _ _ R) as N.
    destruct (validate_parts H L w h (n + num_errors log) spec ns) as [l1 r1], (validate_parts H S w h (n + num_errors log) spec ns) as [l2 r2]. destruct R as [E1 E2]. cbn [fst snd] in *. subst r1.
    destruct r2 as [u|e]; (split; [cbn [fst]; rewrite !others_app; congruence|]); cbn [snd]; [|reflexivity]. rewrite !num_errors_app. now rewrite N.
  Qed.
End Object.
