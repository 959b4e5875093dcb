(** The inventories a new version starts with (C34-C36, C46). *)
From Coq Require Import Permutation Sorted.
From Verif Require Import Base Unicode Regex Utf8 Json PyJson JsonTextModel JsonTextSpec JsonTextProofs JsonFileProofs Log DigestModel LayoutModel LayoutProofs
  ObjectUtilsModel ObjectUtilsProofs InventorySpec InventoryValidatorModel InventoryValidatorProofs InventoryRulesProofs
  InventoryModel InventoryOpsSpec InventoryOpsProofs NewVersionModel NewVersionProofs NewVersionOpsProofs VersionNumberProofs InventoryParseProofs ParseModel
  ContentPathProofs TextFile PathModel FsModel FsSpec FsProofs ValidatorSpec ValidatorBasicProofs ObjectModel ObjectSpec ObjectInvProofs ObjectRulesProofs ObjectParseProofs ObjectAddProofs ContentNameProofs ObjectGrowProofs.

(** ** Metadata *)

Lemma meta_block now m : meta_ok now m -> block_ok (as_dict now m).
Proof.
  intros [M1 M2 M3 M4]. constructor; cbn [as_dict vb_created vb_message vb_user vb_other]; [|auto| |reflexivity].
  - eexists. split; [reflexivity|]. destruct (vm_created m) as [[|x c]|]; auto.
  - intros u. destruct (vm_name m) as [nm|] eqn:En.
    + destruct M3 as (s & -> & Hs). destruct (vm_address m) as [a|] eqn:Ea; intros E; apply Some_inv in E; subst u; cbn [app].
      * destruct (M4 _ eq_refl) as (t & -> & Ht). split; [names_differ|]. split; [exists s; now left|].
        intros k x [E|[E|[]]]; injection E as <- <-; (split; [cbn; auto|eauto]).
      * split; [names_differ|]. split; [exists s; now left|]. intros k x [E|[]]; injection E as <- <-. split; [cbn; auto|eauto].
    + rewrite M3. discriminate.
Qed.

(** ** The first version *)

Definition blank (h : str) (i : inventory) : inventory := set_state h [] i.

Lemma fixity_types l : forall i, fold_left (fun i t => add_fixity_type t None i) l i =
  mk_inventory (i_id i) (i_type i) (i_alg i) (i_head i) (i_cdir i) (i_manifest i) (i_versions i)
    (match l with [] => i_fixity i | _ => Some (fold_left (fun f t => dset t [] f) l (fixity i)) end) (i_other i).
Proof.
  induction l as [|t l IH]; intros i; [destruct i; reflexivity|]. cbn [fold_left]. rewrite IH. unfold add_fixity_type, set_fixity, fixity, or_empty.
  cbn [i_id i_type i_alg i_head i_cdir i_manifest i_versions i_fixity i_other]. destruct l; reflexivity.
Qed.
Lemma fixity_types_keys l : forall f : dict block, NoDup (keys f) -> (forall t b, In (t, b) f -> b = []) ->
  NoDup (keys (fold_left (fun f t => dset t [] f) l f)) /\ forall t b, In (t, b) (fold_left (fun f t => dset t [] f) l f) -> b = [] /\ (In t l \/ In t (keys f)).
Proof.
  induction l as [|x l IH]; intros f Hn Hf; cbn [fold_left].
  - split; [auto|]. intros t b Hi. split; [eapply Hf; eauto|]. right. apply in_map_iff. exists (t, b). auto.
  - destruct (IH (dset x [] f)) as [H1 H2]; [now apply NoDup_dset| |].
    + intros t b Hi. apply In_dget in Hi; [|now apply NoDup_dset]. rewrite dget_dset in Hi. destruct (str_eqb_spec t x); [congruence|]. apply dget_In in Hi. eauto.
    + split; [auto|]. intros t b Hi. destruct (H2 t b Hi) as [Hb [Hl|Hk]]; (split; [auto|]); [left; now right|]. apply In_keys_dset in Hk as [->|Hk]; [left; now left|auto].
Qed.

Lemma content_names : fname DEFAULT_CONTENT_DIRECTORY /\ text DEFAULT_CONTENT_DIRECTORY.
Proof.
  split; [apply fname_b_ok; reflexivity|]. apply text_ascii. repeat (constructor; [vm_compute; reflexivity|]). constructor.
Qed.

Theorem first_start id alg spec cdir b dd fx norm : first_ok id alg spec cdir fx -> block_ok b -> vb_state b = None ->
  exists i, first_version id spec (Some alg) cdir (Some b) dd fx norm = Ok (mk_nv i norm false dd None []) /\
    i_head i = Some (`"v1") /\ sound alg spec 1 (blank (`"v1") i) /\ state i (`"v1") = [] /\
    (exists vb, dget (`"v1") (versions_block i) = Some vb) /\
    i_manifest i = Some [] /\ i_id i = Some id /\ i_versions i = Some [(`"v1", b)] /\
    content_directory_to_use i = match cdir with Some c => c | None => DEFAULT_CONTENT_DIRECTORY end.
Proof.
  intros Fo Hb Hs. unfold first_version. rewrite fixity_types.
  set (i1 := init_manifest_and_versions (set_alg (Some alg) (set_spec_version spec (set_id id empty_inventory)))).
  set (fxv := match fx with [] => i_fixity i1 | _ => Some (fold_left (fun f t => dset t [] f) fx (fixity i1)) end).
  set (i2 := mk_inventory (i_id i1) (i_type i1) (i_alg i1) (i_head i1) (i_cdir i1) (i_manifest i1) (i_versions i1) fxv (i_other i1)).
  assert (Ea : add_version None (Some b) None None i2 =
    (mk_inventory (Some id) (Some (`"https://ocfl.io/" ++ spec ++ `"/spec/#inventory")) (Some alg) (Some (`"v1")) None (Some []) (Some [(`"v1", b)]) fxv [], Ok (`"v1"))) by reflexivity.
  rewrite Ea.
  exists (mk_inventory (Some id) (Some (`"https://ocfl.io/" ++ spec ++ `"/spec/#inventory")) (Some alg) (Some (`"v1"))
    (match cdir with Some c => if str_eqb c DEFAULT_CONTENT_DIRECTORY then None else Some c | None => None end) (Some []) (Some [(`"v1", b)]) fxv []).
  split; [destruct cdir as [c|]; [destruct (str_eqb c DEFAULT_CONTENT_DIRECTORY)|]; reflexivity|]. split; [reflexivity|].
  assert (Ec : forall x, content_directory_to_use (mk_inventory (Some id) (Some (`"https://ocfl.io/" ++ spec ++ `"/spec/#inventory")) (Some alg) (Some (`"v1"))
    (match cdir with Some c => if str_eqb c DEFAULT_CONTENT_DIRECTORY then None else Some c | None => None end) (Some []) x fxv []) = match cdir with Some c => c | None => DEFAULT_CONTENT_DIRECTORY end).
  { intros x. unfold content_directory_to_use. cbn [i_cdir]. destruct cdir as [c|]; [|reflexivity]. destruct (str_eqb_spec c DEFAULT_CONTENT_DIRECTORY); auto. }
  assert (Sb : blank (`"v1") (mk_inventory (Some id) (Some (`"https://ocfl.io/" ++ spec ++ `"/spec/#inventory")) (Some alg) (Some (`"v1"))
    (match cdir with Some c => if str_eqb c DEFAULT_CONTENT_DIRECTORY then None else Some c | None => None end) (Some []) (Some [(`"v1", b)]) fxv []) =
    mk_inventory (Some id) (Some (`"https://ocfl.io/" ++ spec ++ `"/spec/#inventory")) (Some alg) (Some (`"v1"))
    (match cdir with Some c => if str_eqb c DEFAULT_CONTENT_DIRECTORY then None else Some c | None => None end) (Some []) (Some [(`"v1", with_state [] b)]) fxv []) by reflexivity.
  split; [|split; [unfold state, versiondata, versions_block, or_empty; cbn [i_versions dget]; rewrite str_eqb_refl, Hs; reflexivity|]].
  - rewrite Sb. destruct Fo as [F1 F2 F3 F4 F5].
    constructor; cbn [i_id i_type i_alg i_head i_cdir i_manifest i_versions i_fixity i_other manifest or_empty].
    + exists id. auto.
    + reflexivity.
    + auto.
    + reflexivity.
    + auto.
    + rewrite Ec. destruct cdir as [c|]; [auto|]. exact content_names.
    + cbn. lia.
    + reflexivity.
    + reflexivity.
    + eexists. split; [reflexivity|]. apply Permutation_refl.
    + intros vs v b0 E Hi. apply Some_inv in E. subst vs. destruct Hi as [Hi|[]]. injection Hi as <- <-. split; [destruct Hb; constructor; auto|].
      exists []. split; [reflexivity|]. constructor; cbn; [constructor|intros ? ? []|]. constructor; [intros ? []|constructor|intros ? ? []].
    + eauto.
    + constructor.
    + intros ? ? [].
    + constructor; [intros ? []|constructor|intros ? ? []].
    + intros ? [].
    + intros ? ? ? [].
    + intros f Hf. unfold fxv in Hf. destruct fx as [|t fx]; [discriminate|]. apply Some_inv in Hf.
      destruct (fixity_types_keys (t :: fx) []) as [K1 K2]; [constructor|intros ? ? []|]. subst f. change (fixity i1) with (@nil (str * block)). split; [exact K1|].
      intros a b0 Hi. destruct (K2 a b0 Hi) as [-> [Ha|[]]]. split; [constructor|]. split; [now apply F5|]. intros ? ? [].
  - split; [eexists; reflexivity|]. split; [reflexivity|]. split; [reflexivity|]. split; [reflexivity|]. apply Ec.
Qed.

(** Adding to a version without a state is adding to one with an empty state. *)
Lemma dset_over {A} k (a b : A) d : dset k a (dset k b d) = dset k a d.
Proof.
  induction d as [|[k' v] d IH]; cbn [dset]; [now rewrite str_eqb_refl|]. destruct (str_eqb k k') eqn:E; cbn [dset]; rewrite ?str_eqb_refl, ?E; [reflexivity|]. now rewrite IH.
Qed.
Lemma set_state_twice h s i : set_state h s (blank h i) = set_state h s i.
Proof.
  unfold blank, set_state, update_version. destruct (dget h (versions_block i)) as [b|] eqn:E; [|now rewrite E].
  unfold set_versions, versions_block at 1. cbn [i_versions or_empty i_id i_type i_alg i_head i_cdir i_manifest i_fixity i_other].
  rewrite dget_dset_same. unfold versions_block. cbn [i_versions or_empty]. rewrite dset_over. reflexivity.
Qed.
Lemma nv_add_blank H src s p nv h nv' vb : i_head (nv_inv nv) = Some h -> state (nv_inv nv) h = [] -> dget h (versions_block (nv_inv nv)) = Some vb ->
  nv_add H src s p None (set_inv (blank h (nv_inv nv)) nv) = (nv', Ok tt) -> nv_add H src s p None nv = (nv', Ok tt).
Proof.
  intros Hh Hs Hv. set (i := nv_inv nv) in *.
  assert (E1 : i_head (blank h i) = i_head i) by (unfold blank, set_state, update_version; rewrite Hv; reflexivity).
  assert (E2 : i_cdir (blank h i) = i_cdir i) by (unfold blank, set_state, update_version; rewrite Hv; reflexivity).
  assert (E3 : i_alg (blank h i) = i_alg i) by (unfold blank, set_state, update_version; rewrite Hv; reflexivity).
  assert (E4 : content_paths (blank h i) = content_paths i) by apply content_paths_set_state.
  assert (E5 : state (blank h i) h = state i h).
  { rewrite Hs. unfold blank, state, versiondata, set_state, update_version. rewrite Hv. unfold versions_block at 1, set_versions. cbn [i_versions or_empty]. rewrite dget_dset_same. reflexivity. }
  assert (E6 : exists vb', dget h (versions_block (blank h i)) = Some vb').
  { unfold blank, set_state, update_version. rewrite Hv. unfold versions_block at 1, set_versions. cbn [i_versions or_empty]. rewrite dget_dset_same. eauto. }
  destruct E6 as [vb' E6].
  assert (E7 : map_filepath H (set_inv (blank h i) nv) s = map_filepath H nv s).
  { unfold map_filepath. cbn [set_inv nv_inv nv_norm]. fold i. unfold head_of, content_directory_to_use. now rewrite E1, E2, E4. }
  assert (E8 : logical_paths (blank h i) h = logical_paths i h) by (unfold logical_paths; now rewrite E5).
  unfold nv_add. rewrite E7. cbn [set_inv nv_inv nv_norm nv_forward_delta nv_dedupe nv_old_alg nv_copy]. fold i.
  unfold head_of. rewrite E1, Hh. destruct (map_filepath H nv s) as [c|e]; [|discriminate]. rewrite E8. destruct (str_in p (logical_paths i h)); [discriminate|].
  rewrite E3. destruct (let* c0 := src s in _) as [d|e]; [|discriminate]. rewrite E6, Hv, E5, set_state_twice. auto.
Qed.
