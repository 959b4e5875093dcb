(** Validation that finds no error gives every warning there is a reason for. *)
From Coq Require Import Permutation.
From Verif Require Import Base Unicode Regex Utf8 Json PyJson TextFile Log LogProofs InventorySpec WarningSpec PathModel FsModel FsSpec FswModel FswSpec.
From Verif Require Import DigestModel LayoutProofs ObjectUtilsModel ObjectUtilsProofs InventoryValidatorModel InventoryValidatorProofs InventoryRulesProofs InventoryPriorProofs.
From Verif Require Import ValidatorModel ValidatorSpec.
From Verif Require Import FsProofs FswProofs FswCopyProofs ValidatorBasicProofs ValidatorVersionProofs ValidatorContentProofs WarningProofs.
Open Scope N_scope.

Lemma clean_snd {A} (x : wexc A) a : clean x a -> snd x = Ok a.
Proof. now intros [H _]. Qed.

Lemma logged_left {A B} e (x : wexc A) (f : A -> wexc B) : logged e x -> logged e (wbind x f).
Proof. intros H. apply logged_bind. now left. Qed.
Lemma logged_right {A B} e (x : wexc A) (f : A -> wexc B) a : clean x a -> logged e (f a) -> logged e (wbind x f).
Proof. intros C H. apply logged_bind. right. exists a. split; [now apply clean_snd|exact H]. Qed.

(** In a fold without errors every element has its turn. *)
Lemma fold_turn {A S} (I : S -> Prop) (f : S -> A -> wexc S) l : forall s r, clean (wfold f l s) r -> I s ->
  (forall s a s', In a l -> I s -> clean (f s a) s' -> I s') ->
  forall a, In a l -> exists s1 s2, I s1 /\ clean (f s1 a) s2 /\ forall e, logged e (f s1 a) -> logged e (wfold f l s).
Proof.
  induction l as [|b l IH]; intros s r C Hs Hf a [].
  - subst b. cbn [wfold] in C |- *. apply clean_bind in C as (s' & C1 & C2). exists s, s'. split; [exact Hs|]. split; [exact C1|].
    intros e. apply logged_left.
  - cbn [wfold] in C |- *. apply clean_bind in C as (s' & C1 & C2).
    destruct (IH s' r C2) with (a := a) as (s1 & s2 & H1 & H2 & H3); auto.
    + apply (Hf s b s'); auto. now left.
    + intros s0 a0 s0' Ha. apply Hf. now right.
    + exists s1, s2. split; [exact H1|]. split; [exact H2|]. intros e He. eapply logged_right; eauto.
Qed.

(** ** Inventories *)

Lemma member_in k j v : json_wf j -> member j k v -> py_in k j = Ok true /\ py_getitem k j = Ok v.
Proof.
  intros W (d & -> & Hi). apply json_wf_obj in W as [N _]. cbn [py_in py_getitem]. rewrite (In_dget _ _ _ N Hi). split; [|reflexivity].
  f_equal. apply dmem_true, (in_map fst _ _ Hi).
Qed.
Lemma wbind_lift' {A B} (x : exc A) a (f : A -> wexc B) : x = Ok a -> wbind (wlift x) f = f a.
Proof. intros ->. apply wbind_lift. Qed.

Lemma versions_nodup j vs : json_wf j -> member j (`"versions") (JObj vs) -> NoDup (keys vs).
Proof.
  intros W (d & -> & M). apply json_wf_obj in W as [_ W]. rewrite Forall_forall in W. apply W in M. cbn [snd] in M. now apply json_wf_obj in M as [M _].
Qed.
Lemma any_block_wf j v b : json_wf j -> block_of j v b -> json_wf b.
Proof.
  intros W (vs & (d & -> & M) & Hb). apply json_wf_obj in W as [_ W]. rewrite Forall_forall in W. apply W in M. cbn [snd] in M. apply json_wf_obj in M as [_ M].
  rewrite Forall_forall in M. apply (M _ Hb).
Qed.

Section Inventory.
  Variable j : json.
  Hypothesis Wj : json_wf j.
  Variable spec : str.
  Variable st : iv.
  Hypothesis C : clean (validate_body false spec None j) (st, true).

  (** A block of a version is visited. *)
  Lemma full_version lax alg u vs d v b r e : clean (validate_version lax alg u vs d v) r -> dget v vs = Some b ->
    logged e (validate_message b) \/ logged e (validate_user b) -> logged e (validate_version lax alg u vs d v).
  Proof using.
    unfold validate_version. intros Cv E K. rewrite E in *. apply clean_bind in Cv as ([] & C1 & Cv). eapply logged_right; [exact C1|].
    apply clean_bind in Cv as (c & C2 & Cv). eapply logged_right; [exact C2|]. apply clean_bind in Cv as (us & C3 & Cv).
    eapply logged_right; [exact C3|]. apply clean_bind in Cv as ([] & C4 & Cv). destruct K as [K|K]; [now apply logged_left|].
    eapply logged_right; [exact C4|]. now apply logged_left.
  Qed.

  Lemma full_versions_part unnorm alg vs all used v b e : member j (`"versions") (JObj vs) -> In (v, b) vs ->
    clean (let! x := wlift (py_getitem (`"versions") j) in
           let! al := validate_version_sequence x in
           let! us := validate_versions false alg unnorm x al in wret (al, us)) (all, used) ->
    logged e (validate_message b) \/ logged e (validate_user b) ->
    logged e (let! x := wlift (py_getitem (`"versions") j) in
              let! al := validate_version_sequence x in
              let! us := validate_versions false alg unnorm x al in wret (al, us)).
  Proof using Wj.
    intros M Hb K L. destruct (member_in _ _ _ Wj M) as [_ E2]. rewrite (wbind_lift' _ _ _ E2) in *. apply clean_bind in K as (al & K1 & K).
    eapply logged_right; [exact K1|]. apply clean_bind in K as (us & K2 & K). apply logged_left.
    pose proof (versions_nodup j vs Wj M) as Nd.
    apply clean_version_sequence in K1 as (d & ww & [= <-] & _ & _ & Hp); [|intros d [= <-]; exact Nd].
    assert (Hv : In v al) by (eapply Permutation_in; [exact Hp|]; apply (in_map fst _ _ Hb)).
    unfold validate_versions in K2 |- *. destruct (fold_turn (fun _ => True) _ _ _ _ K2 Logic.I (fun _ _ _ _ _ _ => Logic.I) v Hv) as (s1 & s2 & _ & Cv & T).
    apply T. eapply full_version; [exact Cv|exact (In_dget _ _ _ Nd Hb)|exact L].
  Qed.
  Lemma full_user v b u e : block_of j v b -> member b (`"user") u -> json_wf b /\ forall r, clean (validate_user b) r -> exists d, u = JObj d /\
    (dget (`"address") d = None -> e = LWarning (`"W008") -> logged e (validate_user b)) /\
    (forall a, dget (`"address") d = Some (JStr a) -> ~ address_like a -> e = LWarning (`"W009") -> logged e (validate_user b)).
  Proof using Wj.
    intros B Mu. pose proof (any_block_wf j v b Wj B) as Wb.
    split; [exact Wb|]. intros r Cu. destruct (member_in _ _ _ Wb Mu) as [E1 E2]. unfold validate_user in Cu |- *. rewrite (wbind_lift' _ _ _ E1) in *. cbn [negb] in *.
    rewrite (wbind_lift' _ _ _ E2) in *. destruct u as [| | | | | |d]; try (now apply clean_error in Cu). exists d. split; [reflexivity|].
    apply clean_bind in Cu as ([] & C1 & Cu). split.
    - intros E ->. eapply logged_right; [exact C1|]. rewrite E. now left.
    - intros a E N ->. eapply logged_right; [exact C1|]. rewrite E. destruct (re_match re_address a) eqn:Er; [|now left].
      exfalso. apply N, address_like_match. congruence.
  Qed.

  Lemma full_body code : inventory_reason j code -> logged (LWarning code) (validate_body false spec None j).
  Proof using Wj C.
    intros R. pose proof C as D. unfold validate_body in D |- *. cbn zeta in D |- *.
    apply clean_bind in D as (id & C1 & D).
    destruct R as [vs M N|M|s M N|v b B L|v b B L|v b u B M L|v b u a B M M' N].
    3: { apply logged_left. unfold validate_id in C1 |- *. destruct (member_in _ _ _ Wj M) as [E1 E2]. rewrite (wbind_lift' _ _ _ E1) in *.
      rewrite (wbind_lift' _ _ _ E2) in *. destruct s as [|x s]; [now apply clean_bind_error in C1|]. apply logged_left.
      destruct (re_match re_uri (x :: s)) eqn:E; [|now left]. exfalso. apply N, uri_like_match. congruence. }
    all: eapply logged_right; [exact C1|]; apply clean_bind in D as (sp & C2 & D); eapply logged_right; [exact C2|]; apply clean_bind in D as (alg & C3 & D).
    2: { apply logged_left. unfold validate_digest_algorithm. cbn zeta. destruct (member_in _ _ _ Wj M) as [E1 E2]. rewrite (wbind_lift' _ _ _ E1).
      cbn [negb]. rewrite (wbind_lift' _ _ _ E2). cbn. now left. }
    all: eapply logged_right; [exact C3|]; destruct alg as [alg|]; [|apply clean_ret in D; discriminate]; apply clean_bind in D as (cd & C4 & D);
      eapply logged_right; [exact C4|]; apply clean_bind in D as ([[st' co] us] & C5 & D); apply logged_left;
      unfold validate_blocks in C5 |- *; cbn zeta in C5 |- *; apply clean_bind in C5 as (c1 & K1 & C5); eapply logged_right; [exact K1|];
      apply clean_bind in C5 as (m & K2 & C5); eapply logged_right; [exact K2|]; apply clean_bind in C5 as (c2 & K3 & C5); eapply logged_right; [exact K3|];
      apply clean_bind in C5 as ([all used] & K4 & C5); apply logged_left; apply clean_lift in K3.
    { destruct (member_in _ _ _ Wj M) as [E1 E2]. rewrite E1 in K3. apply Ok_inv in K3. subst c2. rewrite (wbind_lift' _ _ _ E2) in *.
      apply logged_left. apply clean_bind in K4 as (al & K5 & K4). unfold validate_version_sequence in K5 |- *. destruct vs as [|kv vs]; [now apply clean_bind_error in K5|].
      cbn zeta in K5 |- *. destruct (dmem (`"v1") (kv :: vs)) eqn:Ed; [apply dmem_true in Ed; contradiction|]. destruct (find _ _); [|now apply clean_bind_error in K5].
      apply logged_left. now left. }
    all: pose proof B as B'; destruct B' as (vs & Mv & Hb); destruct (member_in _ _ _ Wj Mv) as [E1 E2]; rewrite E1 in K3; apply Ok_inv in K3; subst c2;
      pose proof K4 as K4'; rewrite (wbind_lift' _ _ _ E2) in K4'; apply clean_bind in K4' as (al & K5 & K4'); apply clean_bind in K4' as (us' & K6 & _);
      pose proof (versions_nodup j vs Wj Mv) as Nd;
      apply clean_version_sequence in K5 as (d & ww & [= <-] & _ & _ & Hp); [|intros d [= <-]; exact Nd];
      (assert (Hv : In v al) by (eapply Permutation_in; [exact Hp|]; apply (in_map fst _ _ Hb)));
      unfold validate_versions in K6; destruct (fold_turn (fun _ => True) _ _ _ _ K6 Logic.I (fun _ _ _ _ _ _ => Logic.I) v Hv) as (s1 & s2 & _ & Cv & _);
      unfold validate_version in Cv; rewrite (In_dget _ _ _ Nd Hb) in Cv; apply clean_bind in Cv as ([] & Q1 & Cv); apply clean_bind in Cv as (c & Q2 & Cv);
      apply clean_bind in Cv as (us2 & Q3 & Cv); apply clean_bind in Cv as ([] & Q4 & Cv); apply clean_bind in Cv as ([] & Q5 & _);
      eapply full_versions_part; [exact Mv|exact Hb|exact K4|].
    - left. unfold validate_message in Q4 |- *. apply clean_bind in Q4 as (x & Qx & Q4). apply clean_lift in Qx. rewrite (wbind_lift' _ _ _ Qx).
      destruct x; cbn [negb] in *; [|now left]. exfalso. apply clean_bind in Q4 as (y & Qy & _). apply clean_lift, py_getitem_member in Qy. now apply (L y).
    - right. unfold validate_user in Q5 |- *. apply clean_bind in Q5 as (x & Qx & Q5). apply clean_lift in Qx. rewrite (wbind_lift' _ _ _ Qx).
      destruct x; cbn [negb] in *; [|now left]. exfalso. apply clean_bind in Q5 as (y & Qy & _). apply clean_lift, py_getitem_member in Qy. now apply (L y).
    - right. destruct (full_user v b u (LWarning (`"W008")) B M) as [_ F]. destruct (F _ Q5) as (d & -> & F1 & _). apply F1; [|reflexivity].
      destruct (dget (`"address") d) as [y|] eqn:E; [|reflexivity]. exfalso. apply (L y). exists d. split; [reflexivity|now apply dget_In].
    - right. destruct (full_user v b u (LWarning (`"W009")) B M) as [Wb F]. destruct (F _ Q5) as (d & -> & _ & F2). apply (F2 a); [|exact N|reflexivity].
      destruct M' as (d' & [= <-] & M'). destruct M as (db & -> & M). apply json_wf_obj in Wb as [_ Wb]. rewrite Forall_forall in Wb. apply Wb in M. cbn [snd] in M.
      apply json_wf_obj in M as [Nu _]. now apply In_dget.
  Qed.
End Inventory.

Lemma clean_body spec j st b : clean (iv_validate false spec None j) (st, b) -> clean (validate_body false spec None j) (st, true) /\
  iv_validate false spec None j = (fst (validate_body false spec None j), Ok (st, true)).
Proof.
  unfold iv_validate. destruct (validate_body false spec None j) as [l [[st' []]|e]]; unfold clean; cbn [fst snd].
  - intros [E K]. apply Ok_inv in E. injection E as -> <-. rewrite K. auto.
  - intros [E K]. exfalso. destruct (no_errors l) eqn:El; [|congruence]. rewrite no_errors_app in K. cbn in K. rewrite andb_false_r in K. discriminate.
  - intros [E _]. discriminate.
Qed.
Lemma full_iv spec j st b code : json_wf j -> clean (iv_validate false spec None j) (st, b) -> inventory_reason j code ->
  logged (LWarning code) (iv_validate false spec None j).
Proof.
  intros Wj C R. apply clean_body in C as [C E]. rewrite E. unfold logged. cbn [fst]. now apply (full_body j Wj spec st C).
Qed.

(** ** The object *)

Lemma fold_keeps {A S} (I : S -> Prop) (f : S -> A -> wexc S) l : forall s r, clean (wfold f l s) r -> I s ->
  (forall s a s', In a l -> I s -> clean (f s a) s' -> I s') -> I r.
Proof.
  induction l as [|b l IH]; intros s r C Hs Hf; cbn [wfold] in C; [apply clean_ret in C; now subst|].
  apply clean_bind in C as (s' & C1 & C2). apply (IH s' r C2); [apply (Hf s b s'); auto; now left|]. intros s0 a0 s0' Ha. apply Hf. now right.
Qed.

Definition side (s : vistate) : Prop := forall v x, dget v (vi_sidecars s) = Some x -> startswith (`"inventory.json") x = true.
Definition going (o : option vistate) : Prop := exists s, o = Some s /\ side s.

Lemma side_set s m f v a p : side s -> side (mkVis m f (dset v (`"inventory.json." ++ a) (vi_sidecars s)) p).
Proof.
  intros Hs u x. cbn [vi_sidecars]. rewrite dget_dset. destruct (str_eqb_spec u v) as [->|]; [|apply Hs]. intros E. apply Some_inv in E. now subst x.
Qed.

Lemma content_name_unique root k k' : json_wf root -> content_name root k -> content_name root k' -> k = k'.
Proof.
  intros W [M|[L ->]] [M'|[L' ->]]; try reflexivity.
  - pose proof (member_fun _ _ _ _ W M M') as E. now injection E.
  - exfalso. now apply (L' _ M).
  - exfalso. now apply (L _ M').
Qed.

Lemma same_refl a : json_wf a -> same_value a a.
Proof.
  induction a as [|bo|z|t|s|l IH|d IH] using json_ind'; intros W; try constructor.
  - apply (sv_number _ _ (if bo then 1 else 0)%Z); constructor.
  - apply (sv_number _ _ z); constructor.
  - apply json_wf_arr in W. induction IH as [|x l Hx _ IHl]; [constructor|]. inversion W; subst. constructor; auto.
  - tauto.
  - intros k x y Hx Hy. apply json_wf_obj in W as [N F]. pose proof (In_dget _ _ _ N Hx) as E. rewrite (In_dget _ _ _ N Hy) in E. injection E as ->.
    rewrite Forall_forall in IH, F. apply (IH _ Hx). apply (F _ Hx).
Qed.

Lemma no_difference root u : json_wf root -> ~ metadata_differs root root u.
Proof.
  intros W (key & x & y & _ & (b & Bb & Kx) & (b' & Bb' & Ky) & N).
  assert (b = b').
  { destruct Bb as (vs & M & Hi), Bb' as (vs' & M' & Hi'). pose proof (member_fun _ _ _ _ W M M') as E. injection E as <-.
    pose proof (versions_nodup _ _ W M) as Nd. pose proof (In_dget _ _ _ Nd Hi) as E. rewrite (In_dget _ _ _ Nd Hi') in E. now injection E. }
  subst b'. pose proof (any_block_wf _ _ _ W Bb) as Wb.
  assert (E : y = x).
  { destruct Kx as [M|[L ->]], Ky as [M'|[L' ->]]; try reflexivity; [exact (member_fun _ _ _ _ Wb M' M)|destruct (L' _ M)|destruct (L _ M')]. }
  subst y. apply N, same_refl. destruct Kx as [(d & -> & M)|[_ ->]]; [|exact Logic.I]. apply json_wf_obj in Wb as [_ Wb]. rewrite Forall_forall in Wb. apply (Wb _ M).
Qed.

Lemma version_starts ww vs v : version_sequence ww vs -> In v vs -> hd 0 v = 118.
Proof. intros [_ Hn] Hv. apply In_nth_error in Hv as [i Hi]. destruct (Hn _ _ Hi) as (ds & -> & _). reflexivity. Qed.

Lemma block_listed j f v b : json_wf j -> obeys as_coded j f -> block_of j v b -> In v (f_versions f).
Proof.
  intros W (_ & _ & _ & _ & _ & _ & _ & vs & (M & _ & Hp) & _) (vs' & M' & Hi). pose proof (member_fun _ _ _ _ W M M') as E. injection E as <-.
  eapply Permutation_in; [exact Hp|]. apply (in_map fst _ _ Hi).
Qed.

Section Full.
  Variable H : hashfn.
  Variable c : vconf.
  Variable w : node.
  Variable h : place.
  Hypothesis Hw : tree w.
  Hypothesis Hh : Forall fname h.
  Hypothesis Hlax : vc_lax_digests c = false.

  Lemma is_inventory_unique dir j j' : is_inventory w h dir j -> is_inventory w h dir j' -> j = j'.
  Proof using. intros (b & E1 & E2) (b' & E1' & E2'). rewrite E1 in E1'. injection E1' as <-. rewrite E2 in E2'. now apply Ok_inv in E2'. Qed.

  (** An inventory that is read is read with its warnings. *)
  Lemma full_inventory f dir spec j st code : at_path h f = h ++ dir ++ [`"inventory.json"] ->
    clean (validate_inventory c w h f spec) (Some (j, st)) -> inventory_reason j code -> logged (LWarning code) (validate_inventory c w h f spec).
  Proof using Hlax.
    intros Hp C R. unfold validate_inventory in C |- *. destruct (let* b := fs_read w h f in json_load b) as [j'|e] eqn:E.
    - apply ebind_ok in E as (b & _ & E2). apply json_load_wf in E2. rewrite Hlax in *. apply clean_bind in C as ([st' ok] & C1 & C2). apply clean_ret in C2.
      injection C2 as <- <-. apply logged_left. eapply full_iv; eauto.
    - destruct e; rewrite ?clean_bind_error, ?clean_raise in C; destruct C.
  Qed.

  Variables (root : json) (fr : facts) (head spec : str).
  Hypothesis Ir : is_inventory w h [] root.
  Hypothesis Wr : json_wf root.
  Hypothesis Or : obeys as_coded root fr.
  Hypothesis Last : last_opt (f_versions fr) = Some head.
  Let ri := mkRoot root (accepted fr head) spec.

  Lemma listed_name v : In v (f_versions fr) -> fname v.
  Proof using Or. intros Hv. destruct (obeys_versions _ _ Or) as [ww Hs]. now destruct (version_seq_fname _ _ _ Hs Hv). Qed.

  Lemma dir_going s v o : clean (validate_version_dir H c w h ri head s v) o -> side s -> going o.
  Proof using.
    unfold validate_version_dir. cbn zeta. intros C Hs. destruct (negb _); [apply clean_bind_warning, clean_ret in C; subst; exists s; auto|].
    apply clean_bind in C as (o' & C1 & C2).
    assert (G : exists s1 sp, o' = Some (s1, sp) /\ side s1).
    { destruct (str_eqb v head).
      - apply clean_bind in C1 as (same & _ & C1). apply clean_bind in C1 as ([] & _ & C1). cbn [ri ri_iv iv_digest_algorithm accepted] in C1.
        apply clean_ret in C1. subst o'. eexists _, _. split; [reflexivity|]. now apply side_set.
      - apply clean_bind in C1 as ([[j st]|] & C0 & C1); [|now apply clean_validate_inventory_none in C0]. cbn zeta in C1.
        apply clean_bind in C1 as ([] & _ & C1). apply clean_bind in C1 as (sc & K & C1). apply clean_bind in C1 as ([] & _ & C1).
        apply clean_bind in C1 as ([] & _ & C1). apply clean_bind in C1 as (pm & _ & C1). apply clean_bind in C1 as (b & _ & C1).
        apply clean_bind in C1 as (pf & _ & C1). apply clean_ret in C1. subst o'. eexists _, _. split; [reflexivity|].
        destruct (iv_digest_algorithm st) as [| | | |a| |]; try (now apply clean_raise in K). apply clean_ret in K. subst sc. now apply side_set. }
    destruct G as (s1 & sp & -> & G). apply clean_bind in C2 as ([] & _ & C2). apply clean_ret in C2. subst o. eexists. split; [reflexivity|]. exact G.
  Qed.

  Lemma going_step o v o' : clean (unless_aborted (validate_version_dir H c w h ri head) o v) o' -> going o -> going o'.
  Proof using. intros C (s & -> & Hs). cbn [unless_aborted] in C. eapply dir_going; eauto. Qed.
  Lemma going_start : going (Some (mkVis [] [] [] (`"1.0"))).
  Proof using. eexists. split; [reflexivity|]. intros v x E. discriminate E. Qed.

  (** Each version has its turn. *)
  Lemma version_turn o v : clean (validate_version_inventories H c w h ri (f_versions fr)) o -> In v (f_versions fr) ->
    exists s o', side s /\ clean (validate_version_dir H c w h ri head s v) o' /\
      forall e, logged e (validate_version_dir H c w h ri head s v) -> logged e (validate_version_inventories H c w h ri (f_versions fr)).
  Proof using Last.
    unfold validate_version_inventories. cbn zeta. rewrite Last. intros C Hv.
    destruct (fold_turn going _ _ _ _ C going_start (fun o a o' _ G K => going_step o a o' K G) v Hv) as (s1 & s2 & (s & -> & Hs) & C1 & T).
    exists s, s2. auto.
  Qed.
  Lemma inventories_going o : clean (validate_version_inventories H c w h ri (f_versions fr)) o -> going o.
  Proof using Last.
    unfold validate_version_inventories. cbn zeta. rewrite Last. intros C.
    exact (fold_keeps going _ _ _ _ C going_start (fun o a o' _ G K => going_step o a o' K G)).
  Qed.

  Lemma full_missing o v : clean (validate_version_inventories H c w h ri (f_versions fr)) o -> In v (f_versions fr) ->
    look w (h ++ [v; `"inventory.json"]) = None -> logged (LWarning (`"W010")) (validate_version_inventories H c w h ri (f_versions fr)).
  Proof using Last Hh Or.
    intros C Hv E. destruct (version_turn o v C Hv) as (s & o' & _ & _ & T). apply T. unfold validate_version_dir. cbn zeta.
    destruct (fs_exists w h (path_join v INVENTORY_FILENAME)) eqn:Ex; [|now left]. apply inv_exists in Ex; auto; [|now apply listed_name].
    unfold has_inventory, at_root in Ex. congruence.
  Qed.

  (** The inventory of the head is that of the object. *)
  Lemma head_same s o j : clean (validate_version_dir H c w h ri head s head) o -> fname head -> is_inventory w h [head] j -> j = root.
  Proof using Hh Ir.
    intros C Fh (b & E1 & E2). destruct Ir as (rb & R1 & R2). unfold at_root in *. cbn [app] in *. unfold validate_version_dir in C. cbn zeta in C.
    assert (Ex : fs_exists w h (path_join head INVENTORY_FILENAME) = true) by (apply inv_exists; auto; unfold has_inventory, at_root; rewrite E1; discriminate).
    rewrite Ex in C. cbn [negb] in C. rewrite str_eqb_refl in C. apply clean_bind in C as (o' & C & _). apply clean_bind in C as (same & Es & C).
    apply clean_lift in Es. apply clean_bind in C as ([] & C & _). destruct same; [|now apply clean_error in C].
    destruct (C13_same _ _ _ _ _ Es) as [E|(b0 & K1 & K2)].
    - exfalso. assert (L : at_path h (path_join head INVENTORY_FILENAME) = h ++ [`"inventory.json"]) by (rewrite E; now apply inventory_place).
      rewrite inv_place in L by auto. apply app_inv_head in L. discriminate L.
    - rewrite inv_place in K1 by auto. rewrite (inventory_place h Hh) in K2. cbn [app] in K2. rewrite E1 in K1. injection K1 as <-. rewrite R1 in K2. injection K2 as <-.
      rewrite R2 in E2. now apply Ok_inv in E2.
  Qed.

  Lemma read_turn o v j : clean (validate_version_inventories H c w h ri (f_versions fr)) o -> In v (f_versions fr) -> is_inventory w h [v] j ->
    j = root \/
    exists st, clean (validate_inventory c w h (path_join v INVENTORY_FILENAME) spec) (Some (j, st)) /\
      (exists b, clean (validate_as_prior_version root (accepted fr head) j st) b) /\
      (forall e, logged e (validate_inventory c w h (path_join v INVENTORY_FILENAME) spec) -> logged e (validate_version_inventories H c w h ri (f_versions fr))) /\
      (forall e, logged e (validate_as_prior_version root (accepted fr head) j st) -> logged e (validate_version_inventories H c w h ri (f_versions fr))).
  Proof using Hh Ir Last Or.
    intros C Hv Ij. pose proof (listed_name v Hv) as Fv. destruct (version_turn o v C Hv) as (s & o' & _ & C1 & T).
    destruct (str_eqb_spec v head) as [->|Hne]; [left; eapply head_same; eauto|]. right. unfold validate_version_dir in C1, T. cbn zeta in C1, T.
    assert (Ex : fs_exists w h (path_join v INVENTORY_FILENAME) = true).
    { apply inv_exists; auto. destruct Ij as (b & E & _). unfold has_inventory, at_root in *. cbn [app] in E. rewrite E. discriminate. }
    rewrite Ex in C1, T. cbn [negb] in C1, T. destruct (str_eqb_spec v head) as [|_]; [contradiction|].
    apply clean_bind in C1 as (o2 & C1 & C2). apply clean_bind in C1 as ([[j' st]|] & C0 & C1); [|now apply clean_validate_inventory_none in C0].
    assert (j' = j).
    { destruct (inventory_read c w h (path_join v INVENTORY_FILENAME) [v] spec j' st (inv_place h Hh v Fv) (clean_snd _ _ C0)) as (I' & _). eapply is_inventory_unique; eauto. }
    subst j'. exists st. split; [exact C0|]. cbn zeta in C1.
    apply clean_bind in C1 as ([] & K1 & C1). apply clean_bind in C1 as (sc & K2 & C1). apply clean_bind in C1 as ([] & K3 & C1).
    apply clean_bind in C1 as ([] & K4 & C1). apply clean_bind in C1 as (pm & K5 & C1). apply clean_bind in C1 as (b & K6 & C1).
    split; [eauto|]. split.
    - intros e He. apply T. apply logged_left, logged_left. exact He.
    - intros e He. apply T. apply logged_left. eapply logged_right; [exact C0|]. cbn zeta. eapply logged_right; [exact K1|]. eapply logged_right; [exact K2|].
      eapply logged_right; [exact K3|]. eapply logged_right; [exact K4|]. eapply logged_right; [exact K5|]. apply logged_left. exact He.
  Qed.

  (** ** Extensions *)

  Lemma full_extension ac u k : clean (validate_object_root w h spec (JStr (f_alg fr)) (f_versions fr) ac) u ->
    look w (h ++ [`"extensions"; k]) = Some EDir -> logged (LWarning (`"W013")) (validate_object_root w h spec (JStr (f_alg fr)) (f_versions fr) ac).
  Proof using Hw Hh Or.
    intros C Lk. unfold validate_object_root in C |- *. cbn zeta in C |- *. apply clean_bind in C as (l & C1 & C). eapply logged_right; [exact C1|].
    apply clean_lift in C1.
    assert (Le : look w (h ++ [`"extensions"]) = Some EDir).
    { apply (look_above w (h ++ [`"extensions"]) k []). rewrite <- app_assoc. cbn [app]. congruence. }
    pose proof Le as Le'. apply look_dir in Le' as [d Gd].
    assert (Lh : look w h = Some EDir) by (apply (look_above w h (`"extensions") []); congruence). apply look_dir in Lh as [dh Gh].
    assert (He : In (`"extensions", TDir) l).
    { unfold fs_ls in C1. change (at_path h []) with (at_path h (join [slash] [])) in C1. rewrite at_path_join, app_nil_r, Gh in C1 by auto. cbn [ebind] in C1. apply Ok_inv in C1. subst l.
      rewrite (look_child _ _ _ _ Gh) in Le. destruct (dget (`"extensions") dh) as [m|] eqn:Em; [|discriminate Le]. apply dget_In in Em.
      apply in_map_iff. exists (`"extensions", m). split; [|exact Em]. cbn [fst snd]. rewrite entry_name_nil. destruct m; try discriminate Le. reflexivity. }
    destruct (fold_turn (fun _ => True) _ _ _ _ C Logic.I (fun _ _ _ _ _ _ => Logic.I) _ He) as ([] & [] & _ & C2 & T). apply T.
    unfold check_root_entry in C2 |- *. destruct (str_in (`"extensions") (f_versions fr)) eqn:Ei.
    { exfalso. apply str_in_true in Ei. destruct (obeys_versions _ _ Or) as [ww Hs]. apply (version_starts _ _ _ Hs) in Ei. discriminate Ei. }
    change (str_eqb (`"extensions") (`"logs")) with false in *. change (str_eqb (`"extensions") (`"extensions")) with true in *. cbv iota in C2 |- *.
    unfold validate_extensions_dir in C2 |- *. apply clean_bind in C2 as (l2 & C3 & C2). eapply logged_right; [exact C3|]. apply clean_lift in C3.
    assert (Hk : In (entry_name (`"extensions") k, TDir) l2).
    { assert (Pe : at_path h (`"extensions") = h ++ [`"extensions"]).
      { change (`"extensions") with (join [slash] [`"extensions"]) at 1. apply at_path_join; auto. constructor; [apply fname_b_ok; reflexivity|constructor]. }
      unfold fs_ls in C3. rewrite Pe, Gd in C3. cbn [ebind] in C3. apply Ok_inv in C3. subst l2.
      change [`"extensions"; k] with ([`"extensions"] ++ [k]) in Lk. rewrite app_assoc, (look_child _ _ _ _ Gd) in Lk.
      destruct (dget k d) as [m|] eqn:Em; [|discriminate Lk]. apply dget_In in Em. apply in_map_iff. exists (k, m). split; [|exact Em]. cbn [fst snd]. destruct m; try discriminate Lk. reflexivity. }
    destruct (fold_turn (fun _ => True) _ _ _ _ C2 Logic.I (fun _ _ _ _ _ _ => Logic.I) _ Hk) as ([] & [] & _ & _ & T2). apply T2. cbn [fst snd].
    assert (En : str_in (entry_name (`"extensions") k) registered_extensions = false).
    { apply not_true_is_false. intros E. apply str_in_true in E. unfold entry_name in E. cbn in E. intuition discriminate. }
    rewrite En. now left.
  Qed.

  (** ** Content *)

  Hypothesis Hd1 : forall v k, startswith (`"inventory.json") k = true -> look w (h ++ [v; k]) <> Some EDir.
  Hypothesis Hd2 : startswith (`"inventory.json") (f_cdir fr) = false.

  Lemma content_turn prior u v : clean (validate_content H c w h ri (f_versions fr) prior) u -> In v (f_versions fr) ->
    exists seen r, clean (check_version_content w h (f_cdir fr) (vi_sidecars prior) seen v) r /\
      forall e, logged e (check_version_content w h (f_cdir fr) (vi_sidecars prior) seen v) -> logged e (validate_content H c w h ri (f_versions fr) prior).
  Proof using.
    intros C Hv. unfold validate_content in C |- *. cbn [ri ri_iv ri_inventory iv_content_directory accepted] in C |- *. apply clean_bind in C as (seen & C & _).
    destruct (fold_turn (fun _ => True) _ _ _ _ C Logic.I (fun _ _ _ _ _ _ => Logic.I) v Hv) as (s1 & s2 & _ & C1 & T). exists s1, s2. split; [exact C1|].
    intros e He. apply logged_left, T, He.
  Qed.
  Lemma catch_logged {A} (x : wexc A) code a e : logged e x -> logged e (wcatch_missing x code a).
  Proof using.
    unfold wcatch_missing. destruct (snd x) as [y|r]; [auto|]. destruct r; auto. unfold logged. cbn [fst]. intros K. apply in_or_app. now left.
  Qed.

  Lemma content_entry prior seen r v k m : side prior -> clean (check_version_content w h (f_cdir fr) (vi_sidecars prior) seen v) r -> fname v ->
    look w (h ++ [v; k]) = Some m -> exists s s', clean (check_version_entry w h (f_cdir fr) (dget v (vi_sidecars prior)) v s (entry_name v k)) s' /\
      forall e, logged e (check_version_entry w h (f_cdir fr) (dget v (vi_sidecars prior)) v s (entry_name v k)) ->
        logged e (check_version_content w h (f_cdir fr) (vi_sidecars prior) seen v).
  Proof using Hw Hh.
    intros Hs C Fv Lk. unfold check_version_content in C |- *. apply clean_catch_missing in C. apply clean_bind in C as (l & C1 & C). 
    assert (Lv : look w (h ++ [v]) = Some EDir) by (apply (look_above w (h ++ [v]) k []); rewrite <- app_assoc; cbn [app]; congruence).
    apply look_dir in Lv as [d Gd]. pose proof C1 as C1'. apply clean_lift in C1'.
    assert (Pv : at_path h v = h ++ [v]) by (change v with (join [slash] [v]) at 1; apply at_path_join; auto).
    unfold fs_ls in C1'. rewrite Pv, Gd in C1'. cbn [ebind] in C1'. apply Ok_inv in C1'. subst l.
    change [v; k] with ([v] ++ [k]) in Lk. rewrite app_assoc, (look_child _ _ _ _ Gd) in Lk. destruct (dget k d) as [x|] eqn:Ek; [|discriminate Lk]. apply dget_In in Ek.
    assert (Hi : In (entry_name v k) (map fst (map (fun kv => (entry_name v (fst kv), type_of (snd kv))) d))).
    { rewrite map_map. apply in_map_iff. exists (k, x). auto. }
    destruct (fold_turn (fun _ => True) _ _ _ _ C Logic.I (fun _ _ _ _ _ _ => Logic.I) _ Hi) as (s1 & s2 & _ & C2 & T). exists s1, s2. split; [exact C2|].
    intros e He. apply catch_logged. eapply logged_right; [exact C1|]. now apply T.
  Qed.

  Lemma side_skip prior v k : side prior -> startswith (`"inventory.json") k = false ->
    str_eqb k INVENTORY_FILENAME || match dget v (vi_sidecars prior) with Some s => str_eqb k s | None => false end = false.
  Proof using.
    intros Hs Hk. apply orb_false_iff. split; [destruct (str_eqb_spec k INVENTORY_FILENAME) as [->|]; [discriminate Hk|reflexivity]|].
    destruct (dget v (vi_sidecars prior)) as [x|] eqn:E; [|reflexivity]. apply Hs in E. destruct (str_eqb_spec k x) as [->|]; [congruence|reflexivity].
  Qed.

  Lemma full_directory prior u v k : side prior -> clean (validate_content H c w h ri (f_versions fr) prior) u -> In v (f_versions fr) ->
    k <> f_cdir fr -> look w (h ++ [v; k]) = Some EDir -> logged (LWarning (`"W002")) (validate_content H c w h ri (f_versions fr) prior).
  Proof using Hw Hh Or Hd1.
    intros Hs C Hv Hk Lk. pose proof (listed_name v Hv) as Fv. destruct (content_turn prior u v C Hv) as (seen & r & C1 & T). apply T.
    destruct (content_entry prior seen r v k EDir Hs C1 Fv Lk) as (s & s' & C2 & T2). apply T2.
    assert (Fk : fname k). { assert (F : Forall fname (h ++ [v; k])) by (apply (look_fnames w); [exact Hw|congruence]). apply Forall_app in F as [_ F]. inversion F as [|? ? _ F']. inversion F'. assumption. }
    unfold check_version_entry. cbn zeta. rewrite (relpath_child v k Fv Fk). rewrite side_skip; auto.
    2: { apply not_true_is_false. intros E. now apply (Hd1 v k E). }
    destruct (str_eqb_spec k (f_cdir fr)) as [|_]; [contradiction|].
    assert (Pk : at_path h (entry_name v k) = h ++ [v; k]).
    { assert (E2 : entry_name v k = join [slash] [v; k]).
      { unfold entry_name. rewrite rstrip_noslash by now apply fname_last. destruct v; [now destruct Fv|reflexivity]. }
      rewrite E2. apply at_path_join; auto. }
    assert (Ed : fs_isdir w h (entry_name v k) = true) by (apply fs_isdir_look; rewrite Pk; exact Lk). rewrite Ed. now left.
  Qed.
  Lemma full_empty prior u v : side prior -> clean (validate_content H c w h ri (f_versions fr) prior) u -> In v (f_versions fr) ->
    look w (h ++ [v; f_cdir fr]) <> None -> (forall r, r <> [] -> ~ leaf w (h ++ v :: f_cdir fr :: r)) ->
    logged (LWarning (`"W003")) (validate_content H c w h ri (f_versions fr) prior).
  Proof using Hw Hh Or Hd2.
    intros Hs C Hv Lk Hl. pose proof (listed_name v Hv) as Fv. destruct (content_turn prior u v C Hv) as (seen & r & C1 & T). apply T.
    set (k := f_cdir fr) in *. assert (Fk : fname k). { assert (F : Forall fname (h ++ [v; k])) by (apply (look_fnames w); assumption). apply Forall_app in F as [_ F]. inversion F as [|? ? _ F']. inversion F'. assumption. }
    destruct (look w (h ++ [v; k])) as [m|] eqn:Em; [|congruence].
    destruct (content_entry prior seen r v k m Hs C1 Fv Em) as (s & s' & C2 & T2). apply T2.
    unfold check_version_entry in C2 |- *. cbn zeta in C2 |- *. fold k in C2 |- *. rewrite (relpath_child v k Fv Fk) in *. rewrite side_skip in * by auto.
    rewrite str_eqb_refl in *. rewrite path_join_two in * by auto.
    assert (G : exists n, get w (h ++ [v; k]) = Ok n) by (unfold look in Em; destruct (get w (h ++ [v; k])); [eauto|discriminate]). destruct G as [n G].
    destruct (walk_content_ok w h [v; k] n Hw Hh) as (files & Hf1 & Hf2 & Hf3); auto; [discriminate|].
    apply clean_bind in C2 as (files' & C3 & _). eapply logged_right; [exact C3|]. apply clean_snd in C3. rewrite Hf3 in C3. apply Ok_inv in C3. subst files'.
    destruct files as [|f files]; [apply logged_left; now left|]. exfalso. destruct (proj1 (Hf2 f) (or_introl eq_refl)) as (r' & Hr & Lf & _). now apply (Hl r' Hr).
  Qed.
End Full.
