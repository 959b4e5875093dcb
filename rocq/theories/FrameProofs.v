(** What writing a new version can change, also if it is interrupted (C37, C38). *)
From Coq Require Import Permutation Sorted.
From Verif Require Import Properties_Names Properties_InventoryValidator.
From Verif Require Import Base Unicode Regex Utf8 Json PyJson JsonTextModel JsonTextSpec JsonTextProofs JsonFileProofs Log DigestModel LayoutModel LayoutProofs
  ObjectUtilsModel ObjectUtilsProofs InventorySpec InventoryValidatorModel InventoryValidatorProofs InventoryRulesProofs
  InventoryModel InventoryOpsSpec InventoryOpsProofs NewVersionModel NewVersionProofs NewVersionOpsProofs VersionNumberProofs InventoryParseProofs ParseModel
  ContentPathProofs TextFile PathModel FsModel FsSpec FsProofs FswModel FswSpec FswProofs FswCopyProofs ValidatorSpec ValidatorBasicProofs ObjectModel ObjectSpec ObjectInvProofs ObjectRulesProofs
  ObjectParseProofs ObjectAddProofs ContentNameProofs ObjectGrowProofs ObjectStartProofs ObjectCopyProofs ObjectWriteProofs ObjectSourceProofs ObjectFactsProofs NamasteSpec ValidatorVersionProofs ObjectMadeProofs ObjectIntactProofs ObjectExtendProofs FsStepProofs NamasteModel NamasteProofs ObjectStoreProofs ObjectCreateProofs ValidatorModel ValidatorIntactProofs ObjectUpdateProofs ObjectNextProofs ObjectDigestProofs ObjectVersionProofs ObjectExtractProofs ObjectHistoryProofs ObjectExamples UpdateSpec ParseProofs OpenProofs ChangeProofs.

(** ** Interrupted operations *)


Lemma crash_done {A} (x : io A) w : crash x w (after x w).
Proof. exists (fst (x w)). split; [apply cut_all|reflexivity]. Qed.
Lemma crash_none {A} (x : io A) w w' : fst (x w) = [] -> crash x w w' -> w' = w.
Proof. intros E (c & Hc & ->). rewrite E in Hc. apply cut_nil in Hc. now subst c. Qed.
Lemma crash_bind {A B} (x : io A) (k : A -> io B) w w' : crash (ibind x k) w w' ->
  crash x w w' \/ exists a, result x w = Ok a /\ crash (k a) (after x w) w'.
Proof.
  intros (c & Hc & ->). rewrite steps_bind in Hc. destruct (result x w) as [a|e]; [|rewrite app_nil_r in Hc; left; exists c; auto].
  apply cut_app in Hc as [Hc|(d & -> & Hd)]; [left; exists c; auto|]. right. exists a. split; [auto|]. exists d. split; [auto|]. unfold after, apply_all. now rewrite fold_left_app.
Qed.
Lemma crash_other {A} P (x : io A) w w' q : tree w -> acts_at P x w -> crash x w w' -> ~ P q -> look w' q = look w q.
Proof. intros Tw Ac (c & Hc & ->) Hq. exact (acts_cut P x w q c Tw Ac Hc Hq). Qed.
Lemma crash_dir {A} P (x : io A) w w' q : tree w -> acts_at P x w -> crash x w w' -> look w q = Some EDir -> look w' q = Some EDir.
Proof. intros Tw Ac (c & Hc & ->) Hq. exact (acts_cut_dir P x w q c Tw Ac Hc Hq). Qed.

(** ** What has been written if an operation succeeded *)

Lemma create_place h path w : result (fs_create h path) w = Ok tt ->
  fresh_place w (at_path h path) \/ (exists b, look w (at_path h path) = Some (EFile b)).
Proof.
  unfold result, fs_create. set (p := at_path h path). intros H.
  destruct (get w p) as [[b|d|]|e] eqn:E; cbn [fst snd] in *; try discriminate.
  - right. exists b. now apply look_file.
  - destruct e; cbn [fst snd] in *; try discriminate.
    destruct (get w (removelast p)) as [[b|d|]|e] eqn:E2; cbn [fst snd] in *; try discriminate.
    left. repeat split.
    + intros Ep. rewrite Ep in E. discriminate.
    + apply look_dir. eauto.
    + unfold look. now rewrite E.
Qed.

Lemma write_text_done h path s w : result (fs_write_text h path s) w = Ok tt ->
  exists b, write_text s = Ok b /\ changes w (after (fs_write_text h path s) w) (at_path h path) (Some (EFile b)).
Proof.
  intros E. pose proof E as E0. unfold fs_write_text in E. apply seq_ok in E as ([] & E1 & E & _). rewrite result_read in E.
  destruct (write_text s) as [b|] eqn:Eb; [|discriminate]. exists b. split; [auto|]. apply write_text_file; [now apply create_place|auto].
Qed.

Lemma copyfile_done sh sp dh dp w : result (fsw_copyfile sh sp dh dp) w = Ok tt -> at_path sh sp <> at_path dh dp ->
  exists b, fs_read w sh sp = Ok b /\ changes w (after (fsw_copyfile sh sp dh dp) w) (at_path dh dp) (Some (EFile b)).
Proof.
  intros E Hne. pose proof E as E0. unfold fsw_copyfile in E. rewrite result_read in E. destruct (fs_read w sh sp) as [b|] eqn:Eb; [|discriminate].
  apply seq_ok in E as ([] & E1 & _ & _). exists b. split; [auto|]. apply copyfile_ok; [now apply fs_read_look|auto|now apply create_place].
Qed.

(** ** The inventory and its sidecar *)

Lemma inv_not_side alg : inv_name <> side_name alg.
Proof. unfold side_name. intros E. apply (f_equal (@List.length _)) in E. rewrite app_length in E. cbn in E. lia. Qed.

Lemma known_no_slash H alg b x : file_digest H alg b = Ok x -> ~ In PathModel.slash alg.
Proof.
  unfold file_digest. intros E Hi. repeat match type of E with context [str_eqb alg ?l] => destruct (str_eqb_spec alg l) as [->|_]; [repeat (destruct Hi as [Hi|Hi]; [discriminate Hi|]); destruct Hi|] end. discriminate.
Qed.

Section Inv.
  Variables (P : place -> Prop) (H : hashfn) (alg : str) (h : place) (i : inventory) (vdir : str) (w : node).
  Hypothesis Tw : tree w.
  Hypothesis Fh : Forall fname h.
  Hypothesis Hd : look w (at_path h vdir) = Some EDir.
  Let d := at_path h vdir.

  Lemma inv_place : at_path h (path_join vdir INVENTORY_FILENAME) = d ++ [inv_name].
  Proof using. exact (at_path_name h vdir inv_name fname_inv). Qed.
  Lemma side_place : ~ In PathModel.slash alg -> at_path h (path_join vdir (INVENTORY_FILENAME ++ `"." ++ alg)) = d ++ [side_name alg].
  Proof using. intros Fa. exact (at_path_name h vdir (side_name alg) (fname_side alg Fa)). Qed.

  Definition inv_steps : io str :=
    fs_write_text h (path_join vdir INVENTORY_FILENAME) (json_dumps (json_of_inventory i)) ;;
    do digest <- iread (fun w => ObjectModel.fs_digest H alg w h (path_join vdir INVENTORY_FILENAME)) ;;
    fs_write_text h (path_join vdir (INVENTORY_FILENAME ++ `"." ++ alg)) (digest ++ `" " ++ INVENTORY_FILENAME ++ [10%N]) ;;
    iret (path_join vdir (INVENTORY_FILENAME ++ `"." ++ alg)).
  Lemma inv_start : write_inventory_and_sidecar H alg h (Some i) vdir w = inv_steps w.
  Proof using Hd.
    unfold write_inventory_and_sidecar. assert (E : fs_exists w h vdir = true) by (apply fs_exists_look; rewrite Hd; discriminate).
    unfold ibind at 1. cbn [iread]. rewrite E. cbn [apply_all fold_left]. unfold ibind at 1. cbn [iret apply_all fold_left].
    fold inv_steps. destruct (inv_steps w). reflexivity.
  Qed.

  Lemma acts_inv : P (d ++ [inv_name]) -> P (d ++ [side_name alg]) -> acts_at P (write_inventory_and_sidecar H alg h (Some i) vdir) w.
  Proof using Hd Tw Fh.
    intros P1 P2. pose proof inv_place as E1. unfold acts_at. rewrite inv_start. apply (acts_bind P).
    - apply acts_write_text; [auto|]. now rewrite E1.
    - intros [] _. apply acts_bind; [apply acts_read|]. intros x Ex. rewrite result_iread in Ex. unfold ObjectModel.fs_digest in Ex. apply ebind_ok in Ex as [b [_ Ex]].
      apply known_no_slash in Ex. apply acts_bind; [|intros; apply acts_ret]. apply acts_write_text; [auto|]. now rewrite (side_place Ex).
  Qed.

  Lemma inv_done s : result (write_inventory_and_sidecar H alg h (Some i) vdir) w = Ok s ->
    exists b x t, write_text (json_dumps (json_of_inventory i)) = Ok b /\ digest_of H alg b x /\ write_text (x ++ `" inventory.json" ++ [10%N]) = Ok t /\
      look (after (write_inventory_and_sidecar H alg h (Some i) vdir) w) (d ++ [inv_name]) = Some (EFile b) /\
      look (after (write_inventory_and_sidecar H alg h (Some i) vdir) w) (d ++ [side_name alg]) = Some (EFile t).
  Proof using Hd Tw Fh.
    pose proof inv_place as E1. unfold result, after. rewrite inv_start. fold (result inv_steps w) (after inv_steps w). unfold inv_steps. intros E.
    apply seq_ok in E as ([] & R1 & E & A1). rewrite A1.
    destruct (write_text_done _ _ _ _ R1) as (b & Wb & C1). rewrite E1 in C1. set (w1 := after (fs_write_text _ _ _) w) in *.
    rewrite result_read in E. rewrite after_read.
    assert (Rb : fs_read w1 h (path_join vdir INVENTORY_FILENAME) = Ok b) by (apply fs_read_look; rewrite E1; exact (changes_at _ _ _ _ C1)).
    unfold ObjectModel.fs_digest in *. rewrite Rb in *. cbn [ebind] in *. destruct (file_digest H alg b) as [x|] eqn:Ex; [|discriminate].
    pose proof (side_place (known_no_slash _ _ _ _ Ex)) as E2.
    apply seq_ok in E as ([] & R2 & _ & A2). rewrite A2. destruct (write_text_done _ _ _ _ R2) as (t & Wt & C2). rewrite E2 in C2.
    exists b, x, t. split; [auto|]. split; [now apply file_digest_iff|]. split; [exact Wt|]. split; [|exact (changes_at _ _ _ _ C2)].
    etransitivity; [apply (changes_other _ _ _ _ _ C2)|exact (changes_at _ _ _ _ C1)]. intros F. apply app_inv_head in F. discriminate F.
  Qed.
End Inv.

(** ** Copying into the new version *)

Lemma on_the_way w p q r a : look w p = Some EDir -> p ++ a = q ++ r -> look w q = None -> exists y, q = p ++ y.
Proof.
  intros Hp E Hq. apply app_eq_app in E as (l & [[-> ->]|[-> ->]]); [|eauto]. exfalso.
  destruct l as [|x l]; [rewrite app_nil_r in Hp; congruence|]. rewrite (look_prefix_dir w (q ++ x :: l) q (x :: l)) in Hq; [discriminate|congruence|auto|discriminate].
Qed.

Section Copy.
  Variables (h src : place) (v : str).
  Hypothesis Fh : Forall fname h.
  Hypothesis Fv : fname v.

  Lemma copy_into_place r : Forall fname r -> at_path h (J (v :: r)) = h ++ v :: r.
  Proof using Fh Fv. intros Fr. apply at_path_join; [auto|]. now constructor. Qed.

  Lemma acts_copy_dirs (P : place -> Prop) w a (e : bool) : (forall y, look w (h ++ v :: y) = None -> P (h ++ v :: y)) -> tree w -> look w (h ++ [v]) = Some EDir ->
    Forall fname a -> forall k, fname k ->
    acts_at P (if true && negb e then fs_makedirs h (path_dirname (J (v :: a ++ [k]))) false else iret tt) w.
  Proof using Fh Fv.
    intros HP Tw Hd Fa k Fk. assert (Edp : at_path h (path_dirname (J (v :: a ++ [k]))) = h ++ v :: a).
    { change (v :: a ++ [k]) with ((v :: a) ++ [k]). apply dirname_place; auto. }
    destruct (true && negb e); [|apply acts_ret]. apply acts_makedirs; auto. intros q x E Hq. rewrite Edp in E.
    destruct (on_the_way w (h ++ [v]) q x a Hd) as [y ->]; [rewrite <- E, <- app_assoc; reflexivity|auto|].
    rewrite <- app_assoc in *. apply HP. exact Hq.
  Qed.

  Lemma acts_copy_into (P : place -> Prop) w s r : (forall y, look w (h ++ v :: y) = None -> P (h ++ v :: y)) -> P (h ++ v :: r) ->
    tree w -> look w (h ++ [v]) = Some EDir -> Forall fname r -> r <> [] ->
    acts_at P (copy_into_object h src s (J (v :: r)) true) w.
  Proof using Fh Fv.
    intros HP HPr Tw Hd Fr Nr. destruct (snoc_case r Nr) as (a & k & ->). pose proof Fr as Fr0. apply Forall_app in Fr as [Fa Fk]. inversion Fk as [|? ? Fk' _]. subst.
    unfold copy_into_object.
    apply acts_bind; [apply acts_read|]. intros e _. rewrite after_iread. apply acts_bind.
    - apply acts_copy_dirs; auto.
    - intros [] _. apply acts_copyfile; [auto|rewrite copy_into_place; auto].
  Qed.

  Lemma copy_into_done w s r : tree w -> look w (h ++ [v]) = Some EDir -> Forall fname r -> r <> [] -> (forall y, at_path src s <> h ++ v :: y) ->
    result (copy_into_object h src s (J (v :: r)) true) w = Ok tt ->
    exists b, fs_read w src s = Ok b /\ look (after (copy_into_object h src s (J (v :: r)) true) w) (h ++ v :: r) = Some (EFile b).
  Proof using Fh Fv.
    intros Tw Hd Fr Nr Hs E. destruct (snoc_case r Nr) as (a & k & ->). pose proof Fr as Fr0. apply Forall_app in Fr as [Fa Fk]. inversion Fk as [|? ? Fk' _]. subst.
    unfold copy_into_object in E |- *. rewrite result_read in E. rewrite after_read. apply seq_ok in E as ([] & _ & E & Ea). rewrite Ea. clear Ea.
    set (e := fs_exists w h _) in *. pose proof (acts_copy_dirs (fun q => exists y, q = h ++ v :: y) w a e (fun y _ => ex_intro _ y eq_refl) Tw Hd Fa k Fk') as Ac.
    set (x := if _ && _ then _ else _) in *. set (w1 := after x w) in *.
    destruct (copyfile_done _ _ _ _ _ E) as (b & Rb & C).
    - rewrite copy_into_place by auto. apply Hs.
    - rewrite copy_into_place in C by auto. exists b. split; [|exact (changes_at _ _ _ _ C)].
      apply fs_read_look. apply fs_read_look in Rb. rewrite <- Rb. symmetry. apply (acts_other _ _ _ _ Tw Ac). intros [y F]. exact (Hs y F).
  Qed.

  Definition below_v (c : str) : Prop := exists r, r <> [] /\ Forall fname r /\ c = J (v :: r).

  Lemma acts_copy_files (P : place -> Prop) l : (forall y, P (h ++ v :: y)) -> (forall s c, In (s, c) l -> below_v c) ->
    forall w, tree w -> look w (h ++ [v]) = Some EDir -> acts_at P (copy_files h src l) w.
  Proof using Fh Fv.
    intros HP Hl w Tw Hd. unfold copy_files.
    apply (acts_iter P (fun w => tree w /\ look w (h ++ [v]) = Some EDir) (fun sp => copy_into_object h src (fst sp) (snd sp) true) l); [|auto].
    intros [s c] w' Hi [T' D']. cbn [fst snd]. destruct (Hl s c Hi) as (r & Nr & Fr & ->).
    pose proof (acts_copy_into P w' s r (fun y _ => HP y) (HP r) T' D' Fr Nr) as Ac. split; [exact Ac|].
    split; [exact (acts_tree _ _ _ T' Ac)|exact (acts_dir _ _ _ _ T' Ac D')].
  Qed.

  (** A file copied before is not written again under another name. *)
  Lemma copy_files_keeps l r0 b : (forall s c, In (s, c) l -> below_v c) -> Forall fname r0 -> ~ In (J (v :: r0)) (map snd l) ->
    forall w, tree w -> look w (h ++ [v]) = Some EDir -> look w (h ++ v :: r0) = Some (EFile b) ->
    look (after (copy_files h src l) w) (h ++ v :: r0) = Some (EFile b).
  Proof using Fh Fv.
    intros Hl F0 Hn w Tw Hd L0. set (P := fun q => q <> h ++ v :: r0).
    assert (Ac : acts_at P (copy_files h src l) w); [|rewrite (acts_other P _ _ _ Tw Ac); [exact L0|intros F; apply F; reflexivity]].
    unfold copy_files.
    apply (acts_iter P (fun w => tree w /\ look w (h ++ [v]) = Some EDir /\ look w (h ++ v :: r0) = Some (EFile b)) (fun sp => copy_into_object h src (fst sp) (snd sp) true) l); [|auto].
    intros [s c] w' Hi (T' & D' & L'). cbn [fst snd]. destruct (Hl s c Hi) as (r & Nr & Fr & ->).
    assert (Ac : acts_at P (copy_into_object h src s (J (v :: r)) true) w').
    { apply acts_copy_into; auto.
      - intros y Hy F. rewrite F in Hy. congruence.
      - intros F. apply app_inv_head in F. apply Hn. rewrite <- F. apply in_map_iff. exists (s, J (v :: r)). auto. }
    split; [exact Ac|]. split; [exact (acts_tree _ _ _ T' Ac)|]. split; [exact (acts_dir _ _ _ _ T' Ac D')|].
    rewrite (acts_other P _ _ _ T' Ac); [exact L'|intros F; apply F; reflexivity].
  Qed.

  Lemma copy_files_done l : (forall s c, In (s, c) l -> below_v c) -> (forall s c y, In (s, c) l -> at_path src s <> h ++ v :: y) ->
    forall w, tree w -> look w (h ++ [v]) = Some EDir -> result (copy_files h src l) w = Ok tt ->
    forall s c, In (s, c) l -> exists s' b, In (s', c) l /\ fs_read w src s' = Ok b /\ look (after (copy_files h src l) w) (at_path h c) = Some (EFile b).
  Proof using Fh Fv.
    induction l as [|[s0 c0] l IH]; intros Hl Hs w Tw Hd E s c Hi; [destruct Hi|].
    assert (Hl' : forall s c, In (s, c) l -> below_v c) by (intros; eapply Hl; right; eassumption).
    assert (Hs' : forall s c y, In (s, c) l -> at_path src s <> h ++ v :: y) by (intros; eapply Hs; right; eassumption).
    specialize (IH Hl' Hs').
    assert (Keeps := fun r b N0 => copy_files_keeps l r b Hl' N0).
    unfold copy_files in *. rewrite iter_cons in *. cbn [fst snd] in *. apply seq_ok in E as ([] & E0 & E & Ea). rewrite Ea. clear Ea.
    destruct (Hl s0 c0 (or_introl eq_refl)) as (r0 & N0 & F0 & Ec0).
    assert (Ac : acts_at (fun q => exists y, q = h ++ v :: y) (copy_into_object h src s0 c0 true) w).
    { subst c0. apply acts_copy_into; eauto. }
    set (w1 := after (copy_into_object h src s0 c0 true) w) in *. pose proof (acts_tree _ _ _ Tw Ac) as T1. pose proof (acts_dir _ _ _ _ Tw Ac Hd) as D1. fold w1 in T1, D1.
    assert (Back : forall s c b, In (s, c) l -> fs_read w1 src s = Ok b -> fs_read w src s = Ok b).
    { intros s1 c1 b H1 Rb. apply fs_read_look. apply fs_read_look in Rb. rewrite <- Rb. symmetry. apply (acts_other _ _ _ _ Tw Ac).
      intros [y F]. exact (Hs' s1 c1 y H1 F). }
    specialize (IH w1 T1 D1 E).
    destruct (in_dec (list_eq_dec N.eq_dec) c (map snd l)) as [Hc|Hc].
    - apply in_map_iff in Hc as ((s1 & c1) & Ec & H1). cbn [snd] in Ec. subst c1. destruct (IH s1 c H1) as (s2 & b & H2 & Rb & Lb).
      exists s2, b. split; [now right|]. split; [exact (Back s2 c b H2 Rb)|exact Lb].
    - destruct Hi as [Hi|Hi]; [|exfalso; apply Hc; apply in_map_iff; exists (s, c); auto]. injection Hi as <- <-.
      subst c0. destruct (copy_into_done w s0 r0 Tw Hd F0 N0) as (b & Rb & Lb).
      + intros y. apply (Hs s0 (J (v :: r0)) y). now left.
      + exact E0.
      + exists s0, b. split; [now left|]. split; [exact Rb|]. fold w1 in Lb.
        rewrite (copy_into_place r0 F0). now apply Keeps.
  Qed.

  (** Only these files and the directories for them are made. *)
  Definition on_way (l : list (str * str)) (q : place) : Prop := exists s c r, In (s, c) l /\ at_path h c = q ++ r.
  Lemma on_way_dec l q : {on_way l q} + {~ on_way l q}.
  Proof.
    set (f := fun sc : str * str => list_eq_dec (list_eq_dec N.eq_dec) (firstn (List.length q) (at_path h (snd sc))) q).
    destruct (Exists_dec (fun sc => firstn (List.length q) (at_path h (snd sc)) = q) l f) as [E|E]; [left|right].
    - apply Exists_exists in E as ([s c] & Hi & E). cbn [snd] in E. exists s, c, (skipn (List.length q) (at_path h c)). split; [auto|]. transitivity (firstn (List.length q) (at_path h c) ++ skipn (List.length q) (at_path h c)); [symmetry; apply firstn_skipn|]. now rewrite E.
    - intros (s & c & r & Hi & F). apply E. apply Exists_exists. exists (s, c). split; [auto|]. cbn [snd]. rewrite F, firstn_app, Nat.sub_diag, firstn_all. cbn. apply app_nil_r.
  Qed.
  Lemma acts_copy_only l : (forall s c, In (s, c) l -> below_v c) ->
    forall w, tree w -> look w (h ++ [v]) = Some EDir -> acts_at (on_way l) (copy_files h src l) w.
  Proof using Fh Fv.
    intros Hl w Tw Hd. unfold copy_files.
    apply (acts_iter (on_way l) (fun w => tree w /\ look w (h ++ [v]) = Some EDir) (fun sp => copy_into_object h src (fst sp) (snd sp) true) l); [|auto].
    intros [s c] w' Hi [T' D']. cbn [fst snd]. destruct (Hl s c Hi) as (r & Nr & Fr & ->).
    assert (Ac : acts_at (on_way l) (copy_into_object h src s (J (v :: r)) true) w').
    { pose proof (copy_into_place r Fr) as Ep. destruct (snoc_case r Nr) as (a & k & ->). pose proof Fr as Fr0. apply Forall_app in Fr as [Fa Fk]. inversion Fk as [|? ? Fk' _]. subst.
      unfold copy_into_object. apply acts_bind; [apply acts_read|]. intros e _. rewrite after_iread. apply acts_bind.
      - destruct (true && negb e); [|apply acts_ret]. apply acts_makedirs; auto. intros q x E _. exists s, (J (v :: a ++ [k])), (x ++ [k]). split; [exact Hi|].
        assert (Edp : at_path h (path_dirname (J (v :: a ++ [k]))) = h ++ v :: a) by (change (v :: a ++ [k]) with ((v :: a) ++ [k]); apply dirname_place; auto).
        rewrite Ep, app_assoc, <- E, Edp, <- app_assoc. reflexivity.
      - intros [] _. apply acts_copyfile; [auto|]. exists s, (J (v :: a ++ [k])), []. split; [exact Hi|]. symmetry. apply app_nil_r. }
    split; [exact Ac|]. split; [exact (acts_tree _ _ _ T' Ac)|exact (acts_dir _ _ _ _ T' Ac D')].
  Qed.
End Copy.

(** ** Writing a new version *)

Section Write.
  Variables (H : hashfn) (alg : str) (h src : place) (nv : new_version) (v : str) (w : node).
  Hypothesis Tw : tree w.
  Hypothesis Fh : Forall fname h.
  Hypothesis Hd : look w h = Some EDir.
  Hypothesis Fo : forall o, nv_old_alg nv = Some o -> ~ In PathModel.slash o.
  Hypothesis Hv : i_head (nv_inv nv) = Some v.
  Hypothesis Fv : fname v.
  Hypothesis Vi : v <> inv_name.
  Hypothesis Vs : forall o, v <> side_name o.
  Hypothesis Cv : forall s c, In (s, c) (nv_copy nv) -> below_v v c.

  (** What may be written *)
  Definition may (q : place) : Prop :=
    (look w (h ++ [v]) = None /\ exists y, q = h ++ v :: y) \/ q = h ++ [inv_name] \/ q = h ++ [side_name alg] \/
    (exists o, nv_old_alg nv = Some o /\ i_alg (nv_inv nv) <> Some o /\ q = h ++ [side_name o]).

  Definition first_part : io unit :=
    match nv_old_alg nv with
    | Some old => if (match i_alg (nv_inv nv) with Some a => str_eqb a old | None => false end) then iret tt else fs_rm h (INVENTORY_FILENAME ++ `"." ++ old)
    | None => iret tt
    end.
  Definition old_side (q : place) : Prop := exists o, nv_old_alg nv = Some o /\ i_alg (nv_inv nv) <> Some o /\ q = h ++ [side_name o].

  Lemma acts_first : acts_at old_side first_part w.
  Proof using Fh Fo.
    unfold first_part. destruct (nv_old_alg nv) as [o|] eqn:Eo; [|apply acts_ret].
    destruct (match i_alg (nv_inv nv) with Some a => str_eqb a o | None => false end) eqn:E; [apply acts_ret|].
    assert (Ep : at_path h (INVENTORY_FILENAME ++ `"." ++ o) = h ++ [side_name o]) by (apply (at_path_one h (side_name o) Fh), fname_side; auto).
    apply acts_rm; [auto| |].
    - rewrite Ep. exists o. split; [auto|]. split; [|auto]. intros F. rewrite F, str_eqb_refl in E. discriminate.
    - rewrite Ep. intros F. apply app_eq_nil in F as [_ F]. discriminate F.
  Qed.
  Let w0 := after first_part w.
  Lemma first_tree : tree w0.
  Proof using Tw Fh Fo. exact (acts_tree _ _ _ Tw acts_first). Qed.
  Lemma first_h : look w0 h = Some EDir.
  Proof using Tw Fh Fo Hd. exact (acts_dir _ _ _ _ Tw acts_first Hd). Qed.
  Lemma first_v y : look w0 (h ++ v :: y) = look w (h ++ v :: y).
  Proof using Tw Fh Fo Vs.
    apply (acts_other _ _ _ _ Tw acts_first). intros (o & _ & _ & F). apply app_inv_head in F. apply (f_equal (hd [])) in F. cbn [hd] in F. exact (Vs o F).
  Qed.
  Lemma first_inv : look w0 (h ++ [inv_name]) = look w (h ++ [inv_name]).
  Proof using Tw Fh Fo.
    apply (acts_other _ _ _ _ Tw acts_first). intros (o & _ & _ & F). apply app_inv_head in F. apply (f_equal (hd [])) in F. cbn [hd] in F. exact (inv_not_side o F).
  Qed.

  Lemma acts_mkv : acts_at (fun q => q = h ++ [v]) (fs_makedir h v) w0.
  Proof using Tw Fh Fo Hd Fv.
    apply acts_makedir; [apply first_tree|auto|]. intros q r E Hq. rewrite (at_path_one h v Fh Fv) in E.
    destruct (on_the_way w0 h q r [v] first_h E Hq) as [y ->]. destruct y as [|c y]; [rewrite app_nil_r, first_h in Hq; discriminate|].
    rewrite <- app_assoc in E. apply app_inv_head in E. cbn [app] in E. assert (Ec : [v] = c :: y ++ r) by exact E. clear E.
    pose proof (f_equal (hd []) Ec) as E1. pose proof (f_equal (@List.length _) Ec) as E2. cbn in E1, E2. destruct y; [rewrite <- E1; reflexivity|clear -E2; cbn in E2; lia].
  Qed.
  Lemma mkv_done : result (fs_makedir h v) w0 = Ok tt -> look w (h ++ [v]) = None /\ look (after (fs_makedir h v) w0) (h ++ [v]) = Some EDir.
  Proof using Tw Fh Fo Hd Fv Vs.
    intros E. assert (N : look w0 (h ++ [v]) = None).
    { unfold result, fs_makedir in E. destruct (fs_exists w0 h v) eqn:Ee; [discriminate|]. apply fs_exists_false in Ee. rewrite (at_path_one h v Fh Fv) in Ee. exact Ee. }
    split; [rewrite <- (first_v []); exact N|]. destruct (makedir_one w0 h v Fh Fv first_h N) as [_ C]. exact (changes_at _ _ _ _ C).
  Qed.
  Let w1 := after (fs_makedir h v) w0.
  Let x2 := copy_files h src (nv_copy nv).
  Let w2 := after x2 w1.
  Let x3 := write_inventory_and_sidecar H alg h (Some (nv_inv nv)) v.
  Let w3 := after x3 w2.
  Let x4 := write_inventory_and_sidecar H alg h (Some (nv_inv nv)) [].
  Let inside (q : place) : Prop := exists y, q = h ++ v :: y.

  Section Made.
    Hypothesis Mk : result (fs_makedir h v) w0 = Ok tt.
    Lemma tree1 : tree w1.
    Proof using Tw Fh Fo Hd Fv. exact (acts_tree _ _ _ first_tree acts_mkv). Qed.
    Lemma dir1 : look w1 (h ++ [v]) = Some EDir.
    Proof using Tw Fh Fo Hd Fv Vs Mk. apply mkv_done. exact Mk. Qed.
    Lemma acts2 : acts_at inside x2 w1.
    Proof using Tw Fh Fo Hd Fv Vs Mk Cv. apply (acts_copy_files h src v Fh Fv); [intros y; exists y; reflexivity|exact Cv|exact tree1|exact dir1]. Qed.
    Lemma tree2 : tree w2.
    Proof using Tw Fh Fo Hd Fv Vs Mk Cv. exact (acts_tree _ _ _ tree1 acts2). Qed.
    Lemma dir2 : look w2 (at_path h v) = Some EDir.
    Proof using Tw Fh Fo Hd Fv Vs Mk Cv. rewrite (at_path_one h v Fh Fv). exact (acts_dir _ _ _ _ tree1 acts2 dir1). Qed.
    Lemma acts3 : acts_at (fun q => q = h ++ [v; inv_name] \/ q = h ++ [v; side_name alg]) x3 w2.
    Proof using Tw Fh Fo Hd Fv Vs Mk Cv.
      apply acts_inv; [exact tree2|exact Fh|exact dir2| |]; rewrite (at_path_one h v Fh Fv), <- app_assoc; auto.
    Qed.
    Lemma tree3 : tree w3.
    Proof using Tw Fh Fo Hd Fv Vs Mk Cv. exact (acts_tree _ _ _ tree2 acts3). Qed.
    Lemma dir3 : look w3 (at_path h []) = Some EDir.
    Proof using Tw Fh Fo Hd Fv Vs Mk Cv.
      assert (E : at_path h [] = h) by (rewrite <- (app_nil_r h) at 2; apply (at_path_join h []); auto). rewrite E.
      apply (look_prefix_dir w3 (h ++ [v]) h [v]); [|reflexivity|discriminate].
      assert (D3 : look w3 (h ++ [v]) = Some EDir); [|rewrite D3; discriminate]. apply (acts_dir _ _ _ (h ++ [v]) tree2 acts3). pose proof dir2 as D. rewrite (at_path_one h v Fh Fv) in D. exact D.
    Qed.
    Lemma acts4 : acts_at (fun q => q = h ++ [inv_name] \/ q = h ++ [side_name alg]) x4 w3.
    Proof using Tw Fh Fo Hd Fv Vs Mk Cv.
      assert (E : at_path h [] = h) by (rewrite <- (app_nil_r h) at 2; apply (at_path_join h []); auto).
      apply acts_inv; [exact tree3|exact Fh|exact dir3| |]; rewrite E; auto.
    Qed.
  End Made.

  (** Nothing else is written. *)
  Theorem write_acts : acts_at may (write_new_version H alg h src nv) w.
  Proof using Tw Fh Fo Hd Fv Vs Cv Hv.
    unfold write_new_version. apply acts_bind.
    - apply (acts_weaken old_side); [intros q Hq; right; right; right; exact Hq|exact acts_first].
    - intros [] _. fold first_part w0. apply acts_bind; [apply acts_read|]. intros v' Ev'. rewrite result_iread in Ev'. unfold head_of in Ev'. rewrite Hv in Ev'. apply Ok_inv in Ev'. subst v'.
      rewrite after_iread. apply acts_bind.
      + destruct (look w0 (h ++ [v])) eqn:Ed.
        * apply acts_none. unfold fs_makedir. assert (X : fs_exists w0 h v = true) by (apply fs_exists_look; rewrite (at_path_one h v Fh Fv), Ed; discriminate). now rewrite X.
        * apply (acts_weaken (fun q => q = h ++ [v])); [|exact acts_mkv]. intros q ->. left. split; [rewrite <- (first_v []); exact Ed|exists []; reflexivity].
      + intros [] Mk. fold w1. destruct (mkv_done Mk) as [N _].
        assert (Up : forall q, inside q -> may q) by (intros q Hq; left; split; [exact N|exact Hq]).
        apply acts_bind; [apply (acts_weaken inside); [exact Up|exact (acts2 Mk)]|]. intros [] _. fold x2 w2.
        apply acts_bind; [apply (acts_weaken _ may _ _ (fun q Hq => Up q match Hq with or_introl E => ex_intro _ [inv_name] E | or_intror E => ex_intro _ [side_name alg] E end)); exact (acts3 Mk)|].
        intros s3 _. fold x3 w3. apply acts_bind; [|intros; apply acts_ret].
        apply (acts_weaken (fun q => q = h ++ [inv_name] \/ q = h ++ [side_name alg])); [|exact (acts4 Mk)].
        intros q [E|E]; unfold may; auto.
  Qed.
  Hypothesis Cs : forall s c, In (s, c) (nv_copy nv) -> exists b, fs_read w src s = Ok b.
  Hypothesis Ci : forall s c, In (s, c) (nv_copy nv) -> c <> J [v; inv_name] /\ c <> J [v; side_name alg].

  Lemma first_read s b : (exists b, fs_read w src s = Ok b) -> look w0 (at_path src s) = Some (EFile b) -> fs_read w src s = Ok b.
  Proof using Tw Fh Fo.
    intros [b0 Hb] L. destruct (in_dec (list_eq_dec (list_eq_dec N.eq_dec)) (at_path src s) (match nv_old_alg nv with Some o => [h ++ [side_name o]] | None => [] end)) as [Hi|Hi].
    - destruct (nv_old_alg nv) as [o|] eqn:Eo; [|destruct Hi]. destruct Hi as [Hi|[]]. pose proof (Fo o eq_refl) as Fs. unfold w0, first_part in L. rewrite Eo in L.
      destruct (match i_alg (nv_inv nv) with Some a => str_eqb a o | None => false end).
      + apply fs_read_look. exact L.
      + apply fs_read_look in Hb. rewrite <- Hi in Hb. destruct (rm_file w h (side_name o) b0 Tw Fh (fname_side o Fs) Hb) as [_ C].
        pose proof (changes_at _ _ _ _ C) as C'. rewrite <- Hi in L. change (INVENTORY_FILENAME ++ `"." ++ o) with (side_name o) in L. rewrite C' in L. discriminate.
    - apply fs_read_look. rewrite <- L. symmetry. apply (acts_other _ _ _ _ Tw acts_first). intros (o & Eo & _ & E). apply Hi. rewrite Eo. left. auto.
  Qed.

  (** Everything but the root inventory has been written. *)
  Definition late (w' : node) : Prop :=
    exists s3, result (fs_makedir h v) w0 = Ok tt /\ result x2 w1 = Ok tt /\ result x3 w2 = Ok s3 /\
      forall q, ~ (q = h ++ [inv_name] \/ q = h ++ [side_name alg]) -> look w' q = look w3 q.

  Lemma late_facts w' : late w' ->
    (exists b x t, write_text (json_dumps (json_of_inventory (nv_inv nv))) = Ok b /\ digest_of H alg b x /\ write_text (x ++ `" inventory.json" ++ [10%N]) = Ok t /\
       look w' (h ++ [v; inv_name]) = Some (EFile b) /\ look w' (h ++ [v; side_name alg]) = Some (EFile t)) /\
    forall s c, In (s, c) (nv_copy nv) -> exists s' b, In (s', c) (nv_copy nv) /\ fs_read w src s' = Ok b /\ look w' (at_path h c) = Some (EFile b).
  Proof using Tw Fh Fo Hd Fv Vs Vi Cv Hv Cs Ci.
    intros (s3 & Mk & R2 & R3 & Cr4). split.
    - pose proof (dir2 Mk) as D2. destruct (inv_done H alg h (nv_inv nv) v w2 (tree2 Mk) Fh D2 s3 R3) as (b & x & t & Eb & Ex & Et & L1 & L2).
      fold x3 w3 in L1, L2. rewrite (at_path_one h v Fh Fv), <- app_assoc in L1, L2.
      exists b, x, t. split; [exact Eb|]. split; [exact Ex|]. split; [exact Et|]. split; rewrite Cr4; auto; intros [F|F]; apply app_inv_head in F; discriminate F.
    - intros s c Hi. destruct (mkv_done Mk) as [N _].
      destruct (copy_files_done h src v Fh Fv (nv_copy nv) Cv) with (w := w1) (s := s) (c := c) as (s' & b & Hi' & Rb & Lb); [|exact tree1|exact (dir1 Mk)|exact R2|exact Hi|].
      + intros s1 c1 y H1 F. destruct (Cs s1 c1 H1) as [b1 B1]. apply fs_read_look in B1. rewrite F in B1.
        assert (E : look w (h ++ [v]) <> None); [|congruence].
        destruct y as [|k y]; [rewrite B1; discriminate|]. rewrite (look_prefix_dir w (h ++ v :: k :: y) (h ++ [v]) (k :: y)); [discriminate|rewrite B1; discriminate|rewrite <- app_assoc; reflexivity|discriminate].
      + exists s', b. split; [exact Hi'|]. split.
        * apply fs_read_look in Rb. apply first_read; [eapply Cs; eauto|]. rewrite <- Rb. symmetry. apply (acts_other _ _ _ _ first_tree acts_mkv).
          intros F. fold w1 in Rb. rewrite F in Rb. rewrite (dir1 Mk) in Rb. discriminate.
        * destruct (Cv _ _ Hi) as (r & Nr & Fr & ->). destruct (Ci _ _ Hi) as [C1 C2]. rewrite (copy_into_place h v Fh Fv r Fr) in *. fold x2 w2 in Lb.
          assert (Nf : ~ (h ++ v :: r = h ++ [v; inv_name] \/ h ++ v :: r = h ++ [v; side_name alg])).
          { intros [F|F]; apply app_inv_head in F; rewrite F in C1, C2; [now apply C1|now apply C2]. }
          rewrite Cr4; [rewrite <- Lb; exact (acts_other _ _ _ _ (tree2 Mk) (acts3 Mk) Nf)|].
          intros [F|F]; apply app_inv_head in F; apply (f_equal (@List.length _)) in F; destruct r; try discriminate F; now apply Nr.
  Qed.

  (** There are no other files in the directory of the new version. *)
  Lemma late_only w' y b : late w' -> look w' (h ++ v :: y) = Some (EFile b) ->
    y = [inv_name] \/ y = [side_name alg] \/ exists s c, In (s, c) (nv_copy nv) /\ at_path h c = h ++ v :: y.
  Proof using Tw Fh Fo Hd Fv Vs Vi Cv Hv Cs Ci.
    intros (s3 & Mk & R2 & R3 & Cr4) L. rewrite Cr4 in L.
    2:{ intros [F|F]; apply app_inv_head in F; apply (f_equal (hd [])) in F; cbn [hd] in F; [exact (Vi F)|exact (Vs _ F)]. }
    destruct (list_eq_dec (list_eq_dec N.eq_dec) y [inv_name]) as [E1|N1]; [left; exact E1|]. destruct (list_eq_dec (list_eq_dec N.eq_dec) y [side_name alg]) as [E2|N2]; [right; left; exact E2|]. right; right.
    assert (L2 : look w2 (h ++ v :: y) = Some (EFile b)).
    { rewrite <- L. symmetry. apply (acts_other _ _ _ _ (tree2 Mk) (acts3 Mk)). intros [F|F]; apply app_inv_head in F; injection F as F; [exact (N1 F)|exact (N2 F)]. }
    destruct (mkv_done Mk) as [N _].
    destruct (on_way_dec h (nv_copy nv) (h ++ v :: y)) as [(s & c & r & Hi & E)|Hn].
    - destruct r as [|x r]; [rewrite app_nil_r in E; eauto|]. exfalso.
      destruct (copy_files_done h src v Fh Fv (nv_copy nv) Cv) with (w := w1) (s := s) (c := c) as (s' & b' & Hi' & Rb & Lb); [|exact tree1|exact (dir1 Mk)|exact R2|exact Hi|].
      + intros s1 c1 y1 H1 F. destruct (Cs s1 c1 H1) as [b1 B1]. apply fs_read_look in B1. rewrite F in B1.
        assert (E' : look w (h ++ [v]) <> None); [|congruence].
        destruct y1 as [|k y1]; [rewrite B1; discriminate|]. rewrite (look_prefix_dir w (h ++ v :: k :: y1) (h ++ [v]) (k :: y1)); [discriminate|rewrite B1; discriminate|rewrite <- app_assoc; reflexivity|discriminate].
      + fold x2 w2 in Lb. rewrite (look_prefix_dir w2 (at_path h c) (h ++ v :: y) (x :: r)) in L2; [discriminate L2|rewrite Lb; discriminate|exact E|discriminate].
    - exfalso. pose proof (acts_copy_only h src v Fh Fv (nv_copy nv) Cv w1 tree1 (dir1 Mk)) as Ac. unfold w2, x2 in L2. rewrite (acts_other _ _ _ _ tree1 Ac Hn) in L2.
      destruct y as [|k y]; [change (h ++ [v]) with (h ++ [v]) in L2; rewrite (dir1 Mk) in L2; discriminate|].
      unfold w1 in L2. rewrite (acts_other _ _ _ _ first_tree acts_mkv) in L2 by (intros F; apply app_inv_head in F; discriminate F). rewrite first_v in L2.
      rewrite (look_prefix_dir w (h ++ v :: k :: y) (h ++ [v]) (k :: y)) in N; [discriminate|rewrite L2; discriminate|rewrite <- app_assoc; reflexivity|discriminate].
  Qed.

  (** When the root inventory is no longer the old one, everything else is there. *)
  Theorem write_crash w' : crash (write_new_version H alg h src nv) w w' -> look w' (h ++ [inv_name]) <> look w (h ++ [inv_name]) ->
    (exists b x t, write_text (json_dumps (json_of_inventory (nv_inv nv))) = Ok b /\ digest_of H alg b x /\ write_text (x ++ `" inventory.json" ++ [10%N]) = Ok t /\
       look w' (h ++ [v; inv_name]) = Some (EFile b) /\ look w' (h ++ [v; side_name alg]) = Some (EFile t)) /\
    forall s c, In (s, c) (nv_copy nv) -> exists s' b, In (s', c) (nv_copy nv) /\ fs_read w src s' = Ok b /\ look w' (at_path h c) = Some (EFile b).
  Proof using Tw Fh Fo Hd Fv Vs Vi Cv Hv Cs Ci.
    intros Cr Hne. unfold write_new_version in Cr. fold first_part in Cr.
    apply crash_bind in Cr as [Cr|([] & _ & Cr)].
    { exfalso. apply Hne. apply (crash_other _ _ _ _ _ Tw acts_first Cr). intros (o & _ & _ & F). apply app_inv_head in F. apply (f_equal (hd [])) in F. cbn [hd] in F. exact (inv_not_side o F). }
    fold w0 in Cr. apply crash_bind in Cr as [Cr|(v' & Ev & Cr)].
    { exfalso. apply Hne. apply crash_none in Cr; [|reflexivity]. subst w'. apply first_inv. }
    rewrite result_iread in Ev. unfold head_of in Ev. rewrite Hv in Ev. apply Ok_inv in Ev. subst v'. rewrite after_iread in Cr.
    assert (Nv : ~ (h ++ [inv_name] = h ++ [v])).
    { intros F. apply app_inv_head in F. apply (f_equal (hd [])) in F. cbn [hd] in F. exact (Vi (eq_sym F)). }
    assert (Ni : ~ inside (h ++ [inv_name])).
    { intros [y F]. apply app_inv_head in F. apply (f_equal (hd [])) in F. cbn [hd] in F. exact (Vi (eq_sym F)). }
    apply crash_bind in Cr as [Cr|([] & Mk & Cr)].
    { exfalso. apply Hne. rewrite <- first_inv. exact (crash_other _ _ _ _ _ first_tree acts_mkv Cr Nv). }
    fold w1 in Cr. assert (I1 : look w1 (h ++ [inv_name]) = look w (h ++ [inv_name])).
    { rewrite <- first_inv. exact (acts_other _ _ _ _ first_tree acts_mkv Nv). }
    apply crash_bind in Cr as [Cr|([] & R2 & Cr)].
    { exfalso. apply Hne. rewrite <- I1. exact (crash_other _ _ _ _ _ (tree1) (acts2 Mk) Cr Ni). }
    fold x2 w2 in Cr. assert (I2 : look w2 (h ++ [inv_name]) = look w (h ++ [inv_name])).
    { rewrite <- I1. exact (acts_other _ _ _ _ (tree1) (acts2 Mk) Ni). }
    assert (N3 : ~ (h ++ [inv_name] = h ++ [v; inv_name] \/ h ++ [inv_name] = h ++ [v; side_name alg])).
    { intros [F|F]; apply app_inv_head in F; discriminate F. }
    apply crash_bind in Cr as [Cr|(s3 & R3 & Cr)].
    { exfalso. apply Hne. rewrite <- I2. exact (crash_other _ _ _ _ _ (tree2 Mk) (acts3 Mk) Cr N3). }
    fold x3 w3 in Cr. assert (I3 : look w3 (h ++ [inv_name]) = look w (h ++ [inv_name])).
    { rewrite <- I2. exact (acts_other _ _ _ _ (tree2 Mk) (acts3 Mk) N3). }
    assert (Cr4 : forall q, ~ (q = h ++ [inv_name] \/ q = h ++ [side_name alg]) -> look w' q = look w3 q).
    { fold x4 in Cr. apply crash_bind in Cr as [Cr|(s4 & _ & Cr)]; intros q Hq.
      - exact (crash_other _ _ _ _ _ (tree3 Mk) (acts4 Mk) Cr Hq).
      - apply crash_none in Cr; [|reflexivity]. rewrite Cr. exact (acts_other _ _ _ _ (tree3 Mk) (acts4 Mk) Hq). }
    apply late_facts. exists s3. split; [exact Mk|]. split; [exact R2|]. split; [exact R3|exact Cr4].
  Qed.

  (** When all went well, also the root inventory. *)
  Theorem write_done r : result (write_new_version H alg h src nv) w = Ok r -> let w' := after (write_new_version H alg h src nv) w in
    look w (h ++ [v]) = None /\
    (exists b x t, write_text (json_dumps (json_of_inventory (nv_inv nv))) = Ok b /\ digest_of H alg b x /\ write_text (x ++ `" inventory.json" ++ [10%N]) = Ok t /\
       look w' (h ++ [v; inv_name]) = Some (EFile b) /\ look w' (h ++ [v; side_name alg]) = Some (EFile t) /\
       look w' (h ++ [inv_name]) = Some (EFile b) /\ look w' (h ++ [side_name alg]) = Some (EFile t)) /\
    (forall s c, In (s, c) (nv_copy nv) -> exists s' b, In (s', c) (nv_copy nv) /\ fs_read w src s' = Ok b /\ look w' (at_path h c) = Some (EFile b)) /\
    (forall y b, look w' (h ++ v :: y) = Some (EFile b) -> y = [inv_name] \/ y = [side_name alg] \/ exists s c, In (s, c) (nv_copy nv) /\ at_path h c = h ++ v :: y).
  Proof using Tw Fh Fo Hd Fv Vs Vi Cv Hv Cs Ci.
    intros R w'. unfold write_new_version in R, w'. fold first_part in R, w'.
    pose proof R as K. apply seq_ok in K as ([] & R0 & K & A0). unfold w'. rewrite A0. fold w0 in K |- *. clear R A0.
    apply seq_ok in K as (v' & R1 & K & A1). rewrite A1. rewrite result_iread in R1. unfold head_of in R1. rewrite Hv in R1. apply Ok_inv in R1. subst v'. rewrite after_iread in K |- *. clear A1.
    apply seq_ok in K as ([] & Mk & K & A2). rewrite A2. fold w1 in K |- *. fold x2 in K |- *. clear A2.
    apply seq_ok in K as ([] & R2 & K & A3). rewrite A3. fold w2 in K |- *. fold x3 in K |- *. clear A3.
    apply seq_ok in K as (s3 & R3 & K & A4). rewrite A4. fold w3 in K |- *. fold x4 in K |- *. clear A4.
    apply seq_ok in K as (s4 & R4 & _ & A5). rewrite A5. clear A5. change (after (iret (nv_inv nv)) (after x4 w3)) with (after x4 w3).
    assert (E : at_path h [] = h) by (rewrite <- (app_nil_r h) at 2; apply (at_path_join h []); auto).
    assert (Lt : late (after x4 w3)).
    { exists s3. split; [exact Mk|]. split; [exact R2|]. split; [exact R3|]. intros q Hq. exact (acts_other _ _ _ _ (tree3 Mk) (acts4 Mk) Hq). }
    destruct (late_facts _ Lt) as [(b & x & t & Eb & Ex & Et & L1 & L2) Lc].
    split; [apply (mkv_done Mk)|]. split; [|split; [exact Lc|intros y b0; apply late_only; exact Lt]]. exists b, x, t. split; [exact Eb|]. split; [exact Ex|]. split; [exact Et|]. split; [exact L1|]. split; [exact L2|].
    destruct (inv_done H alg h (nv_inv nv) [] w3 (tree3 Mk) Fh (dir3 Mk) s4 R4) as (b' & x' & t' & Eb' & Ex' & Et' & L3 & L4).
    assert (b' = b) by congruence. subst b'. assert (x' = x) by (apply file_digest_iff in Ex, Ex'; congruence). subst x'. assert (t' = t) by congruence. subst t'.
    rewrite E in L3, L4. auto.
  Qed.
End Write.
