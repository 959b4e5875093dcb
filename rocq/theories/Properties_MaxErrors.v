(** C99 the limit for the errors that are recorded *)
From Verif Require Import Base Log DigestModel InventoryModel ParseModel FsModel FsSpec FsProofs FswModel ValidatorModel ObjectModel ObjectExamples StorageRootModel
  StorageRootSpec StorageRootProofs StorageRootRunProofs ToolModel Properties_StorageRoot MaxErrorsModel.
From Verif Require Import Properties_Layout Properties_Object Properties_StorageRoot.
From Coq Require Import Lia.

(** * What is recorded *)

(** the entry for one object: its path and what was logged for it, if anything was *)
Definition entry_for (H : hashfn) (c : vconf) (lw : bool) (w : node) (h : place) (p : str) : list (str * list Log.entry) :=
  match filter (fun x => is_error x || lw) (fst (validate_opened H c w (at_path h p) 0)) with [] => [] | m => [(p, m)] end.

Lemma recorded H e check lw me w h lax l : forall n g er, (List.length er <= me)%nat ->
  snd (fold_left (count_step H e check lw me w h lax) l (n, g, er)) = firstn me (er ++ flat_map (entry_for H (root_vconf e lax check) lw w h) l).
Proof.
  induction l as [|p l IH]; intros n g er Le; cbn [fold_left flat_map].
  - cbn [snd]. rewrite app_nil_r. symmetry. now apply firstn_all2.
  - unfold count_step at 2, entry_for at 1. destruct (validate_opened H (root_vconf e lax check) w (at_path h p) 0) as [log r]. cbn [fst].
    destruct (Nat.ltb_spec (List.length er) me) as [Lt|Ge].
    + destruct (filter _ log) as [|m ms]; rewrite IH; auto.
      * now rewrite <- app_assoc.
      * rewrite app_length. cbn. lia.
    + assert (E : List.length er = me) by lia. rewrite IH by auto. rewrite !firstn_app, E, Nat.sub_diag. reflexivity.
Qed.

Section C99.
  Variables (H : hashfn) (e : env) (check log_warnings : bool) (max_errors : nat) (w : node) (s : sroot) (r : str).
  Let h := at_path (base_of (e_cwd e) r) r.
  (** an instance that has not been used *)
  Hypothesis Fresh : s_root s = Some r /\ s_fs s = None /\ s_layout s = None /\ s_spec s = None /\ s_num_traversal_errors s = 0%nat.
  Hypothesis Place : tree w /\ no_url r /\ look w h = Some EDir.
  Let run n := validate H e true check log_warnings n s w.
  Let structure := exists v lay, root_declared w h v /\ layout_described H w h lay.
  Let c := root_vconf e (s_lax s) check.

  (** The messages recorded are those of the objects in some order, each once, up to the limit;
      an object without messages is left out. *)
  Theorem C99_recorded s' b : run max_errors = ([], Ok (s', Ok b)) -> structure ->
    exists l, NoDup l /\ (forall p, In p l <-> exists rel, p = J rel /\ object_root w h rel) /\
      s_errors s' = firstn max_errors (flat_map (entry_for H c log_warnings w h) l).
  Proof.
    intros R S. assert (A : forall rel, object_root w h rel -> exists b, snd (validate_opened H c w (h ++ rel) 0) = Ok b).
    { intros rel O. destruct (snd (validate_opened H c w (h ++ rel) 0)) as [b0|x] eqn:E; [eauto|].
      destruct (run_raises H e check log_warnings max_errors w s r Fresh Place rel x S O E) as (s2 & y & R2). unfold run in R. rewrite R in R2. discriminate. }
    destruct S as (v & lay & D & Lay). pose proof Fresh as (F1 & F2 & F3 & F4 & F5). pose proof Place as (T & P1 & P2).
    set (s1 := set_fs (Some h) (set_log (Some []) s)).
    destruct (structure_ok H w h s1 v lay T P2 eq_refl F3 D Lay (or_introl F4)) as [n E].
    unfold run in R. rewrite (run_eq H e check log_warnings max_errors w s r Fresh Place), (scatch_eq w _ _ _ _ _ E) in R.
    set (s2 := set_layout lay (set_layout_name n (set_spec (Some v) s1))) in *.
    destruct (hierarchy_ok H e check log_warnings max_errors w h (s_lax s) s2 T P2 eq_refl eq_refl) as (s3 & l & E3 & _ & N & I & _); [discriminate| |].
    { intros rel O. destruct (A rel O) as [b0 Eb]. exists b0. rewrite <- Eb. now apply answers_at. }
    rewrite (sbind_ok _ _ _ _ _ _ E3), smodify_ok, sget_ok in R. injection R as <- _.
    exists l. split; [exact N|]. split; [exact I|]. cbn [s_errors set_counts].
    apply (recorded H e check log_warnings max_errors w h (s_lax s) l 0%nat 0%nat []). cbn. lia.
  Qed.

  Theorem C99_at_most s' b : run max_errors = ([], Ok (s', Ok b)) -> structure -> (List.length (s_errors s') <= max_errors)%nat.
  Proof. intros R S. destruct (C99_recorded s' b R S) as (l & _ & _ & ->). rewrite firstn_length. lia. Qed.
End C99.
Print Assumptions C99_recorded.
Print Assumptions C99_at_most.

(** * The limit has no influence on anything else *)

Definition related {A} (S S' : sroot -> sroot -> Prop) (R : A -> A -> Prop) (x y : st A) : Prop := forall s t w, S s t ->
  fst (x s w) = fst (y t w) /\
  match snd (x s w), snd (y t w) with
  | Ok (s', Ok a), Ok (t', Ok b) => S' s' t' /\ R a b
  | Ok (s', Raise k), Ok (t', Raise k') => S' s' t' /\ k = k'
  | Raise k, Raise k' => k = k'
  | _, _ => False
  end.

Lemma related_bind {A B} (S S' S'' : sroot -> sroot -> Prop) (R : A -> A -> Prop) (R' : B -> B -> Prop) (x y : st A) (f g : A -> st B) :
  related S S' R x y -> (forall a b, R a b -> related S' S'' R' (f a) (g b)) -> (forall s t, S' s t -> S'' s t) -> related S S'' R' (sbind x f) (sbind y g).
Proof.
  intros Hx Hf Hs s t w Hst. destruct (Hx s t w Hst) as [E1 E2]. unfold sbind, ibind.
  destruct (x s w) as [l [[s1 [a|k]]|k]], (y t w) as [l' [[t1 [b|k']]|k']]; cbn [fst snd] in *; subst; try contradiction.
  - destruct E2 as [Hs1 Hab]. destruct (Hf a b Hab s1 t1 (apply_all l' w) Hs1) as [F1 F2].
    destruct (f a s1 (apply_all l' w)) as [l1 q1], (g b t1 (apply_all l' w)) as [l2 q2]. cbn [fst snd] in *. subst. auto.
  - destruct E2 as [Hs1 ->]. cbn. auto.
  - cbn. auto.
Qed.
Lemma related_refl {A} (x : st A) : related eq eq eq x x.
Proof. intros s t w ->. split; [reflexivity|]. destruct (snd (x t w)) as [[s1 [a|k]]|k]; auto. Qed.
Lemma related_ret {A} (R : A -> A -> Prop) S a b : R a b -> related S S R (sret a) (sret b).
Proof. intros Hab s t w Hst. split; [reflexivity|]. cbn. auto. Qed.

Lemma related_fold {A} (R : A -> A -> Prop) (f g : A -> str -> st A) l :
  (forall a b p, R a b -> related eq eq R (f a p) (g b p)) -> forall a b, R a b -> related eq eq R (sfold f a l) (sfold g b l).
Proof.
  intros Hf. induction l as [|[p|k|k] l IH]; intros a b Hab; cbn [sfold].
  - now apply related_ret.
  - apply (related_bind eq eq eq R); auto.
  - apply (related_bind eq eq eq eq); auto. apply related_refl.
  - apply (related_bind eq eq eq eq); auto. apply related_refl.
Qed.

(** the same but for what is recorded *)
Definition same_counts (a b : nat * nat * list (str * list Log.entry)) : Prop := fst a = fst b.
Definition same_but_errors (s t : sroot) : Prop :=
  s_root s = s_root t /\ s_layout_name s = s_layout_name t /\ s_layout s = s_layout t /\ s_lax s = s_lax t /\ s_spec s = s_spec t /\ s_fs s = s_fs t /\
  s_log s = s_log t /\ s_num_traversal_errors s = s_num_traversal_errors t /\ s_num_objects s = s_num_objects t /\ s_good_objects s = s_good_objects t.

Lemma related_hierarchy H e vo check lw n m :
  related eq eq same_counts (validate_hierarchy H e vo check lw n) (validate_hierarchy H e vo check lw m).
Proof.
  unfold validate_hierarchy, for_objects. apply (related_bind eq eq eq eq); auto; [apply related_refl|]. intros h h' <-.
  apply (related_bind eq eq eq eq); auto; [apply related_refl|]. intros f f' <-.
  apply (related_bind eq eq eq same_counts); auto.
  - apply related_fold; [|reflexivity]. intros [[a1 a2] a3] [[b1 b2] b3] p Hab. unfold same_counts in Hab. cbn [fst] in Hab. injection Hab as <- <-.
    destruct (negb vo); [now apply related_ret|].
    apply (related_bind eq eq eq eq); auto; [apply related_refl|]. intros h1 h1' <-.
    apply (related_bind eq eq eq eq); auto; [apply related_refl|]. intros s1 s1' <-.
    apply (related_bind eq eq eq eq); auto; [apply related_refl|]. intros [log ok] r' <-. now apply related_ret.
  - intros a b Hab. apply (related_bind eq eq eq eq); auto; [apply related_refl|]. intros _ _ _. now apply related_ret.
Qed.

(** Whatever the limit, the same is answered (or raised), the numbers of objects and all else in
    the instance but the recorded errors are the same, and nothing else is done. *)
Theorem C99_same : forall H e vo check lw n m s w,
  let x := validate H e vo check lw n s w in let y := validate H e vo check lw m s w in
  fst x = fst y /\
  match snd x, snd y with
  | Ok (s', a), Ok (t', b) => a = b /\ same_but_errors s' t'
  | Raise k, Raise k' => k = k'
  | _, _ => False
  end.
Proof.
  intros H e vo check lw n m s w.
  assert (Eq : forall s t : sroot, s = t -> same_but_errors s t) by (intros u t ->; repeat split).
  assert (K : related eq same_but_errors eq (validate H e vo check lw n) (validate H e vo check lw m)).
  { unfold validate. apply (related_bind eq eq same_but_errors eq); auto; [apply related_refl|]. intros _ _ _.
    apply (related_bind eq eq same_but_errors eq); auto; [apply related_refl|]. intros _ _ _.
    assert (T : related eq same_but_errors eq
      (use r <- validate_hierarchy H e vo check lw n ;; use _ <- smodify (set_counts (fst (fst r)) (snd (fst r)) (snd r)) ;; use s <- sget ;; sret (negb (Nat.ltb 0 (s_num_traversal_errors s))))
      (use r <- validate_hierarchy H e vo check lw m ;; use _ <- smodify (set_counts (fst (fst r)) (snd (fst r)) (snd r)) ;; use s <- sget ;; sret (negb (Nat.ltb 0 (s_num_traversal_errors s))))).
    { apply (related_bind eq eq same_but_errors same_counts); auto; [apply related_hierarchy|]. intros [[a1 a2] a3] [[b1 b2] b3] Hab. unfold same_counts in Hab. cbn [fst] in Hab. injection Hab as <- <-.
      intros s0 t0 w0 <-. cbn. repeat split. }
    intros s0 t0 w0 <-. unfold scatch_root, ibind. destruct (check_root_structure H s0 w0) as [l [[s1 [a|k]]|k]]; cbn [fst snd].
    - destruct (T s1 s1 (apply_all l w0) eq_refl) as [T1 T2].
      destruct ((use r <- validate_hierarchy H e vo check lw n ;; _) s1 (apply_all l w0)) as [l1 q1]. 
      destruct ((use r <- validate_hierarchy H e vo check lw m ;; _) s1 (apply_all l w0)) as [l2 q2]. cbn [fst snd] in *. subst. auto.
    - destruct k; cbn; repeat split.
    - auto. }
  intros x y. destruct (K s s w eq_refl) as [K1 K2]. fold x y in K1, K2. split; [exact K1|].
  destruct (snd x) as [[s' [a|k]]|k], (snd y) as [[t' [b|k']]|k']; try contradiction; destruct K2; subst; auto.
Qed.
Print Assumptions C99_same.

(** * The option of ocfl-root.py *)

Lemma related_max H e vo check lw n :
  related eq eq eq (validate_hierarchy_max H e vo check lw (LNumber n)) (validate_hierarchy H e vo check lw n).
Proof.
  unfold validate_hierarchy, validate_hierarchy_max, for_objects. apply (related_bind eq eq eq eq); auto; [apply related_refl|]. intros h h' <-.
  apply (related_bind eq eq eq eq); auto; [apply related_refl|]. intros f f' <-.
  apply (related_bind eq eq eq eq); auto.
  - apply related_fold; [|reflexivity]. intros [[a1 a2] a3] b p <-. destruct (negb vo); [now apply related_ret|].
    apply (related_bind eq eq eq eq); auto; [apply related_refl|]. intros h1 h1' <-.
    apply (related_bind eq eq eq eq); auto; [apply related_refl|]. intros s1 s1' <-.
    apply (related_bind eq eq eq eq); auto; [apply related_refl|]. intros [log ok] r' <-. intros s0 t0 w0 <-. cbn. auto.
  - intros a b <-. apply related_refl.
Qed.

(** With a number it is the method above, for every number. *)
Theorem C99_number : forall H e vo check lw n s w, validate_max H e vo check lw (LNumber n) s w = validate H e vo check lw n s w.
Proof.
  intros H e vo check lw n s w. assert (X : forall (x y : st bool), related eq eq eq x y -> forall s w, x s w = y s w).
  { intros x y R s0 w0. destruct (R s0 s0 w0 eq_refl) as [R1 R2]. destruct (x s0 w0) as [l [[s1 [a|k]]|k]], (y s0 w0) as [l' [[t1 [b|k']]|k']]; cbn [fst snd] in *; try contradiction; destruct R2; subst; reflexivity. }
  apply X. unfold validate_max, validate. apply (related_bind eq eq eq eq); auto; [apply related_refl|]. intros _ _ _.
  apply (related_bind eq eq eq eq); auto; [apply related_refl|]. intros _ _ _.
  intros s0 t0 w0 <-. unfold scatch_root, ibind. destruct (check_root_structure H s0 w0) as [l [[s1 [a|k]]|k]]; cbn [fst snd]; [|destruct k; cbn; auto|auto].
  match goal with |- context [(use r <- validate_hierarchy_max H e vo check lw (LNumber n) ;; @?f r) s1 _] =>
    assert (T : related eq eq eq (use r <- validate_hierarchy_max H e vo check lw (LNumber n) ;; f r) (use r <- validate_hierarchy H e vo check lw n ;; f r)) end.
  { apply (related_bind eq eq eq eq); auto; [apply related_max|]. intros r0 r1 <-. apply related_refl. }
  rewrite (X _ _ T). match goal with |- context [(use r <- validate_hierarchy H e vo check lw n ;; _) s1 ?w1] => destruct ((use r <- validate_hierarchy H e vo check lw n ;; use _ <- smodify (set_counts (fst (fst r)) (snd (fst r)) (snd r)) ;;
    use s <- sget ;; sret (negb (Nat.ltb 0 (s_num_traversal_errors s)))) s1 w1) as [l1 [[s2 [b|k]]|k]] end; cbn; auto.
Qed.
Print Assumptions C99_number.

(** If the option is not given, it is the program of C74. *)
Theorem C99_default : forall H e quiet vo check s w, root_tool_validate_max H e quiet vo check None s w = root_tool_validate H e quiet vo check s w.
Proof. intros H e quiet vo check s w. unfold root_tool_validate_max, root_tool_validate. now rewrite C99_number. Qed.
Print Assumptions C99_default.

Lemma fold_raises {A} (P : sroot -> Prop) (body : A -> str -> st A) w k :
  (forall s n lg, P s -> P (set_traversal_errors n (set_log lg s))) -> (forall s lg, P s -> P (set_log lg s)) ->
  forall l, (forall a p s, P s -> In p (objects l) -> exists s', body a p s w = ([], Ok (s', Raise k))) -> objects l <> [] ->
  forall a s, P s -> s_log s <> None -> exists s', sfold body a l s w = ([], Ok (s', Raise k)).
Proof.
  intros K1 K2. induction l as [|f l IH]; intros B Hn a s Ps Hl; [now destruct Hn|]. destruct f as [q|c|c]; cbn [sfold].
  - destruct (B a q s Ps) as [s1 E]; [left; reflexivity|]. exists s1. now apply sbind_raise.
  - unfold traversal_error. rewrite smodify_ok. apply IH; auto. cbn. destruct (s_log s); [discriminate|congruence].
  - destruct (s_log s) as [lg|] eqn:El; [|congruence].
    assert (E : log_warning c s w = ([], Ok (set_log (Some (lg ++ [LWarning c])) s, Ok tt))) by (unfold log_warning; rewrite sget_ok, El; reflexivity).
    rewrite (sbind_ok _ _ _ _ _ _ E). apply IH; auto. discriminate.
Qed.

(** If it is given, whatever its value, and there is an object to validate, then the program ends
    with TypeError. *)
Theorem C99_option : forall H e quiet check t s w r,
  let h := at_path (base_of (e_cwd e) r) r in
  s_root s = Some r /\ s_fs s = None /\ s_layout s = None /\ s_spec s = None /\ s_num_traversal_errors s = 0%nat ->
  tree w /\ no_url r /\ look w h = Some EDir ->
  (exists v lay, root_declared w h v /\ layout_described H w h lay) ->
  (exists rel, object_root w h rel) ->
  (forall rel, object_root w h rel -> exists b, snd (validate_opened H (root_vconf e (s_lax s) check) w (h ++ rel) 0) = Ok b) ->
  root_tool_validate_max H e quiet true check (Some t) s w = Raise TypeError.
Proof.
  intros H e quiet check t s w r h (F1 & F2 & F3 & F4 & F5) (T & P1 & P2) (v & lay & D & Lay) [rel0 O0] A.
  unfold root_tool_validate_max, validate_max. set (s1 := set_fs (Some h) (set_log (Some []) s)).
  destruct (structure_ok H w h s1 v lay T P2 eq_refl F3 D Lay (or_introl F4)) as [n E].
  rewrite smodify_ok, (open_root_ok e _ _ w r) by auto. fold h s1. rewrite (scatch_eq w _ _ _ _ _ E).
  set (s2 := set_layout lay (set_layout_name n (set_spec (Some v) s1))).
  assert (X : exists s3, validate_hierarchy_max H e true check (negb quiet) (LText t) s2 w = ([], Ok (s3, Raise TypeError))).
  { unfold validate_hierarchy_max, for_objects. cbn [negb]. destruct (find_objects_ok w h T P2) as (l & El & _ & Ho & _).
    rewrite (root_fs_ok _ s2 _ h eq_refl). rewrite (sread_ok _ _ _ _ (l, Ok tt)) by (now rewrite El). cbn [fst snd].
    match goal with |- exists s3, sbind (sfold ?body ?z l) ?k s2 w = _ => destruct (fold_raises (fun s0 => s_fs s0 = Some h /\ s_lax s0 = s_lax s) body w TypeError) with (l := l) (a := z) (s := s2) as [s3 E3] end; auto.
    - intros [[n0 g0] er] p s0 [A1 A2] Hp. apply Ho in Hp as (rel & -> & O). destruct (A rel O) as [b Eb].
      rewrite (root_fs_ok _ _ _ h A1), sget_ok, A2. unfold fsw_opendir_as_fs. rewrite (object_path_place w h rel T O).
      destruct (validate_opened H (root_vconf e (s_lax s) check) w (h ++ rel) 0) as [log q] eqn:Ev. cbn [snd] in Eb. subst q.
      rewrite (sread_ok _ _ _ _ (log, b)) by (rewrite Ev; reflexivity). exists s0. reflexivity.
    - intros N. assert (K : In (J rel0) (objects l)) by (apply Ho; eauto). rewrite N in K. exact K.
    - discriminate.
    - exists s3. now apply sbind_raise. }
  destruct X as [s3 X]. erewrite sbind_raise by exact X. reflexivity.
Qed.
Print Assumptions C99_option.

(** So a storage root that is valid with all its objects is not reported as such. *)
Definition ex_full : node := ex_root [(`"a", Dir [(`"b", ex_good); (`"c", Dir [(`"d", ex_good)])])].
Theorem C99_option_refuted : exists w, tree w /\
  root_tool_validate_max toy_hash ex_env true true true None ex_sroot w = Ok true /\
  root_tool_validate_max toy_hash ex_env true true true (Some (`"5")) ex_sroot w = Raise TypeError.
Proof. exists ex_full. split; [apply tree_b_ok; vm_compute; reflexivity|]. split; vm_compute; reflexivity. Qed.
Print Assumptions C99_option_refuted.

(** ** A case: two of three invalid objects are recorded *)
Definition ex_three : node := ex_root [(`"a", ex_bad); (`"b", ex_good); (`"c", ex_bad); (`"d", ex_bad)].
Example C99_ex : exists s', validate toy_hash ex_env true true false 2 ex_sroot ex_three = ([], Ok (s', Ok true)) /\
  List.length (s_errors s') = 2%nat /\ map fst (s_errors s') <> [] /\ s_num_objects s' = 4%nat /\ s_good_objects s' = 1%nat /\
  (s_root ex_sroot = Some (`"r") /\ s_fs ex_sroot = None /\ s_layout ex_sroot = None /\ s_spec ex_sroot = None /\ s_num_traversal_errors ex_sroot = 0%nat) /\
  look ex_three (at_path (base_of (e_cwd ex_env) (`"r")) (`"r")) = Some EDir.
Proof. eexists. split; [vm_compute; reflexivity|]. split; [reflexivity|]. split; [discriminate|]. repeat split. Qed.
