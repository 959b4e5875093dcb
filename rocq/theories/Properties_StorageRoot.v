(** C49, C50: listing and validating storage roots. *)
From Verif Require Import Base Unicode Regex Utf8 Json PyJson JsonTextModel Log DigestModel LayoutModel ContentPathProofs TextFile PathModel FsModel FsSpec FsProofs FswModel FswSpec FswProofs FswCopyProofs
  NamasteModel NamasteSpec NamasteProofs Properties_Fsw ValidatorSpec ValidatorModel ValidatorBasicProofs ValidatorContentProofs ObjectModel ObjectExamples Properties_Layout Properties_Object StorageRootModel StorageRootSpec StorageRootProofs StorageRootRunProofs.
From Verif Require Properties_Validator Properties_ObjectFindings.

(** * Storage roots to look at *)
Definition ex_declaration : list (str * node) := [(`"0=ocfl_1.1", File (`"ocfl_1.1" ++ [10]))].
Definition ex_layout_file : node := File (`"{""extension"": ""0003-hash-and-id-n-tuple-storage-layout"", ""description"": ""d""}").
Definition ex_good : node := match get Properties_Validator.ex_object [`"o"] with Ok n => n | Raise _ => Other end.
(** no inventory *)
Definition ex_bad : node := Dir [(`"0=ocfl_object_1.1", File (`"ocfl_object_1.1" ++ [10]))].
Definition ex_root (l : list (str * node)) : node := Dir [(`"r", Dir (ex_declaration ++ l))].
Definition ex_sroot : sroot := mk_sroot (Some (`"r")) None None false None None None 0 0 0 [].
Definition ex_open : sroot := set_fs (Some [`"r"]) ex_sroot.
Definition ex_full : node := ex_root [(`"ocfl_layout.json", ex_layout_file); (`"extensions", Dir [(`"0003-hash-and-id-n-tuple-storage-layout", Dir [(`"x", File [])])]);
  (`"a", Dir [(`"b", ex_good); (`"c", Dir [(`"d", ex_good)])])].
Lemma ex_full_tree : tree ex_full. Proof. apply tree_b_ok. vm_compute. reflexivity. Qed.

(** What a method returns, and the state of the instance after it *)
Definition returned {A} (x : list step * exc (sroot * exc A)) : exc A := match snd x with Ok (_, r) => r | Raise e => Raise e end.

(** * C49 *)

(** Objects are found in the directories below the root with one declaration only, which is
    of a supported version, that are not in extensions/ and not below a directory with
    files, each once; they are never nested. Partial: there must be a log, or no directory of
    an unknown extension; and some names are declarations that should not be, see below. *)
Theorem C49_partial : forall w h s, tree w -> look w h = Some EDir -> s_fs s = Some h -> (s_log s <> None \/ known_extensions w h) ->
  exists s' l, object_paths s w = ([], Ok (s', Ok l)) /\ NoDup l /\
    (forall p, In p l <-> exists rel, p = J rel /\ object_root w h rel) /\
    (forall p q, In p l -> In (p ++ [slash] ++ q) l -> False) /\
    (forall p, In p l -> startswith (`"extensions/") (p ++ [slash]) = false) /\
    (s_num_traversal_errors s' = s_num_traversal_errors s <-> tidy w h).
Proof.
  intros w h s Hw Hl Hs Hlog.
  destruct (for_objects_ok (fun s => s_fs s = Some h) (fun a p => sret (a ++ [p])) (fun a p => a ++ [p]) w h [] s Hw Hl Hs) as (s' & l & E & _ & N & I & T & _); auto.
  { intros a rel s0 A _. exists s0. auto. }
  assert (Ef : forall (l a : list str), fold_left (fun a p => a ++ [p]) l a = a ++ l).
  { induction l0 as [|x l0 IH]; intros a; cbn [fold_left]; [now rewrite app_nil_r|]. rewrite IH, <- app_assoc. reflexivity. }
  rewrite Ef in E. cbn [app] in E.
  assert (F : forall rel, object_root w h rel -> Forall fname rel /\ rel <> []).
  { intros rel ((Hn & _ & L & _) & _). split; [|exact Hn]. assert (F : Forall fname (h ++ rel)) by (eapply look_fnames; [exact Hw|rewrite L; discriminate]). apply Forall_app in F. apply F. }
  exists s', l. split; [exact E|]. split; [exact N|]. split; [exact I|]. split; [|split; [|exact T]].
  - intros p q Hp Hq. apply I in Hp as (rel & -> & Hr). apply I in Hq as (rel' & Eq & Hr'). destruct (F rel Hr) as [F1 N1], (F rel' Hr') as [F2 N2].
    assert (Er : rel' = rel ++ split_on slash q).
    { rewrite <- (split_fnames rel') by auto. rewrite <- Eq. cbn [app]. rewrite split_on_app_gen. f_equal. now apply split_fnames. }
    destruct (split_on slash q) as [|c r] eqn:Es; [now apply split_on_nonnil in Es|]. destruct Hr' as ((_ & _ & _ & A) & _). destruct Hr as (_ & d & _ & L & _). apply (A rel c r Er N1). exists d. exact L.
  - intros p Hp. apply I in Hp as (rel & -> & Hr). destruct (F rel Hr) as [F1 N1]. destruct Hr as ((_ & X & _) & _). destruct (startswith (`"extensions/") (J rel ++ [slash])) eqn:E1; [|reflexivity]. exfalso.
    apply startswith_app in E1 as [t E1]. apply X. destruct rel as [|a rel]; [congruence|]. cbn [hd]. assert (Es : split_on slash (J (a :: rel) ++ slash :: []) = split_on slash (`"extensions" ++ slash :: t)) by (f_equal; exact E1).
    rewrite !split_on_app_gen in Es. rewrite (split_fnames (a :: rel)) in Es by auto. change (split_on slash (`"extensions")) with [`"extensions"] in Es. cbn [app] in Es. injection Es as Es _. exact Es.
Qed.
Print Assumptions C49_partial.
Example C49_partial_ex : tree ex_full /\ look ex_full [`"r"] = Some EDir /\ s_fs ex_open = Some [`"r"] /\ known_extensions ex_full [`"r"] /\
  returned (object_paths ex_open ex_full) = Ok [`"a/b"; `"a/c/d"].
Proof.
  split; [apply ex_full_tree|]. split; [reflexivity|]. split; [reflexivity|]. split; [|vm_compute; reflexivity].
  intros k L. destruct (find_objects_ok ex_full [`"r"] ex_full_tree eq_refl) as (l & E & _ & _ & _ & W). assert (Wn : warnings l = []) by (change l with (fst (l, @Ok unit tt)); rewrite <- E; vm_compute; reflexivity).
  now apply W.
Qed.

(** The pattern for declarations has no end: other text may follow. *)
Theorem C49_declaration_refuted : exists w d, tree w /\ look w [`"r"; `"a"; d] <> None /\ (forall v, d <> `"0=ocfl_object_" ++ v \/ ~ In v [`"1.0"; `"1.1"]) /\
  returned (object_paths ex_open w) = Ok [`"a"].
Proof.
  exists (ex_root [(`"a", Dir [(`"0=ocfl_object_1.0.old", File [])])]), (`"0=ocfl_object_1.0.old"). split; [apply tree_b_ok; reflexivity|]. split; [discriminate|]. split; [|vm_compute; reflexivity].
  intros v. destruct (str_eqb_spec v (`"1.0")) as [->|]; [left; discriminate|]. destruct (str_eqb_spec v (`"1.1")) as [->|]; [left; discriminate|]. right. intros [A|[A|[]]]; congruence.
Qed.
Print Assumptions C49_declaration_refuted.

(** Without a log (validate has not been used) a directory of an unknown extension ends the
    listing with an exception; this is so for a storage root with the layout
    nnnn-uuid-quadtree, as initialize makes it. *)
Theorem C49_unlogged : forall w h s, tree w -> look w h = Some EDir -> s_fs s = Some h -> s_log s = None ->
  ~ known_extensions w h -> exists s', object_paths s w = ([], Ok (s', Raise AttributeError)).
Proof.
  intros w h s Hw Hl Hs Hlog Hk. destruct (find_objects_ok w h Hw Hl) as (l & E & _ & _ & _ & W).
  destruct (sfold_no_log (fun a p => sret (a ++ [p])) w l) with (a := @nil str) (s := s) as [s' E']; [intros a p s0 L0; exists s0, (a ++ [p]); auto|exact Hlog|intros A; apply Hk; now apply W|].
  exists s'. unfold object_paths, for_objects. rewrite (root_fs_ok _ _ _ h Hs). rewrite (sread_ok _ _ _ _ (l, Ok tt)) by (now rewrite E). cbn [fst snd]. now apply sbind_raise.
Qed.
Print Assumptions C49_unlogged.
Definition ex_unknown : node := ex_root [(`"a", ex_good); (`"extensions", Dir [(`"nnnn-uuid-quadtree", Dir [])])].
Theorem C49_unlogged_refuted : exists w h s, tree w /\ look w h = Some EDir /\ s_fs s = Some h /\ object_root w h [`"a"] /\ returned (object_paths s w) = Raise AttributeError.
Proof.
  exists ex_unknown, [`"r"], ex_open. assert (T : tree ex_unknown) by (apply tree_b_ok; vm_compute; reflexivity). split; [exact T|]. split; [reflexivity|]. split; [reflexivity|]. split; [|vm_compute; reflexivity].
  destruct (find_objects_ok ex_unknown [`"r"] T eq_refl) as (l & E & _ & I & _). assert (Hi : In (`"a") (objects l)).
  { change l with (fst (l, @Ok unit tt)). rewrite <- E. vm_compute. auto. }
  apply I in Hi as (rel & Er & Hr).
  destruct Hr as ((Hn & X & L & Y) & Z). assert (F : Forall fname ([`"r"] ++ rel)) by (eapply look_fnames; [exact T|rewrite L; discriminate]). apply Forall_app in F as [_ F].
  assert (rel = [`"a"]) as -> by (rewrite <- (split_fnames rel) by auto; rewrite <- Er; reflexivity). split; [split; [exact Hn|]; split; [exact X|]; split; [exact L|exact Y]|exact Z].
Qed.
Print Assumptions C49_unlogged_refuted.

(** * C50 *)

Section C50.
  Variables (H : hashfn) (e : env) (check log_warnings : bool) (max_errors : nat) (w : node) (s : sroot) (r : str).
  Let h := at_path (base_of (e_cwd e) r) r.
  (** an instance that has not been used *)
  Hypothesis Fresh : s_root s = Some r /\ s_fs s = None /\ s_layout s = None /\ s_spec s = None /\ s_num_traversal_errors s = 0%nat.
  Hypothesis Place : tree w /\ no_url r /\ look w h = Some EDir.
  Let run := validate H e true check log_warnings max_errors s w.
  Let valid rel := snd (validate_opened H (root_vconf e (s_lax s) check) w (h ++ rel) 0) = Ok true.

  Let structure := exists v lay, root_declared w h v /\ layout_described H w h lay.
  Let c := root_vconf e (s_lax s) check.
  Let answered := forall rel, object_root w h rel -> exists b, snd (validate_opened H c w (h ++ rel) 0) = Ok b.

  Lemma scatch_eq {A} (x : st A) ok s0 s1 q : x s0 w = ([], Ok (s1, q)) -> scatch_root x ok s0 w =
    match q with Ok a => ok a s1 w | Raise (StorageRootException code) => ([], Ok (set_log (option_map (fun l => l ++ [LError code]) (s_log s1)) s1, Ok false)) | Raise x => ([], Ok (s1, Raise x)) end.
  Proof. clear. intros E. unfold scatch_root, ibind. rewrite E. cbn [fst snd apply_all fold_left]. destruct q as [a|x0]; [destruct (ok a s1 w); reflexivity|]. destruct x0; reflexivity. Qed.

  Let s1 := set_fs (Some h) (set_log (Some []) s).
  Lemma run_eq : run = scatch_root (check_root_structure H) (fun _ => use r <- validate_hierarchy H e true check log_warnings max_errors ;; use _ <- smodify (set_counts (fst (fst r)) (snd (fst r)) (snd r)) ;;
      use s <- sget ;; sret (negb (Nat.ltb 0 (s_num_traversal_errors s)))) s1 w.
  Proof. unfold run, validate. rewrite smodify_ok. destruct Fresh as (F1 & _), Place as (_ & P1 & P2). rewrite (open_root_ok e _ _ w r); auto. Qed.

  Lemma answers_at rel : object_root w h rel -> answers H c w h (J rel) = snd (validate_opened H c w (h ++ rel) 0).
  Proof. intros O. unfold answers. destruct Place as (T & _). rewrite (object_path_place w h rel T O). reflexivity. Qed.

  Lemma run_answered : structure -> answered -> exists s' b l, run = ([], Ok (s', Ok b)) /\ (b = true <-> tidy w h) /\
    NoDup l /\ (forall p, In p l <-> exists rel, p = J rel /\ object_root w h rel) /\
    s_num_objects s' = List.length l /\ s_good_objects s' = List.length (filter (fun p => is_true (answers H c w h p)) l).
  Proof.
    intros (v & lay & D & Lay) A. destruct Fresh as (F1 & F2 & F3 & F4 & F5), Place as (T & P1 & P2).
    destruct (structure_ok H w h s1 v lay T P2 eq_refl F3 D Lay (or_introl F4)) as [n E]. rewrite run_eq, (scatch_eq _ _ _ _ _ E).
    set (s2 := set_layout lay (set_layout_name n (set_spec (Some v) s1))).
    destruct (hierarchy_ok H e check log_warnings max_errors w h (s_lax s) s2 T P2 eq_refl eq_refl) as (s3 & l & E3 & _ & N & I & T1 & T2); [discriminate|intros rel O; destruct (A rel O) as [b Eb]; exists b; rewrite <- Eb; now apply answers_at|].
    rewrite (sbind_ok _ _ _ _ _ _ E3), smodify_ok, sget_ok. assert (Z : s_num_traversal_errors s2 = 0%nat) by exact F5. rewrite Z in T1, T2.
    destruct (count_ok H e check log_warnings max_errors w h (s_lax s) l (0%nat, 0%nat, [])) as [C1 C2].
    eexists _, _, l. split; [reflexivity|]. split; [|split; [exact N|split; [exact I|split; [exact C1|exact C2]]]].
    cbn [s_num_traversal_errors set_counts]. rewrite <- T1. destruct (Nat.ltb_spec 0 (s_num_traversal_errors s3)) as [G|G]; cbn [negb]; split; intros X; try discriminate; auto; [rewrite X in G; now apply Nat.lt_irrefl in G|now apply Nat.le_0_r].
  Qed.

  Lemma run_raises rel x : structure -> object_root w h rel -> snd (validate_opened H c w (h ++ rel) 0) = Raise x -> exists s' y, run = ([], Ok (s', Raise y)).
  Proof.
    intros (v & lay & D & Lay) O A. destruct Fresh as (F1 & F2 & F3 & F4 & F5), Place as (T & P1 & P2).
    destruct (structure_ok H w h s1 v lay T P2 eq_refl F3 D Lay (or_introl F4)) as [n E]. rewrite run_eq, (scatch_eq _ _ _ _ _ E).
    set (s2 := set_layout lay (set_layout_name n (set_spec (Some v) s1))).
    destruct (hierarchy_raises H e check log_warnings max_errors w h (s_lax s) s2 rel x T P2 eq_refl eq_refl) as (s3 & y & E3); [discriminate|exact O|rewrite <- A; now apply answers_at|].
    exists s3, y. now apply sbind_raise.
  Qed.

  Lemma run_structure s' : run = ([], Ok (s', Ok true)) -> structure.
  Proof.
    intros R. destruct Fresh as (F1 & F2 & F3 & F4 & F5), Place as (T & P1 & P2). destruct (structure_cases H w h s1 T P2 eq_refl F3) as (s2 & q & E & _ & C).
    rewrite run_eq, (scatch_eq _ _ _ _ _ E) in R. destruct q as [b|x]; [|destruct x; discriminate]. destruct (C b eq_refl) as (_ & v & lay & n & D & L & _). exists v, lay. auto.
  Qed.

  (** True is returned if the structure is right and nothing is misplaced, whether objects are
      valid or not. (If the validation of an object ends with an exception then so does
      this.) *)
  Theorem C50_answer : (exists s', run = ([], Ok (s', Ok true))) <-> structure /\ tidy w h /\ answered.
  Proof.
    split.
    - intros [s' R]. pose proof (run_structure s' R) as S. split; [exact S|]. assert (A : answered).
      { intros rel O. destruct (snd (validate_opened H c w (h ++ rel) 0)) as [b|x] eqn:E; [eauto|]. destruct (run_raises rel x S O E) as (s2 & y & R2). rewrite R in R2. discriminate. }
      split; [|exact A]. destruct (run_answered S A) as (s2 & b & l & R2 & B & _). rewrite R in R2. injection R2 as _ E2. apply B. auto.
    - intros (S & Td & A). destruct (run_answered S A) as (s2 & b & l & R2 & B & _). apply B in Td. rewrite Td in R2. exists s2. exact R2.
  Qed.

  (** The numbers of objects and of good objects are right. *)
  Theorem C50_counts s' b : run = ([], Ok (s', Ok b)) -> structure -> exists l, NoDup l /\ (forall p, In p l <-> exists rel, p = J rel /\ object_root w h rel) /\
    s_num_objects s' = List.length l /\ s_good_objects s' = List.length (filter (fun p => is_true (answers H c w h p)) l).
  Proof.
    intros R S. assert (A : answered).
    { intros rel O. destruct (snd (validate_opened H c w (h ++ rel) 0)) as [b0|x] eqn:E; [eauto|]. destruct (run_raises rel x S O E) as (s2 & y & R2). rewrite R in R2. discriminate. }
    destruct (run_answered S A) as (s2 & b2 & l & R2 & _ & X). rewrite R in R2. injection R2 as <- _. exists l. exact X.
  Qed.

  (** What a caller has to look at to know that all is valid. *)
  Theorem C50_partial : (exists s', run = ([], Ok (s', Ok true)) /\ s_good_objects s' = s_num_objects s') <->
    structure /\ tidy w h /\ forall rel, object_root w h rel -> snd (validate_opened H c w (h ++ rel) 0) = Ok true.
  Proof.
    assert (Fl : forall (f : str -> bool) l, List.length (filter f l) = List.length l <-> forall p, In p l -> f p = true).
    { clear. intros f l. assert (L : forall l, (List.length (filter f l) <= List.length l)%nat) by (induction l0 as [|a l0 IH]; cbn; [lia|destruct (f a); cbn; lia]).
      induction l as [|a l IH]; cbn [filter]; [split; [intros _ p []|reflexivity]|]. destruct (f a) eqn:E; cbn [List.length].
      - split; [intros X p [<-|Hp]; [exact E|apply IH; [lia|exact Hp]]|intros X; f_equal; apply IH; intros p Hp; apply X; right; exact Hp].
      - split; [intros X; specialize (L l); lia|intros X; rewrite (X a (or_introl eq_refl)) in E; discriminate]. }
    split.
    - intros (s' & R & Eq). destruct (proj1 C50_answer (ex_intro _ s' R)) as (S & Td & A). split; [exact S|]. split; [exact Td|]. intros rel O. destruct (C50_counts s' true R S) as (l & _ & I & N1 & N2).
      rewrite N1, N2 in Eq. rewrite <- (answers_at rel O). assert (X : is_true (answers H c w h (J rel)) = true) by (apply (proj1 (Fl _ l) Eq); apply I; eauto).
      destruct (answers H c w h (J rel)) as [b|]; [|discriminate]. cbn in X. rewrite X. reflexivity.
    - intros (S & Td & V). assert (A : answered) by (intros rel O; eauto). destruct (proj2 C50_answer (conj S (conj Td A))) as [s' R]. exists s'. split; [exact R|].
      destruct (C50_counts s' true R S) as (l & _ & I & N1 & N2). rewrite N1, N2. apply Fl. intros p Hp. apply I in Hp as (rel & -> & O). rewrite (answers_at rel O), (V rel O). reflexivity.
  Qed.
End C50.
Print Assumptions C50_answer.
Print Assumptions C50_counts.
Print Assumptions C50_partial.

Definition ex_validate (s : sroot) (w : node) := validate toy_hash ex_env true true false 100 s w.
(** The state of the instance after a method *)
Definition then_state {A} (x : list step * exc (sroot * exc A)) : sroot := match snd x with Ok (s, _) => s | Raise _ => ex_sroot end.

Example C50_partial_ex : exists s', ex_validate ex_sroot (ex_root [(`"a", Dir [(`"b", ex_good); (`"c", Dir [(`"d", ex_good)])])]) = ([], Ok (s', Ok true)) /\ s_good_objects s' = 2%nat /\ s_num_objects s' = 2%nat.
Proof. eexists. split; [vm_compute; reflexivity|]. split; reflexivity. Qed.

(** The objects that are valid are those that are intact (C30_exactly_intact). *)
Theorem C50_intact : forall H e lw me w s r s',
  s_root s = Some r /\ s_fs s = None /\ s_layout s = None /\ s_spec s = None /\ s_num_traversal_errors s = 0%nat ->
  let h := at_path (base_of (e_cwd e) r) r in
  tree w /\ no_url r /\ look w h = Some EDir -> s_lax s = false ->
  validate H e true true lw me s w = ([], Ok (s', Ok true)) -> s_good_objects s' = s_num_objects s' ->
  forall rel, object_root w h rel -> exists spec rb root f head, intact H true w (h ++ rel) spec rb root f head.
Proof.
  intros H e lw me w s r s' F h P Lx R Eq rel O. destruct (proj1 (C50_partial H e true lw me w s r F P) (ex_intro _ s' (conj R Eq))) as (_ & _ & V). specialize (V rel O).
  apply Properties_Validator.C30_exactly_intact in V; [|exact Lx|apply P|]; [|apply O]. destruct V as [_ V]. exact V.
Qed.
Print Assumptions C50_intact.

(** True although an object is not valid. *)
Theorem C50_invalid_object_refuted : exists w s', tree w /\ look w [`"r"; `"a"; `"inventory.json"] = None /\ object_root w [`"r"] [`"a"] /\
  ex_validate ex_sroot w = ([], Ok (s', Ok true)) /\ s_num_objects s' = 1%nat /\ s_good_objects s' = 0%nat.
Proof.
  exists (ex_root [(`"a", ex_bad)]). eexists. split; [apply tree_b_ok; reflexivity|]. split; [reflexivity|]. split; [|split; [vm_compute; reflexivity|split; reflexivity]].
  split.
  - split; [discriminate|]. split; [discriminate|]. split; [reflexivity|]. intros q c r E Hq. destruct q as [|a [|b q]]; try congruence; discriminate.
  - exists (`"0=ocfl_object_1.1"). split; [exists (`"1.1"), []; cbn; auto|]. split; [split; discriminate|]. intros t [Ht _].
    rewrite (look_child (ex_root [(`"a", ex_bad)]) ([`"r"] ++ [`"a"]) [(`"0=ocfl_object_1.1", File (`"ocfl_object_1.1" ++ [10%N]))] _ eq_refl) in Ht. match type of Ht with option_map _ ?x <> None => destruct x as [m|] eqn:E end; [|now destruct Ht].
    apply dget_In in E. destruct E as [E|[]]. congruence.
Qed.
Print Assumptions C50_invalid_object_refuted.

(** What was found before counts: False after all has been put right. *)
Theorem C50_history_refuted : exists w w', tree w /\ tree w' /\
  returned (ex_validate ex_sroot w) = Ok false /\
  returned (ex_validate ex_sroot w') = Ok true /\ returned (ex_validate (then_state (ex_validate ex_sroot w)) w') = Ok false.
Proof.
  exists (ex_root [(`"a", Dir [])]), (ex_root [(`"a", ex_good)]). split; [apply tree_b_ok; reflexivity|]. split; [apply tree_b_ok; vm_compute; reflexivity|]. split; [|split]; vm_compute; reflexivity.
Qed.
Print Assumptions C50_history_refuted.
(** The counter never gets smaller: after one error every later call on the instance
    returns False or raises an exception. *)
Theorem C50_history : forall H e vo check lw me w s s' b, s_layout s = None -> tree w ->
  (forall r, s_root s = Some r -> no_url r) -> s_num_traversal_errors s <> 0%nat ->
  validate H e vo check lw me s w = ([], Ok (s', Ok b)) -> b = false.
Proof.
  intros H e vo check lw me w s s' b Hlay Hw Hu Hn R. destruct b; [exfalso|reflexivity]. unfold validate in R. rewrite smodify_ok in R.
  destruct (s_root s) as [r|] eqn:Hr.
  2:{ assert (E : open_root_fs e (set_log (Some []) s) w = ([], Ok (set_log (Some []) s, Raise AttributeError))) by (unfold open_root_fs; rewrite sget_ok; cbn [s_root set_log]; rewrite Hr; reflexivity).
      rewrite (sbind_raise _ _ _ _ _ _ _ E) in R. discriminate. }
  specialize (Hu r eq_refl). set (h := at_path (base_of (e_cwd e) r) r). assert (D : look w h = Some EDir \/ look w h <> Some EDir) by (destruct (look w h) as [[]|]; auto; right; discriminate).
  destruct D as [D|D]; [|rewrite (open_root_fails e _ _ w r) in R by auto; discriminate]. rewrite (open_root_ok e _ _ w r) in R by auto.
  set (s1 := set_fs (Some (at_path (base_of (e_cwd e) r) r)) (set_log (Some []) s)) in R.
  destruct (structure_cases H w h s1 Hw D eq_refl Hlay) as (s2 & q & E & T & C). rewrite (scatch_eq w _ _ _ _ _ E) in R. destruct q as [b|x]; [|destruct x; discriminate].
  destruct (C b eq_refl) as (_ & v & lay & n & _ & _ & _ & Es2).
  destruct (hierarchy_mono H e vo check lw me w h s2) as (s3 & q & E3 & T3); [rewrite Es2; reflexivity|]. destruct q as [a|x]; [|rewrite (sbind_raise _ _ _ _ _ _ _ E3) in R; discriminate].
  rewrite (sbind_ok _ _ _ _ _ _ E3), smodify_ok, sget_ok in R. injection R as _ R. cbn [s_num_traversal_errors set_counts] in R. apply negb_true_iff, Nat.ltb_ge in R.
  rewrite T in T3. assert (Z : s_num_traversal_errors s1 = s_num_traversal_errors s) by reflexivity. rewrite Z in T3. lia.
Qed.
Print Assumptions C50_history.

(** Storage roots that are not valid, and validate does not return False but raises an
    exception. *)
Definition ex_eleven : node := Dir [(`"r", Dir (map (fun c => (`"0=" ++ [c], File [])) (lit "abcdefghijk")))].
Definition ex_not_utf8 : node := Dir [(`"r", Dir [(`"0=ocfl_1.1", File [255]%N)])].
Definition ex_config (name config : str) : node :=
  ex_root [(`"ocfl_layout.json", File (`"{""extension"": """ ++ name ++ `""", ""description"": ""d""}")); (`"extensions", Dir [(name, Dir [(`"config.json", File config)])])].
Theorem C50_raises_refuted :
  (tree ex_eleven /\ returned (ex_validate ex_sroot ex_eleven) = Raise NamasteException) /\
  (tree ex_not_utf8 /\ returned (ex_validate ex_sroot ex_not_utf8) = Raise UnicodeDecodeError) /\
  (let w := ex_config (`"0003-hash-and-id-n-tuple-storage-layout") (`"{}") in tree w /\ returned (ex_validate ex_sroot w) = Raise LayoutException) /\
  (let w := ex_config (`"0002-flat-direct-storage-layout") (`"{""extensionName"": ""0002-flat-direct-storage-layout""}") in tree w /\ returned (ex_validate ex_sroot w) = Raise AttributeError) /\
  (tree (Dir []) /\ returned (ex_validate ex_sroot (Dir [])) = Raise (StorageRootException [])).
Proof.
  assert (A : forall w x, tree_b w = true -> returned (ex_validate ex_sroot w) = x -> tree w /\ returned (ex_validate ex_sroot w) = x) by (intros w x Ht E; split; [now apply tree_b_ok|exact E]).
  split; [|split; [|split; [|split]]]; apply A; vm_compute; reflexivity.
Qed.
Print Assumptions C50_raises_refuted.
