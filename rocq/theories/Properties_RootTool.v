(** C85: the commands of ocfl-root.py. *)
From Coq Require Import Permutation.
From Verif Require Import Base Unicode Regex Utf8 Json PyJson JsonTextModel JsonFileProofs Log DigestModel LayoutModel LayoutSpec LayoutProofs ContentPathProofs TextFile PathModel FsModel FsSpec FsProofs FsStepProofs FswModel FswSpec FswProofs FswCopyProofs CopyFrameProofs
  NamasteModel NamasteSpec NamasteProofs Properties_Fsw InventorySpec InventoryValidatorModel InventoryRulesProofs InventoryOpsSpec InventoryParseProofs InventoryModel ParseModel ValidatorSpec ValidatorModel ValidatorBasicProofs ValidatorContentProofs ObjectModel ObjectExamples UpdateSpec
  Properties_Layout Properties_Object StorageRootModel StorageRootSpec StorageRootProofs StorageRootRunProofs Properties_StorageRoot Properties_RootList RootAddSpec RootAddProofs Properties_RootAdd RootFillProofs RootInitSpec ObjectSpec Properties_RootInit Properties_RootFill IntactCopyProofs
  Properties_RootValid ToolModel Properties_Tools TreeModel RootToolModel RootToolSpec.
From Verif Require Properties_Validator ObjectForeignProofs.

(** * Calls *)
Lemma call_ok {A} (x : st A) s w s' a : result (call x s) w = Ok (s', a) <-> result (x s) w = Ok (s', Ok a).
Proof.
  unfold call, result, ibind. destruct (x s w) as [l [[s1 [b|y]]|y]]; cbn [fst snd iret iraise]; split; intros E; try discriminate; apply Ok_inv in E; inversion E; reflexivity.
Qed.
Lemma call_after {A} (x : st A) s w : after (call x s) w = after (x s) w.
Proof. unfold call, after, ibind. destruct (x s w) as [l [[s1 [b|y]]|y]]; cbn [fst snd iret iraise]; now rewrite ?app_nil_r. Qed.
Lemma after_then {A B} (x : io A) (f : A -> io B) w : (forall a w', after (f a) w' = w') -> after (ibind x f) w = after x w.
Proof.
  intros F. unfold after, ibind. destruct (x w) as [l [a|y]] eqn:E; cbn [fst]; [|reflexivity]. specialize (F a (apply_all l w)). unfold after in F. destruct (f a (apply_all l w)) as [l' r]. cbn [fst] in *.
  unfold apply_all in *. now rewrite fold_left_app.
Qed.
Lemma status_ok r : ocfl_root_status r = 0%N <-> exists out, r = Ok out.
Proof. destruct r as [o|y]; cbn; split; intros X; [eauto|reflexivity|discriminate|destruct X; discriminate]. Qed.

Definition fresh (r : str) (layout : option str) (lax : bool) : sroot := mk_sroot (Some r) layout None lax None None None 0 0 0 [].
Section Command.
  Variables (H : hashfn) (id_encode : str -> str) (e : env) (env_root : option str) (r : str) (a : root_args).
  Hypothesis Root : root_given env_root a r.
  Lemma root_found : get_storage_root env_root a = Ok r.
  Proof.
    unfold get_storage_root. destruct Root as [[E N]|[[E|E] ->]]; rewrite E; cbn [given]; try reflexivity. destruct r; [congruence|reflexivity].
  Qed.
  Lemma operation c : ra_cmd a = Some c -> c <> `"validate-object" -> forall w,
    ocfl_root H id_encode e env_root a w = do_store_operation H id_encode e env_root a c w.
  Proof.
    intros E N w. unfold ocfl_root, parse_root_arguments. rewrite E. destruct (str_eqb_spec c (`"validate-object")); [contradiction|]. unfold ibind, iread.
    cbn [apply_all fold_left]. destruct (do_store_operation _ _ _ _ _ c w) as [l q]. reflexivity.
  Qed.
  Lemma read_then {A B} (x : exc A) (f : A -> io B) v w : x = Ok v -> ibind (iread (fun _ => x)) f w = f v w.
  Proof. intros ->. unfold ibind, iread. cbn [apply_all fold_left]. destruct (f v w). reflexivity. Qed.
  Lemma do_add src w : ra_cmd a = Some (`"add") -> ra_src a = Some src -> src <> [] ->
    ocfl_root H id_encode e env_root a w =
    (do x <- call (StorageRootModel.add H id_encode e src) (fresh r (ra_layout a) (ra_lax a)) ;; iret [added_at (snd (snd x)) (fst (snd x))]) w.
  Proof.
    intros E S N. rewrite (operation _ E) by discriminate. unfold do_store_operation. rewrite (read_then _ _ r) by apply root_found. rewrite (read_then _ _ (fresh r (ra_layout a) (ra_lax a))) by reflexivity.
    rewrite S. destruct src; [congruence|]. reflexivity.
  Qed.
  Lemma do_create w : ra_cmd a = Some (`"create") ->
    ocfl_root H id_encode e env_root a w =
    (call (initialize H e (ra_spec a) (ra_params a)) (fresh r (ra_layout a) (ra_lax a)) ;; iret [Printed (`"Created OCFL storage root " ++ r)]) w.
  Proof.
    intros E. rewrite (operation _ E) by discriminate. unfold do_store_operation. rewrite (read_then _ _ r) by apply root_found. rewrite (read_then _ _ (fresh r (ra_layout a) (ra_lax a))) by reflexivity. reflexivity.
  Qed.
  Lemma do_list w : ra_cmd a = Some (`"list") ->
    ocfl_root H id_encode e env_root a w =
    (do x <- call (list_objects H e) (fresh r (ra_layout a) (ra_lax a)) ;; iret (map (fun y => line_of (fst y) (snd y)) (snd x) ++ [total_of (s_num_objects (fst x)) r])) w.
  Proof.
    intros E. rewrite (operation _ E) by discriminate. unfold do_store_operation. rewrite (read_then _ _ r) by apply root_found. rewrite (read_then _ _ (fresh r (ra_layout a) (ra_lax a))) by reflexivity. reflexivity.
  Qed.
  Lemma do_validate w : ra_cmd a = Some (`"validate") ->
    ocfl_root H id_encode e env_root a w =
    ([], let* b := ocfl_root_validate H e r (ra_layout a) (ra_lax a) (ra_quiet a) (ra_validate_objects a) (ra_check_digests a) w in Ok [verdict_of r b]).
  Proof.
    intros E. rewrite (operation _ E) by discriminate. unfold do_store_operation. rewrite (read_then _ _ r) by apply root_found. rewrite (read_then _ _ (fresh r (ra_layout a) (ra_lax a))) by reflexivity.
    unfold ocfl_root_validate. cbn [new_sroot ebind]. fold (fresh r (ra_layout a) (ra_lax a)). unfold ibind, iread.
    change (str_eqb (`"validate") (`"create")) with false. change (str_eqb (`"validate") (`"list")) with false. change (str_eqb (`"validate") (`"validate")) with true. cbv beta iota zeta.
    destruct (root_tool_validate H e (ra_quiet a) (ra_validate_objects a) (ra_check_digests a) (fresh r (ra_layout a) (ra_lax a)) w); reflexivity.
  Qed.
  Lemma do_path id w : ra_cmd a = Some (`"path") -> ra_id a = Some id -> id <> [] ->
    ocfl_root H id_encode e env_root a w =
    (do x <- call (object_path H id_encode e id) (fresh r (ra_layout a) (ra_lax a)) ;; iret [if ra_quiet a then Printed (path_join r (snd x)) else path_of r (snd x) id]) w.
  Proof.
    intros E S N. rewrite (operation _ E) by discriminate. unfold do_store_operation. rewrite (read_then _ _ r) by apply root_found. rewrite (read_then _ _ (fresh r (ra_layout a) (ra_lax a))) by reflexivity.
    rewrite S. destruct id; [congruence|]. unfold path_of. cbn [given]. destruct (ra_quiet a); reflexivity.
  Qed.
End Command.

(** * Commands that only look *)
Lemma silent_ret {A} (x : A) : silent (sret x). Proof. intros s w. eexists _, _. reflexivity. Qed.
Lemma silent_raise {A} x : silent (@sraise A x). Proof. intros s w. eexists _, _. reflexivity. Qed.
Lemma silent_get : silent sget. Proof. intros s w. eexists _, _. reflexivity. Qed.
Lemma silent_put s : silent (sput s). Proof. intros s0 w. eexists _, _. reflexivity. Qed.
Lemma silent_modify f : silent (smodify f). Proof. intros s w. eexists _, _. reflexivity. Qed.
Lemma silent_lift {A} (x : exc A) : silent (slift x). Proof. intros s w. eexists _, _. reflexivity. Qed.
Lemma openfs_steps cwd p w : fst (fsw_openfs cwd p false true w) = [].
Proof.
  unfold fsw_openfs. destruct (split_url p) as [[sc rest]|]; cbn [negb andb orb]; unfold ibind, iread, iraise, iret;
    repeat match goal with |- context [match ?x with _ => _ end] => destruct x end; reflexivity.
Qed.
Lemma silent_open e : silent (open_root_fs e).
Proof.
  unfold open_root_fs. apply silent_bind; [apply silent_get|]. intros s0. destruct (s_root s0) as [r|]; [|apply silent_raise].
  apply silent_bind; [|intros h; apply silent_bind; [apply silent_modify|intros; apply silent_ret]].
  intros s w. pose proof (openfs_steps (e_cwd e) r w) as E. destruct (fsw_openfs (e_cwd e) r false true w) as [l q]. cbn [fst] in E. subst l. destruct q as [h|[]]; eexists _, _; reflexivity.
Qed.
Create HintDb silent.
#[local] Hint Resolve silent_bind silent_ret silent_raise silent_get silent_put silent_modify silent_lift silent_open silent_read silent_root_fs silent_fold : silent.
Lemma silent_layout : silent the_layout.
Proof. unfold the_layout. apply silent_bind; [apply silent_get|]. intros s. destruct (s_layout s), (s_layout_name s); auto with silent. Qed.
Lemma silent_structure H : silent (check_root_structure H).
Proof.
  unfold check_root_structure. repeat (apply silent_bind; [auto with silent|intros ?]). destruct a0 as [|n [|]]; auto with silent. destruct (root_version n); auto with silent.
  apply silent_bind; [auto with silent|]. intros s0. match goal with |- silent (if ?b then _ else _) => destruct b end; auto with silent.
  repeat (apply silent_bind; [auto with silent|intros ?]). match goal with |- silent (if ?b then _ else _) => destruct b end; auto with silent.
  apply silent_bind; [auto with silent|]. intros x. destruct x; cbn [negb]; auto with silent. repeat (apply silent_bind; [auto with silent|intros ?]).
  match goal with |- silent (if ?b then _ else _) => destruct b end; auto with silent. apply silent_bind; [apply silent_layout|]. intros [l|]; auto with silent.
Qed.
Lemma silent_list H e : silent (list_objects H e).
Proof.
  unfold list_objects, for_objects. apply silent_bind; [auto with silent|intros h]. apply silent_bind; [apply silent_structure|intros _]. apply silent_bind; [auto with silent|intros s0]. apply silent_bind; [auto with silent|intros _].
  apply silent_bind; [auto with silent|intros h']. apply silent_bind; [auto with silent|intros f]. apply silent_bind; [|intros; apply silent_bind; auto with silent]. apply silent_fold. intros. repeat (apply silent_bind; [auto with silent|intros ?]). auto with silent.
Qed.
Lemma silent_path H id_encode e id : silent (object_path H id_encode e id).
Proof.
  unfold object_path. apply silent_bind; [apply silent_layout|]. intros l. apply silent_bind; [|intros _; apply silent_bind; [apply silent_layout|intros [l'|]; auto with silent]].
  destruct l; auto with silent. apply silent_bind; [auto with silent|intros]. apply silent_bind; [apply silent_structure|auto with silent].
Qed.
Lemma silent_call {A} (x : st A) s w : silent x -> after (call x s) w = w.
Proof. intros S. rewrite call_after. destruct (S s w) as (s' & q & E). unfold after. rewrite E. reflexivity. Qed.

(** Only create and add change files. *)
Theorem C85_reads : forall H id_encode e env_root a w, ra_cmd a <> Some (`"create") -> ra_cmd a <> Some (`"add") ->
  after (ocfl_root H id_encode e env_root a) w = w.
Proof.
  intros H id_encode e env_root a w N1 N2. unfold ocfl_root. rewrite after_read. unfold parse_root_arguments. destruct (ra_cmd a) as [c|]; [|reflexivity].
  destruct (str_eqb c (`"validate-object")); [reflexivity|]. unfold do_store_operation. rewrite after_read. destruct (get_storage_root env_root a) as [r|]; [|reflexivity]. rewrite after_read. cbn [new_sroot].
  destruct (str_eqb_spec c (`"create")) as [->|_]; [congruence|]. destruct (str_eqb c (`"list")).
  { rewrite after_then by reflexivity. apply silent_call, silent_list. }
  destruct (str_eqb c (`"validate")).
  { rewrite after_then by reflexivity. reflexivity. }
  destruct (str_eqb_spec c (`"add")) as [->|_]; [congruence|]. destruct (str_eqb c (`"purge")); [reflexivity|]. destruct (str_in c _); [|reflexivity]. destruct (given (ra_id a)) as [id|]; [|reflexivity].
  rewrite after_then; [apply silent_call, silent_path|]. intros x w'. destruct (str_eqb c (`"path")); [reflexivity|]. destruct (str_eqb c (`"show")); [|reflexivity]. rewrite after_then by reflexivity. reflexivity.
Qed.
Print Assumptions C85_reads.

(** * create *)
Section Create.
  Variables (H : hashfn) (id_encode : str -> str) (e : env) (env_root : option str) (r : str) (a : root_args) (w : node).
  Let h := dest_of (e_cwd e) r.
  Let run := ocfl_root H id_encode e env_root a.
  Hypothesis Hash : hash_ok H.
  Hypothesis Tree : tree w.
  Hypothesis Cwd : Forall fname (e_cwd e).
  Hypothesis Local : no_url r.
  Hypothesis Command : ra_cmd a = Some (`"create").
  Hypothesis Root : root_given env_root a r.
  Let s := fresh r (ra_layout a) (ra_lax a).
  Let init := initialize H e (ra_spec a) (ra_params a) s.
  Lemma create_cases : (exists s', result init w = Ok (s', Ok tt) /\ result run w = Ok [Printed (`"Created OCFL storage root " ++ r)]) \/
    (forall s', result init w <> Ok (s', Ok tt)) /\ exists x, result run w = Raise x.
  Proof using All.
    unfold run, result. rewrite (do_create H id_encode e env_root r a Root w Command). fold s. unfold ibind, call, init. unfold ibind.
    destruct (initialize H e (ra_spec a) (ra_params a) s w) as [l [[s' [[]|y]]|y]]; cbn [snd fst iret iraise].
    - left. exists s'. split; reflexivity.
    - right. split; [|eauto]. intros s2 E. discriminate.
    - right. split; [|eauto]. intros s2 E. discriminate.
  Qed.
  Lemma create_after : after run w = after init w.
  Proof using All.
    unfold run. unfold after at 1. rewrite (do_create H id_encode e env_root r a Root w Command). fold s. fold (after (call (initialize H e (ra_spec a) (ra_params a)) s ;; iret [Printed (`"Created OCFL storage root " ++ r)]) w).
    rewrite after_then by reflexivity. apply call_after.
  Qed.

  (** It succeeds (exit status 0) exactly if layout, parameters and version are accepted and
      the place is free. Then it says so, and there are the files of a storage root and no
      other changes. *)
  Theorem C85_create : (forall lay, chosen_layout H (ra_layout a) (ra_params a) lay -> text_prefix lay) ->
    (ocfl_root_status (result run w) = 0%N <->
     (exists lay, chosen_layout H (ra_layout a) (ra_params a) lay) /\ (exists v, chosen_version (ra_spec a) None v) /\ free_place (e_cwd e) w r).
  Proof using All.
    intros T. rewrite status_ok. etransitivity; [|exact (C10_succeeds H e (ra_spec a) (ra_params a) s w r Hash Tree Cwd Local eq_refl eq_refl T)].
    destruct create_cases as [(s' & E & R)|[N [x R]]]; fold init; rewrite R; split.
    - eauto.
    - eauto.
    - intros [o X]. discriminate.
    - intros [s' X]. now apply N in X.
  Qed.
  Theorem C85_created : forall lay v out, chosen_layout H (ra_layout a) (ra_params a) lay -> text_prefix lay -> chosen_version (ra_spec a) None v -> result run w = Ok out ->
    out = [Printed (`"Created OCFL storage root " ++ r)] /\ look w h = None /\ holds (after run w) h (root_files v lay) /\
    forall q, (forall x, q <> h ++ x) -> look (after run w) q = look w q.
  Proof using All.
    intros lay v out C T V R. destruct create_cases as [(s' & E & R')|[N [x R']]]; [|congruence]. rewrite R' in R. apply Ok_inv in R. subst out. split; [reflexivity|]. rewrite create_after.
    destruct (C10_written H e (ra_spec a) (ra_params a) s w r Hash Tree Cwd Local eq_refl eq_refl lay v s' C V T E) as (_ & _ & _ & A & B & D). auto.
  Qed.
End Create.
Print Assumptions C85_create.
Print Assumptions C85_created.

(** * add *)
Section Add.
  Variables (H : hashfn) (id_encode : str -> str) (e : env) (env_root : option str) (r src : str) (a : root_args) (w : node).
  Let h := dest_of (e_cwd e) r.
  Let od := dest_of (e_cwd e) src.
  Let run := ocfl_root H id_encode e env_root a.
  Hypothesis Tree : tree w.
  Hypothesis Local : no_url r.
  Hypothesis Local2 : no_url src.
  Hypothesis Command : ra_cmd a = Some (`"add").
  Hypothesis Root : root_given env_root a r.
  Hypothesis Src : ra_src a = Some src.
  Hypothesis Some_src : src <> [].
  Let s := fresh r (ra_layout a) (ra_lax a).
  Let add := StorageRootModel.add H id_encode e src s.
  Lemma add_out out : result run w = Ok out <-> exists s' id path, result add w = Ok (s', Ok (id, path)) /\ out = [added_at path id].
  Proof using Root Command Src Some_src.
    unfold run, result. rewrite (do_add H id_encode e env_root r a Root src w Command Src Some_src). fold s. unfold ibind, call, add. unfold ibind.
    destruct (StorageRootModel.add H id_encode e src s w) as [l [[s' [[id path]|y]]|y]]; cbn [snd fst iret iraise]; split.
    - intros E. apply Ok_inv in E. subst out. eauto 6.
    - intros (s2 & id' & path' & E & ->). injection E as <- <- <-. reflexivity.
    - discriminate.
    - intros (s2 & id' & path' & E & ->). discriminate.
    - discriminate.
    - intros (s2 & id' & path' & E & ->). discriminate.
  Qed.
  Lemma add_after : after run w = after add w.
  Proof using Root Command Src Some_src.
    unfold run. unfold after at 1. rewrite (do_add H id_encode e env_root r a Root src w Command Src Some_src). fold s.
    match goal with |- apply_all (fst (?x w)) w = _ => fold (after x w) end. rewrite after_then by reflexivity. apply call_after.
  Qed.

  (** It succeeds exactly if the object belongs somewhere in this storage root where nothing is
      and there can be something; then it says where, the files of the object are there, and
      all that was there before is as before. *)
  Theorem C85_add : forall out, result run w = Ok out <->
    exists id path, out = [added_at path id] /\ belongs H id_encode w h (ra_layout a) None od id path /\ look w (at_path h path) = None /\ dirs_to w (at_path h path) /\ plain w od.
  Proof using All.
    intros out. rewrite add_out. split.
    - intros (s' & id & path & E & ->). exists id, path. split; [reflexivity|]. exact (proj1 (C48_when H id_encode e s w r src Tree Local Local2 eq_refl eq_refl id path) (ex_intro _ s' E)).
    - intros (id & path & -> & B). destruct (proj2 (C48_when H id_encode e s w r src Tree Local Local2 eq_refl eq_refl id path) B) as [s' E]. eauto 6.
  Qed.
  Theorem C85_added : forall out, result run w = Ok out -> exists id path, out = [added_at path id] /\
    (forall rel b, look (after run w) (at_path h path ++ rel) = Some (EFile b) <-> look w (od ++ rel) = Some (EFile b)) /\
    (forall q, look w q <> None -> look (after run w) q = look w q).
  Proof using All.
    intros out E. apply add_out in E as (s' & id & path & E & ->). exists id, path. split; [reflexivity|]. rewrite add_after.
    destruct (C48_exact H id_encode e s w r src Tree Local Local2 eq_refl eq_refl s' id path E) as (_ & _ & _ & F & _ & _ & K & _). auto.
  Qed.
End Add.
Print Assumptions C85_add.
Print Assumptions C85_added.

(** * path *)
Section Path.
  Variables (H : hashfn) (id_encode : str -> str) (e : env) (env_root : option str) (r id : str) (a : root_args) (w : node) (v : str) (lay : layout).
  Let h := dest_of (e_cwd e) r.
  Let run := ocfl_root H id_encode e env_root a.
  Hypothesis Tree : tree w.
  Hypothesis Local : no_url r.
  Hypothesis Dir : look w h = Some EDir.
  Hypothesis Declared : root_declared w h v.
  Hypothesis Described : layout_described H w h (Some lay).
  Hypothesis Command : ra_cmd a = Some (`"path").
  Hypothesis Root : root_given env_root a r.
  Hypothesis Id : ra_id a = Some id.
  Hypothesis Some_id : id <> [].
  Hypothesis No_layout : ra_layout a = None.

  (** The path for an identifier is that of the layout described in the storage root. *)
  Theorem C85_path : forall out, result run w = Ok out <->
    exists p, identifier_to_path H id_encode lay id = Ok p /\ out = [if ra_quiet a then Printed (path_join r p) else path_of r p id].
  Proof using All.
    intros out. unfold run, result. rewrite (do_path H id_encode e env_root r a Root id w Command Id Some_id). rewrite No_layout. unfold ibind, call. unfold ibind.
    assert (E : exists s', object_path H id_encode e id (fresh r None (ra_lax a)) w = ([], Ok (s', identifier_to_path H id_encode lay id))).
    { unfold object_path. set (s := fresh r None (ra_lax a)). assert (E0 : the_layout s w = ([], Ok (s, Ok None))) by reflexivity. rewrite (sbind_ok _ _ _ _ _ _ E0).
      destruct (structure_ok H w h (set_fs (Some h) s) v (Some lay) Tree Dir eq_refl eq_refl Declared Described (or_introl eq_refl)) as [n En].
      assert (E1 : (use _ <- open_root_fs e ;; use _ <- check_root_structure H ;; sret tt) s w = ([], Ok (set_layout (Some lay) (set_layout_name n (set_spec (Some v) (set_fs (Some h) s))), Ok tt))).
      { rewrite (open_root_ok e _ s w r Local eq_refl Dir). fold (dest_of (e_cwd e) r). fold h. rewrite (sbind_ok _ _ _ _ _ _ En). reflexivity. }
      rewrite (sbind_ok _ _ _ _ _ _ E1). eexists. reflexivity. }
    destruct E as [s' ->]. cbn [fst snd]. destruct (identifier_to_path H id_encode lay id) as [p|y]; cbn [snd fst iret iraise]; split.
    - intros E. apply Ok_inv in E. subst out. eauto.
    - intros (q & E & ->). apply Ok_inv in E. subst q. reflexivity.
    - discriminate.
    - intros (q & E & _). discriminate.
  Qed.
End Path.
Print Assumptions C85_path.

(** * All commands together *)
Lemma join_place cwd r rel : rel <> [] -> Forall fname rel -> dest_of cwd (path_join r (J rel)) = dest_of cwd r ++ rel.
Proof.
  intros Nr F. unfold dest_of. rewrite (at_path_rel _ r rel Nr F). assert (S : startswith [PathModel.slash] (J rel) = false) by (now apply join_nostart).
  assert (E : base_of cwd (path_join r (J rel)) = base_of cwd r); [|now rewrite E]. destruct r as [|c r].
  - assert (X : path_join [] (J rel) = J rel) by (unfold path_join; now rewrite S). rewrite X. unfold base_of. now rewrite S.
  - rewrite (path_join_ns _ (J rel) S). destruct (exists_last (l := c :: r)) as (r1 & c1 & Er); [discriminate|]. replace (last_opt (c :: r)) with (Some c1) by (rewrite Er, last_opt_app; reflexivity).
    destruct (N.eqb c1 PathModel.slash); reflexivity.
Qed.

Lemma identified_fun w p a b : identified w p a -> identified w p b -> a = b.
Proof.
  intros (x & d & L & J & R & M) (x' & d' & L' & J' & R' & M'). assert (E : x = x') by congruence. subst x'. assert (E : d = d') by congruence. subst d'.
  pose proof (json_load_cases x) as Hw. rewrite J in Hw. pose proof (member_fun _ _ _ _ Hw M M') as X. now injection X.
Qed.

Section Session.
  Variables (H : hashfn) (id_encode : str -> str) (e : env) (env_root : option str) (r : str) (a0 : root_args) (w : node) (alg : str) (ts nt : Z) (n : nat).
  Let h := dest_of (e_cwd e) r.
  Let w0 := after (ocfl_root H id_encode e env_root a0) w.
  Hypothesis Hash : hash_ok H.
  Hypothesis Tree : tree w.
  Hypothesis Cwd : Forall fname (e_cwd e).
  Hypothesis Local : no_url r.
  (** The storage root was made by the command create, with the layout 0003 and tuples *)
  Hypothesis Command : ra_cmd a0 = Some (`"create").
  Hypothesis Root : root_given env_root a0 r.
  Hypothesis Made : ocfl_root_status (result (ocfl_root H id_encode e env_root a0) w) = 0%N.
  Hypothesis Layout : chosen_layout H (ra_layout a0) (ra_params a0) (Some (L0003 alg ts nt)).
  Hypothesis Config : config_0003_ok alg ts nt n.
  Hypothesis Tuples : (0 < nt)%Z.
  Let s := fresh r None false.
  Let s1 := fresh r (ra_layout a0) (ra_lax a0).
  Let lay := L0003 alg ts nt.
  Let k := Z.to_nat nt.

  Lemma session_made : exists v, tree w0 /\ look w0 h = Some EDir /\ root_declared w0 h v /\ layout_described H w0 h (Some lay) /\ no_objects w0 h /\ known_extensions w0 h /\ ~ has_files w0 (h ++ [`"extensions"]).
  Proof using All.
    apply status_ok in Made as [out E]. destruct (create_cases H id_encode e env_root r a0 w Hash Tree Cwd Local Command Root) as [(s1' & E1 & _)|[_ [x X]]]; [|congruence]. fold s1 in E1.
    assert (V : exists v, chosen_version (ra_spec a0) None v).
    { refine (proj1 (proj2 (proj1 (C10_succeeds H e (ra_spec a0) (ra_params a0) s1 w r Hash Tree Cwd Local eq_refl eq_refl _) (ex_intro _ s1' E1)))). intros lay' C. change (ra_layout a0) with (s_layout_name s1) in Layout.
      rewrite (chosen_layout_unique H (ra_params a0) s1 _ _ C Layout). exact Logic.I. }
    destruct V as [v V]. destruct (C10_written H e (ra_spec a0) (ra_params a0) s1 w r Hash Tree Cwd Local eq_refl eq_refl (Some lay) v s1' Layout V Logic.I E1) as (_ & Ly & _).
    assert (Ew : w0 = after (initialize H e (ra_spec a0) (ra_params a0) s1) w) by (apply (create_after H id_encode e env_root r a0 w Hash Tree Cwd Local Command Root)). rewrite Ew.
    destruct (made H e (ra_spec a0) (ra_params a0) s1 s1' w r alg ts nt Hash Tree Cwd Local eq_refl eq_refl E1 Ly) as (v' & A & B & C & _ & D & F & G).
    pose proof (made_extensions H e (ra_spec a0) (ra_params a0) s1 s1' w r alg ts nt Hash Tree Cwd Local eq_refl eq_refl E1 Ly) as X. exists v'. auto 10.
  Qed.

  Lemma session_filled ids w' : session H id_encode e env_root r w0 ids w' -> exists l, filled_sound H id_encode e s h w0 k l w' /\ map snd l = ids /\
    forall p id, In (p, id) l -> identified w' (at_path h p) id.
  Proof using All.
    destruct session_made as (v & T & Dr & D & L & No & Kn & Ex).
    intros S. induction S as [|ids w' a src id S IH Co Sr Lo Wh Id St|ids w' a src S IH Co Sr Lo Pl St|ids w' a S IH N1 N2|ids w' w2 S IH T2 S2].
    - exists []. split; [constructor|]. split; [reflexivity|]. intros p id [].
    - destruct IH as (l & F & <- & Ids). apply status_ok in St as [out E]. destruct Co as [Cc Cr Cl Cx].
      pose proof (filled_content H id_encode e s w0 r k v lay Local eq_refl eq_refl T Dr D L No (or_intror Kn) l w' (sound_filled _ _ _ _ _ _ _ _ _ F)) as C. pose proof (ct_tree _ _ _ _ _ _ _ _ _ _ C) as T'. pose proof (ct_described _ _ _ _ _ _ _ _ _ _ C) as L'.
      assert (Ns : src <> []).
      { intros ->. revert E. unfold result. rewrite (operation H id_encode e env_root a _ Cc) by discriminate. unfold do_store_operation. rewrite (read_then _ _ r) by (now apply root_found). rewrite (read_then _ _ (fresh r (ra_layout a) (ra_lax a))) by reflexivity. rewrite Sr. discriminate. }
      apply (add_out H id_encode e env_root r src a w' Cc Cr Sr Ns) in E as (s' & id' & path & E & _). rewrite Cl, Cx in E. fold s in E.
      pose proof (proj1 (C48_when H id_encode e s w' r src T' Local Lo eq_refl eq_refl id' path) (ex_intro _ s' E)) as (B & _). assert (Eid : id' = id) by (apply (identified_fun w' (dest_of (e_cwd e) src)); [apply (be_id _ _ _ _ _ _ _ _ _ B)|exact Id]). subst id'.
      assert (Hp : identifier_to_path H id_encode lay id = Ok path).
      { destruct (be_path _ _ _ _ _ _ _ _ _ B) as (l' & [Hu|(Hu & _)] & Hp); pose proof (layout_fun _ _ _ _ _ Hu L') as X; [injection X as X; rewrite X in Hp; exact Hp|discriminate]. }
      destruct (C69_level_0003 H id_encode alg ts nt n id path Hash Config Tuples (identified_id _ _ _ Id) Hp) as (rel & Er & Lv). rewrite Er in *.
      assert (Ea : after (ocfl_root H id_encode e env_root a) w' = after (StorageRootModel.add H id_encode e src s) w').
      { rewrite (add_after H id_encode e env_root r src a w' Cc Cr Sr Ns). rewrite Cl, Cx. reflexivity. }
      rewrite Ea. exists (l ++ [(J rel, id)]). split; [eapply fsound_add; eauto|]. split; [now rewrite map_app|].
      destruct (C48_exact H id_encode e s w' r src T' Local Lo eq_refl eq_refl s' id (J rel) E) as (_ & _ & _ & Fi & _ & _ & Ke & _).
      intros p i Hi. apply in_app_or in Hi as [Hi|[Hi|[]]].
      + destruct (Ids p i Hi) as (b & d & Lb & R). exists b, d. split; [|exact R]. rewrite Ke; [exact Lb|]. intros X. pose proof (eq_trans (eq_sym Lb) X). discriminate.
      + injection Hi as <- <-. destruct Id as (b & d & Lb & R). exists b, d. split; [|exact R]. apply Fi. exact Lb.
    - destruct IH as (l & F & <- & Ids). exists l. destruct Co as [Cc Cr Cl Cx].
      pose proof (filled_content H id_encode e s w0 r k v lay Local eq_refl eq_refl T Dr D L No (or_intror Kn) l w' (sound_filled _ _ _ _ _ _ _ _ _ F)) as C. pose proof (ct_tree _ _ _ _ _ _ _ _ _ _ C) as T'.
      destruct src as [|c src].
      { unfold after. rewrite (operation H id_encode e env_root a _ Cc) by discriminate. unfold do_store_operation. rewrite (read_then _ _ r) by (now apply root_found). rewrite (read_then _ _ (fresh r (ra_layout a) (ra_lax a))) by reflexivity. rewrite Sr. auto. }
      rewrite (add_after H id_encode e env_root r (c :: src) a w' Cc Cr Sr ltac:(discriminate)). rewrite Cl, Cx. fold s.
      destruct (result (StorageRootModel.add H id_encode e (c :: src) s) w') as [[s' [[id path]|x]]|x] eqn:E.
      + exfalso. apply St. apply status_ok. eexists. apply (add_out H id_encode e env_root r (c :: src) a w' Cc Cr Sr ltac:(discriminate)). rewrite Cl, Cx. eauto 6.
      + split; [eapply fsound_failed; eauto|]. split; [reflexivity|]. rewrite (C48_failed H id_encode e s w' r (c :: src) T' Local Lo eq_refl eq_refl s' x E Pl). exact Ids.
      + exfalso. destruct (add_cases H id_encode e s w' r (c :: src) T' Local Lo eq_refl eq_refl) as [(s2 & y & E2)|(id & path & B)]; [unfold result in E; rewrite E2 in E; discriminate|].
        destruct (rest_of H id_encode e s w' r (c :: src) T' Local Lo eq_refl eq_refl id path B) as [s2 R]. unfold result in E. rewrite R in E. unfold add_rest in E.
        match type of E with snd (if ?b then _ else _) = _ => destruct b end; [discriminate|]. match type of E with context [fsw_copydir ?a ?b ?c ?d ?e] => destruct (fsw_copydir a b c d e) as [ll [[]|yy]] end; discriminate.
    - rewrite (C85_reads H id_encode e env_root a w' N1 N2). exact IH.
    - destruct IH as (l & F & <- & Ids). exists l. split; [eapply fsound_other; eauto|]. split; [reflexivity|]. intros p id Hi.
      pose proof (filled_content H id_encode e s w0 r k v lay Local eq_refl eq_refl T Dr D L No (or_intror Kn) l w' (sound_filled _ _ _ _ _ _ _ _ _ F)) as C. destruct (ct_level _ _ _ _ _ _ _ _ _ _ C p id Hi) as (rel & -> & Lv).
      assert (Fh : Forall fname h) by (eapply look_fnames; [exact T|rewrite Dr; discriminate]). assert (Ep : at_path h (J rel) = h ++ rel) by (apply at_path_join; [exact Fh|apply Lv]).
      destruct (Ids _ _ Hi) as (b & d & Lb & R). exists b, d. split; [|exact R]. rewrite Ep in *. rewrite <- app_assoc in *. rewrite S2. exact Lb.
  Qed.

  Theorem C85_session : forall ids w', session H id_encode e env_root r w0 ids w' ->
    exists l, map snd l = ids /\ NoDup ids /\ NoDup (map fst l) /\
    (* each object is at the path of the layout, *)
    (forall p id, In (p, id) l -> identifier_to_path H id_encode lay id = Ok p /\
       whole H w' (dest_of (e_cwd e) (path_join r p)) /\ identified w' (dest_of (e_cwd e) (path_join r p)) id) /\
    (* path shows this path, *)
    (forall a p id, command env_root r (`"path") a -> ra_id a = Some id -> In (p, id) l ->
       result (ocfl_root H id_encode e env_root a) w' = Ok [if ra_quiet a then Printed (path_join r p) else path_of r p id]) /\
    (* list shows all objects and their number, *)
    (forall a, command env_root r (`"list") a -> exists lines, Permutation lines (map (fun x => line_of (fst x) (snd x)) l) /\
       result (ocfl_root H id_encode e env_root a) w' = Ok (lines ++ [total_of (List.length ids) r])) /\
    (* and the storage root is valid. *)
    (forall a, command env_root r (`"validate") a -> result (ocfl_root H id_encode e env_root a) w' = Ok [verdict_of r true]).
  Proof using All.
    intros ids w' S. destruct (session_filled ids w' S) as (l & F & <- & Ids). destruct session_made as (v & T & Dr & D & L & No & Kn & Ex). exists l. pose proof (sound_filled _ _ _ _ _ _ _ _ _ F) as F0.
    pose proof (filled_content H id_encode e s w0 r k v lay Local eq_refl eq_refl T Dr D L No (or_intror Kn) l w' F0) as C. pose proof C as [A1 A2 A3 A4 A5 A6 A7 A8 A9 A11 A10].
    destruct (C69_exact H id_encode e s w0 r k v lay Local eq_refl eq_refl T Dr D (or_introl eq_refl) L No (or_intror Kn) l w' F0) as ((s' & l' & E & P) & N1 & N2 & _).
    split; [reflexivity|]. split; [exact N2|]. split; [exact N1|].
    assert (Pl : tree w' /\ no_url r /\ look w' h = Some EDir) by (split; [exact A1|split; [exact Local|exact A2]]).
    assert (St : exists v lay, root_declared w' h v /\ layout_described H w' h lay) by (exists v, (Some lay); split; [exact A3|exact A4]).
    pose proof (filled_good H id_encode e s w0 r k v lay Local eq_refl eq_refl T Dr D (or_introl eq_refl) L No Ex (or_intror Kn) l w' F) as G.
    pose proof (filled_tidy H id_encode e s w0 r k v lay Local eq_refl eq_refl T Dr D (or_introl eq_refl) L No Ex (or_intror Kn) l w' F) as Td.
    split; [|split; [|split]].
    - intros p id Hi. pose proof (A11 p id Hi) as Hp. split; [exact Hp|]. destruct (A7 p id Hi) as (rel & -> & Lv). assert (Nr : rel <> []) by (destruct Lv as (_ & Lr & _); intros ->; discriminate). assert (Fr : Forall fname rel) by apply Lv.
      rewrite (join_place _ _ _ Nr Fr). fold h. assert (O : object_root w' h rel) by (apply A8; eauto). pose proof (gd_sound _ _ _ _ _ G rel O) as W. split; [exact W|].
      assert (Fh : Forall fname h) by (eapply look_fnames; [exact A1|intros X; pose proof (eq_trans (eq_sym A2) X); discriminate]). rewrite <- (at_path_join h rel Fh Fr). now apply Ids.
    - intros a p id [Cc Cr Cl Cx] Hid Hi. apply (C85_path H id_encode e env_root r id a w' v lay A1 Local A2 A3 A4 Cc Cr Hid); [|exact Cl|].
      + apply (identified_id w' (at_path h p)). now apply Ids.
      + exists p. split; [now apply A11|reflexivity].
    - intros a [Cc Cr Cl Cx]. exists (map (fun x => line_of (fst x) (snd x)) l'). split; [now apply Permutation_map|]. unfold result. rewrite (do_list H id_encode e env_root r a Cr w' Cc). rewrite Cl, Cx. fold s. unfold ibind, call. unfold ibind.
      rewrite E. cbn [fst snd iret apply_all fold_left]. assert (En : s_num_objects s' = List.length l').
      { destruct (C67_partial H e w' s r (conj eq_refl eq_refl) Pl) as (s2 & l2 & E2 & _ & _ & Nn).
        - exists v, (Some lay). auto.
        - right. destruct A5 as [A5|A5]; [now contradiction A5|exact A5].
        - intros rel O. pose proof (proj1 (A8 rel) O) as (Fr & Nr & id & Hi). exists id. now apply (A9 rel id Fr Nr Hi).
        - rewrite E in E2. injection E2 as <- <-. exact Nn. }
      rewrite En, (Permutation_length P), map_length. reflexivity.
    - intros a [Cc Cr Cl Cx]. unfold result. rewrite (do_validate H id_encode e env_root r a Cr w' Cc). rewrite Cl, Cx. cbn [snd].
      assert (V : ocfl_root_validate H e r None false (ra_quiet a) (ra_validate_objects a) (ra_check_digests a) w' = Ok true); [|rewrite V; reflexivity].
      destruct (ra_validate_objects a).
      + apply C74_root; [exact Pl|]. split; [exact St|]. split; [exact Td|]. intros rel O. destruct (gd_sound _ _ _ _ _ G rel O) as (spec & rb & root & f & head & I & _).
        apply Properties_Validator.C30_exactly_intact; [reflexivity|exact A1|apply O|]. split; [reflexivity|]. exists spec, rb, root, f, head. cbn [root_vconf vc_check_digests]. destruct (ra_check_digests a); [exact I|]. exact (ObjectForeignProofs.intact_unchecked _ _ _ _ _ _ _ _ I).
      + apply C74_structure; [exact Pl|]. split; [exact St|exact Td].
  Qed.
End Session.
Print Assumptions C85_session.

(** * Examples *)
Definition ex_cmd (c : str) : root_args := mk_root_args (Some c) (Some (`"r")) None false false false true (Some (`"1.1")) None true true None None.
Definition ex_with_layout (l : str) (a : root_args) : root_args :=
  mk_root_args (ra_cmd a) (ra_root a) (Some l) (ra_lax a) (ra_debug a) (ra_verbose a) (ra_quiet a) (ra_spec a) (ra_params a) (ra_validate_objects a) (ra_check_digests a) (ra_src a) (ra_id a).
Definition ex_with_src (o : str) (a : root_args) : root_args :=
  mk_root_args (ra_cmd a) (ra_root a) (ra_layout a) (ra_lax a) (ra_debug a) (ra_verbose a) (ra_quiet a) (ra_spec a) (ra_params a) (ra_validate_objects a) (ra_check_digests a) (Some o) (ra_id a).
Definition ex_with_id (i : str) (a : root_args) : root_args :=
  mk_root_args (ra_cmd a) (ra_root a) (ra_layout a) (ra_lax a) (ra_debug a) (ra_verbose a) (ra_quiet a) (ra_spec a) (ra_params a) (ra_validate_objects a) (ra_check_digests a) (ra_src a) (Some i).
Definition ex_not_quiet (a : root_args) : root_args :=
  mk_root_args (ra_cmd a) (ra_root a) (ra_layout a) (ra_lax a) (ra_debug a) (ra_verbose a) false (ra_spec a) (ra_params a) (ra_validate_objects a) (ra_check_digests a) (ra_src a) (ra_id a).
Definition ex_run (a : root_args) : io (list shown) := ocfl_root toy_hash (fun i => i) ex_env None a.
Definition ex_create : root_args := ex_with_layout (`"0003") (ex_cmd (`"create")).
Definition ex_tool_store : node := after (ex_run ex_create) ex_store_disk.
Definition ex_tool_two : node := after (ex_run (ex_with_src (`"o2") (ex_cmd (`"add")))) (after (ex_run (ex_with_src (`"o1") (ex_cmd (`"add")))) ex_tool_store).
Lemma ex_command c : command None (`"r") c (ex_cmd c).
Proof. constructor; try reflexivity. left. split; [reflexivity|discriminate]. Qed.
Lemma ex_tool_sound w o b : tree w -> look w [o] = Some EDir ->
  snd (validate_opened toy_hash (Properties_Validator.ex_conf true) w [o] 0) = Ok true ->
  (exists d, get w [o] = Ok (Dir d) /\ forallb (fun kv => match snd kv with Dir _ => str_eqb (fst kv) (`"v1") | _ => true end) d = true) ->
  look w [o; `"v1"; `"content"; `"a"] = Some (EFile b) -> whole toy_hash w [o].
Proof. intros T L V (d & G & A) F. eapply (ex_sound _ _ (`"content") [`"a"]); eauto. eapply ex_only; eauto. Qed.
Example C85_session_ex : ocfl_root_status (result (ex_run ex_create) ex_store_disk) = 0%N /\ chosen_layout toy_hash (ra_layout ex_create) (ra_params ex_create) (Some (L0003 (`"sha256") 3 3)) /\
  session toy_hash (fun i => i) ex_env None (`"r") ex_tool_store [`"info:b"; `"info:c"] ex_tool_two /\
  result (ex_run (ex_cmd (`"list"))) ex_tool_two = Ok [Printed (`"623/a6f/666/info%3ab -- id=info:b"); Printed (`"633/a6f/666/info%3ac -- id=info:c"); Printed (`"Found 2 OCFL Objects under root r")] /\
  result (ex_run (ex_cmd (`"validate"))) ex_tool_two = Ok [Printed (`"Storage root r is VALID")] /\
  result (ex_run (ex_with_id (`"info:b") (ex_cmd (`"path")))) ex_tool_two = Ok [Printed (`"r/623/a6f/666/info%3ab")].
Proof.
  split; [vm_compute; reflexivity|]. split; [exists (L0003 (`"sha256") 3 3), (L0003 (`"sha256") 3 3); repeat split; reflexivity|].
  assert (T : tree ex_tool_store) by (apply tree_b_ok; vm_compute; reflexivity). set (w1 := after (ex_run (ex_with_src (`"o1") (ex_cmd (`"add")))) ex_tool_store). assert (T1 : tree w1) by (apply tree_b_ok; vm_compute; reflexivity).
  split; [|split; [|split]; vm_compute; reflexivity].
  assert (Co : forall o, command None (`"r") (`"add") (ex_with_src o (ex_cmd (`"add")))) by (intros o; constructor; try reflexivity; left; split; [reflexivity|discriminate]).
  assert (Id : forall w o i s2 p, tree w -> no_url o -> result (add toy_hash (fun i => i) ex_env o ex_sroot) w = Ok (s2, Ok (i, p)) -> identified w (dest_of (e_cwd ex_env) o) i).
  { intros w o i s2 p Tw Lo E. pose proof (proj1 (C48_when toy_hash (fun i => i) ex_env ex_sroot w (`"r") o Tw ltac:(apply no_url_b_ok; reflexivity) Lo eq_refl eq_refl i p) (ex_intro _ s2 E)) as (B & _). apply (be_id _ _ _ _ _ _ _ _ _ B). }
  apply (session_add _ _ _ _ _ _ [`"info:b"] w1 (ex_with_src (`"o2") (ex_cmd (`"add"))) (`"o2")); [|apply Co|reflexivity|apply no_url_b_ok; reflexivity| | |vm_compute; reflexivity].
  - apply (session_add _ _ _ _ _ _ [] ex_tool_store (ex_with_src (`"o1") (ex_cmd (`"add"))) (`"o1")); [constructor|apply Co|reflexivity|apply no_url_b_ok; reflexivity| | |vm_compute; reflexivity].
    + eapply ex_tool_sound; [exact T|reflexivity|vm_compute; reflexivity|eexists; split; vm_compute; reflexivity|vm_compute; reflexivity].
    + eapply Id; [exact T|apply no_url_b_ok; reflexivity|vm_compute; reflexivity].
  - eapply ex_tool_sound; [exact T1|vm_compute; reflexivity|vm_compute; reflexivity|eexists; split; vm_compute; reflexivity|vm_compute; reflexivity].
  - eapply Id; [exact T1|apply no_url_b_ok; reflexivity|vm_compute; reflexivity].
Qed.

(** * Commands that do not do what they say *)

(** With --layout the command path uses that layout with its default parameters, not the one
    described in the storage root: the path shown is not where add put the object (which
    ignores this option). *)
Theorem C85_path_layout_refuted : exists w a, tree w /\ ra_cmd a = Some (`"path") /\ ra_id a = Some (`"info:b") /\
  result (ex_run (ex_with_layout (`"0002") a)) w = Ok [Printed (`"r/info:b")] /\ result (ex_run a) w = Ok [Printed (`"r/623/a6f/666/info%3ab")] /\
  look w [`"r"; `"info:b"] = None /\ look w [`"r"; `"623"; `"a6f"; `"666"; `"info%3ab"] = Some EDir.
Proof. exists ex_tool_two, (ex_with_id (`"info:b") (ex_cmd (`"path"))). split; [apply tree_b_ok; vm_compute; reflexivity|]. repeat split; vm_compute; reflexivity. Qed.
Print Assumptions C85_path_layout_refuted.

(** show looks for the path within the storage root from the current directory: for an object
    that is there, with the identifier given, there is an exception; and if something is at
    this place in the current directory then this is shown. *)
Theorem C85_show_refuted : exists w w', tree w /\ tree w' /\ let a := ex_not_quiet (ex_with_id (`"info:b") (ex_cmd (`"show"))) in
  whole toy_hash w [`"r"; `"623"; `"a6f"; `"666"; `"info%3ab"] /\ result (ex_run a) w = Raise ObjectException /\
  (forall q, look w' (`"r" :: q) = look w (`"r" :: q)) /\
  result (ex_run a) w' = Ok [Warned (`"Object tree" ++ [10]%N ++ `"[623/a6f/666/info%3ab]" ++ [10]%N ++ tree_last ++ `"x <--- ???" ++ [10]%N)].
Proof.
  exists ex_tool_two, (match ex_tool_two with Dir d => Dir (d ++ [(`"623", Dir [(`"a6f", Dir [(`"666", Dir [(`"info%3ab", Dir [(`"x", File [])])])])])]) | n => n end).
  split; [apply tree_b_ok; vm_compute; reflexivity|]. split; [apply tree_b_ok; vm_compute; reflexivity|]. cbv zeta. split; [|split; [vm_compute; reflexivity|split; [|vm_compute; reflexivity]]].
  - destruct C85_session_ex as (St & Ch & Se & _).
    assert (T0 : tree ex_store_disk) by (apply tree_b_ok; vm_compute; reflexivity). assert (Lo : no_url (`"r")) by (apply no_url_b_ok; reflexivity).
    assert (Ro : root_given None ex_create (`"r")) by (left; split; [reflexivity|discriminate]). assert (Fc : Forall fname (e_cwd ex_env)) by constructor. assert (Nt : (0 < 3)%Z) by reflexivity.
    pose proof (C85_session toy_hash (fun i => i) ex_env None (`"r") ex_create ex_store_disk (`"sha256") 3 3 64 toy_hash_ok T0 Fc Lo eq_refl Ro St Ch default_0003_ok Nt) as Cs.
    specialize (Cs [`"info:b"; `"info:c"] ex_tool_two Se). destruct Cs as (l & El & _ & _ & A & _).
    destruct l as [|[p1 i1] l]; [discriminate|]. injection El as E1 _. cbn [snd] in E1. subst i1. destruct (A p1 (`"info:b") (or_introl eq_refl)) as (Ep & W & _). assert (X : p1 = `"623/a6f/666/info%3ab") by (vm_compute in Ep; apply Ok_inv in Ep; symmetry; exact Ep). subst p1. exact W.
  - intros q. set (d := match ex_tool_two with Dir d => d | _ => [] end). assert (Et : ex_tool_two = Dir d) by (vm_compute; reflexivity). rewrite Et. unfold look. cbn [get].
    assert (Eg : forall x, dget (`"r") (d ++ x) = dget (`"r") d) by (intros x; vm_compute; reflexivity). now rewrite Eg.
Qed.
Print Assumptions C85_show_refuted.

(** validate-object does nothing but raise an exception, for all arguments. *)
Theorem C85_validate_object_refuted : forall H id_encode e env_root a w, ra_cmd a = Some (`"validate-object") ->
  result (ocfl_root H id_encode e env_root a) w = Raise AttributeError.
Proof. intros H id_encode e env_root a w E. unfold ocfl_root. rewrite result_read. unfold parse_root_arguments. rewrite E. reflexivity. Qed.
Print Assumptions C85_validate_object_refuted.

(** purge does nothing; its exit status is 0. *)
Theorem C85_purge_refuted : forall H id_encode e env_root r a w, ra_cmd a = Some (`"purge") -> root_given env_root a r ->
  after (ocfl_root H id_encode e env_root a) w = w /\ ocfl_root_status (result (ocfl_root H id_encode e env_root a) w) = 0%N.
Proof.
  intros H id_encode e env_root r a w E R. split; [apply C85_reads; rewrite E; discriminate|]. unfold result. rewrite (operation H id_encode e env_root a _ E) by discriminate. unfold do_store_operation.
  rewrite (read_then _ _ r) by (now apply root_found). rewrite (read_then _ _ (fresh r (ra_layout a) (ra_lax a))) by reflexivity. reflexivity.
Qed.
Print Assumptions C85_purge_refuted.
