(** C67: the list of the objects of a storage root, with their identifiers. *)
From Verif Require Import Base Unicode Regex Utf8 Json PyJson JsonTextModel JsonFileProofs Log DigestModel LayoutModel ContentPathProofs TextFile PathModel FsModel FsSpec FsProofs FswModel FswSpec FswProofs FswCopyProofs
  NamasteModel NamasteSpec NamasteProofs Properties_Fsw InventorySpec InventoryValidatorModel InventoryRulesProofs Properties_InventoryValidator InventoryExceptionProofs InventoryModel InventoryOpsSpec InventoryParseProofs ParseModel ParseProofs
  ValidatorSpec ValidatorModel ValidatorBasicProofs ValidatorContentProofs ObjectModel ObjectExamples OpenProofs Properties_Layout Properties_Object StorageRootModel StorageRootSpec StorageRootProofs StorageRootRunProofs Properties_StorageRoot.
From Verif Require Properties_Validator.

(** An inventory that is read: it is valid, and the names of versions have at most five
    digits. *)
Definition readable (inv : json) : Prop := (exists f, obeys as_coded inv f) /\ short_names inv.
(** The identifier that an object is listed with: that of its inventory if it is read,
    otherwise a fixed text. *)
Definition listed_as (w : node) (p : place) (id : str) : Prop :=
  exists b d, look w (p ++ [`"inventory.json"]) = Some (EFile b) /\ json_load b = Ok (JObj d) /\
    (readable (JObj d) /\ member (JObj d) (`"id") (JStr id) \/
     (rejected (JObj d) \/ (exists f, obeys as_coded (JObj d) f) /\ ~ short_names (JObj d)) /\ id = `"UNKNOWN-ID").

Lemma parse_refused inv : json_wf inv -> parse_inventory_json inv = Raise ObjectException -> rejected inv \/ (exists f, obeys as_coded inv f) /\ ~ short_names inv.
Proof.
  intros Hw E. pose proof E as E0. unfold parse_inventory_json in E. pose proof (tame_validate false DEFAULT_SPEC_VERSION None inv) as T. unfold tame in T.
  destruct (snd (iv_validate false DEFAULT_SPEC_VERSION None inv)) as [[st ok]|x] eqn:Ev; cbn [ebind] in E; [|congruence]. destruct ok; [right|left; exists st; exact Ev].
  assert (V : valid inv None DEFAULT_SPEC_VERSION) by (exists st; exact Ev). pose proof (proj1 (C22_exact _ _ _ Hw) V) as (f & Ho & _). split; [eauto|]. intros Hs.
  destruct (parse_correct inv Hw V Hs) as (i0 & i & g & _ & Ep & _). congruence.
Qed.

Lemma listed_as_iff w p id : Forall fname p -> id_from_inventory w p (`"UNKNOWN-ID") = Ok id <-> listed_as w p id.
Proof.
  intros Fp. assert (Ep : at_path p INVENTORY_FILENAME = p ++ [`"inventory.json"]) by (apply (at_path_join p [`"inventory.json"]); auto; constructor; [apply fname_b_ok; reflexivity|constructor]).
  assert (Hid : forall i s inv i0 f, open_at w p i s inv i0 f -> i_id i = Some (f_id f)).
  { intros i s inv i0 f O. destruct (reads_valid as_coded inv f (oa_wf _ _ _ _ _ _ _ O) (oa_obeys _ _ _ _ _ _ _ O)) as (i1 & E1 & Hr). rewrite (oa_read _ _ _ _ _ _ _ O) in E1. apply Ok_inv in E1. subst i1.
    destruct (op_rest _ _ _ (oa_opened _ _ _ _ _ _ _ O)) as (-> & _). apply (rd_id _ _ _ _ Hr). }
  unfold id_from_inventory. split.
  - destruct (parse_inventory w p) as [[i s]|x] eqn:E.
    + intros E2. destruct (parse_opened _ _ _ _ E) as (inv & i0 & f & O). destruct (oa_file _ _ _ _ _ _ _ O) as (b & Rb & Jb).
      apply fs_read_look in Rb. rewrite Ep in Rb. rewrite (Hid _ _ _ _ _ O) in E2. apply Ok_inv in E2. subst id.
      pose proof (oa_obeys _ _ _ _ _ _ _ O) as Ho. pose proof Ho as ((Hm & _) & _). pose proof Hm as (d & Ed & _).
      exists b, d. rewrite Ed in *. split; [exact Rb|]. split; [exact Jb|]. left. split; [split; [eauto|apply (oa_short _ _ _ _ _ _ _ O)]|exact Hm].
    + intros E2. destruct x; try discriminate. apply Ok_inv in E2. subst id. unfold parse_inventory in E.
      destruct (fs_read w p INVENTORY_FILENAME) as [b|x] eqn:Er.
      2:{ exfalso. cbn [ebind] in E. injection E as ->. revert Er. unfold fs_read. assert (G : forall q n, get n q <> Raise ObjectException).
          { clear. induction q as [|c q IH]; intros n; [discriminate|]. cbn [get]. destruct n as [|dd|]; try discriminate. destruct (dget c dd); [apply IH|discriminate]. }
          destruct (get w (at_path p INVENTORY_FILENAME)) as [n|y] eqn:Eg; cbn [ebind]; [destruct n; discriminate|]. intros A. injection A as ->. now apply G in Eg. }
      cbn [ebind] in E. pose proof (json_load_cases b) as Hj. destruct (json_load b) as [j|x] eqn:Ej; cbn [ebind] in E; [|injection E as ->; destruct Hj as [?|[?|?]]; discriminate].
      destruct j as [| | | | | |d]; try discriminate. apply fs_read_look in Er. rewrite Ep in Er. exists b, d. split; [exact Er|]. split; [exact Ej|]. right. split; [|reflexivity]. now apply parse_refused.
  - intros (b & d & L & Ej & C). rewrite <- Ep in L. apply fs_read_look in L.
    assert (Epi : parse_inventory w p = parse_inventory_json (JObj d)) by (unfold parse_inventory; rewrite L; cbn [ebind]; rewrite Ej; reflexivity).
    pose proof (json_load_cases b) as Hw. rewrite Ej in Hw. destruct C as [[[(f & Ho) Hs] Hm]|[C ->]].
    + assert (V : valid (JObj d) None DEFAULT_SPEC_VERSION) by (apply C22_exact; [exact Hw|]; exists f; split; [exact Ho|exact I]).
      destruct (parse_correct _ Hw V Hs) as (i0 & i & g & _ & E & _). rewrite <- Epi in E. destruct (parse_opened _ _ _ _ E) as (inv & i1 & g1 & O).
      rewrite E, (Hid _ _ _ _ _ O). f_equal. destruct (oa_file _ _ _ _ _ _ _ O) as (b' & Rb & Jb). rewrite L in Rb. apply Ok_inv in Rb. subst b'. rewrite Ej in Jb. apply Ok_inv in Jb. subst inv.
      pose proof (oa_obeys _ _ _ _ _ _ _ O) as ((Hm' & _) & _). pose proof (member_fun _ _ _ _ Hw Hm Hm') as X. congruence.
    + rewrite Epi. destruct C as [[st C]|[[f Ho] Hs]].
      * unfold parse_inventory_json. change DEFAULT_SPEC_VERSION with (`"1.1"). rewrite C. reflexivity.
      * destruct (parse_inventory_json (JObj d)) as [[i s]|x] eqn:E; [exfalso; apply Hs; eapply parsed_short; eauto|].
        assert (x = ObjectException) as ->; [|reflexivity]. unfold parse_inventory_json in E.
        assert (V : valid (JObj d) None DEFAULT_SPEC_VERSION) by (apply C22_exact; [exact Hw|]; exists f; split; [exact Ho|exact I]). destruct V as [st V]. rewrite V in E. cbn [ebind negb] in E.
        destruct (reads_valid as_coded _ f Hw Ho) as (i0 & E0 & _). rewrite E0 in E. cbn [ebind] in E.
        pose proof (C22_attributes _ _ _ _ Hw V) as (f' & _ & _ & _ & Ealg & _). rewrite Ealg in E. unfold normalize_digests in E.
        match type of E with context [version_directories ?z] => destruct (version_directories z) as [l|y] eqn:El end; [discriminate|]. injection E as <-.
        unfold version_directories in El. match type of El with ebind ?z _ = _ => destruct z as [l|y'] eqn:Em end; [discriminate|]. cbn [ebind] in El. injection El as <-.
        clear -Em. match type of Em with emap _ ?z = _ => revert Em; generalize z end. intros l. induction l as [|v l IH]; cbn [emap]; [discriminate|].
        unfold ObjectUtilsModel.parse_version_directory at 1. destruct (re_match ObjectUtilsModel.re_version_dir v) as [m|]; [|cbn [ebind]; intros A; injection A; auto]. cbv zeta.
        destruct (N.eqb _ 0); cbn [ebind]; [intros A; injection A; auto|]. match goal with |- ebind ?z _ = _ -> _ => destruct z eqn:Z end; cbn [ebind]; [discriminate|]. intros A. injection A as ->. now apply IH.
Qed.

(** ** list_objects *)

Lemma sfold_stops {A} (P : sroot -> Prop) (body : A -> str -> st A) w :
  (forall s n lg, P s -> P (set_traversal_errors n (set_log lg s))) -> (forall s lg, P s -> P (set_log lg s)) ->
  forall l, (forall a p s, P s -> In p (objects l) -> (exists s' x, body a p s w = ([], Ok (s', Raise x))) \/ exists s' a', body a p s w = ([], Ok (s', Ok a')) /\ P s') ->
  (exists p, In p (objects l) /\ forall a s, P s -> exists s' x, body a p s w = ([], Ok (s', Raise x))) ->
  forall a s, P s -> exists s' x, sfold body a l s w = ([], Ok (s', Raise x)).
Proof.
  intros K1 K2. induction l as [|f l IH]; intros B [p [Hp Bp]] a s Ps; [contradiction|]. destruct f as [q|k|k]; cbn [sfold].
  - destruct (B a q s Ps) as [(s1 & x & E)|(s1 & a1 & E & P1)]; [left; reflexivity|exists s1, x; now apply sbind_raise|]. rewrite (sbind_ok _ _ _ _ _ _ E).
    destruct Hp as [<-|Hp]; [destruct (Bp a s Ps) as (s2 & x & E2); congruence|]. apply IH; auto; [intros a0 p0 s0 P0 H0; apply B; [exact P0|right; exact H0]|exists p; auto].
  - unfold traversal_error. rewrite smodify_ok. apply IH; auto. exists p; auto.
  - destruct (s_log s) as [lg|] eqn:El.
    + assert (E : log_warning k s w = ([], Ok (set_log (Some (lg ++ [LWarning k])) s, Ok tt))) by (unfold log_warning; rewrite sget_ok, El; reflexivity).
      rewrite (sbind_ok _ _ _ _ _ _ E). apply IH; auto. exists p; auto.
    + exists s, AttributeError. apply sbind_raise. unfold log_warning. rewrite sget_ok, El. reflexivity.
Qed.

Section C67.
  Variables (H : hashfn) (e : env) (w : node) (s : sroot) (r : str).
  Let h := at_path (base_of (e_cwd e) r) r.
  (** an instance with no layout yet *)
  Hypothesis Fresh : s_root s = Some r /\ s_layout s = None.
  Hypothesis Place : tree w /\ no_url r /\ look w h = Some EDir.
  (** The structure is right, for the specification version of the instance if it has one. *)
  Let structure := exists v lay, root_declared w h v /\ layout_described H w h lay /\ (s_spec s = None \/ s_spec s = Some v).

  Let body := fun (a : list (str * str)) p =>
    use id <- sread (fun w => id_from_inventory w (fsw_opendir_as_fs h p) (`"UNKNOWN-ID")) ;;
    use s <- sget ;;
    use _ <- sput (set_counts (S (s_num_objects s)) (s_good_objects s) (s_errors s) s) ;;
    sret (a ++ [(p, id)]).
  Let step := fun (a : list (str * str)) p => a ++ [(p, match id_from_inventory w (at_path h p) (`"UNKNOWN-ID") with Ok id => id | Raise _ => [] end)].
  Lemma step_ok l : forall a, fold_left step l a = a ++ map (fun p => (p, match id_from_inventory w (at_path h p) (`"UNKNOWN-ID") with Ok id => id | Raise _ => [] end)) l.
  Proof. induction l as [|p l IH]; intros a; cbn [fold_left map]; [now rewrite app_nil_r|]. rewrite IH. unfold step. now rewrite <- app_assoc. Qed.

  Lemma rel_names rel : object_root w h rel -> Forall fname (h ++ rel).
  Proof. intros ((_ & _ & L & _) & _). destruct Place as (T & _). eapply look_fnames; [exact T|rewrite L; discriminate]. Qed.

  Let s2 lay n v := set_counts 0 (s_good_objects s) (s_errors s) (set_layout lay (set_layout_name n (set_spec (Some v) (set_fs (Some h) s)))).
  Lemma list_eq v lay : root_declared w h v -> layout_described H w h lay -> (s_spec s = None \/ s_spec s = Some v) ->
    exists n, list_objects H e s w = for_objects [] body (s2 lay n v) w.
  Proof.
    intros D L V. destruct Fresh as (F1 & F2), Place as (T & P1 & P2). unfold list_objects. rewrite (open_root_ok e _ _ w r); auto. fold h.
    destruct (structure_ok H w h (set_fs (Some h) s) v lay T P2 eq_refl F2 D L V) as [n E]. exists n. rewrite (sbind_ok _ _ _ _ _ _ E), sget_ok, sput_ok. reflexivity.
  Qed.

  (** Exactly the objects are listed, each once, with their identifiers; their number is
      kept, and no files are changed. *)
  Theorem C67_partial : structure -> (s_log s <> None \/ known_extensions w h) -> (forall rel, object_root w h rel -> exists id, listed_as w (h ++ rel) id) ->
    exists s' l, list_objects H e s w = ([], Ok (s', Ok l)) /\ NoDup (map fst l) /\
      (forall p id, In (p, id) l <-> exists rel, p = J rel /\ object_root w h rel /\ listed_as w (h ++ rel) id) /\
      s_num_objects s' = List.length l.
  Proof.
    intros (v & lay & D & L & V) Lg A. destruct (list_eq v lay D L V) as [n E]. destruct Fresh as (F1 & F2), Place as (T & P1 & P2).
    assert (A' : forall rel, object_root w h rel -> exists id, id_from_inventory w (at_path h (J rel)) (`"UNKNOWN-ID") = Ok id).
    { intros rel O. destruct (A rel O) as [id Hid]. exists id. rewrite (object_path_place w h rel T O). apply listed_as_iff; [now apply rel_names|exact Hid]. }
    destruct (for_objects_ok (fun s => s_fs s = Some h) body step w h [] (s2 lay n v) T P2 eq_refl) as (s' & l & E2 & _ & N & I & _).
    - auto.
    - auto.
    - intros a rel s0 P0 O. destruct (A' rel O) as [id Hid]. unfold body, step, fsw_opendir_as_fs. rewrite (sread_ok _ _ _ _ id) by exact Hid. rewrite Hid, sget_ok, sput_ok. eexists. split; [reflexivity|]. auto.
    - reflexivity.
    - exact Lg.
    - rewrite step_ok in E2. cbn [app] in E2. rewrite <- E in E2. eexists s', _. split; [exact E2|]. split; [rewrite map_map, map_id; exact N|]. split.
      + intros p id. rewrite in_map_iff. split.
        * intros (q & Eq & Hq). apply I in Hq as (rel & -> & O). destruct (A' rel O) as [id' Hid]. rewrite Hid in Eq. injection Eq as <- <-. exists rel. split; [reflexivity|]. split; [exact O|].
          rewrite (object_path_place w h rel T O) in Hid. apply listed_as_iff in Hid; [exact Hid|now apply rel_names].
        * intros (rel & -> & O & Hid). exists (J rel). split; [|apply I; eauto]. apply listed_as_iff in Hid; [|now apply rel_names]. rewrite <- (object_path_place w h rel T O) in Hid. rewrite Hid. reflexivity.
      + rewrite E in E2. clear -E2 F1.
        (* the number of objects *)
        assert (G : forall l0 a s0 s1 a1, sfold body a l0 s0 w = ([], Ok (s1, Ok a1)) -> (s_num_objects s1 + List.length a = s_num_objects s0 + List.length a1)%nat).
        { induction l0 as [|f l0 IH]; intros a s0 s1 a1 X; cbn [sfold] in X.
          - injection X as <- <-. lia.
          - destruct f as [p|c|c].
            + assert (B : exists s' q, body a p s0 w = ([], Ok (s', q)) /\ forall a', q = Ok a' -> (s_num_objects s' + List.length a = s_num_objects s0 + List.length a')%nat).
              { unfold body. destruct (id_from_inventory w (fsw_opendir_as_fs h p) (`"UNKNOWN-ID")) as [id|x] eqn:Ei.
                - rewrite (sread_ok _ _ _ _ _ Ei), sget_ok, sput_ok. eexists _, _. split; [reflexivity|]. intros a' A. apply Ok_inv in A. subst a'. rewrite app_length. cbn. lia.
                - rewrite (sread_raise _ _ _ _ _ Ei). eexists _, _. split; [reflexivity|]. discriminate. }
              destruct B as (s3 & q & Eb & Hb). destruct q as [a'|x]; [|rewrite (sbind_raise _ _ _ _ _ _ _ Eb) in X; discriminate]. rewrite (sbind_ok _ _ _ _ _ _ Eb) in X. apply IH in X. specialize (Hb a' eq_refl). lia.
            + unfold traversal_error in X. rewrite smodify_ok in X. apply IH in X. exact X.
            + destruct (s_log s0) as [lg|] eqn:El.
              * assert (Ew : log_warning c s0 w = ([], Ok (set_log (Some (lg ++ [LWarning c])) s0, Ok tt))) by (unfold log_warning; rewrite sget_ok, El; reflexivity).
                rewrite (sbind_ok _ _ _ _ _ _ Ew) in X. apply IH in X. exact X.
              * assert (Ew : log_warning c s0 w = ([], Ok (s0, Raise AttributeError))) by (unfold log_warning; rewrite sget_ok, El; reflexivity). rewrite (sbind_raise _ _ _ _ _ _ _ Ew) in X. discriminate. }
        unfold for_objects in E2. rewrite (root_fs_ok _ _ _ h) in E2 by reflexivity. rewrite (sread_ok _ _ _ _ (find_objects w h)) in E2 by reflexivity.
        match type of E2 with sbind ?x _ ?s0 w = _ => destruct (x s0 w) as [st0 [[s1 [a1|x1]]|x1]] eqn:Es end.
        * destruct st0 as [|z st0]; [|exfalso; unfold sbind, ibind in E2; rewrite Es in E2; cbn [fst snd] in E2; match type of E2 with (let (_, _) := ?y in _) = _ => destruct y end; discriminate].
          rewrite (sbind_ok _ _ _ _ _ _ Es) in E2. destruct (snd (find_objects w h)) as [u|x]; [|discriminate]. rewrite slift_ok in E2. injection E2 as E3 E4. apply G in Es. rewrite E3, E4 in Es. cbn [List.length s_num_objects set_counts] in Es. rewrite Nat.add_0_r in Es. exact Es.
        * rewrite (sbind_raise _ _ _ _ _ _ _ Es) in E2. discriminate.
        * unfold sbind, ibind in E2. rewrite Es in E2. discriminate.
  Qed.

  (** If one object has no such identifier then nothing is listed in the end: this is raised as
      an exception, for all objects. *)
  Theorem C67_stops : structure -> (exists rel, object_root w h rel /\ forall id, ~ listed_as w (h ++ rel) id) ->
    exists s' x, list_objects H e s w = ([], Ok (s', Raise x)).
  Proof.
    intros (v & lay & D & L & V) (rel & O & A). destruct (list_eq v lay D L V) as [n ->]. destruct Place as (T & P1 & P2).
    unfold for_objects. destruct (find_objects_ok w h T P2) as (l & E & Nd & Hin & _). rewrite (root_fs_ok _ _ _ h) by reflexivity. rewrite (sread_ok _ _ _ _ (l, Ok tt)) by (now rewrite E). cbn [fst snd].
    destruct (sfold_stops (fun s => s_fs s = Some h) body w) with (l := l) (a := @nil (str * str)) (s := s2 lay n v) as (s' & y & E').
    - auto.
    - auto.
    - intros a p s0 P0 Hp. unfold body. destruct (id_from_inventory w (fsw_opendir_as_fs h p) (`"UNKNOWN-ID")) as [id|x] eqn:Ei.
      + right. rewrite (sread_ok _ _ _ _ _ Ei), sget_ok, sput_ok. eexists _, _. split; [reflexivity|]. exact P0.
      + left. rewrite (sread_raise _ _ _ _ _ Ei). eauto.
    - exists (J rel). split; [apply Hin; eauto|]. intros a s0 P0. unfold body. destruct (id_from_inventory w (fsw_opendir_as_fs h (J rel)) (`"UNKNOWN-ID")) as [id|x] eqn:Ei.
      + exfalso. unfold fsw_opendir_as_fs in Ei. rewrite (object_path_place w h rel T O) in Ei. apply listed_as_iff in Ei; [|now apply rel_names]. exact (A id Ei).
      + rewrite (sread_raise _ _ _ _ _ Ei). eauto.
    - reflexivity.
    - exists s', y. now apply sbind_raise.
  Qed.
End C67.
Print Assumptions C67_partial.
Print Assumptions C67_stops.

Definition ex_list (w : node) := returned (list_objects toy_hash ex_env ex_sroot w).
Example C67_partial_ex : ex_list ex_full = Ok [(`"a/b", `"info:a"); (`"a/c/d", `"info:a")].
Proof. vm_compute. reflexivity. Qed.
Definition ex_with (b : bytes) : node := Dir [(`"0=ocfl_object_1.1", File (`"ocfl_object_1.1" ++ [10])); (`"inventory.json", File b)].
(** One object without an inventory, with one that is no JSON, or one that is no JSON object,
    and no objects are listed. (An inventory with errors does not have this effect.) *)
Theorem C67_refuted : exists good, listed_as (ex_root [(`"a", good)]) [`"r"; `"a"] (`"info:a") /\
  ex_list (ex_root [(`"a", good)]) = Ok [(`"a", `"info:a")] /\
  ex_list (ex_root [(`"a", good); (`"b", ex_with (`"{}"))]) = Ok [(`"a", `"info:a"); (`"b", `"UNKNOWN-ID")] /\
  ex_list (ex_root [(`"a", good); (`"b", ex_bad)]) = Raise FileNotFoundError /\
  ex_list (ex_root [(`"a", good); (`"b", ex_with [])]) = Raise JSONDecodeError /\
  ex_list (ex_root [(`"a", good); (`"b", ex_with (`"1"))]) = Raise InventoryException /\
  ex_list (ex_root [(`"a", good); (`"b", ex_with (`"{""id"": ""x"", ""type"": ""https://ocfl.io/1.1/spec/#inventory"", ""digestAlgorithm"": ""sha512"", ""head"": ""v1"", ""versions"": {""v1"": 1}}"))]) = Raise TypeError.
Proof.
  exists ex_good. split; [apply listed_as_iff; [repeat constructor; apply fname_b_ok; reflexivity|vm_compute; reflexivity]|]. split; [vm_compute; reflexivity|]. split; [vm_compute; reflexivity|]. split; [vm_compute; reflexivity|]. split; [vm_compute; reflexivity|]. split; vm_compute; reflexivity.
Qed.
Print Assumptions C67_refuted.
