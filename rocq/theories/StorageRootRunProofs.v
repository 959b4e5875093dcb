(** Proofs about ocfl/storage_root.py: what its methods do. *)
From Verif Require Import Base Unicode Regex Utf8 Json PyJson JsonTextModel Log DigestModel LayoutModel ContentPathProofs TextFile PathModel FsModel FsSpec FsProofs FswModel FswSpec FswProofs FswCopyProofs
  NamasteModel NamasteSpec NamasteProofs Properties_Fsw ValidatorSpec ValidatorModel ValidatorBasicProofs ValidatorContentProofs ObjectModel StorageRootModel StorageRootSpec StorageRootProofs.
Notation J := (join [PathModel.slash]).

(** ** Methods that change no files *)

Lemma sbind_ok {A B} (x : st A) (f : A -> st B) s w s1 a : x s w = ([], Ok (s1, Ok a)) -> sbind x f s w = f a s1 w.
Proof. intros E. unfold sbind, ibind. rewrite E. cbn [fst snd apply_all fold_left]. destruct (f a s1 w) as [l r]. reflexivity. Qed.
Lemma sbind_raise {A B} (x : st A) (f : A -> st B) s w l s1 e : x s w = (l, Ok (s1, Raise e)) -> sbind x f s w = (l, Ok (s1, Raise e)).
Proof. intros E. unfold sbind, ibind. rewrite E. cbn. now rewrite app_nil_r. Qed.
Lemma sget_ok {B} (f : sroot -> st B) s w : sbind sget f s w = f s s w.
Proof. apply sbind_ok. reflexivity. Qed.
Lemma smodify_ok {B} g (f : unit -> st B) s w : sbind (smodify g) f s w = f tt (g s) w.
Proof. apply sbind_ok. reflexivity. Qed.
Lemma sput_ok {B} s' (f : unit -> st B) s w : sbind (sput s') f s w = f tt s' w.
Proof. apply sbind_ok. reflexivity. Qed.
Lemma sret_ok {A B} (a : A) (f : A -> st B) s w : sbind (sret a) f s w = f a s w.
Proof. apply sbind_ok. reflexivity. Qed.
Lemma sread_ok {A B} (g : node -> exc A) (f : A -> st B) s w a : g w = Ok a -> sbind (sread g) f s w = f a s w.
Proof. intros E. apply sbind_ok. unfold sread, sio, iread. cbn [fst snd]. now rewrite E. Qed.
Lemma sread_raise {A B} (g : node -> exc A) (f : A -> st B) s w e : g w = Raise e -> sbind (sread g) f s w = ([], Ok (s, Raise e)).
Proof. intros E. apply sbind_raise. unfold sread, sio, iread. cbn [fst snd]. now rewrite E. Qed.
Lemma slift_ok {A B} (a : A) (f : A -> st B) s w : sbind (slift (Ok a)) f s w = f a s w.
Proof. apply sbind_ok. reflexivity. Qed.
Lemma sraise_eq {A B} e (f : A -> st B) s w : sbind (sraise e) f s w = ([], Ok (s, Raise e)).
Proof. apply sbind_raise. reflexivity. Qed.
Lemma root_fs_ok {B} (f : place -> st B) s w h : s_fs s = Some h -> sbind root_fs f s w = f h s w.
Proof. intros E. apply sbind_ok. unfold root_fs. rewrite sget_ok, E. reflexivity. Qed.

(** ** for dirpath in self.object_paths() *)

Lemma sfold_ok {A} (P : sroot -> Prop) (body : A -> str -> st A) (g : A -> str -> A) w : forall l,
  (forall s n lg, P s -> P (set_traversal_errors n (set_log lg s))) -> (forall s lg, P s -> P (set_log lg s)) ->
  (forall a p s, P s -> In p (objects l) -> exists s', body a p s w = ([], Ok (s', Ok (g a p))) /\ P s' /\
    s_num_traversal_errors s' = s_num_traversal_errors s /\ s_log s' = s_log s) ->
  forall a s, P s -> (s_log s <> None \/ warnings l = []) ->
  exists s', sfold body a l s w = ([], Ok (s', Ok (fold_left g (objects l) a))) /\ P s' /\
    s_num_traversal_errors s' = (s_num_traversal_errors s + List.length (errors l))%nat /\ (s_log s <> None -> s_log s' <> None).
Proof.
  intros l K1 K2. induction l as [|f l IH]; intros B a s Ps L.
  - exists s. cbn. split; [reflexivity|]. split; [exact Ps|]. split; [lia|auto].
  - destruct f as [p|c|c]; cbn [sfold].
    + destruct (B a p s Ps) as (s1 & E & P1 & T1 & L1); [left; reflexivity|]. rewrite (sbind_ok _ _ _ _ _ _ E).
      destruct (IH (fun a p s Ps Hp => B a p s Ps (or_intror Hp)) (g a p) s1 P1) as (s2 & E2 & P2 & T2 & L2); [rewrite L1; exact L|].
      exists s2. split; [exact E2|]. split; [exact P2|]. rewrite T2, T1. split; [reflexivity|]. rewrite <- L1. exact L2.
    + unfold traversal_error. rewrite smodify_ok.
      destruct (IH B a (set_traversal_errors (S (s_num_traversal_errors s)) (set_log (option_map (fun l0 => l0 ++ [LError c]) (s_log s)) s))) as (s2 & E2 & P2 & T2 & L2).
      { apply K1; exact Ps. }
      { destruct L as [L|L]; [left|right; exact L]. cbn. destruct (s_log s); [discriminate|congruence]. }
      exists s2. split; [exact E2|]. split; [exact P2|]. split; [rewrite T2; change (errors (FoundError c :: l)) with (c :: errors l); cbn [List.length s_num_traversal_errors set_traversal_errors]; lia|]. intros Hl. apply L2. cbn. destruct (s_log s); [discriminate|congruence].
    + destruct L as [L|L]; [|discriminate]. destruct (s_log s) as [lg|] eqn:El; [|congruence].
      assert (E : log_warning c s w = ([], Ok (set_log (Some (lg ++ [LWarning c])) s, Ok tt))) by (unfold log_warning; rewrite sget_ok, El; reflexivity).
      rewrite (sbind_ok _ _ _ _ _ _ E). destruct (IH B a (set_log (Some (lg ++ [LWarning c])) s)) as (s2 & E2 & P2 & T2 & L2); [apply K2; exact Ps|left; discriminate|].
      exists s2. split; [exact E2|]. split; [exact P2|]. split; [exact T2|]. intros _. apply L2. discriminate.
Qed.

(** If there is no log then the first unknown extension ends it. *)
Lemma sfold_no_log {A} (body : A -> str -> st A) w l : (forall a p s, s_log s = None -> exists s' a', body a p s w = ([], Ok (s', Ok a')) /\ s_log s' = None) ->
  forall a s, s_log s = None -> warnings l <> [] -> exists s', sfold body a l s w = ([], Ok (s', Raise AttributeError)).
Proof.
  intros B. induction l as [|f l IH]; intros a s L W; [now destruct W|]. destruct f as [p|c|c]; cbn [sfold].
  - destruct (B a p s L) as (s1 & a1 & E & L1). rewrite (sbind_ok _ _ _ _ _ _ E). apply IH; auto.
  - unfold traversal_error. rewrite smodify_ok. apply IH; auto. cbn. now rewrite L.
  - exists s. apply sbind_raise. unfold log_warning. rewrite sget_ok, L. reflexivity.
Qed.

Lemma for_objects_ok {A} (P : sroot -> Prop) (body : A -> str -> st A) (g : A -> str -> A) w h a s : tree w -> look w h = Some EDir -> s_fs s = Some h ->
  (forall s n lg, P s -> P (set_traversal_errors n (set_log lg s))) -> (forall s lg, P s -> P (set_log lg s)) ->
  (forall a rel s, P s -> object_root w h rel -> exists s', body a (J rel) s w = ([], Ok (s', Ok (g a (J rel)))) /\ P s' /\
    s_num_traversal_errors s' = s_num_traversal_errors s /\ s_log s' = s_log s) ->
  P s -> (s_log s <> None \/ known_extensions w h) ->
  exists s' l, for_objects a body s w = ([], Ok (s', Ok (fold_left g l a))) /\ P s' /\
    NoDup l /\ (forall p, In p l <-> exists rel, p = J rel /\ object_root w h rel) /\
    (s_num_traversal_errors s' = s_num_traversal_errors s <-> tidy w h) /\ (s_num_traversal_errors s <= s_num_traversal_errors s')%nat.
Proof.
  intros Hw Hl Hs K1 K2 B Ps L. destruct (find_objects_ok w h Hw Hl) as (l & E & Nd & Ho & He & Hwn).
  destruct (sfold_ok P body g w l K1 K2) with (a := a) (s := s) as (s' & E' & P' & T' & _).
  - intros a0 p s0 P0 Hp. apply Ho in Hp as (rel & -> & Hr). apply B; auto.
  - exact Ps.
  - destruct L as [L|L]; [left; exact L|right; now apply Hwn].
  - exists s', (objects l). unfold for_objects. rewrite (root_fs_ok _ _ _ h Hs). rewrite (sread_ok _ _ _ _ (l, Ok tt)) by (now rewrite E). cbn [fst snd].
    rewrite (sbind_ok _ _ _ _ _ _ E'). rewrite slift_ok. split; [reflexivity|]. split; [exact P'|]. split; [exact Nd|]. split; [exact Ho|]. rewrite T', <- He. split; [|lia].
    destruct (errors l); cbn [List.length]; split; auto; try lia; discriminate.
Qed.

(** ** check_root_structure *)

Lemma at_root h : Forall fname h -> at_path h [] = h.
Proof. intros F. unfold at_path. cbn [split_on]. rewrite resolve_app_nil. now apply resolve_fnames. Qed.

Lemma names_one (l : list str) (x : str) : NoDup l -> (forall y, In y l <-> y = x) -> l = [x].
Proof.
  intros N A. destruct l as [|a [|b l]].
  - exfalso. apply (proj2 (A x) eq_refl).
  - f_equal. apply A. left. reflexivity.
  - exfalso. inversion N; subst. apply H1. left. transitivity x; [|symmetry]; apply A; [right; left|left]; reflexivity.
Qed.

Lemma filename_tag f : startswith (`"0=") f = true -> filename (mkNamaste (`"0") [] (Some (skipn 2 f))) = f.
Proof. intros E. apply startswith_app in E as [t ->]. reflexivity. Qed.

Lemma sorted_in f l : In f (sorted_strs l) <-> In f l.
Proof. unfold sorted_strs. pose proof (isort_perm str_leb l) as P. split; apply Permutation.Permutation_in; [now apply Permutation.Permutation_sym|exact P]. Qed.

(** What find_namastes finds: this is the whole of the tagged names. *)
Lemma namastes_ok w h d : tree w -> get w h = Ok (Dir d) ->
  match find_namastes w h (`"0") [] 10 with
  | Ok l => NoDup (map filename l) /\ (forall name, In name (map filename l) <-> tagged w h (`"0") name) /\ Forall (fun n => n_d n = `"0" /\ exists t, n_tvalue n = Some t) l
  | Raise e => e = NamasteException /\ ~ at_most 10 (tagged w h (`"0"))
  end.
Proof.
  intros Hw Hg. assert (Fh : Forall fname h) by (eapply look_fnames; [exact Hw|rewrite (get_look _ _ _ Hg); discriminate]).
  rewrite (find_namastes_ok w h d) by (first [exact Hw|unfold walkable; cbn; discriminate|rewrite at_root by exact Fh; exact Hg]). cbv zeta.
  pose proof (few_length w h d (`"0") 10 Hw Hg) as Few. destruct (dir_names w h d Hw Hg) as (Nd & _ & _).
  destruct (Nat.ltb_spec 10 (List.length (filter (startswith (`"0" ++ `"=")) (keys d)))) as [G|G].
  - split; [reflexivity|]. intros A. apply (proj1 Few) in A. apply (Nat.lt_irrefl 10). eapply Nat.lt_le_trans; [exact G|exact A].
  - assert (E : map filename (map (fun f => mkNamaste (`"0") [] (Some (skipn (List.length (`"0" ++ `"=")) f))) (sorted_strs (filter (startswith (`"0" ++ `"=")) (keys d)))) = sorted_strs (filter (startswith (`"0" ++ `"=")) (keys d))).
    { rewrite map_filename. apply skipn_back. apply Forall_forall. intros f Hf. apply (proj1 (sorted_in _ _)) in Hf. apply filter_In in Hf. apply Hf. }
    rewrite E. split; [apply isort_NoDup; apply NoDup_filter; exact Nd|]. split.
    + intros name. rewrite <- (names_tagged w h d (`"0") name Hw Hg). apply sorted_in.
    + apply Forall_forall. intros n Hn. apply in_map_iff in Hn as (f & <- & _). cbn. eauto.
Qed.

Lemma root_name v : filename (mkNamaste (`"0") [] (Some (`"ocfl_" ++ v))) = `"0=ocfl_" ++ v.
Proof. reflexivity. Qed.
Lemma versions_declares v : In v SPEC_VERSIONS_SUPPORTED -> forall text, content_to_tvalue text = `"ocfl_" ++ v <-> declares text (`"ocfl_" ++ v).
Proof. intros [<-|[<-|[]]] text; (apply declares_iff; [discriminate|vm_compute; lia|vm_compute; intros [E|[E|[]]]; discriminate]). Qed.
Lemma version_name v : In v SPEC_VERSIONS_SUPPORTED -> fname (`"0=ocfl_" ++ v).
Proof. intros [<-|[<-|[]]]; apply fname_b_ok; reflexivity. Qed.
Lemma root_version_ok n v : root_version n = Some v <-> In v SPEC_VERSIONS_SUPPORTED /\ filename n = `"0=ocfl_" ++ v.
Proof.
  unfold root_version. split.
  - intros E. apply find_some in E as [E1 E2]. split; [exact E1|]. now apply str_eqb_eq.
  - intros [Hv E]. rewrite E. destruct Hv as [<-|[<-|[]]]; reflexivity.
Qed.
Lemma content_ok_iff w h v : Forall fname h -> In v SPEC_VERSIONS_SUPPORTED ->
  content_ok (mkNamaste (`"0") [] (Some (`"ocfl_" ++ v))) w h [] = Ok true <->
  exists b text, look w (h ++ [`"0=ocfl_" ++ v]) = Some (EFile b) /\ read_text b = Ok text /\ declares text (`"ocfl_" ++ v).
Proof.
  intros Fh Hv. pose proof (version_name v Hv) as Fn. unfold content_ok, check_content. cbn [tvalue n_tvalue]. change (filename (mkNamaste (`"0") [] (Some (`"ocfl_" ++ v)))) with (`"0=ocfl_" ++ v).
  change (path_join [] (`"0=ocfl_" ++ v)) with (`"0=ocfl_" ++ v). destruct (str_eqb_spec (`"ocfl_" ++ v) []) as [E|_]; [discriminate|].
  assert (Ep : at_path h (`"0=ocfl_" ++ v) = h ++ [`"0=ocfl_" ++ v]) by (apply (at_path_join h [`"0=ocfl_" ++ v]); auto).
  unfold fs_read_text. split.
  - intros E. destruct (fs_read w h (`"0=ocfl_" ++ v)) as [b|x] eqn:Er; [|cbn [ebind] in E; destruct x; discriminate]. apply fs_read_look in Er. rewrite Ep in Er. cbn [ebind] in E. exists b.
    destruct (read_text b) as [text|x] eqn:Et; [|destruct x; discriminate]. cbn [ebind] in E. exists text. split; [exact Er|]. split; [reflexivity|].
    destruct (str_eqb_spec (`"ocfl_" ++ v) (content_to_tvalue text)) as [Ec|Ec]; [|discriminate]. now apply versions_declares.
  - intros (b & text & L & Et & Dc). rewrite <- Ep in L. apply fs_read_look in L. rewrite L. cbn [ebind]. rewrite Et. cbn [ebind].
    apply (versions_declares v Hv) in Dc. rewrite Dc, str_eqb_refl. reflexivity.
Qed.

Lemma parse_layout_ok w h x t : Forall fname h -> parse_layout_file w h = Ok (x, t) <->
  exists b d, look w (h ++ [`"ocfl_layout.json"]) = Some (EFile b) /\ json_load_binary b = Ok (JObj d) /\ dget (`"extension") d = Some (JStr x) /\ dget (`"description") d = Some (JStr t).
Proof.
  intros Fh. assert (Ep : at_path h layout_file = h ++ [`"ocfl_layout.json"]) by (apply (at_path_join h [`"ocfl_layout.json"]); auto; constructor; [apply fname_b_ok; reflexivity|constructor]).
  unfold parse_layout_file. split.
  - intros E. destruct (fs_read w h layout_file) as [b|] eqn:Er; [|discriminate]. apply fs_read_look in Er. rewrite Ep in Er. cbn [ebind] in E. exists b.
    destruct (json_load_binary b) as [j|]; [|discriminate]. destruct j as [| | | | | |d]; try discriminate. exists d. split; [exact Er|]. split; [reflexivity|].
    destruct (dget (`"extension") d) as [[]|]; try discriminate. destruct (dget (`"description") d) as [[]|]; try discriminate. apply Ok_inv in E. injection E as -> ->. auto.
  - intros (b & d & L & Ej & E1 & E2). rewrite <- Ep in L. apply fs_read_look in L. rewrite L. cbn [ebind]. rewrite Ej, E1, E2. reflexivity.
Qed.

Lemma config_place h l : Forall fname h -> at_path h (config_file l) = h ++ [`"extensions"; LayoutModel.layout_name l; `"config.json"].
Proof.
  intros Fh. assert (E : config_file l = J [`"extensions"; LayoutModel.layout_name l; `"config.json"]) by (destruct l; reflexivity). rewrite E. apply at_path_join; [exact Fh|].
  destruct l; repeat (apply Forall_cons || apply Forall_nil); apply fname_b_ok; reflexivity.
Qed.

Lemma layout_params_file H w h l0 l : Forall fname h -> read_layout_params H w h l0 = Ok l <->
  let config := h ++ [`"extensions"; LayoutModel.layout_name l0; `"config.json"] in
  look w config = None /\ l = l0 \/
  exists c cfg, look w config = Some (EFile c) /\ json_load_binary c = Ok (JObj cfg) /\ check_and_set_layout_params H l0 cfg true = Ok l.
Proof.
  intros Fh. cbv zeta. rewrite <- config_place by exact Fh. unfold read_layout_params. destruct (fs_exists w h (config_file l0)) eqn:X.
  - apply fs_exists_look in X. split.
    + intros E. right. destruct (fs_read w h (config_file l0)) as [c|] eqn:Er; [|discriminate]. cbn [ebind] in E. apply fs_read_look in Er. exists c.
      destruct (json_load_binary c) as [j|]; [|discriminate]. destruct j as [| | | | | |d]; try discriminate. exists d. auto.
    + intros [[N _]|(c & cfg & L & Ej & E)]; [congruence|]. apply fs_read_look in L. rewrite L. cbn [ebind]. rewrite Ej. exact E.
  - apply fs_exists_false in X. split.
    + intros E. apply Ok_inv in E. left. auto.
    + intros [[_ ->]|(c & cfg & L & _)]; [reflexivity|congruence].
Qed.

Lemma get_layout_ok x : layout_is_supported x = true <-> exists l, get_layout x = Ok l.
Proof.
  unfold layout_is_supported, get_layout, dmem. destruct (dget x layout_registry) as [l|] eqn:E; split; intros A; try discriminate; try reflexivity; eauto.
  destruct A as [l A]. discriminate.
Qed.

Theorem structure_cases H w h s : tree w -> look w h = Some EDir -> s_fs s = Some h -> s_layout s = None ->
  exists s' r, check_root_structure H s w = ([], Ok (s', r)) /\ s_num_traversal_errors s' = s_num_traversal_errors s /\
    (forall b, r = Ok b -> b = true /\ exists v lay n, root_declared w h v /\ layout_described H w h lay /\ (s_spec s = None \/ s_spec s = Some v) /\
       s' = set_layout lay (set_layout_name n (set_spec (Some v) s))).
Proof.
  intros Hw Hl Hs Hlay. assert (Fh : Forall fname h) by (eapply look_fnames; [exact Hw|rewrite Hl; discriminate]). apply look_dir in Hl as [d Hg].
  pose proof (namastes_ok w h d Hw Hg) as Hn. unfold check_root_structure. rewrite (root_fs_ok _ _ _ h Hs).
  destruct (find_namastes w h (`"0") [] 10) as [l|x] eqn:E1; [rewrite (sread_ok _ _ _ _ _ E1)|rewrite (sread_raise _ _ _ _ _ E1); exists s, (Raise x); split; [reflexivity|]; split; [reflexivity|discriminate]].
  destruct Hn as (Nd & Ht & Hf). destruct l as [|n [|n2 l]]; try (eexists _, _; split; [reflexivity|]; split; [reflexivity|discriminate]).
  destruct (root_version n) as [v|] eqn:Ev; [|eexists _, _; split; [reflexivity|]; split; [reflexivity|discriminate]]. apply root_version_ok in Ev as [Hv En].
  rewrite sget_ok. destruct (match s_spec s with Some t => negb (str_eqb t v) | None => false end) eqn:Es; [eexists _, _; split; [reflexivity|]; split; [reflexivity|discriminate]|].
  assert (Hspec : s_spec s = None \/ s_spec s = Some v) by (destruct (s_spec s) as [t|]; [right|auto]; apply negb_false_iff in Es; apply str_eqb_eq in Es; congruence).
  rewrite smodify_ok. inversion Hf as [|n0 l0 [Hd [t Htv]] _]; subst. destruct n as [nd nc nt]. cbn [n_d n_tvalue] in Hd, Htv. subst nd nt.
  assert (Et : t = `"ocfl_" ++ v) by (unfold filename in En; cbn [n_d tvalue n_tvalue] in En; cbn in En; injection En as En; exact En). subst t.
  assert (Ec : content_ok (mkNamaste (`"0") nc (Some (`"ocfl_" ++ v))) w h [] = content_ok (mkNamaste (`"0") [] (Some (`"ocfl_" ++ v))) w h []) by reflexivity.
  destruct (content_ok (mkNamaste (`"0") nc (Some (`"ocfl_" ++ v))) w h []) as [b|x] eqn:Eb;
    [rewrite (sread_ok _ _ _ _ _ Eb)|rewrite (sread_raise _ _ _ _ _ Eb); eexists _, _; split; [reflexivity|]; split; [reflexivity|discriminate]].
  destruct b; cbn [negb]; [|eexists _, _; split; [reflexivity|]; split; [reflexivity|discriminate]]. symmetry in Ec. apply content_ok_iff in Ec; auto.
  assert (D : root_declared w h v).
  { split; [exact Hv|]. split; [|exact Ec]. intros name. rewrite <- Ht. cbn [map In]. rewrite En. split; [intros [A|[]]; auto|auto]. }
  assert (Ep : at_path h layout_file = h ++ [`"ocfl_layout.json"]) by (apply (at_path_join h [`"ocfl_layout.json"]); auto; constructor; [apply fname_b_ok; reflexivity|constructor]).
  rewrite (sread_ok _ _ _ _ (fs_exists w h layout_file)) by reflexivity. destruct (fs_exists w h layout_file) eqn:X; cbn [negb].
  - destruct (parse_layout_file w h) as [[x t]|x] eqn:Epl; [rewrite (sread_ok _ _ _ _ _ Epl)|rewrite (sread_raise _ _ _ _ _ Epl); eexists _, _; split; [reflexivity|]; split; [reflexivity|discriminate]].
    rewrite smodify_ok. cbn [fst]. destruct (layout_is_supported x) eqn:Esup; cbn [negb]; [|eexists _, _; split; [reflexivity|]; split; [reflexivity|discriminate]].
    apply get_layout_ok in Esup as [l0 El0].
    assert (Tl : forall s1, s_layout s1 = None -> s_layout_name s1 = Some x -> the_layout s1 w = ([], Ok (set_layout (Some l0) s1, Ok (Some l0)))).
    { intros s1 A1 A2. unfold the_layout. rewrite sget_ok, A1, A2, El0, slift_ok, smodify_ok. reflexivity. }
    rewrite (sbind_ok _ _ _ _ _ _ (Tl (set_layout_name (Some x) (set_spec (Some v) s)) Hlay eq_refl)).
    destruct (read_layout_params H w h l0) as [l'|y] eqn:Erp; [rewrite (sread_ok _ _ _ _ _ Erp)|rewrite (sread_raise _ _ _ _ _ Erp); eexists _, _; split; [reflexivity|]; split; [reflexivity|discriminate]].
    rewrite smodify_ok. eexists _, _. split; [reflexivity|]. split; [reflexivity|]. intros b Eb'. apply Ok_inv in Eb'. split; [auto|]. exists v, (Some l'), (Some x). split; [exact D|]. split; [|split; [exact Hspec|reflexivity]].
    apply parse_layout_ok in Epl as (b0 & d0 & L0 & J0 & X0 & T0); [|exact Fh]. exists b0, d0, x, t, l0. repeat (split; [assumption|]). now apply layout_params_file.
  - eexists _, _. split; [reflexivity|]. split; [reflexivity|]. intros b Eb'. apply Ok_inv in Eb'. split; [auto|]. exists v, None, (s_layout_name s). split; [exact D|]. split; [|split; [exact Hspec|]].
    + apply fs_exists_false in X. rewrite Ep in X. exact X.
    + destruct s. cbn in *. subst. reflexivity.
Qed.

Theorem structure_named H w h s v lay : tree w -> look w h = Some EDir -> s_fs s = Some h -> s_layout s = None ->
  root_declared w h v -> layout_described H w h lay -> (s_spec s = None \/ s_spec s = Some v) ->
  exists n, check_root_structure H s w = ([], Ok (set_layout lay (set_layout_name n (set_spec (Some v) s)), Ok true)) /\ (lay = None -> n = s_layout_name s).
Proof.
  intros Hw Hl Hs Hlay (Hv & Ht & Hc) Hd Hspec. assert (Fh : Forall fname h) by (eapply look_fnames; [exact Hw|rewrite Hl; discriminate]). apply look_dir in Hl as [d Hg].
  pose proof (namastes_ok w h d Hw Hg) as Hn. unfold check_root_structure. rewrite (root_fs_ok _ _ _ h Hs).
  destruct (find_namastes w h (`"0") [] 10) as [l|x] eqn:E1.
  2:{ exfalso. apply Hn. intros l Nl Fl. destruct l as [|a [|b l]]; cbn; try lia. exfalso. inversion Nl; subst. apply H2. left. inversion Fl as [|? ? Ha Fl']; subst. inversion Fl' as [|? ? Hb _]; subst. apply Ht in Ha, Hb. congruence. }
  rewrite (sread_ok _ _ _ _ _ E1). destruct Hn as (Nd & Hin & Hf). assert (En : map filename l = [`"0=ocfl_" ++ v]) by (apply names_one; [exact Nd|]; intros y; rewrite Hin; apply Ht).
  destruct l as [|n [|n2 l]]; try discriminate. cbn [map] in En. injection En as En. assert (Erv : root_version n = Some v) by (apply root_version_ok; auto). rewrite Erv, sget_ok.
  assert (Es : match s_spec s with Some t => negb (str_eqb t v) | None => false end = false) by (destruct Hspec as [-> | ->]; [reflexivity|rewrite str_eqb_refl; reflexivity]). rewrite Es, smodify_ok.
  inversion Hf as [|n0 l0 [Hnd [t Htv]] _]; subst. destruct n as [nd nc nt]. cbn [n_d n_tvalue] in Hnd, Htv. subst nd nt.
  assert (Et : t = `"ocfl_" ++ v) by (unfold filename in En; cbn [n_d tvalue n_tvalue] in En; cbn in En; injection En as En; exact En). subst t.
  assert (Ec : content_ok (mkNamaste (`"0") nc (Some (`"ocfl_" ++ v))) w h [] = Ok true) by (apply (content_ok_iff w h v Fh Hv); exact Hc).
  rewrite (sread_ok _ _ _ _ _ Ec). cbn [negb]. rewrite (sread_ok _ _ _ _ (fs_exists w h layout_file)) by reflexivity.
  assert (Ep : at_path h layout_file = h ++ [`"ocfl_layout.json"]) by (apply (at_path_join h [`"ocfl_layout.json"]); auto; constructor; [apply fname_b_ok; reflexivity|constructor]).
  destruct lay as [l'|].
  - destruct Hd as (b & d0 & x & t & l0 & L & Ej & Ex & Etx & Eg & Hcfg). assert (X : fs_exists w h layout_file = true) by (apply fs_exists_look; rewrite Ep, L; discriminate). rewrite X. cbn [negb].
    assert (Epl : parse_layout_file w h = Ok (x, t)) by (apply parse_layout_ok; [exact Fh|]; exists b, d0; auto). rewrite (sread_ok _ _ _ _ _ Epl), smodify_ok. cbn [fst].
    assert (Esup : layout_is_supported x = true) by (apply get_layout_ok; eauto). rewrite Esup. cbn [negb].
    assert (Tl : the_layout (set_layout_name (Some x) (set_spec (Some v) s)) w = ([], Ok (set_layout (Some l0) (set_layout_name (Some x) (set_spec (Some v) s)), Ok (Some l0)))).
    { unfold the_layout. rewrite sget_ok. cbn [s_layout set_layout_name set_spec s_layout_name]. rewrite Hlay, Eg, slift_ok, smodify_ok. reflexivity. }
    rewrite (sbind_ok _ _ _ _ _ _ Tl). apply (layout_params_file H w h l0 l' Fh) in Hcfg. rewrite (sread_ok _ _ _ _ _ Hcfg), smodify_ok. exists (Some x). split; [reflexivity|discriminate].
  - cbn [layout_described] in Hd. assert (X : fs_exists w h layout_file = false) by (apply fs_exists_false; rewrite Ep; exact Hd). rewrite X. cbn [negb].
    exists (s_layout_name s). split; [|reflexivity]. destruct s. cbn in *. subst. reflexivity.
Qed.

Theorem structure_ok H w h s v lay : tree w -> look w h = Some EDir -> s_fs s = Some h -> s_layout s = None ->
  root_declared w h v -> layout_described H w h lay -> (s_spec s = None \/ s_spec s = Some v) ->
  exists n, check_root_structure H s w = ([], Ok (set_layout lay (set_layout_name n (set_spec (Some v) s)), Ok true)).
Proof. intros. destruct (structure_named H w h s v lay) as (n & E & _); eauto. Qed.

(** ** validate *)

Lemma open_root_ok {B} e (f : place -> st B) s w r : no_url r -> s_root s = Some r -> look w (at_path (base_of (e_cwd e) r) r) = Some EDir ->
  sbind (open_root_fs e) f s w = f (at_path (base_of (e_cwd e) r) r) (set_fs (Some (at_path (base_of (e_cwd e) r) r)) s) w.
Proof.
  intros Hu Hr Hl. apply sbind_ok. unfold open_root_fs. rewrite sget_ok, Hr.
  assert (E : fsw_openfs (e_cwd e) r false true w = ([], Ok (at_path (base_of (e_cwd e) r) r))).
  { unfold fsw_openfs. rewrite split_url_none by exact Hu. change (str_eqb (`"file") (`"file")) with true. cbv iota. apply fs_isdir_look in Hl. unfold base_of in *. unfold ibind, iread. destruct (fs_isdir w _ r) eqn:X; [reflexivity|]. exfalso. congruence. }
  erewrite sbind_ok by (rewrite E; reflexivity). rewrite smodify_ok. reflexivity.
Qed.
Lemma open_root_fails {B} e (f : place -> st B) s w r : no_url r -> s_root s = Some r -> look w (at_path (base_of (e_cwd e) r) r) <> Some EDir ->
  sbind (open_root_fs e) f s w = ([], Ok (s, Raise (StorageRootException []))).
Proof.
  intros Hu Hr Hl. apply sbind_raise. unfold open_root_fs. rewrite sget_ok, Hr. apply sbind_raise.
  assert (E : fsw_openfs (e_cwd e) r false true w = ([], Raise FileNotFoundError)).
  { unfold fsw_openfs. rewrite split_url_none by exact Hu. change (str_eqb (`"file") (`"file")) with true. cbv iota. unfold ibind, iread.
    destruct (fs_isdir w _ r) eqn:X; [|reflexivity]. apply fs_isdir_look in X. unfold base_of in Hl. contradiction. }
  now rewrite E.
Qed.

Definition answers (H : hashfn) (c : vconf) (w : node) (h : place) (p : str) : exc bool := snd (validate_opened H c w (at_path h p) 0).
Definition is_true (r : exc bool) : bool := match r with Ok b => b | Raise _ => false end.

Lemma object_path_place w h rel : tree w -> object_root w h rel -> at_path h (J rel) = h ++ rel.
Proof.
  intros Hw ((_ & _ & Hl & _) & _). assert (F : Forall fname (h ++ rel)) by (eapply look_fnames; [exact Hw|rewrite Hl; discriminate]). apply Forall_app in F as [F1 F2]. now apply at_path_join.
Qed.

Section Validate.
  Variables (H : hashfn) (e : env) (check lw : bool) (me : nat) (w : node) (h : place) (lax : bool).
  Let c := root_vconf e lax check.
  Definition count_step (a : nat * nat * list (str * list Log.entry)) (p : str) : nat * nat * list (str * list Log.entry) :=
    let '(n, good, errs) := a in
    let '(log, r) := validate_opened H c w (at_path h p) 0 in
    let messages := filter (fun x => is_error x || lw) log in
    (S n, (if is_true r then S good else good), if Nat.ltb (List.length errs) me then match messages with [] => errs | _ => errs ++ [(p, messages)] end else errs).
  Lemma count_ok l : forall a, fst (fst (fold_left count_step l a)) = (fst (fst a) + List.length l)%nat /\
    snd (fst (fold_left count_step l a)) = (snd (fst a) + List.length (filter (fun p => is_true (answers H c w h p)) l))%nat.
  Proof.
    induction l as [|p l IH]; intros [[n g] er]; [cbn; lia|]. cbn [fold_left]. destruct (IH (count_step (n, g, er) p)) as [E1 E2]. rewrite E1, E2. clear IH E1 E2. unfold count_step, answers. cbn [filter].
    destruct (validate_opened H c w (at_path h p) 0) as [log r]. cbn [fst snd]. destruct (is_true r); cbn [List.length fst snd]; lia.
  Qed.

  Lemma hierarchy_ok s : tree w -> look w h = Some EDir -> s_fs s = Some h -> s_lax s = lax -> s_log s <> None ->
    (forall rel, object_root w h rel -> exists b, answers H c w h (J rel) = Ok b) ->
    exists s' l, validate_hierarchy H e true check lw me s w = ([], Ok (s', Ok (fold_left count_step l (0%nat, 0%nat, [])))) /\ s_fs s' = Some h /\
    NoDup l /\ (forall p, In p l <-> exists rel, p = J rel /\ object_root w h rel) /\
    (s_num_traversal_errors s' = s_num_traversal_errors s <-> tidy w h) /\ (s_num_traversal_errors s <= s_num_traversal_errors s')%nat.
  Proof.
    intros Hw Hl Hs Hx Hlog Ha. unfold validate_hierarchy. cbn [negb].
    destruct (for_objects_ok (fun s => s_fs s = Some h /\ s_lax s = lax)
      (fun a p => let '(n, good, errs) := a in use h <- root_fs ;; use s <- sget ;;
        use r <- sread (fun w => match validate_opened H (root_vconf e (s_lax s) check) w (fsw_opendir_as_fs h p) 0 with (log, Ok b) => Ok (log, b) | (_, Raise x) => Raise x end) ;;
        let '(log, ok) := r in let messages := filter (fun x => is_error x || lw) log in
        sret (S n, (if ok : bool then S good else good), if Nat.ltb (List.length errs) me then match messages with [] => errs | _ => errs ++ [(p, messages)] end else errs))
      count_step w h (0%nat, 0%nat, []) s Hw Hl Hs) as (s' & l & E & [P1 P2] & N & I & T1 & T2).
    - intros s0 n lg A. exact A.
    - intros s0 lg A. exact A.
    - intros [[n g] er] rel s0 [A1 A2] O. destruct (Ha rel O) as [b Eb]. unfold answers in Eb. exists s0. split; [|auto]. rewrite (root_fs_ok _ _ _ h A1), sget_ok, A2. fold c.
      unfold count_step, fsw_opendir_as_fs. destruct (validate_opened H c w (at_path h (J rel)) 0) as [log r] eqn:Ev. cbn [snd] in Eb. subst r.
      rewrite (sread_ok _ _ _ _ (log, b)) by (rewrite Ev; reflexivity). reflexivity.
    - auto.
    - left. exact Hlog.
    - exists s', l. split; [exact E|]. split; [exact P1|]. split; [exact N|]. split; [exact I|]. split; [exact T1|exact T2].
  Qed.

  (** An object whose validation does not end with an answer ends everything. *)
  Lemma sfold_raise {A} (P : sroot -> Prop) (body : A -> str -> st A) : 
    (forall s n lg, P s -> P (set_traversal_errors n (set_log lg s))) -> (forall s lg, P s -> P (set_log lg s)) ->
    forall l, (forall a p s, P s -> In p (objects l) -> (exists s' x, body a p s w = ([], Ok (s', Raise x))) \/ exists s' a', body a p s w = ([], Ok (s', Ok a')) /\ P s' /\ s_log s' = s_log s) ->
    (exists p, In p (objects l) /\ forall a s, P s -> exists s' x, body a p s w = ([], Ok (s', Raise x))) ->
    forall a s, P s -> s_log s <> None -> exists s' x, sfold body a l s w = ([], Ok (s', Raise x)).
  Proof.
    intros K1 K2. induction l as [|f l IH]; intros B [p [Hp Bp]] a s Ps Hl; [contradiction|]. destruct f as [q|k|k]; cbn [sfold].
    - destruct (B a q s Ps) as [(s1 & x & E)|(s1 & a1 & E & P1 & L1)]; [left; reflexivity|exists s1, x; now apply sbind_raise|]. rewrite (sbind_ok _ _ _ _ _ _ E).
      destruct Hp as [<-|Hp]; [destruct (Bp a s Ps) as (s2 & x & E2); congruence|]. apply IH; auto; [intros a0 p0 s0 P0 H0; apply B; [exact P0|right; exact H0]|exists p; auto|congruence].
    - unfold traversal_error. rewrite smodify_ok. apply IH; auto; [exists p; auto|cbn; destruct (s_log s); [discriminate|congruence]].
    - destruct (s_log s) as [lg|] eqn:El; [|congruence]. assert (E : log_warning k s w = ([], Ok (set_log (Some (lg ++ [LWarning k])) s, Ok tt))) by (unfold log_warning; rewrite sget_ok, El; reflexivity).
      rewrite (sbind_ok _ _ _ _ _ _ E). apply IH; auto; [exists p; auto|discriminate].
  Qed.
  Lemma hierarchy_raises s rel x : tree w -> look w h = Some EDir -> s_fs s = Some h -> s_lax s = lax -> s_log s <> None ->
    object_root w h rel -> answers H c w h (J rel) = Raise x ->
    exists s' x', validate_hierarchy H e true check lw me s w = ([], Ok (s', Raise x')).
  Proof.
    intros Hw Hl Hs Hx Hlog Ho Hr. unfold validate_hierarchy, for_objects. cbn [negb]. destruct (find_objects_ok w h Hw Hl) as (l & E & Nd & Hin & _).
    rewrite (root_fs_ok _ _ _ h Hs). rewrite (sread_ok _ _ _ _ (l, Ok tt)) by (now rewrite E). cbn [fst snd].
    match goal with |- exists s' x', sbind (sfold ?body ?z l) ?k s w = _ => destruct (sfold_raise (fun s => s_fs s = Some h /\ s_lax s = lax) body) with (l := l) (a := z) (s := s) as (s' & y & E') end.
    - intros s0 n lg A. exact A.
    - intros s0 lg A. exact A.
    - intros [[n g] er] p s0 [A1 A2] Hp. rewrite (root_fs_ok _ _ _ h A1), sget_ok. destruct (validate_opened H (root_vconf e (s_lax s0) check) w (fsw_opendir_as_fs h p) 0) as [log [b|y]] eqn:Ev.
      + right. rewrite (sread_ok _ _ _ _ (log, b)) by (rewrite Ev; reflexivity). eexists _, _. split; [reflexivity|]. auto.
      + left. rewrite (sread_raise _ _ _ _ y) by (rewrite Ev; reflexivity). eauto.
    - exists (J rel). split; [apply Hin; eauto|]. intros [[n g] er] s0 [A1 A2]. rewrite (root_fs_ok _ _ _ h A1), sget_ok, A2. unfold answers in Hr. fold c. unfold fsw_opendir_as_fs. destruct (validate_opened H c w (at_path h (J rel)) 0) as [log r] eqn:Ev. cbn [snd] in Hr. subst r.
      rewrite (sread_raise _ _ _ _ x) by (rewrite Ev; reflexivity). eauto.
    - auto.
    - exact Hlog.
    - exists s', y. now apply sbind_raise.
  Qed.
End Validate.

(** The number of errors never gets smaller. *)
Lemma sfold_mono {A} (body : A -> str -> st A) w : (forall a p s, exists s' r, body a p s w = ([], Ok (s', r)) /\ s_num_traversal_errors s' = s_num_traversal_errors s) ->
  forall l a s, exists s' r, sfold body a l s w = ([], Ok (s', r)) /\ (s_num_traversal_errors s <= s_num_traversal_errors s')%nat.
Proof.
  intros B. induction l as [|f l IH]; intros a s; [exists s, (Ok a); auto|]. destruct f as [p|c|c]; cbn [sfold].
  - destruct (B a p s) as (s1 & r & E & T). destruct r as [a1|x]; [|exists s1, (Raise x); split; [now apply sbind_raise|lia]].
    rewrite (sbind_ok _ _ _ _ _ _ E). destruct (IH a1 s1) as (s2 & r2 & E2 & T2). exists s2, r2. split; [exact E2|lia].
  - unfold traversal_error. rewrite smodify_ok. destruct (IH a (set_traversal_errors (S (s_num_traversal_errors s)) (set_log (option_map (fun l0 => l0 ++ [LError c]) (s_log s)) s))) as (s2 & r2 & E2 & T2). exists s2, r2. split; [exact E2|].
    cbn [s_num_traversal_errors set_traversal_errors] in T2. lia.
  - destruct (s_log s) as [lg|] eqn:L.
    + assert (E : log_warning c s w = ([], Ok (set_log (Some (lg ++ [LWarning c])) s, Ok tt))) by (unfold log_warning; rewrite sget_ok, L; reflexivity).
      rewrite (sbind_ok _ _ _ _ _ _ E). apply (IH a (set_log (Some (lg ++ [LWarning c])) s)).
    + exists s, (Raise AttributeError). split; [|lia]. apply sbind_raise. unfold log_warning. rewrite sget_ok, L. reflexivity.
Qed.
Lemma hierarchy_mono H e vo check lw me w h s : s_fs s = Some h ->
  exists s' r, validate_hierarchy H e vo check lw me s w = ([], Ok (s', r)) /\ (s_num_traversal_errors s <= s_num_traversal_errors s')%nat.
Proof.
  intros Hs. unfold validate_hierarchy, for_objects. rewrite (root_fs_ok _ _ _ h Hs). rewrite (sread_ok _ _ _ _ (find_objects w h)) by reflexivity.
  match goal with |- exists s' r, sbind (sfold ?body ?z ?z2) ?k s w = _ /\ _ => destruct (sfold_mono body w) with (l := z2) (a := z) (s := s) as (s' & r & E & T) end.
  - intros [[n g] er] p s0. destruct vo; cbn [negb]; [|exists s0, (Ok (n, g, er)); auto]. destruct (s_fs s0) as [h0|] eqn:E0.
    + rewrite (root_fs_ok _ _ _ h0 E0), sget_ok. destruct (validate_opened H (root_vconf e (s_lax s0) check) w (fsw_opendir_as_fs h0 p) 0) as [log [b|y]] eqn:Ev.
      * rewrite (sread_ok _ _ _ _ (log, b)) by (rewrite Ev; reflexivity). eexists _, _. split; [reflexivity|reflexivity].
      * rewrite (sread_raise _ _ _ _ y) by (rewrite Ev; reflexivity). eexists _, _. split; [reflexivity|reflexivity].
    + eexists s0, _. split; [|reflexivity]. apply sbind_raise. unfold root_fs. rewrite sget_ok, E0. reflexivity.
  - destruct r as [a|x]; [|exists s', (Raise x); split; [now apply sbind_raise|exact T]]. rewrite (sbind_ok _ _ _ _ _ _ E). destruct (snd (find_objects w h)) as [u|x]; [rewrite slift_ok|]; eexists _, _; (split; [reflexivity|exact T]).
Qed.
