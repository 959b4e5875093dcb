(** Property C87: runs of ocfl-sidecar.py. *)
From Verif Require Import Base Unicode Regex Utf8 Json PathModel DigestModel LayoutModel ObjectUtilsModel Log InventoryModel NewVersionModel
  InventoryValidatorModel ParseModel TextFile FsModel FsSpec FsProofs FswModel FswSpec FswProofs FswCopyProofs NamasteProofs
  FsStepProofs NamasteModel ValidatorModel ValidatorSpec ValidatorBasicProofs ObjectModel ObjectWriteProofs ObjectSpec ObjectInvProofs ObjectRulesProofs ObjectMadeProofs ObjectIntactProofs ObjectTrackProofs ObjectExtendProofs ObjectCreateProofs ObjectUpdateProofs ObjectNextProofs ObjectHistoryProofs UpdateSpec ChangeProofs FrameProofs
  ObjectExamples RootToolModel SidecarToolModel Properties_Layout Properties_Object Properties_ObjectFindings Properties_Sidecar.
Import ListNotations.

(** * What is meant *)

(** The path stands for the directory [dir]: it is one, or it is that of a file inventory.json. *)
Definition stands_for (cwd : place) (w : node) (path dir : str) : Prop :=
  (look w (dest_of cwd path) = Some EDir /\ dir = path) \/
  (look w (dest_of cwd path) <> Some EDir /\ exists p, path = p ++ inv_name /\ (p = [] \/ last_opt p = Some PathModel.slash) /\ dir = path_dirname path).
(** One of the paths stands for a directory with this inventory file. *)
Definition inventory_named (cwd : place) (w : node) (paths : list str) (h : place) (b : bytes) : Prop :=
  exists path dir, In path paths /\ stands_for cwd w path dir /\ h = dest_of cwd dir /\ look w (h ++ [inv_name]) = Some (EFile b).
(** The sidecar of such a file *)
Definition sidecar_of (H : hashfn) (a : str) (b t : bytes) : Prop :=
  exists d, digest_of H a b d /\ write_text (d ++ `" inventory.json" ++ [10%N]) = Ok t.
(** What is named if nothing is given *)
Definition named_paths (paths : list str) : list str := match paths with [] => [`"."] | _ => paths end.

(** What is shown for one path: that the sidecar is written, perhaps after a warning, that there
    is no inventory, or that no inventory can be meant. *)
Definition lines_for (e : env) (given : option str) (w : node) (path : str) (out : list shown) : Prop :=
  (exists dir b, stands_for (e_cwd e) w path dir /\ look w (dest_of (e_cwd e) dir ++ [inv_name]) = Some (EFile b) /\
     exists warning, out = warning ++ [Printed (`"Written sidecar file " ++ path_join dir (side_name (tool_algorithm given)))] /\
       ((warning = [] /\ (given = None -> exists i, parse_inventory w (dest_of (e_cwd e) dir) = Ok i)) \/
        (given = None /\ parse_inventory w (dest_of (e_cwd e) dir) = Raise ObjectException /\
         warning = [Warned (`"Failed to read inventory in directory " ++ dir)]))) \/
  (exists dir, stands_for (e_cwd e) w path dir /\ (forall b, look w (dest_of (e_cwd e) dir ++ [inv_name]) <> Some (EFile b)) /\
     out = [Failed (`"Ignoring path " ++ dir ++ `" because there is no inventory file " ++ path_join dir inv_name ++ `".")]) \/
  ((forall dir, ~ stands_for (e_cwd e) w path dir) /\
     out = [Failed (`"Ignoring path " ++ path_basename path ++ `" with filename that is not inventory.json")]).

(** * Proofs *)

Lemma rsplit_parts s h t : rsplit_slash s = (h, t) -> s = h ++ t /\ ~ In PathModel.slash t /\ (h = [] \/ last_opt h = Some PathModel.slash).
Proof.
  revert h t. induction s as [|c s IH]; intros h t E; cbn [rsplit_slash] in E.
  - injection E as <- <-. split; [reflexivity|]. split; [intros []|now left].
  - destruct (rsplit_slash s) as [h' t'] eqn:Es. destruct (IH _ _ eq_refl) as (I1 & I2 & I3). subst s.
    destruct h' as [|x h'].
    + destruct (N.eqb_spec c PathModel.slash) as [->|Hc]; injection E as <- <-.
      * split; [reflexivity|]. split; [exact I2|now right].
      * split; [reflexivity|]. split; [intros [Hi|Hi]; congruence|now left].
    + injection E as <- <-. split; [reflexivity|]. split; [exact I2|]. right.
      destruct I3 as [I3|I3]; [discriminate I3|]. unfold last_opt in *. cbn [rev] in *.
      destruct (rev h' ++ [x]) as [|y l] eqn:Er; [discriminate I3|]. cbn [app]. exact I3.
Qed.
Lemma no_url_prefix a b : no_url (a ++ b) -> no_url a.
Proof. intros N x y ->. apply (N x (y ++ b)). rewrite <- !app_assoc. reflexivity. Qed.
Lemma lstrip_suffix s : exists n, s = repeat PathModel.slash n ++ lstrip_slash s.
Proof.
  induction s as [|c s [n IH]]; [exists 0%nat; reflexivity|]. cbn [lstrip_slash]. destruct (N.eqb_spec c PathModel.slash) as [->|_].
  - exists (Datatypes.S n). cbn [repeat app]. f_equal. exact IH.
  - exists 0%nat. reflexivity.
Qed.
Lemma rstrip_prefix s : exists r, s = rstrip_slash s ++ r.
Proof.
  destruct (lstrip_suffix (rev s)) as [n E]. unfold rstrip_slash. exists (rev (repeat PathModel.slash n)).
  rewrite <- rev_app_distr, <- E, rev_involutive. reflexivity.
Qed.
Lemma no_url_dirname path : no_url path -> no_url (path_dirname path).
Proof.
  intros N. unfold path_dirname, path_split. destruct (rsplit_slash path) as [h t] eqn:E. apply rsplit_parts in E as (-> & _ & _). cbn [fst].
  apply no_url_prefix in N. destruct (rstrip_slash h) as [|c r] eqn:Er; [exact N|]. rewrite <- Er. destruct (rstrip_prefix h) as [x Ex].
  apply (no_url_prefix _ x). rewrite <- Ex. exact N.
Qed.
Lemma side_inv a : side_name a <> inv_name.
Proof. intros E. apply (f_equal (@List.length N)) in E. unfold side_name in E. rewrite app_length in E. cbn in E. lia. Qed.

Lemma warning_cases e dir given v : let h := dest_of (e_cwd e) dir in
  (given = None -> (exists i, parse_inventory v h = Ok i) \/ parse_inventory v h = Raise ObjectException) ->
  (sidecar_warning e dir given v = [] /\ (given = None -> exists i, parse_inventory v h = Ok i)) \/
  (given = None /\ parse_inventory v h = Raise ObjectException /\ sidecar_warning e dir given v = [Warned (`"Failed to read inventory in directory " ++ dir)]).
Proof.
  intros h Hc. unfold sidecar_warning. change (at_path (if startswith [PathModel.slash] dir then [] else e_cwd e) dir) with h.
  destruct given as [g|]; [left; split; [reflexivity|intros X; discriminate X]|].
  destruct (Hc eq_refl) as [[i Ci]|Ci]; rewrite Ci; [left; split; [reflexivity|intros _; eexists; reflexivity]|right; repeat split].
Qed.

Lemma place_entry_dec (x y : option entry) : {x = y} + {x <> y}.
Proof. decide equality. decide equality. apply (list_eq_dec N.eq_dec). Qed.

Section Run.
  Context (H : hashfn) (e : env) (given : option str).
  Let a := tool_algorithm given.
  Let cwd := e_cwd e.

  (** The two cases of one path *)
  Lemma path_cases w path : no_url path ->
    (exists dir, no_url dir /\ stands_for cwd w path dir /\ sidecar_path H e given path w = create_sidecar_shown H e dir given w) \/
    ((forall dir, ~ stands_for cwd w path dir) /\
     sidecar_path H e given path w = ([], Ok [Failed (`"Ignoring path " ++ path_basename path ++ `" with filename that is not inventory.json")])).
  Proof using Type.
    intros Hu.
    assert (Es : sidecar_path H e given path w = (if fs_isdir w (base_of cwd path) path then create_sidecar_shown H e path given
      else let '(directory, filename) := path_split path in
           if str_eqb filename INVENTORY_FILENAME then create_sidecar_shown H e directory given
           else iret [Failed (`"Ignoring path " ++ filename ++ `" with filename that is not inventory.json")]) w).
    { unfold sidecar_path. unfold ibind at 1. cbn [iread apply_all fold_left]. unfold base_of, cwd.
      match goal with |- (let (_, _) := ?y w in _) = _ => destruct (y w) end. reflexivity. }
    rewrite Es. clear Es.
    destruct (fs_isdir w (base_of cwd path) path) eqn:Ed.
    - apply fs_isdir_look in Ed. left. exists path. split; [exact Hu|]. split; [left; split; [exact Ed|reflexivity]|reflexivity].
    - assert (Nd : look w (dest_of cwd path) <> Some EDir).
      { intros E. apply fs_isdir_look in E. unfold cwd in *. congruence. }
      destruct (path_split path) as [dir file] eqn:Ep.
      assert (Ed' : dir = path_dirname path) by (unfold path_dirname; rewrite Ep; reflexivity).
      assert (Ef : file = path_basename path).
      { unfold path_basename. unfold path_split in Ep. destruct (rsplit_slash path). injection Ep as _ <-. reflexivity. }
      destruct (str_eqb_spec file INVENTORY_FILENAME) as [E|E].
      + left. exists dir. split; [rewrite Ed'; now apply no_url_dirname|]. split.
        * right. split; [exact Nd|]. destruct (rsplit_slash path) as [p t] eqn:Er. pose proof (rsplit_parts _ _ _ Er) as (R1 & R2 & R3).
          exists p. split; [|split; [exact R3|exact Ed']]. rewrite R1. f_equal. transitivity file; [|exact E].
          rewrite Ef. unfold path_basename. rewrite Er. reflexivity.
        * reflexivity.
      + right. split.
        * intros d [[X _]|[_ (p & X1 & X2 & _)]]; [exact (Nd X)|]. apply E. rewrite Ef. unfold path_basename. rewrite X1.
          rewrite rsplit_app; [reflexivity|apply fname_inv|exact X2].
        * rewrite Ef. reflexivity.
  Qed.

  (** What [create_sidecar_shown] does is what [create_sidecar] does. *)
  Lemma shown_as w dir :
    fst (create_sidecar_shown H e dir given w) = fst (create_sidecar H e dir given w) /\
    (result (create_sidecar H e dir given) w = Ok tt -> exists out, result (create_sidecar_shown H e dir given) w = Ok out) /\
    (forall out, result (create_sidecar_shown H e dir given) w = Ok out -> result (create_sidecar H e dir given) w = Ok tt).
  Proof using Type.
    unfold create_sidecar_shown. cbv zeta. unfold result. unfold ibind at 1 4 7. cbn [iread apply_all fold_left]. unfold ibind at 1 3 5. cbn [iread apply_all fold_left].
    unfold ibind. destruct (create_sidecar H e dir given w) as [s [[]|x]]; cbn [iret fst snd]; rewrite ?app_nil_r; repeat split; eauto; discriminate.
  Qed.

  (** The file create_sidecar looks for *)
  Lemma look_for dir w :
    (match get w (at_path (if startswith [PathModel.slash] (path_join dir INVENTORY_FILENAME) then [] else e_cwd e) (path_join dir INVENTORY_FILENAME)) with Ok (File _) => true | _ => false end) = true <->
    exists b, look w (dest_of cwd dir ++ [inv_name]) = Some (EFile b).
  Proof using Type.
    assert (Eb : (if startswith [PathModel.slash] (path_join dir INVENTORY_FILENAME) then [] else e_cwd e) = base_of cwd dir).
    { unfold base_of. destruct dir as [|c d]; [reflexivity|].
      assert (E : exists r, path_join (c :: d) INVENTORY_FILENAME = c :: r).
      { unfold path_join. change (startswith [PathModel.slash] INVENTORY_FILENAME) with false. cbv iota.
        destruct (last_opt (c :: d)) as [l|] eqn:El; [destruct (N.eqb l PathModel.slash); eexists; reflexivity|].
        exfalso. revert El. unfold last_opt. destruct (rev (c :: d)) eqn:Er; [|discriminate].
        apply (f_equal (@List.length N)) in Er. rewrite rev_length in Er. discriminate Er. }
      destruct E as [r ->]. reflexivity. }
    match goal with |- context [at_path ?b (path_join dir _)] => change b with (if startswith [PathModel.slash] (path_join dir INVENTORY_FILENAME) then [] else e_cwd e) end.
    rewrite Eb. change INVENTORY_FILENAME with inv_name. rewrite (at_path_name _ dir inv_name fname_inv). fold (dest_of cwd dir). unfold look.
    destruct (get w (dest_of cwd dir ++ [inv_name])) as [[x|es|]|y]; (split; [intros E|intros [b E]]); try discriminate E; try reflexivity. exists x. reflexivity.
  Qed.

  Definition there (w : node) (dir : str) : Prop := exists b, look w (dest_of cwd dir ++ [inv_name]) = Some (EFile b).

  Lemma nothing_there w dir : ~ there w dir ->
    create_sidecar_shown H e dir given w = ([], Ok [Failed (`"Ignoring path " ++ dir ++ `" because there is no inventory file " ++ path_join dir inv_name ++ `".")]).
  Proof using Type.
    intros Nt. unfold create_sidecar_shown. cbv zeta. unfold ibind at 1. cbn [iread apply_all fold_left].
    pose proof (look_for dir w) as L. fold (there w dir) in L.
    destruct (match get w _ with Ok (File _) => true | _ => false end) eqn:Eg; [destruct Nt; apply L; reflexivity|].
    unfold ibind at 1. cbn [iread apply_all fold_left]. unfold ibind at 1.
    assert (C : create_sidecar H e dir given w = ([], Ok tt)).
    { unfold create_sidecar. cbv zeta. unfold ibind at 1. cbn [iread apply_all fold_left].
      match goal with |- context [if ?y then _ else _] => destruct y eqn:Eg2 end; [destruct Nt; apply (look_for dir w); exact Eg2|reflexivity]. }
    rewrite C. reflexivity.
  Qed.

  Lemma there_dir w dir : there w dir -> look w (dest_of cwd dir) = Some EDir.
  Proof using Type. intros [b Hb]. apply (look_prefix_dir w (dest_of cwd dir ++ [inv_name]) _ [inv_name]); [rewrite Hb; discriminate|reflexivity|discriminate]. Qed.

  Lemma lines_there w dir out : there w dir -> result (create_sidecar_shown H e dir given) w = Ok out ->
    out = sidecar_warning e dir given w ++ [Printed (`"Written sidecar file " ++ path_join dir (side_name a))].
  Proof using Type.
    intros Ht R. unfold create_sidecar_shown in R. cbv zeta in R. rewrite !result_read in R.
    pose proof (look_for dir w) as L. fold (there w dir) in L. apply L in Ht.
    match type of R with result (ibind _ (fun _ => iret (if ?y then _ else _))) _ = _ => replace y with true in R by (symmetry; exact Ht) end.
    apply seq_ok in R as (u & _ & R & _). cbn in R. apply Ok_inv in R. rewrite <- R. unfold a, side_name. destruct given; reflexivity.
  Qed.

  (** When one sidecar is written *)
  Definition can_write (w : node) (h : place) (b : bytes) : Prop :=
    (exists t, sidecar_of H a b t) /\
    (look w (h ++ [side_name a]) = None \/ exists b', look w (h ++ [side_name a]) = Some (EFile b')) /\
    (given = None -> (exists i, parse_inventory w h = Ok i) \/ parse_inventory w h = Raise ObjectException).

  Lemma one_ends w dir b : tree w -> no_url dir -> look w (dest_of cwd dir ++ [inv_name]) = Some (EFile b) ->
    (result (create_sidecar H e dir given) w = Ok tt <-> can_write w (dest_of cwd dir) b).
  Proof using Type.
    intros Tw Hu Hi. set (h := dest_of cwd dir) in *.
    assert (Hd : look w h = Some EDir) by (apply there_dir; exists b; exact Hi).
    assert (F : Forall fname h) by (apply (look_fnames w); [exact Tw|rewrite Hd; discriminate]).
    unfold result. rewrite (tool_start H e dir given w Hu Hd). fold cwd. fold h. rewrite Hi. fold (result (tool_steps H h given) w).
    assert (Ew : forall a', result (write_inventory_and_sidecar H a' h None []) w = result (do digest <- iread (fun w => ObjectModel.fs_digest H a' w h (path_join [] INVENTORY_FILENAME)) ;;
      fs_write_text h (path_join [] (INVENTORY_FILENAME ++ `"." ++ a')) (digest ++ `" " ++ INVENTORY_FILENAME ++ [10%N]) ;;
      iret (path_join [] (INVENTORY_FILENAME ++ `"." ++ a'))) w) by (intros a'; unfold result; rewrite (tool_writes H h a' w F Hd); reflexivity).
    assert (Rb : fs_read w h (path_join [] INVENTORY_FILENAME) = Ok b) by (apply fs_read_look; rewrite tool_place by exact F; exact Hi).
    split.
    - intros R. unfold tool_steps in R. apply seq_ok in R. destruct R as (a' & R1 & R & _). pose proof (tool_alg _ _ _ _ R1) as Ea. subst a'.
      fold a in R. rewrite after_iread in R. apply seq_ok in R. destruct R as (s & R2 & _ & _). rewrite Ew, result_read in R2.
      unfold ObjectModel.fs_digest in R2. rewrite Rb in R2. cbn [ebind] in R2. destruct (file_digest H a b) as [d|] eqn:Ed; [|discriminate R2].
      apply seq_ok in R2. destruct R2 as ([] & R3 & _ & _).
      assert (Es := tool_side h a F (known_no_slash _ _ _ _ Ed)).
      destruct (write_text_done _ _ _ _ R3) as (t & Wt & _). split.
      + exists t, d. split; [apply file_digest_iff; exact Ed|exact Wt].
      + split.
        * unfold fs_write_text in R3. apply seq_ok in R3 as ([] & R4 & _). apply create_place in R4. rewrite Es in R4.
          destruct R4 as [(_ & _ & R4)|R4]; [left; exact R4|right; exact R4].
        * intros G. rewrite result_iread in R1. rewrite G in R1. destruct (parse_inventory w h) as [i|[]]; try discriminate R1; eauto.
    - intros ((t & d & Dg & Wt) & Hs & Hp). apply file_digest_iff in Dg.
      assert (Es := tool_side h a F (known_no_slash _ _ _ _ Dg)).
      unfold tool_steps. rewrite (result_seq _ _ w a).
      + rewrite after_iread.
        assert (W : exists s, result (write_inventory_and_sidecar H a h None []) w = Ok s).
        { rewrite Ew, result_read. unfold ObjectModel.fs_digest. rewrite Rb. cbn [ebind]. rewrite Dg.
          destruct (write_text_file w h (path_join [] (INVENTORY_FILENAME ++ `"." ++ a)) (d ++ `" " ++ INVENTORY_FILENAME ++ [10%N]) t) as [W _].
          - rewrite Es. destruct Hs as [Hs|Hs]; [left|right; exact Hs]. split; [destruct h; discriminate|]. split; [rewrite removelast_last; exact Hd|exact Hs].
          - exact Wt.
          - rewrite (result_seq _ _ w _ W). eexists; reflexivity. }
        destruct W as [s W]. rewrite (result_seq _ _ w _ W). reflexivity.
      + rewrite result_iread. unfold a, tool_algorithm. destruct given as [g|]; [reflexivity|].
        destruct (Hp eq_refl) as [[i Hp']|Hp']; rewrite Hp'; reflexivity.
  Qed.

  (** *** The state between the paths *)
  Record between (w v : node) : Prop := {
    bt_tree : tree v;
    bt_same : forall q, (forall h, q <> h ++ [side_name a]) -> look v q = look w q;
    bt_dir : forall q, look v q = Some EDir <-> look w q = Some EDir;
    bt_free : forall q, (look v q = None \/ exists b, look v q = Some (EFile b)) <-> (look w q = None \/ exists b, look w q = Some (EFile b))
  }.
  Lemma between_inv w v h : between w v -> look v (h ++ [inv_name]) = look w (h ++ [inv_name]).
  Proof using Type. intros B. apply (bt_same _ _ B). intros h' E. apply app_inj_tail in E as [_ E]. symmetry in E. exact (side_inv _ E). Qed.
  Lemma between_stands w v path dir : between w v -> (stands_for cwd v path dir <-> stands_for cwd w path dir).
  Proof using Type. intros B. unfold stands_for. rewrite (bt_dir _ _ B). reflexivity. Qed.
  Lemma stands_fun w path dir dir' : stands_for cwd w path dir -> stands_for cwd w path dir' -> dir = dir'.
  Proof using Type. intros [[A1 ->]|[A1 (p & _ & _ & ->)]] [[B1 ->]|[B1 (p' & _ & _ & ->)]]; congruence. Qed.
  Lemma between_parse w v h b : between w v -> look w (h ++ [inv_name]) = Some (EFile b) -> tree w -> parse_inventory v h = parse_inventory w h.
  Proof using Type.
    intros B L T. assert (F : Forall fname h).
    { apply (look_fnames w); [exact T|]. rewrite (look_prefix_dir w (h ++ [inv_name]) h [inv_name]); [discriminate|rewrite L; discriminate|reflexivity|discriminate]. }
    assert (E : at_path h INVENTORY_FILENAME = h ++ [inv_name]) by exact (at_path_one h inv_name F fname_inv).
    assert (Rw : fs_read w h INVENTORY_FILENAME = Ok b) by (apply fs_read_look; rewrite E; exact L).
    assert (Rv : fs_read v h INVENTORY_FILENAME = Ok b) by (apply fs_read_look; rewrite E, (between_inv w v h B); exact L).
    unfold parse_inventory. rewrite Rw, Rv. reflexivity.
  Qed.

  Lemma between_refl w : tree w -> between w w.
  Proof using Type. intros T. split; [exact T|reflexivity|reflexivity|reflexivity]. Qed.
  Lemma between_there w v dir b : between w v -> (look v (dest_of cwd dir ++ [inv_name]) = Some (EFile b) <-> look w (dest_of cwd dir ++ [inv_name]) = Some (EFile b)).
  Proof using Type. intros B. rewrite (between_inv w v _ B). reflexivity. Qed.
  Lemma between_can w v h b : tree w -> between w v -> look w (h ++ [inv_name]) = Some (EFile b) -> (can_write v h b <-> can_write w h b).
  Proof using Type.
    intros T B L. unfold can_write. rewrite (bt_free _ _ B (h ++ [side_name a])), (between_parse w v h b B L T). reflexivity.
  Qed.
  Lemma there_dec w dir : (exists b, look w (dest_of cwd dir ++ [inv_name]) = Some (EFile b)) \/ ~ there w dir.
  Proof using Type. unfold there. destruct (look w (dest_of cwd dir ++ [inv_name])) as [[b| |]|]; [left; eauto|right; intros [x E]; discriminate E..]. Qed.

  (** One path *)
  Lemma step_done w v path out : tree w -> between w v -> no_url path -> result (sidecar_path H e given path) v = Ok out ->
    let v' := after (sidecar_path H e given path) v in
    between w v' /\ lines_for e given w path out /\
    (forall q, look v' q = look v q \/ exists dir b t, stands_for cwd w path dir /\ look w (dest_of cwd dir ++ [inv_name]) = Some (EFile b) /\
       q = dest_of cwd dir ++ [side_name a] /\ sidecar_of H a b t /\ look v' q = Some (EFile t)) /\
    (forall dir b, stands_for cwd w path dir -> look w (dest_of cwd dir ++ [inv_name]) = Some (EFile b) ->
       exists t, sidecar_of H a b t /\ look v' (dest_of cwd dir ++ [side_name a]) = Some (EFile t)).
  Proof using Type.
    intros Tw B Hu R v'. destruct (path_cases v path Hu) as [(dir & Hud & Hs & E)|[Hn E]].
    - pose proof (proj1 (between_stands w v path dir B) Hs) as Hs'.
      destruct (there_dec v dir) as [[b Hb]|Nt].
      + assert (Hb' : look w (dest_of cwd dir ++ [inv_name]) = Some (EFile b)) by (apply (between_there w v dir b B); exact Hb).
        assert (Ht : there v dir) by (exists b; exact Hb).
        assert (R1 : result (create_sidecar_shown H e dir given) v = Ok out) by (unfold result in *; rewrite <- E; exact R).
        destruct (shown_as v dir) as (F1 & _ & F3). pose proof (F3 out R1) as R2.
        assert (Ev : v' = after (create_sidecar H e dir given) v) by (unfold v', after; rewrite E, F1; reflexivity).
        pose proof (there_dir v dir Ht) as Hd. pose proof (bt_tree _ _ B) as Tv.
        pose proof (tool_acts H e dir given v b Tv Hud Hd Hb) as Ac.
        destruct (proj1 (C41_tool H e dir given v b Tv Hud Hd Hb) R2) as (d & t & D1 & D2 & D3). fold cwd in D3. fold a in D1, D3. rewrite <- Ev in D3.
        assert (St : sidecar_of H a b t) by (exists d; split; [exact D1|exact D2]).
        assert (Lt : look v' (dest_of cwd dir ++ [side_name a]) = Some (EFile t)) by (rewrite (D3 (dest_of cwd dir ++ [side_name a])); destruct (place_eq_dec _ _); [reflexivity|contradiction]).
        assert (Lo : forall q, q <> dest_of cwd dir ++ [side_name a] -> look v' q = look v q) by (intros q Hq; rewrite (D3 q); destruct (place_eq_dec _ _); [contradiction|reflexivity]).
        assert (Cw : can_write v (dest_of cwd dir) b) by (apply (one_ends v dir b Tv Hud Hb); exact R2).
        destruct Cw as (_ & Cw & Cp).
        split; [|split; [|split]].
        * split.
          -- rewrite Ev. exact (acts_tree _ _ v Tv Ac).
          -- intros q Hq. rewrite (Lo q (Hq _)). exact (bt_same _ _ B q Hq).
          -- intros q. rewrite <- (bt_dir _ _ B q). destruct (place_eq_dec q (dest_of cwd dir ++ [side_name a])) as [->|Hq]; [|rewrite (Lo q Hq); reflexivity].
             rewrite Lt. destruct Cw as [Cw|[b' Cw]]; rewrite Cw; split; discriminate.
          -- intros q. rewrite <- (bt_free _ _ B q). destruct (place_eq_dec q (dest_of cwd dir ++ [side_name a])) as [->|Hq]; [|rewrite (Lo q Hq); reflexivity].
             rewrite Lt. split; [intros _; exact Cw|intros _; right; eexists; reflexivity].
        * left. exists dir, b. split; [exact Hs'|]. split; [exact Hb'|].
          exists (sidecar_warning e dir given v). split; [exact (lines_there v dir out Ht R1)|].
          pose proof (warning_cases e dir given v Cp) as Wc. fold cwd in Wc. rewrite (between_parse w v _ b B Hb' Tw) in Wc. exact Wc.
        * intros q. destruct (place_eq_dec q (dest_of cwd dir ++ [side_name a])) as [->|Hq]; [right|left; exact (Lo q Hq)].
          exists dir, b, t. repeat split; assumption.
        * intros dir' b' Hs2 Hb2. pose proof (stands_fun w path dir dir' Hs' Hs2) as <-. assert (b' = b) by congruence. subst b'. exists t. split; assumption.
      + rewrite (nothing_there v dir Nt) in E. assert (Ev : v' = v) by (unfold v', after; rewrite E; reflexivity).
        unfold result in R. rewrite E in R. apply Ok_inv in R. rewrite Ev. split; [exact B|]. split.
        * right; left. exists dir. split; [exact Hs'|]. split; [|symmetry; exact R]. intros b Hb. apply Nt. exists b. apply (between_there w v dir b B). exact Hb.
        * split; [left; reflexivity|]. intros dir' b' Hs2 Hb2. pose proof (stands_fun w path dir dir' Hs' Hs2) as <-.
          destruct Nt. exists b'. apply (between_there w v dir b' B). exact Hb2.
    - assert (Ev : v' = v) by (unfold v', after; rewrite E; reflexivity).
      unfold result in R. rewrite E in R. apply Ok_inv in R. rewrite Ev. split; [exact B|]. split.
      + right; right. split; [|symmetry; exact R]. intros dir Hs. apply (Hn dir). apply (between_stands w v path dir B). exact Hs.
      + split; [left; reflexivity|]. intros dir b Hs. destruct (Hn dir). apply (between_stands w v path dir B). exact Hs.
  Qed.

  Lemma step_ends w v path : tree w -> between w v -> no_url path ->
    ((exists out, result (sidecar_path H e given path) v = Ok out) <->
     forall dir b, stands_for cwd w path dir -> look w (dest_of cwd dir ++ [inv_name]) = Some (EFile b) -> can_write w (dest_of cwd dir) b).
  Proof using Type.
    intros Tw B Hu. destruct (path_cases v path Hu) as [(dir & Hud & Hs & E)|[Hn E]].
    - pose proof (proj1 (between_stands w v path dir B) Hs) as Hs'. unfold result. rewrite E. fold (result (create_sidecar_shown H e dir given) v).
      destruct (there_dec v dir) as [[b Hb]|Nt].
      + assert (Hb' : look w (dest_of cwd dir ++ [inv_name]) = Some (EFile b)) by (apply (between_there w v dir b B); exact Hb).
        destruct (shown_as v dir) as (_ & F2 & F3). pose proof (one_ends v dir b (bt_tree _ _ B) Hud Hb) as O. rewrite (between_can w v _ b Tw B Hb') in O. split.
        * intros [out R] dir' b' Hs2 Hb2. pose proof (stands_fun w path dir dir' Hs' Hs2) as <-. assert (b' = b) by congruence. subst b'. apply O. exact (F3 out R).
        * intros A. apply F2, O. exact (A dir b Hs' Hb').
      + unfold result. rewrite (nothing_there v dir Nt). split; [|intros _; eexists; reflexivity].
        intros _ dir' b' Hs2 Hb2. pose proof (stands_fun w path dir dir' Hs' Hs2) as <-. destruct Nt. exists b'. apply (between_there w v dir b' B). exact Hb2.
    - unfold result. rewrite E. split; [|intros _; eexists; reflexivity].
      intros _ dir b Hs. destruct (Hn dir). apply (between_stands w v path dir B). exact Hs.
  Qed.

  Lemma step_crash w v path v' q : tree w -> between w v -> no_url path -> crash (sidecar_path H e given path) v v' -> look v' q <> look v q ->
    exists dir b, stands_for cwd w path dir /\ look w (dest_of cwd dir ++ [inv_name]) = Some (EFile b) /\ q = dest_of cwd dir ++ [side_name a].
  Proof using Type.
    intros Tw B Hu (c & Hc & ->) Hq. destruct (path_cases v path Hu) as [(dir & Hud & Hs & E)|[Hn E]].
    - pose proof (proj1 (between_stands w v path dir B) Hs) as Hs'. rewrite E in Hc.
      destruct (there_dec v dir) as [[b Hb]|Nt].
      + exists dir, b. split; [exact Hs'|]. split; [apply (between_there w v dir b B); exact Hb|].
        destruct (shown_as v dir) as (F1 & _). rewrite F1 in Hc.
        destruct (place_eq_dec q (dest_of cwd dir ++ [side_name a])) as [Eq|Eq]; [exact Eq|]. destruct Hq.
        assert (Ht : there v dir) by (exists b; exact Hb).
        exact (acts_cut _ _ v q c (bt_tree _ _ B) (tool_acts H e dir given v b (bt_tree _ _ B) Hud (there_dir v dir Ht) Hb) Hc Eq).
      + rewrite (nothing_there v dir Nt) in Hc. apply cut_nil in Hc. subst c. destruct Hq. reflexivity.
    - rewrite E in Hc. apply cut_nil in Hc. subst c. destruct Hq. reflexivity.
  Qed.

  (** All paths *)
  Lemma run_done w paths : tree w -> Forall no_url paths -> forall v out, between w v -> result (sidecar_paths H e given paths) v = Ok out ->
    let v' := after (sidecar_paths H e given paths) v in
    tree v' /\ (exists outs, out = concat outs /\ Forall2 (lines_for e given w) paths outs) /\
    (forall q, look v' q = look v q \/ exists h b t, inventory_named cwd w paths h b /\ q = h ++ [side_name a] /\ sidecar_of H a b t /\ look v' q = Some (EFile t)) /\
    (forall h b, inventory_named cwd w paths h b -> exists t, sidecar_of H a b t /\ look v' (h ++ [side_name a]) = Some (EFile t)).
  Proof using Type.
    intros Tw. induction paths as [|p paths IH]; intros Hu v out B R v'.
    - cbn in R. apply Ok_inv in R. split; [exact (bt_tree _ _ B)|]. split; [exists []; split; [symmetry; exact R|constructor]|]. split; [left; reflexivity|]. intros h b (x & y & [] & _).
    - pose proof (Forall_inv Hu) as Hp. apply Forall_inv_tail in Hu. cbn [sidecar_paths] in R.
      apply seq_ok in R. destruct R as (o1 & R1 & R & A1). apply seq_ok in R. destruct R as (o2 & R2 & R & A2).
      cbn in R. apply Ok_inv in R. subst out. rewrite A2 in A1. change (after (iret ?y) ?z) with z in A1.
      destruct (step_done w v p o1 Tw B Hp R1) as (B1 & L1 & S1 & W1).
      destruct (IH Hu _ o2 B1 R2) as (Tv & (outs & -> & Lo) & S2 & W2). cbv zeta in Tv, S2, W2.
      assert (Ev : v' = after (sidecar_paths H e given paths) (after (sidecar_path H e given p) v)) by exact A1.
      rewrite <- Ev in S2, W2. split; [rewrite Ev; exact Tv|]. split; [exists (o1 :: outs); split; [reflexivity|constructor; assumption]|].
      assert (K : forall q, look v' q = look (after (sidecar_path H e given p) v) q \/ exists h b t, inventory_named cwd w (p :: paths) h b /\ q = h ++ [side_name a] /\ sidecar_of H a b t /\ look v' q = Some (EFile t)).
      { intros q. destruct (S2 q) as [Q|(h & b & t & (x & y & I1 & I2) & Q)]; [left; exact Q|right]. exists h, b, t. split; [|exact Q]. exists x, y. split; [right; exact I1|exact I2]. }
      split.
      + intros q. destruct (K q) as [Q|Q]; [|right; exact Q].
        destruct (S1 q) as [Q1|(dir & b & t & I1 & I2 & I3 & I4 & I5)]; [left; rewrite Q; exact Q1|right].
        exists (dest_of cwd dir), b, t. split; [exists p, dir; split; [now left|]; split; [exact I1|]; split; [reflexivity|exact I2]|]. split; [exact I3|]. split; [exact I4|rewrite Q; exact I5].
      + intros h b (x & dir & I1 & I2 & -> & I4). destruct I1 as [<-|I1].
        * destruct (W1 dir b I2 I4) as (t & T1 & T2).
          destruct (K (dest_of cwd dir ++ [side_name a])) as [Q|(h' & b' & t' & (_ & _ & _ & _ & _ & Q1) & Q2 & Q3 & Q4)]; [exists t; split; [exact T1|rewrite Q; exact T2]|].
          apply app_inj_tail in Q2 as [<- _]. assert (b' = b) by congruence. subst b'. exists t'. split; assumption.
        * exact (W2 (dest_of cwd dir) b (ex_intro _ x (ex_intro _ dir (conj I1 (conj I2 (conj eq_refl I4)))))).
  Qed.

  Lemma run_ends w paths : tree w -> Forall no_url paths -> forall v, between w v ->
    ((exists out, result (sidecar_paths H e given paths) v = Ok out) <-> forall h b, inventory_named cwd w paths h b -> can_write w h b).
  Proof using Type.
    intros Tw. induction paths as [|p paths IH]; intros Hu v B.
    - split; [intros _ h b (x & y & [] & _)|intros _; eexists; reflexivity].
    - pose proof (Forall_inv Hu) as Hp. apply Forall_inv_tail in Hu. split.
      + intros [out R] h b (x & dir & I1 & I2 & -> & I4). cbn [sidecar_paths] in R. apply seq_ok in R. destruct R as (o1 & R1 & R & _). apply seq_ok in R. destruct R as (o2 & R2 & _ & _).
        destruct I1 as [<-|I1].
        * exact (proj1 (step_ends w v p Tw B Hp) (ex_intro _ o1 R1) dir b I2 I4).
        * destruct (step_done w v p o1 Tw B Hp R1) as (B1 & _).
          apply (proj1 (IH Hu _ B1) (ex_intro _ o2 R2)). exists x, dir. repeat split; assumption.
      + intros A. destruct (proj2 (step_ends w v p Tw B Hp)) as [o1 R1].
        { intros dir b I2 I4. apply A. exists p, dir. split; [now left|]. repeat split; assumption. }
        destruct (step_done w v p o1 Tw B Hp R1) as (B1 & _).
        destruct (proj2 (IH Hu _ B1)) as [o2 R2].
        { intros h b (x & dir & I1 & I2). apply A. exists x, dir. split; [now right|exact I2]. }
        cbn [sidecar_paths]. rewrite (result_seq _ _ v _ R1), (result_seq _ _ _ _ R2). eexists; reflexivity.
  Qed.

  Lemma run_crash w paths v' q : tree w -> Forall no_url paths -> forall v, between w v -> crash (sidecar_paths H e given paths) v v' -> look v' q <> look v q ->
    exists h b, inventory_named cwd w paths h b /\ q = h ++ [side_name a].
  Proof using Type.
    intros Tw. induction paths as [|p paths IH]; intros Hu v B Cr Hq.
    - destruct Cr as (c & Hc & ->). apply cut_nil in Hc. subst c. destruct Hq. reflexivity.
    - pose proof (Forall_inv Hu) as Hp. apply Forall_inv_tail in Hu. cbn [sidecar_paths] in Cr.
      assert (First : forall v1, crash (sidecar_path H e given p) v v1 -> look v1 q <> look v q -> exists h b, inventory_named cwd w (p :: paths) h b /\ q = h ++ [side_name a]).
      { intros v1 C1 N1. destruct (step_crash w v p v1 q Tw B Hp C1 N1) as (dir & b & I1 & I2 & I3).
        exists (dest_of cwd dir), b. split; [exists p, dir; split; [now left|]; repeat split; assumption|exact I3]. }
      apply crash_bind in Cr. destruct Cr as [C1|(o1 & R1 & Cr)]; [exact (First v' C1 Hq)|].
      destruct (step_done w v p o1 Tw B Hp R1) as (B1 & _).
      assert (Cr2 : crash (sidecar_paths H e given paths) (after (sidecar_path H e given p) v) v').
      { apply crash_bind in Cr. destruct Cr as [Cr|(o2 & R2 & Cr)]; [exact Cr|]. destruct Cr as (c & Hc & ->). apply cut_nil in Hc. subst c. apply crash_done. }
      destruct (place_entry_dec (look (after (sidecar_path H e given p) v) q) (look v q)) as [Eq|Nq].
      + rewrite <- Eq in Hq. destruct (IH Hu _ B1 Cr2 Hq) as (h & b & (x & dir & I1 & I2) & I3). exists h, b. split; [|exact I3]. exists x, dir. split; [now right|exact I2].
      + exact (First _ (crash_done _ _) Nq).
  Qed.
End Run.

(** * C87 *)

Section C87.
  Context (H : hashfn) (e : env) (given : option str) (paths : list str) (w : node).
  Let a := tool_algorithm given.
  Let x := ocfl_sidecar H e given paths.
  Context (Tree : tree w) (Urls : Forall no_url paths).

  Let urls : Forall no_url (named_paths paths).
  Proof using Urls. unfold named_paths. destruct paths; [|exact Urls]. constructor; [|constructor]. apply no_url_b_ok. reflexivity. Qed.

  (** Wherever the program is stopped, only sidecars of the inventories it is called for have
      changed. *)
  Theorem C87_only : forall w' q, crash x w w' -> look w' q <> look w q ->
    exists h b, inventory_named (e_cwd e) w (named_paths paths) h b /\ q = h ++ [side_name a].
  Proof using All. intros w' q Cr Hq. exact (run_crash H e given w (named_paths paths) w' q Tree urls w (between_refl given w Tree) Cr Hq). Qed.

  (** If it comes to its end, the sidecar of each of them has the digest of the inventory file
      and for each path it is shown what has been done. *)
  Theorem C87_written : forall out, result x w = Ok out ->
    (forall h b, inventory_named (e_cwd e) w (named_paths paths) h b ->
       exists t, sidecar_of H a b t /\ look (after x w) (h ++ [side_name a]) = Some (EFile t)) /\
    exists outs, out = concat outs /\ Forall2 (lines_for e given w) (named_paths paths) outs.
  Proof using All.
    intros out R. destruct (run_done H e given w (named_paths paths) Tree urls w out (between_refl given w Tree) R) as (_ & L & _ & W). split; [exact W|exact L].
  Qed.

  (** It comes to its end exactly if the digest algorithm is known, nothing but a file is where a
      sidecar is to be, and, without --digest, each inventory can be read or is found to be no
      inventory. *)
  Theorem C87_ends : (exists out, result x w = Ok out) <->
    forall h b, inventory_named (e_cwd e) w (named_paths paths) h b ->
      (exists t, sidecar_of H a b t) /\
      (look w (h ++ [side_name a]) = None \/ exists b', look w (h ++ [side_name a]) = Some (EFile b')) /\
      (given = None -> (exists i, parse_inventory w h = Ok i) \/ parse_inventory w h = Raise ObjectException).
  Proof using All. exact (run_ends H e given w (named_paths paths) Tree urls w (between_refl given w Tree)). Qed.
End C87.

(** The sidecar of an object of this library that is lost or damaged is written again as it was, if
    the algorithm used is that of the inventory; then it is the object it was. *)
Theorem C87_repairs : forall H h sd P w l w' e given path dir,
  hash_ok H -> history H h sd P w l -> uniform P \/ collision_free H P l ->
  let a := tool_algorithm given in
  (forall i s, parse_inventory w h = Ok (i, s) -> i_alg i = Some a) ->
  tree w' -> (forall q, q <> h ++ [side_name a] -> look w' q = look w q) ->
  look w' (h ++ [side_name a]) = None \/ (exists b, look w' (h ++ [side_name a]) = Some (EFile b)) ->
  no_url path -> stands_for (e_cwd e) w' path dir -> h = dest_of (e_cwd e) dir ->
  let x := ocfl_sidecar H e given [path] in
  result x w' = Ok [Printed (`"Written sidecar file " ++ path_join dir (side_name a))] /\
  (forall q, look (after x w') q = look w q) /\ history H h sd P (after x w') l.
Proof.
  intros H h sd P w l w' e given path dir HH Hi Hun a Ha Tw' Hsame Hfree Hu Hs Hh x.
  destruct (history_tracked H h sd P w l HH Hi Hun) as (alg & spec & ivs & C & T). pose proof (tr_made _ _ _ _ _ _ _ _ _ _ T) as M.
  pose proof (md_head _ _ _ _ _ _ _ _ _ M) as So. pose proof (so_algs _ _ _ _ So) as Hal.
  destruct (C41_sidecar_partial H h sd P w l HH Hi Hun) as (b & i & s & a0 & L1 & P1 & A1 & L2 & _).
  pose proof (Ha i s P1) as A2. assert (a0 = a) by congruence. subst a0. clear A2.
  assert (Hal2 : In a [`"sha512"; `"sha256"]).
  { rewrite (made_parse _ _ _ _ _ _ _ _ _ M) in P1. apply Ok_inv in P1. injection P1 as E1 _. rewrite <- E1 in A1. pose proof (so_alg _ _ _ _ (sound_sorted _ _ _ _ So)) as A3. rewrite A3 in A1. injection A1 as <-. exact Hal. }
  clear Hal So. pose proof (md_names _ _ _ _ _ _ _ _ _ M) as F.
  assert (L1' : look w' (h ++ [inv_name]) = Some (EFile b)).
  { rewrite Hsame; [exact L1|]. intros E. apply app_inj_tail in E as [_ E]. symmetry in E. exact (side_inv a E). }
  assert (Pw : parse_inventory w' h = Ok (i, s)).
  { rewrite <- P1. assert (E : at_path h INVENTORY_FILENAME = h ++ [inv_name]) by exact (at_path_one h inv_name F fname_inv).
    assert (R1 : fs_read w h INVENTORY_FILENAME = Ok b) by (apply fs_read_look; rewrite E; exact L1).
    assert (R2 : fs_read w' h INVENTORY_FILENAME = Ok b) by (apply fs_read_look; rewrite E; exact L1').
    unfold parse_inventory. rewrite R1, R2. reflexivity. }
  assert (St : forall t, sidecar_of H a b t <-> t = sidecar_text H a b).
  { assert (Dg : digest_of H a b (H a b)) by (apply file_digest_iff; apply algs_digest; exact Hal2).
    intros t. split.
    - intros (d & D1 & D2). apply file_digest_iff in D1. rewrite (algs_digest H a b Hal2) in D1. apply Ok_inv in D1. subst d.
      pose proof (sidecar_write H a b HH Hal2) as W. unfold sidecar_text in W. rewrite W in D2. apply Ok_inv in D2. symmetry. exact D2.
    - intros ->. exists (H a b). split; [exact Dg|]. exact (sidecar_write H a b HH Hal2). }
  assert (Hus : Forall no_url [path]) by (constructor; [exact Hu|constructor]).
  assert (Nm : inventory_named (e_cwd e) w' [path] h b) by (exists path, dir; split; [now left|]; split; [exact Hs|]; split; [exact Hh|exact L1']).
  assert (Only : forall h' b', inventory_named (e_cwd e) w' [path] h' b' -> h' = h /\ b' = b).
  { intros h' b' (p & d & [<-|[]] & I2 & -> & I4). pose proof (stands_fun e w' path dir d Hs I2) as <-. rewrite <- Hh in I4 |- *. split; [reflexivity|congruence]. }
  destruct (proj2 (C87_ends H e given [path] w' Tw' Hus)) as [out R].
  { intros h' b' Nm'. destruct (Only h' b' Nm') as [-> ->]. split; [exists (sidecar_text H a b); apply St; reflexivity|]. split; [exact Hfree|]. intros _. left. exists (i, s). exact Pw. }
  fold x in R. destruct (run_done H e given w' [path] Tw' Hus w' out (between_refl given w' Tw') R) as (Ta & (outs & Eo & Lo) & Sa & Wa). cbv zeta in Ta, Sa, Wa.
  change (sidecar_paths H e given [path]) with x in Ta, Sa, Wa. fold a in Sa, Wa.
  assert (Same : forall q, look (after x w') q = look w q).
  { intros q. destruct (place_eq_dec q (h ++ [side_name a])) as [->|Hq].
    - destruct (Wa h b Nm) as (t & T1 & T2). apply St in T1. rewrite T2, T1, L2. reflexivity.
    - rewrite <- (Hsame q Hq). destruct (Sa q) as [Q|(h' & b' & t & Q1 & Q2 & _)]; [exact Q|]. destruct (Only h' b' Q1) as [-> _]. contradiction. }
  split; [|split; [exact Same|]].
  - rewrite R, Eo. inversion Lo as [|? o ? ? Lo1 Lo2]; subst. inversion Lo2; subst. cbn [concat]. rewrite app_nil_r. f_equal.
    destruct Lo1 as [(d & b' & I1 & I2 & wn & -> & I3)|[(d & I1 & I2 & _)|[I1 _]]].
    + pose proof (stands_fun e w' path dir d Hs I1) as <-. destruct I3 as [[-> _]|(_ & I3 & _)]; [reflexivity|]. rewrite Pw in I3. discriminate I3.
    + pose proof (stands_fun e w' path dir d Hs I1) as <-. destruct (I2 b L1').
    + destruct (I1 dir Hs).
  - apply (elsewhere H h sd P h w (after x w') l Hi Ta). intros y. apply Same.
Qed.

(** * Cases *)

(** An object of this library, a sidecar that is damaged, and the directories of the sources *)
Definition ex_hurt : node := after (fs_write_text [] (`"o/inventory.json.sha256") (`"nonsense")) ex_created.
Definition ex_given : option str := Some (`"sha256").
Definition ex_paths : list str := [`"o"; `"s1"; `"o/nothing"; `"o/v1/inventory.json"; `"other/inventory.json"].
Example ex_sidecar_run :
  let x := ocfl_sidecar toy_hash ex_env ex_given ex_paths in
  tree ex_hurt /\ Forall no_url ex_paths /\ ex_valid ex_hurt = false /\ ex_valid (after x ex_hurt) = true /\
  result x ex_hurt = Ok
    [Printed (`"Written sidecar file o/inventory.json.sha256");
     Failed (`"Ignoring path s1 because there is no inventory file s1/inventory.json.");
     Failed (`"Ignoring path nothing with filename that is not inventory.json");
     Printed (`"Written sidecar file o/v1/inventory.json.sha256");
     Failed (`"Ignoring path other because there is no inventory file other/inventory.json.")].
Proof.
  cbv zeta. split; [apply tree_b_ok; vm_compute; reflexivity|]. split; [repeat constructor; apply no_url_b_ok; reflexivity|].
  split; [vm_compute; reflexivity|]. split; vm_compute; reflexivity.
Qed.

Lemma firstn_In {A} (x : A) n l : In x (firstn n l) -> In x l.
Proof. intros I1. rewrite <- (firstn_skipn n l). apply in_or_app. left. exact I1. Qed.
Lemma look_only (w w' : node) p : (forall q, look w' q = if place_eq_dec q p then Some (EFile (`"nonsense")) else look w q) -> forall q, q <> p -> look w' q = look w q.
Proof. intros C q Hq. rewrite (C q). destruct (place_eq_dec q p); [contradiction|reflexivity]. Qed.
Example C87_repairs_ex :
  let x := ocfl_sidecar toy_hash ex_env ex_given [`"o/inventory.json"] in
  (forall q, look (after x ex_hurt) q = look ex_created q) /\ history toy_hash [`"o"] (`"1.1") ex_any (after x ex_hurt) (firstn 1 ex_files).
Proof.
  assert (Cf : uniform ex_any \/ collision_free toy_hash ex_any (firstn 1 ex_files)).
  { right. intros c F F' r b r' b' Hc I1 I2. apply (ex_collision_free c F F' r b r' b' Hc); [apply (firstn_In F 1)|apply (firstn_In F' 1)]; assumption. }
  assert (Al : forall i s, parse_inventory ex_created [`"o"] = Ok (i, s) -> i_alg i = Some (tool_algorithm ex_given)).
  { intros i s. assert (E : exists i0 s0, parse_inventory ex_created [`"o"] = Ok (i0, s0) /\ i_alg i0 = Some (`"sha256")) by (eexists _, _; split; vm_compute; reflexivity).
    destruct E as (i0 & s0 & E1 & E2). rewrite E1. intros E. injection E as <- <-. exact E2. }
  assert (Tr : tree ex_hurt) by (apply tree_b_ok; vm_compute; reflexivity).
  assert (Ch : changes ex_created ex_hurt ([`"o"] ++ [side_name (`"sha256")]) (Some (EFile (`"nonsense")))).
  { unfold ex_hurt. apply (write_text_file ex_created [] (`"o/inventory.json.sha256") (`"nonsense") (`"nonsense")); [right; eexists; vm_compute; reflexivity|vm_compute; reflexivity]. }
  assert (Lo : exists b, look ex_hurt ([`"o"] ++ [side_name (tool_algorithm ex_given)]) = Some (EFile b)) by (eexists; vm_compute; reflexivity).
  assert (St : stands_for (e_cwd ex_env) ex_hurt (`"o/inventory.json") (`"o")).
  { right. split; [vm_compute; discriminate|]. exists (`"o/"). split; [reflexivity|]. split; [right; reflexivity|vm_compute; reflexivity]. }
  pose proof (C87_repairs toy_hash [`"o"] (`"1.1") ex_any ex_created (firstn 1 ex_files) ex_hurt ex_env ex_given (`"o/inventory.json") (`"o") toy_hash_ok ex_history1 Cf Al Tr (look_only _ _ _ Ch) (or_intror Lo)
    (no_url_b_ok (`"o/inventory.json") eq_refl) St eq_refl) as R.
  destruct R as (_ & R). exact R.
Qed.

(** Without --digest, an inventory that is no JSON ends the program with an exception, and the
    paths after it are not looked at. *)
Definition ex_no_json : node := after (do _ <- fs_makedir [] (`"bad") ;; fs_write_text [] (`"bad/inventory.json") (`"{")) ex_hurt.
Theorem C87_independent_refuted : exists H e w p q b,
  tree w /\ no_url p /\ no_url q /\ look w [q; inv_name] = Some (EFile b) /\
  (exists out, result (ocfl_sidecar H e None [q]) w = Ok out) /\ look w [q; side_name (`"sha512")] = None /\
  look (after (ocfl_sidecar H e None [q]) w) [q; side_name (`"sha512")] <> None /\
  (exists x, result (ocfl_sidecar H e None [p; q]) w = Raise x) /\
  look (after (ocfl_sidecar H e None [p; q]) w) [q; side_name (`"sha512")] = None.
Proof.
  exists toy_hash, ex_env, ex_no_json, (`"bad"), (`"o"). eexists. split; [apply tree_b_ok; vm_compute; reflexivity|].
  split; [apply no_url_b_ok; reflexivity|]. split; [apply no_url_b_ok; reflexivity|]. split; [vm_compute; reflexivity|].
  split; [eexists; vm_compute; reflexivity|]. split; [vm_compute; reflexivity|]. split; [vm_compute; discriminate|].
  split; [eexists; vm_compute; reflexivity|vm_compute; reflexivity].
Qed.

Print Assumptions C87_only.
Print Assumptions C87_written.
Print Assumptions C87_ends.
Print Assumptions C87_repairs.
Print Assumptions C87_independent_refuted.
