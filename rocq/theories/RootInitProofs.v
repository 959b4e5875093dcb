(** Proofs about StorageRoot.initialize. *)
From Verif Require Import Base Unicode Regex Utf8 Json PyJson JsonTextModel JsonTextSpec JsonFileProofs Log DigestModel LayoutModel InventoryModel ParseModel LayoutSpec Properties_Layout ContentPathProofs TextFile PathModel FsModel FsSpec FsProofs FswModel FswSpec FswProofs FswCopyProofs
  NamasteModel NamasteSpec NamasteProofs Properties_Namaste ChangeProofs FrameProofs Properties_Fsw ValidatorSpec ValidatorModel ValidatorBasicProofs ValidatorContentProofs ObjectModel ObjectSpec ObjectCopyProofs ObjectMadeProofs ObjectWriteProofs ObjectCreateProofs ObjectExamples StorageRootModel StorageRootSpec StorageRootProofs StorageRootRunProofs RootInitSpec.

(** ** Methods that change files *)

Lemma s_seq {A B} (x : st A) (f : A -> st B) s w s1 a : result (x s) w = Ok (s1, Ok a) ->
  result (sbind x f s) w = result (f a s1) (after (x s) w) /\ after (sbind x f s) w = after (f a s1) (after (x s) w).
Proof. intros E. unfold sbind. rewrite (result_seq _ _ _ _ E), (after_seq _ _ _ _ E). auto. Qed.
Lemma s_inv {A B} (x : st A) (f : A -> st B) s w s' b : result (sbind x f s) w = Ok (s', Ok b) ->
  exists s1 a, result (x s) w = Ok (s1, Ok a) /\ result (f a s1) (after (x s) w) = Ok (s', Ok b).
Proof.
  unfold sbind. intros E. apply seq_ok in E as ([s1 [a|y]] & E1 & E2 & _); cbn [fst snd] in E2; [eauto|]. discriminate E2.
Qed.
Lemma s_io {A} (x : io A) s w : result (sio x s) w = Ok (s, result x w) /\ after (sio x s) w = after x w.
Proof. split; reflexivity. Qed.
Lemma s_io_seq {A B} (x : io A) (f : A -> st B) s w a : result x w = Ok a ->
  result (sbind (sio x) f s) w = result (f a s) (after x w) /\ after (sbind (sio x) f s) w = after (f a s) (after x w).
Proof. intros E. apply (s_seq (sio x) f s w s a). destruct (s_io x s w) as [-> _]. now rewrite E. Qed.
Lemma s_io_inv {A B} (x : io A) (f : A -> st B) s w s' b : result (sbind (sio x) f s) w = Ok (s', Ok b) ->
  exists a, result x w = Ok a /\ result (f a s) (after x w) = Ok (s', Ok b).
Proof.
  intros E. apply s_inv in E as (s1 & a & E1 & E2). destruct (s_io x s w) as [R Af]. rewrite R in E1. rewrite Af in E2. apply Ok_inv in E1. injection E1 as <- E1. eauto.
Qed.
Lemma s_same {A} (x y : st A) s s1 w : x s w = y s1 w -> result (x s) w = result (y s1) w /\ after (x s) w = after (y s1) w.
Proof. intros E. unfold result, after. rewrite E. auto. Qed.

(** Successful runs *)
Definition run {A} (x : st A) (s : sroot) (w : node) (s' : sroot) (a : A) (w' : node) : Prop := result (x s) w = Ok (s', Ok a) /\ after (x s) w = w'.
Lemma run_bind {A B} (x : st A) (f : A -> st B) s w s1 a w1 s2 b w2 : run x s w s1 a w1 -> run (f a) s1 w1 s2 b w2 -> run (sbind x f) s w s2 b w2.
Proof. intros [R1 A1] [R2 A2]. destruct (s_seq x f s w s1 a R1) as [R A0]. split; [rewrite R, A1; exact R2|rewrite A0, A1; exact A2]. Qed.
Lemma run_io {A} (x : io A) s w a : result x w = Ok a -> run (sio x) s w s a (after x w).
Proof. intros E. destruct (s_io x s w) as [R A0]. split; [now rewrite R, E|exact A0]. Qed.
Lemma run_read {A} (g : node -> exc A) s w a : g w = Ok a -> run (sread g) s w s a w.
Proof. intros E. unfold sread. apply (run_io (iread g)). exact E. Qed.
Lemma run_get s w : run sget s w s s w. Proof. split; reflexivity. Qed.
Lemma run_ret {A} (a : A) s w : run (sret a) s w s a w. Proof. split; reflexivity. Qed.
Lemma run_modify g s w : run (smodify g) s w (g s) tt w. Proof. split; reflexivity. Qed.
Lemma run_eq {A} (x : st A) s w s' a : x s w = ([], Ok (s', Ok a)) -> run x s w s' a w.
Proof. intros E. unfold run, result, after. rewrite E. auto. Qed.

(** ** Names *)

Lemma rsplit_ok r : exists p k, r = p ++ k /\ ~ In PathModel.slash k /\ (p = [] \/ last_opt p = Some PathModel.slash).
Proof.
  induction r as [|c r (p & k & -> & Hk & Hp)]; [exists [], []; repeat split; auto|].
  destruct p as [|x p].
  - destruct (N.eqb_spec c PathModel.slash) as [->|Hc].
    + exists [PathModel.slash], k. repeat split; auto.
    + exists [], (c :: k). repeat split; auto. intros [E|E]; auto.
  - exists (c :: x :: p), k. repeat split; auto. right. destruct Hp as [Hp|Hp]; [discriminate|]. apply last_opt_some in Hp as [q Eq]. rewrite Eq. change (c :: q ++ [PathModel.slash]) with ((c :: q) ++ [PathModel.slash]). apply last_opt_app.
Qed.

Lemma look_up w q : look w q <> None -> look w (removelast q) <> None.
Proof.
  intros L. destruct q as [|c q]; [exact L|]. destruct (snoc_case (c :: q)) as (a & k & E); [discriminate|]. rewrite E in *. rewrite List.removelast_last.
  rewrite (parent_above w a k L). discriminate.
Qed.
(** Names that are no file names are there already. *)
Lemma odd_name w h k : Forall fname h -> look w h = Some EDir -> ~ In PathModel.slash k -> fs_exists w h k = false -> fname k.
Proof.
  intros Fh Hd Hs X. apply fs_exists_false in X. assert (R : forall q, resolve (h ++ q) = rev (fold_left resolve_step q (rev h))).
  { intros q. unfold resolve. rewrite fold_left_app. f_equal. f_equal. rewrite <- (rev_involutive (fold_left resolve_step h [])). f_equal. exact (resolve_fnames h Fh). }
  unfold at_path in X. rewrite R in X. repeat split; auto; intros ->.
  - change (look w (rev (rev h)) = None) in X. assert (E : rev (rev h) = h) by apply rev_involutive. rewrite E in X. congruence.
  - change (look w (rev (rev h)) = None) in X. assert (E : rev (rev h) = h) by apply rev_involutive. rewrite E in X. congruence.
  - change (look w (rev (tl (rev h))) = None) in X. apply (look_up w h); [congruence|]. rewrite <- X. f_equal. destruct (rev h) as [|c q] eqn:E; [rewrite <- (rev_involutive h), E; reflexivity|].
    rewrite <- (rev_involutive h), E. cbn [rev tl]. now rewrite List.removelast_last.
Qed.

(** ** Files of a directory *)

Lemma holds_add w w' h L r b : holds w h L -> r <> [] ->
  (forall q, look w' q = if place_eq_dec q (h ++ r) then Some (EFile b) else match strip q (h ++ r) with Some _ => Some EDir | None => look w q end) ->
  (forall r' b', In (r', b') L -> strip r' r = None) -> holds w' h (L ++ [(r, b)]).
Proof.
  intros [H1 H2 H3] Hr Lk Hn. constructor.
  - rewrite Lk. destruct (place_eq_dec h (h ++ r)) as [E|_]; [exfalso; apply Hr; rewrite <- (app_nil_r h) in E at 1; apply app_inv_head in E; auto|]. now rewrite strip_app.
  - intros r' b' Hi. apply in_app_or in Hi as [Hi|[E|[]]].
    + rewrite Lk. destruct (place_eq_dec (h ++ r') (h ++ r)) as [E|_]; [apply app_inv_head in E; subst r'; specialize (Hn _ _ Hi); rewrite strip_self in Hn; discriminate|].
      destruct (strip (h ++ r') (h ++ r)) as [x|] eqn:E; [|now apply H2]. apply strip_some in E. rewrite <- app_assoc in E. apply app_inv_head in E. specialize (Hn _ _ Hi). rewrite E, strip_app in Hn. discriminate.
    + injection E as <- <-. rewrite Lk. destruct (place_eq_dec (h ++ r) (h ++ r)); [reflexivity|congruence].
  - intros r' e Hr' Le. rewrite Lk in Le. destruct (place_eq_dec (h ++ r') (h ++ r)) as [E|_].
    + apply app_inv_head in E. exists [], b. rewrite app_nil_r, E. apply in_or_app. right. now left.
    + destruct (strip (h ++ r') (h ++ r)) as [x|] eqn:E.
      * apply strip_some in E. rewrite <- app_assoc in E. apply app_inv_head in E. exists x, b. apply in_or_app. right. left. now rewrite E.
      * destruct (H3 r' e Hr' Le) as (x & b' & Hi). exists x, b'. apply in_or_app. now left.
Qed.

Lemma write_holds w h L k s b : Forall fname h -> fname k -> holds w h L -> (forall r b', In (r, b') L -> strip r [k] = None) -> look w (h ++ [k]) = None -> write_text s = Ok b ->
  let x := fs_write_text h k s in result x w = Ok tt /\ holds (after x w) h (L ++ [([k], b)]) /\ changes w (after x w) (h ++ [k]) (Some (EFile b)).
Proof.
  intros Fh Fk Hl Hn No Ew x. assert (Ep : at_path h k = h ++ [k]) by (now apply at_path_one).
  assert (Fr : fresh_place w (at_path h k)).
  { rewrite Ep. split; [destruct h; discriminate|]. split; [rewrite List.removelast_last; apply Hl|exact No]. }
  destruct (write_text_file w h k s b (or_introl Fr) Ew) as [R C]. rewrite Ep in C. split; [exact R|]. split; [|exact C].
  apply (holds_add w); auto; [discriminate|]. intros q. rewrite C. destruct (place_eq_dec q (h ++ [k])) as [|Hq]; [reflexivity|]. destruct (strip q (h ++ [k])) as [y|] eqn:E; [|reflexivity].
  apply strip_some in E. destruct (snoc_case y) as (z & c & ->); [intros ->; rewrite app_nil_r in E; congruence|]. rewrite app_assoc in E. apply app_inj_tail in E as [E _].
  destruct z as [|c' z]; [rewrite app_nil_r in E; rewrite <- E; apply Hl|]. apply (look_prefix_dir w h q (c' :: z)); [rewrite (hl_dir _ _ _ Hl); discriminate|exact E|discriminate].
Qed.

Lemma layout_name_fname l : fname (LayoutModel.layout_name l).
Proof. destruct l; apply fname_b_ok; reflexivity. Qed.
Lemma layout_json_text l : write_text (json_dumps (layout_json l)) = Ok (json_dumps (layout_json l)) /\ json_load_binary (json_dumps (layout_json l)) = Ok (JObj [(`"description", JStr (layout_description l)); (`"extension", JStr (LayoutModel.layout_name l))]).
Proof. destruct l; split; vm_compute; reflexivity. Qed.
Lemma config_writable H l c : layout_params_ok H l -> text_prefix (Some l) -> layout_config l = Some c -> writable c.
Proof.
  assert (B : forall z, (0 <= z <= 32)%Z -> (Z.abs z < 10 ^ 4300)%Z).
  { intros z Hz. apply (Z.le_lt_trans _ (10 ^ 2)); [lia|]. apply Z.pow_lt_mono_r; lia. }
  assert (N4 : NoDup [`"extensionName"; `"digestAlgorithm"; `"tupleSize"; `"numberOfTuples"]) by (apply nodup_b_ok; reflexivity).
  assert (N2 : NoDup [`"extensionName"; `"tupleSize"]) by (apply nodup_b_ok; reflexivity).
  assert (N3 : NoDup [`"extensionName"; `"prefix"]) by (apply nodup_b_ok; reflexivity).
  assert (T1 : text (`"extensionName")) by (apply ascii_text; reflexivity). assert (T2 : text (`"digestAlgorithm")) by (apply ascii_text; reflexivity). assert (T3 : text (`"tupleSize")) by (apply ascii_text; reflexivity).
  assert (T4 : text (`"numberOfTuples")) by (apply ascii_text; reflexivity). assert (T5 : text (`"prefix")) by (apply ascii_text; reflexivity).
  assert (Tn : forall l, text (LayoutModel.layout_name l)) by (intros []; apply ascii_text; reflexivity).
  destruct l as [|a ts nt| |ts|p]; cbn [layout_config layout_params_ok text_prefix]; intros P T E; try discriminate; injection E as <-.
  - destruct P as (n & _ & Ha & B1 & B2 & _). split; [exact N4|]. split; [split; [exact T1|exact (Tn (L0003 a ts nt))]|].
    split; [split; [exact T2|]; repeat (destruct Ha as [<-|Ha]; [apply ascii_text; reflexivity|]); destruct Ha|]. split; [split; [exact T3|exact (B _ B1)]|]. split; [split; [exact T4|exact (B _ B2)]|]. exact I.
  - split; [exact N2|]. split; [split; [exact T1|exact (Tn (LTupleTree ts))]|]. split; [split; [exact T3|apply B; clear - P; lia]|]. exact I.
  - split; [exact N3|]. split; [split; [exact T1|exact (Tn (LUuid p))]|]. split; [split; [exact T5|exact T]|]. exact I.
Qed.

(** ** The layout *)

Lemma params_named H l0 cfg l : check_and_set_layout_params H l0 cfg false = Ok l -> exists cfg', check_and_set_layout_params H l0 cfg' true = Ok l.
Proof.
  intros E. destruct (dget (`"extensionName") cfg) as [v|] eqn:Ev.
  - exists cfg. unfold check_and_set_layout_params in *. rewrite Ev in *. exact E.
  - exists ((`"extensionName", JStr (LayoutModel.layout_name l0)) :: cfg). unfold check_and_set_layout_params in *. rewrite Ev in E. cbn [ebind] in E.
    assert (Eq : json_eq_str (JStr (LayoutModel.layout_name l0)) (LayoutModel.layout_name l0) = true) by (apply str_eqb_refl).
    assert (G : forall k, k <> `"extensionName" -> config_get k ((`"extensionName", JStr (LayoutModel.layout_name l0)) :: cfg) = config_get k cfg).
    { intros k Hk. unfold config_get. cbn [dget]. destruct (str_eqb_spec k (`"extensionName")) as [->|_]; [congruence|reflexivity]. }
    change (dget (`"extensionName") ((`"extensionName", JStr (LayoutModel.layout_name l0)) :: cfg)) with (Some (JStr (LayoutModel.layout_name l0))). cbv iota beta. rewrite Eq. cbn [ebind].
    rewrite !G by discriminate. exact E.
Qed.
Lemma default_params_ok H n l : get_layout n = Ok l -> layout_config l = None \/ layout_params_ok H l.
Proof.
  intros E. unfold get_layout in E. destruct (dget n layout_registry) as [l1|] eqn:D; [|discriminate]. apply Ok_inv in E. subst l1. apply dget_In in D.
  repeat (destruct D as [D|D]; [injection D as _ <-|]); [left|left|left|right|right|left|left|right|right|destruct D]; try reflexivity.
  - exists 64%nat. repeat split; try (cbn; lia). cbn; auto.
  - exists 64%nat. repeat split; try (cbn; lia). cbn; auto.
  - cbn. lia.
  - discriminate.
Qed.
Lemma same_kind H l0 cfg b l : check_and_set_layout_params H l0 cfg b = Ok l -> LayoutModel.layout_name l = LayoutModel.layout_name l0.
Proof.
  intros E. unfold check_and_set_layout_params in E. apply ebind_ok in E as (u & _ & E). destruct l0; try discriminate; repeat (apply ebind_ok in E as (? & _ & E)); apply Ok_inv in E; subst l; reflexivity.
Qed.
Lemma chosen_ok H name params l : hash_ok H -> chosen_layout H name params (Some l) -> (layout_config l = None \/ layout_params_ok H l) /\
  exists n l0, name = Some n /\ get_layout n = Ok l0 /\ LayoutModel.layout_name l0 = LayoutModel.layout_name l.
Proof.
  intros Hh C. destruct name as [n|]; [|discriminate]. destruct C as (l0 & l1 & G & E & P). injection E as <-. destruct params as [p|].
  - destruct P as (cfg & _ & P). split; [|exists n, l0; split; [auto|]; split; [auto|]; symmetry; now apply same_kind in P]. right. apply params_named in P as [cfg' P]. now apply C09_accepted_params_ok in P.
  - subst l0. split; [now apply (default_params_ok H n)|]. exists n, l. auto.
Qed.

Lemma write_params_ok w h L l c b : tree w -> Forall fname h -> holds w h L -> (forall r b', In (r, b') L -> strip r [`"extensions"; LayoutModel.layout_name l; `"config.json"] = None) ->
  (forall r b', In (r, b') L -> strip [`"extensions"] r = None) -> layout_config l = Some c -> write_text (json_print false 0 c) = Ok b ->
  let x := write_layout_params h l in
  result x w = Ok tt /\ holds (after x w) h (L ++ [([`"extensions"; LayoutModel.layout_name l; `"config.json"], b)]) /\ tree (after x w) /\ (forall q, strip h q = None -> look (after x w) q = look w q).
Proof.
  intros Tw Fh Hl Hn Ho Ec Ew x. set (r := [`"extensions"; LayoutModel.layout_name l; `"config.json"]) in *. set (d := [`"extensions"; LayoutModel.layout_name l]).
  assert (Fd : Forall fname d) by (repeat constructor; try apply layout_name_fname; apply fname_b_ok; reflexivity).
  assert (Ed : path_dirname (config_file l) = J d) by (destruct l; reflexivity).
  assert (Pd : at_path h (path_dirname (config_file l)) = h ++ d) by (rewrite Ed; now apply at_path_join).
  assert (Pc : at_path h (config_file l) = h ++ r) by (now apply config_place).
  assert (None1 : forall y, look w (h ++ `"extensions" :: y) = None).
  { intros y. destruct (look w (h ++ `"extensions" :: y)) as [e|] eqn:E; [|reflexivity]. apply (hl_only _ _ _ Hl) in E as (z & b' & Hi); [|discriminate]. specialize (Ho _ _ Hi). cbn [strip app] in Ho. rewrite str_eqb_refl in Ho. discriminate. }
  assert (Dt : dirs_to w (at_path h (path_dirname (config_file l)))).
  { rewrite Pd. intros q y E. destruct (strip h q) as [z|] eqn:Es.
    - apply strip_some in Es. rewrite Es, <- app_assoc in E. apply app_inv_head in E. rewrite Es. destruct z as [|c1 z]; [right; rewrite app_nil_r; apply Hl|]. left. cbn in E. injection E as <- _. apply None1.
    - right. destruct (app_eq_app _ _ _ _ E) as (m & [[E1 E2]|[E1 E2]]).
      + rewrite E1, strip_app in Es || idtac. destruct m as [|c1 m]; [rewrite app_nil_r in E1; rewrite <- E1; apply Hl|]. apply (look_prefix_dir w h q (c1 :: m)); [rewrite (hl_dir _ _ _ Hl); discriminate|exact E1|discriminate].
      + rewrite E1, strip_app in Es. discriminate. }
  destruct (makedirs_ok w h (path_dirname (config_file l)) false) as [M1 M2]; [rewrite Pd; apply None1|exact Dt|]. rewrite Pd in M2. set (m := fs_makedirs h (path_dirname (config_file l)) false) in *. set (w1 := after m w) in *.
  assert (T1 : tree w1) by (apply tree_after; [exact Tw|now apply named_makedirs]).
  assert (Fr : fresh_place w1 (at_path h (config_file l))).
  { rewrite Pc. split; [destruct h; discriminate|]. assert (Er : h ++ r = (h ++ d) ++ [`"config.json"]) by (rewrite <- app_assoc; reflexivity). rewrite Er. rewrite List.removelast_last. split; [rewrite M2, strip_self; reflexivity|].
    rewrite M2. destruct (strip ((h ++ d) ++ [`"config.json"]) (h ++ d)) as [y|] eqn:Es; [apply strip_some in Es; apply (f_equal (@List.length _)) in Es; rewrite !app_length in Es; cbn in Es; clear -Es; lia|]. rewrite <- app_assoc. apply None1. }
  destruct (write_text_file w1 h (config_file l) _ b (or_introl Fr) Ew) as [R2 C2]. set (y := fs_write_text h (config_file l) (json_print false 0 c)) in *. rewrite Pc in C2.
  assert (X : result x w = Ok tt /\ after x w = after y w1).
  { unfold x, write_layout_params. rewrite Ec. rewrite result_read, after_read. assert (Ex : fs_exists w h (config_file l) = false) by (apply fs_exists_false; rewrite Pc; apply None1). cbv beta. rewrite Ex. fold m y.
    assert (A1 : result (m ;; y) w = Ok tt) by (rewrite (result_seq m (fun _ => y) w tt M1); exact R2).
    assert (A2 : after (m ;; y) w = after y w1) by (rewrite (after_seq m (fun _ => y) w tt M1); reflexivity).
    rewrite <- A2. clear - A1. unfold result, after in *. destruct ((m ;; y) w) as [s0 r0]. cbn [fst snd] in *. rewrite A1. auto. }
  destruct X as [-> ->]. split; [reflexivity|]. split; [|split].
  - apply (holds_add w); [exact Hl|discriminate| |exact Hn]. intros q. rewrite C2. destruct (place_eq_dec q (h ++ r)) as [->|Hq]; [reflexivity|]. rewrite M2.
    destruct (strip q (h ++ d)) as [z|] eqn:Es.
    + apply strip_some in Es. assert (Er : h ++ r = q ++ z ++ [`"config.json"]) by (rewrite app_assoc, <- Es, <- app_assoc; reflexivity). now rewrite Er, strip_app.
    + destruct (strip q (h ++ r)) as [z|] eqn:Es2; [|reflexivity]. exfalso. apply strip_some in Es2. destruct (snoc_case z) as (z1 & c1 & ->); [intros ->; rewrite app_nil_r in Es2; congruence|].
      assert (Er : h ++ r = (h ++ d) ++ [`"config.json"]) by (rewrite <- app_assoc; reflexivity). rewrite Er, app_assoc in Es2. apply app_inj_tail in Es2 as [Es2 _]. rewrite Es2, strip_app in Es. discriminate.
  - apply tree_after; [exact T1|now apply named_write_text].
  - intros q Hq. rewrite (changes_other _ _ _ _ _ C2), M2; [|intros ->; rewrite strip_app in Hq; discriminate]. destruct (strip q (h ++ d)) as [z|] eqn:Es; [|reflexivity].
    apply strip_some in Es. symmetry. destruct (app_eq_app _ _ _ _ Es) as (m' & [[E1 E2]|[E1 E2]]).
    + destruct m' as [|c1 m']; [rewrite app_nil_r in E1; rewrite <- E1; apply Hl|]. apply (look_prefix_dir w h q (c1 :: m')); [rewrite (hl_dir _ _ _ Hl); discriminate|exact E1|discriminate].
    + rewrite E1, strip_app in Hq. discriminate.
Qed.

(** ** initialize *)

Definition layout_step (H : hashfn) (layout_params : option str) (l : option layout) : st unit :=
  match l, layout_params with
  | Some l, Some p =>
      match json_loads p with
      | Raise _ => sraise (StorageRootException [])
      | Ok config => use l' <- slift (set_layout_params H l config false) ;; smodify (set_layout (Some l'))
      end
  | _, _ => sret tt
  end.
Definition write_step (e : env) : st unit :=
  use s <- sget ;;
  match s_root s with
  | None => sraise TypeError
  | Some r =>
      let '(parent, root_dir) := path_split r in
      use parent_fs <- sio (fsw_openfs (e_cwd e) parent false true) ;;
      use x <- sread (fun w => Ok (fs_exists w parent_fs root_dir)) ;;
      if (x : bool) then sraise (StorageRootException [])
      else
        use _ <- sio (fs_makedir parent_fs root_dir) ;;
        use h <- sio (fsw_openfs (e_cwd e) r false true) ;;
        use _ <- smodify (set_fs (Some h)) ;;
        use _ <- (match s_spec s with Some v => sio (namaste_write (root_declaration v) h []) | None => sraise TypeError end) ;;
        use l <- the_layout ;;
        match l with
        | None => sret tt
        | Some l => use _ <- sio (fs_write_text h layout_file (json_dumps (layout_json l))) ;; sio (write_layout_params h l)
        end
  end.
Lemma initialize_steps H e spec params : initialize H e spec params = (use l <- the_layout ;; use _ <- layout_step H params l ;; use _ <- check_spec_version spec ;; write_step e).
Proof. reflexivity. Qed.

Definition prepared (H : hashfn) (spec params : option str) (s : sroot) (lay : option layout) (v : str) : Prop :=
  chosen_layout H (s_layout_name s) params lay /\ chosen_version spec (s_spec s) v.

Lemma prepare_ok {B} H spec params s lay v (f : st B) w : s_layout s = None -> prepared H spec params s lay v ->
  (use l <- the_layout ;; use _ <- layout_step H params l ;; use _ <- check_spec_version spec ;; f) s w = f (set_spec (Some v) (set_layout lay s)) w.
Proof.
  intros N [C [Hv V]].
  assert (E1 : (use l <- the_layout ;; use _ <- layout_step H params l ;; use _ <- check_spec_version spec ;; f) s w = (use _ <- check_spec_version spec ;; f) (set_layout lay s) w).
  { destruct (s_layout_name s) as [n|] eqn:En; cbn [chosen_layout] in C.
    - destruct C as (l0 & l & G & -> & P).
      assert (E : the_layout s w = ([], Ok (set_layout (Some l0) s, Ok (Some l0)))) by (unfold the_layout; rewrite sget_ok, N, En, G, slift_ok, smodify_ok; reflexivity).
      rewrite (sbind_ok _ _ _ _ _ _ E). destruct params as [p|]; cbn [layout_step].
      + destruct P as (cfg & Ej & P). rewrite Ej. rewrite (sbind_ok _ _ _ _ (set_layout (Some l) s) tt); [reflexivity|]. cbn [set_layout_params]. rewrite P, slift_ok. reflexivity.
      + subst l0. rewrite sret_ok. reflexivity.
    - subst lay. assert (E : the_layout s w = ([], Ok (s, Ok None))) by (unfold the_layout; rewrite sget_ok, N, En; reflexivity). rewrite (sbind_ok _ _ _ _ _ _ E). cbn [layout_step]. rewrite sret_ok. destruct s. cbn in *. now subst. }
  rewrite E1. apply (sbind_ok (check_spec_version spec) (fun _ => f) (set_layout lay s) w (set_spec (Some v) (set_layout lay s)) tt). unfold check_spec_version. rewrite sget_ok. cbn [s_spec set_layout].
  assert (Hin : str_in v SPEC_VERSIONS_SUPPORTED = true) by (now apply str_in_true).
  destruct V as [-> | (-> & -> & Ev)]; [rewrite Hin; reflexivity|]. change DEFAULT_SPEC_VERSION with (`"1.1"). rewrite <- Ev, Hin. reflexivity.
Qed.

Lemma prepare_inv {B} H spec params s (f : st B) w s' b : s_layout s = None ->
  result ((use l <- the_layout ;; use _ <- layout_step H params l ;; use _ <- check_spec_version spec ;; f) s) w = Ok (s', Ok b) -> exists lay v, prepared H spec params s lay v.
Proof.
  intros N E. assert (C : exists lay, chosen_layout H (s_layout_name s) params lay).
  { destruct (s_layout_name s) as [n|] eqn:En; cbn [chosen_layout]; [|eauto]. apply s_inv in E as (s1 & l & E1 & E2).
    destruct (get_layout n) as [l0|] eqn:G; [|unfold the_layout, result in E1; rewrite sget_ok, N, En, G in E1; discriminate].
    assert (E : the_layout s w = ([], Ok (set_layout (Some l0) s, Ok (Some l0)))) by (unfold the_layout; rewrite sget_ok, N, En, G, slift_ok, smodify_ok; reflexivity).
    unfold result in E1. rewrite E in E1. injection E1 as <- <-. unfold after in E2. rewrite E in E2. cbn [fst apply_all fold_left] in E2.
    destruct params as [p|]; [|exists (Some l0), l0, l0; auto]. apply s_inv in E2 as (s2 & u & E2 & _). cbn [layout_step] in E2. destruct (json_loads p) as [j|]; [|discriminate].
    apply s_inv in E2 as (s3 & l' & E2 & _). unfold slift, iret, result in E2. cbn [snd] in E2. apply Ok_inv in E2. injection E2 as _ E2.
    destruct j as [| | | | | |cfg]; try discriminate. exists (Some l'), l0, l'. split; [reflexivity|]. split; [reflexivity|]. exists cfg. auto. }
  destruct C as [lay C]. exists lay.
  assert (V : exists v, chosen_version spec (s_spec s) v).
  { apply s_inv in E as (s1 & l & E1 & E2). assert (S1 : s_spec s1 = s_spec s).
    { unfold the_layout, result in E1. rewrite sget_ok, N in E1. destruct (s_layout_name s) as [n|]; [|injection E1 as <- _; reflexivity].
      destruct (get_layout n) as [l0|]; [rewrite slift_ok, smodify_ok in E1; injection E1 as <- _; reflexivity|discriminate]. }
    apply s_inv in E2 as (s2 & u & E2 & E3). assert (S2 : s_spec s2 = s_spec s).
    { rewrite <- S1. unfold layout_step, result in E2. destruct l as [l|]; [|injection E2 as <- _; reflexivity]. destruct params as [p|]; [|injection E2 as <- _; reflexivity].
      destruct (json_loads p) as [j|]; [|discriminate]. destruct (set_layout_params H l j false) as [l'|]; [rewrite slift_ok in E2; injection E2 as <- _; reflexivity|discriminate]. }
    apply s_inv in E3 as (s3 & u3 & E3 & _). rewrite <- S2. unfold check_spec_version, result in E3. rewrite sget_ok in E3.
    destruct spec as [t|].
    - destruct (str_in t SPEC_VERSIONS_SUPPORTED) eqn:Ei; [|discriminate]. apply str_in_true in Ei. exists t. split; auto.
    - destruct (s_spec s2); [discriminate|]. exists (`"1.1"). split; [right; left; reflexivity|auto]. }
  destruct V as [v V]. exists v. split; auto.
Qed.

Theorem write_ok e s w r v lay : tree w -> Forall fname (e_cwd e) -> no_url r -> s_root s = Some r -> s_spec s = Some v -> In v [`"1.0"; `"1.1"] -> s_layout s = lay -> (lay = None -> s_layout_name s = None) ->
  match lay with Some l => match layout_config l with Some c => write_text (json_print false 0 c) = Ok (json_print false 0 c) | None => True end | None => True end -> free_place (e_cwd e) w r ->
  let h := at_path (base_of (e_cwd e) r) r in exists w',
  run (write_step e) s w (set_fs (Some h) s) tt w' /\ holds w' h (root_files v lay) /\ tree w' /\ (forall q, strip h q = None -> look w' q = look w q) /\ look w h = None.
Proof.
  intros Tw Fc Hu Hr Hv Iv Hlay Hnm Hcw (p & k & Er & Hp & Fk & Dp & Nk) h.
  destruct (path_parts (e_cwd e) p k Fc Hp (or_intror Fk)) as (p' & Ep & Pp & Pb). rewrite <- Er in Ep, Pp, Pb. rewrite <- Pp in Dp, Nk. set (g := at_path (base_of (e_cwd e) p') p') in *.
  assert (Fb : Forall fname (base_of (e_cwd e) r)) by (unfold base_of; destruct (startswith _ r); [constructor|exact Fc]).
  assert (Eh : h = g ++ [k]) by (transitivity (at_path (base_of (e_cwd e) r) (p ++ k)); [unfold h; now rewrite <- Er|]; rewrite Pp; exact (path_whole (base_of (e_cwd e) r) p k Hp Fk Fb)).
  assert (Fg : Forall fname g) by (unfold g; rewrite Pb; now apply at_path_fnames). assert (Fh : Forall fname h) by (unfold h; now apply at_path_fnames).
  assert (Hu' : no_url p').
  { rewrite Er in Ep. rewrite path_split_name in Ep by (auto; apply Fk). injection Ep as Ep. rewrite Er in Hu. apply no_url_prefix in Hu. destruct (rstrip_slash p) as [|z1 z2] eqn:Es; [now rewrite <- Ep|].
    rewrite <- Ep. destruct (rstrip_split p) as [m Em]. rewrite Es in Em. rewrite Em in Hu. now apply no_url_prefix in Hu. }
  destruct (open_there (e_cwd e) p' w Hu' Dp) as [O1 O2]. fold g in O1.
  assert (X1 : fs_exists w g k = false) by (apply fs_exists_false; rewrite at_path_one by auto; exact Nk).
  destruct (makedir_one w g k Fg Fk Dp Nk) as [M1 M2]. set (mk := fs_makedir g k) in *. set (w1 := after mk w) in *. assert (M2' : changes w w1 h (Some EDir)) by (rewrite Eh; exact M2). assert (Nk' : look w h = None) by (rewrite Eh; exact Nk). clear M2 Nk. rename M2' into M2. rename Nk' into Nk.
  assert (T1 : tree w1) by (apply tree_after; [exact Tw|now apply named_makedir]).
  assert (H0 : holds w1 h []).
  { apply holds_empty; [exact (changes_at _ _ _ _ M2)|]. intros q Hq. rewrite (changes_other _ _ _ _ _ M2) by (intros E; apply Hq; rewrite <- (app_nil_r h) in E at 2; now apply app_inv_head in E).
    apply look_below_leaf; [exact Hq|]. rewrite Nk. discriminate. }
  destruct (open_there (e_cwd e) r w1 Hu (hl_dir _ _ _ H0)) as [O3 O4]. fold h in O3.
  assert (N0 : forall q, q <> [] -> look w1 (h ++ q) = None).
  { intros q Hq. destruct (look w1 (h ++ q)) eqn:E; [|reflexivity]. apply (hl_only _ _ _ H0) in E as (y & b & []); auto. }
  (* the declaration *)
  assert (Bv : write_text ((`"ocfl_" ++ v) ++ [10]) = Ok (`"ocfl_" ++ v ++ [10])) by (clear - Iv; destruct Iv as [<-|[<-|[]]]; reflexivity).
  destruct (write_holds w1 h [] (`"0=ocfl_" ++ v) ((`"ocfl_" ++ v) ++ [10%N]) (`"ocfl_" ++ v ++ [10%N]) Fh (version_name v Iv) H0) as (R1 & H1 & C1); [intros ? ? []|apply N0; discriminate|exact Bv|].
  assert (Nw : fs_write_text h (`"0=ocfl_" ++ v) ((`"ocfl_" ++ v) ++ [10%N]) = namaste_write (root_declaration v) h []) by (clear - Iv; destruct Iv as [<-|[<-|[]]]; reflexivity). rewrite Nw in R1, H1, C1. clear Nw. set (nw := namaste_write (root_declaration v) h []) in *. set (w2 := after nw w1) in *.
  assert (T2 : tree w2) by (apply tree_after; [exact T1|unfold nw, namaste_write; now apply named_write_text]).
  cbn [app] in H1. 
  assert (K2 : forall q, strip h q = None -> look w2 q = look w q).
  { intros q Hq. rewrite (changes_other _ _ _ _ _ C1), (changes_other _ _ _ _ _ M2); auto; intros ->; rewrite ?strip_self, ?strip_app in Hq; discriminate. }
  assert (St : forall w', (let l := s_layout s in match l with None => run (sret tt) (set_fs (Some h) s) w2 (set_fs (Some h) s) tt w'
      | Some l => run (use _ <- sio (fs_write_text h layout_file (json_dumps (layout_json l))) ;; sio (write_layout_params h l)) (set_fs (Some h) s) w2 (set_fs (Some h) s) tt w' end) ->
      run (write_step e) s w (set_fs (Some h) s) tt w').
  { intros w' Rn. unfold write_step. eapply run_bind; [apply run_get|]. rewrite Hr, Ep, Hv. eapply run_bind; [apply run_io; exact O1|]. rewrite O2.
    eapply run_bind; [apply run_read; rewrite X1; reflexivity|]. cbv iota. eapply run_bind; [apply run_io; exact M1|]. change (after (fs_makedir g k) w) with w1. eapply run_bind; [apply run_io; exact O3|]. rewrite O4.
    eapply run_bind; [apply run_modify|]. eapply run_bind; [apply run_io; exact R1|]. change (after (namaste_write (root_declaration v) h []) w1) with w2.
    assert (Tl : run the_layout (set_fs (Some h) s) w2 (set_fs (Some h) s) (s_layout s) w2).
    { apply run_eq. unfold the_layout. rewrite sget_ok. cbn [s_layout set_fs s_layout_name]. destruct (s_layout s) as [l|] eqn:El; [reflexivity|]. rewrite (Hnm (eq_sym Hlay)). reflexivity. }
    eapply run_bind; [exact Tl|]. cbv zeta in Rn. destruct (s_layout s); exact Rn. }
  rewrite Hlay in St. cbv zeta in St. destruct lay as [l|].
  - assert (N2 : look w2 (h ++ [`"ocfl_layout.json"]) = None).
    { rewrite (changes_other _ _ _ _ _ C1) by (intros E; apply app_inv_head in E; discriminate). apply N0. discriminate. }
    assert (Fl : fname (`"ocfl_layout.json")) by (apply fname_b_ok; reflexivity). destruct (layout_json_text l) as [Lj _].
    destruct (write_holds w2 h _ (`"ocfl_layout.json") (json_dumps (layout_json l)) (json_dumps (layout_json l)) Fh Fl H1) as (R2 & H2 & C2); [|exact N2|exact Lj|].
    { intros q b [E|[]]. injection E as <- _. reflexivity. }
    change (fs_write_text h (`"ocfl_layout.json") (json_dumps (layout_json l))) with (fs_write_text h layout_file (json_dumps (layout_json l))) in R2, H2, C2.
    set (lw := fs_write_text h layout_file (json_dumps (layout_json l))) in *. set (w3 := after lw w2) in *.
    assert (T3 : tree w3) by (apply tree_after; [exact T2|unfold lw; now apply named_write_text]).
    assert (K3 : forall q, strip h q = None -> look w3 q = look w q).
    { intros q Hq. rewrite (changes_other _ _ _ _ _ C2); auto. intros ->. rewrite strip_app in Hq. discriminate. }
    cbn [app] in H2. destruct (layout_config l) as [c|] eqn:Ec.
    + destruct (write_params_ok w3 h _ l c (json_print false 0 c) T3 Fh H2) as (R4 & H4 & T4 & K4); [| |exact Ec|exact Hcw|].
      { intros q b [E|[E|[]]]; injection E as <- _; reflexivity. }
      { intros q b [E|[E|[]]]; injection E as <- _; reflexivity. }
      exists (after (write_layout_params h l) w3). split; [apply St; eapply run_bind; [apply run_io; exact R2|]; change (after lw w2) with w3; apply run_io; exact R4|].
      split; [unfold root_files; rewrite Ec; exact H4|]. split; [exact T4|]. split; [|exact Nk]. intros q Hq. rewrite K4 by exact Hq. now apply K3.
    + exists w3. split; [apply St; eapply run_bind; [apply run_io; exact R2|]; change (after lw w2) with w3; apply run_eq; unfold sio, write_layout_params; rewrite Ec; reflexivity|].
      split; [unfold root_files; rewrite Ec; exact H2|]. split; [exact T3|]. split; [exact K3|exact Nk].
  - exists w2. split; [apply St; apply run_ret|]. split; [exact H1|]. split; [exact T2|]. split; [exact K2|exact Nk].
Qed.

Lemma write_inv e s w s' r : tree w -> Forall fname (e_cwd e) -> no_url r -> s_root s = Some r -> result (write_step e s) w = Ok (s', Ok tt) -> free_place (e_cwd e) w r.
Proof.
  intros Tw Fc Hu Hr E. unfold write_step in E. unfold result in E. rewrite sget_ok, Hr in E. destruct (rsplit_ok r) as (p & k & Er & Hk & Hp).
  assert (Ep : exists p', path_split r = (p', k) /\ no_url p').
  { rewrite Er, path_split_name by auto. eexists. split; [reflexivity|]. rewrite Er in Hu. apply no_url_prefix in Hu. destruct (rstrip_slash p) as [|z1 z2] eqn:Es; [exact Hu|].
    destruct (rstrip_split p) as [m Em]. rewrite Es in Em. rewrite Em in Hu. now apply no_url_prefix in Hu. }
  destruct Ep as (p' & Ep & Hu'). rewrite Ep in E.
  match type of E with snd (sbind ?a ?f s w) = _ => pose proof (s_io_inv _ f s w s' tt E) as (g & O1 & E2) end. clear E.
  assert (Og : g = at_path (base_of (e_cwd e) p') p' /\ look w g = Some EDir /\ after (fsw_openfs (e_cwd e) p' false true) w = w).
  { unfold fsw_openfs in *. rewrite split_url_none in * by auto. change (str_eqb (`"file") (`"file")) with true in *. cbv iota in *. change (if startswith [PathModel.slash] p' then [] else e_cwd e) with (base_of (e_cwd e) p') in *.
    rewrite result_read in O1. rewrite after_read. cbv beta in *. destruct (fs_isdir w (base_of (e_cwd e) p') p') eqn:X; cbn in O1; [|discriminate]. apply Ok_inv in O1. apply fs_isdir_look in X. subst g. auto. }
  destruct Og as (Eg & Dg & Af). rewrite Af in E2. assert (Fb : Forall fname (base_of (e_cwd e) p')) by (unfold base_of; destruct (startswith _ p'); [constructor|exact Fc]).
  assert (Fg : Forall fname g) by (rewrite Eg; now apply at_path_fnames).
  unfold result in E2. rewrite (sread_ok _ _ _ _ (fs_exists w g k)) in E2 by reflexivity. destruct (fs_exists w g k) eqn:X; [discriminate|].
  pose proof (odd_name w g k Fg Dg Hk X) as Fk. exists p, k. split; [exact Er|]. split; [exact Hp|]. split; [exact Fk|].
  destruct (path_parts (e_cwd e) p k Fc Hp (or_intror Fk)) as (p2 & Ep2 & Pp & Pb). rewrite <- Er in Ep2, Pp, Pb. rewrite Ep in Ep2. injection Ep2 as Ep2. rewrite <- Ep2, <- Eg in Pp. rewrite <- Pp. split; [exact Dg|].
  apply fs_exists_false in X. rewrite at_path_one in X by auto. exact X.
Qed.
