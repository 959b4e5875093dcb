(** C92: what lax_digests lets pass, and what is still checked. *)
From Verif Require Import Base Unicode Regex Utf8 Json PyJson TextFile Log LogProofs InventorySpec WarningSpec LaxSpec PathModel FsModel FsSpec FswModel FswSpec NamasteModel.
From Verif Require Import DigestModel InventoryValidatorModel InventoryValidatorProofs InventoryRulesProofs InventoryPriorProofs InventorySafeProofs.
From Verif Require Import ValidatorModel ValidatorSpec FsProofs FswProofs FswCopyProofs ValidatorBasicProofs ValidatorVersionProofs ValidatorIntactProofs WarningProofs WarningFullProofs LaxProofs.
From Verif Require Import Properties_Layout Properties_Lax.
From Verif Require Properties_Validator.
Open Scope N_scope.

(** The algorithm of a fixity block is one that the library knows. *)
Definition known_fixity (alg : str) : Prop := (exists n, digest_size alg n) \/ In alg [`"sha512-spec-ex"; `"sha256-spec-ex"].
(** The error is about an algorithm that is not one of the specification. *)
Definition about_algorithms (j : json) (code : str) : Prop :=
  code = `"E025a" /\ (exists a, member j (`"digestAlgorithm") a /\ a <> JStr (`"sha512") /\ a <> JStr (`"sha256")) \/
  code = `"E056b" /\ exists fx alg x, member j (`"fixity") (JObj fx) /\ In (alg, x) fx /\ ~ known_fixity alg.

(** ** Inventories *)

Lemma clean_logs {A} (x : wexc A) a (P : str -> Prop) : clean x a -> forall c, logged (LError c) x -> P c.
Proof. intros [_ N] c L. unfold no_errors in N. rewrite forallb_forall in N. apply N in L. discriminate L. Qed.
Lemma eq_str_iff j s : json_eq_str j s = true <-> j = JStr s.
Proof. destruct j; cbn; try (split; discriminate). rewrite str_eqb_eq. split; [now intros ->|now intros [= ->]]. Qed.

Lemma lift_ok {A B} (a : A) (f : A -> wexc B) : wbind (wlift (Ok a)) f = f a.
Proof. unfold wbind, wlift. cbn [fst snd app]. now destruct (f a). Qed.

Lemma lax_algorithm j o : clean (validate_digest_algorithm true j) o -> exists a, o = Some a /\ member j (`"digestAlgorithm") a /\
  (clean (validate_digest_algorithm false j) (Some a) \/
   validate_digest_algorithm false j = ([LError (`"E025a")], Ok None) /\ a <> JStr (`"sha512") /\ a <> JStr (`"sha256")).
Proof.
  unfold validate_digest_algorithm. cbn zeta. destruct (py_in (`"digestAlgorithm") j) as [c|e]; [|intros [K _]; discriminate K].
  rewrite !lift_ok. destruct c; cbn [negb]; [|intros [_ K]; discriminate K].
  destruct (py_getitem (`"digestAlgorithm") j) as [a|e] eqn:E; [|intros [K _]; discriminate K]. apply py_getitem_member in E.
  rewrite !lift_ok. destruct (json_eq_str a (`"sha512")) eqn:E5.
  - apply eq_str_iff in E5. subst a. intros K. apply clean_ret in K. subst o. eexists. split; [reflexivity|]. split; [exact E|]. left. now apply clean_ret.
  - intros K. apply clean_ret in K. subst o. exists a. split; [reflexivity|]. split; [exact E|]. destruct (json_eq_str a (`"sha256")) eqn:E2.
    + left. split; reflexivity.
    + right. split; [reflexivity|]. split; intros ->; [discriminate E5|discriminate E2].
Qed.

Lemma lax_fixity (P : str -> Prop) mf d u : (forall alg x, In (alg, x) d -> digest_regex alg = Raise ValueError -> P (`"E056b")) ->
  clean (wfold (fixity_algorithm true mf) d u) tt -> snd (wfold (fixity_algorithm false mf) d u) = Ok tt /\ forall c, logged (LError c) (wfold (fixity_algorithm false mf) d u) -> P c.
Proof.
  revert u. induction d as [|[alg x] d IH]; intros u HP K; cbn [wfold] in *; [destruct u; split; [reflexivity|intros c []]|].
  apply clean_bind in K as (u1 & K1 & K2). destruct (IH u1) as [I1 I2]; [intros; eapply HP; [right; eassumption|assumption]|exact K2|].
  assert (S : snd (fixity_algorithm false mf u (alg, x)) = Ok u1 /\ forall c, logged (LError c) (fixity_algorithm false mf u (alg, x)) -> P c).
  { unfold fixity_algorithm in *. destruct (digest_regex alg) as [r|e] eqn:E.
    - split; [apply K1|]. now apply (clean_logs _ u1).
    - split; [destruct u1; reflexivity|]. intros c [L|[]]. injection L as <-. eapply HP; [left; reflexivity|]. unfold digest_regex in E |- *. destruct (dget alg DIGEST_REGEXES); [discriminate E|reflexivity]. }
  destruct S as [S1 S2]. split; [unfold wbind; rewrite S1; exact I1|]. intros c L. apply logged_bind in L as [L|(u' & E & L)]; [now apply S2|]. rewrite S1 in E. apply Ok_inv in E. subst u'. now apply I2.
Qed.

(** What follows from a run without errors with lax_digests for one without. *)
Definition follows {A} (P : str -> Prop) (x : wexc A) (a : A) : Prop := snd x = Ok a /\ forall c, logged (LError c) x -> P c.
Lemma follows_clean {A} P (x : wexc A) a : clean x a -> follows P x a.
Proof. intros K. split; [apply K|]. eapply clean_logs; eauto. Qed.
Lemma follows_bind {A B} P (x : wexc A) (f : A -> wexc B) a b : follows P x a -> follows P (f a) b -> follows P (wbind x f) b.
Proof.
  intros [X1 X2] [F1 F2]. split; [unfold wbind; rewrite X1; exact F1|]. intros c L. apply logged_bind in L as [L|(a' & E & L)]; [now apply X2|]. rewrite X1 in E. apply Ok_inv in E. subst a'. now apply F2.
Qed.
Lemma lax_rest st k u j : clean (validate_rest true st k u j) tt -> follows (about_algorithms j) (validate_rest false st k u j) tt.
Proof.
  unfold validate_rest. intros K. apply clean_bind in K as (u1 & K1 & K). apply (follows_bind _ _ _ u1); [now apply follows_clean|].
  apply clean_bind in K as (u2 & K2 & K). apply (follows_bind _ _ _ u2); [now apply follows_clean|].
  apply clean_bind in K as (c & K3 & K). apply (follows_bind _ _ _ c); [now apply follows_clean|]. destruct c; [|now apply follows_clean].
  apply clean_bind in K as (fx & K4 & K). apply (follows_bind _ _ _ fx); [now apply follows_clean|]. apply clean_lift, py_getitem_member in K4.
  unfold validate_fixity in *. destruct fx as [| | | | |l|d]; try (now apply follows_clean). apply lax_fixity; [|exact K].
  intros alg x Hi E. right. split; [reflexivity|]. exists d, alg, x. split; [exact K4|]. split; [exact Hi|]. intros Kn. apply known_algorithm in Kn as [r Kn]. congruence.
Qed.

Lemma standard_regex j a : clean (validate_digest_algorithm false j) (Some a) -> exists r, digest_regex_j a = Ok r.
Proof. intros [K _]. now apply (algorithm_known j). Qed.

(** The errors that lax_digests hides are about algorithms. *)
Theorem C92_hidden : forall dsv force j st, snd (iv_validate true dsv force j) = Ok (st, true) ->
  exists st' b, snd (iv_validate false dsv force j) = Ok (st', b) /\
    forall code, logged (LError code) (iv_validate false dsv force j) -> about_algorithms j code.
Proof.
  intros dsv force j st K.
  assert (B : clean (validate_body true dsv force j) (st, true)).
  { unfold iv_validate in K. destruct (validate_body true dsv force j) as [l [[st' []]|e]]; cbn [snd] in K; [|apply Ok_inv in K; discriminate K|discriminate K].
    apply Ok_inv in K. injection K as -> N. split; [reflexivity|exact N]. }
  clear K. unfold validate_body in B. cbn zeta in B. apply clean_bind in B as (id & B1 & B). apply clean_bind in B as (spec & B2 & B). apply clean_bind in B as (o & B3 & B).
  destruct (lax_algorithm j o B3) as (a & -> & Ma & [St|(St & N5 & N2)]).
  - apply clean_bind in B as (cd & B4 & B). pose proof (standard_regex j a St) as Kr. rewrite (same_blocks a Kr) in B. apply clean_bind in B as ([[st1 k] du] & B5 & B).
    assert (F : follows (about_algorithms j) (validate_body false dsv force j) (st, true)).
    { unfold validate_body. cbn zeta. apply (follows_bind _ _ _ id); [now apply follows_clean|]. apply (follows_bind _ _ _ spec); [now apply follows_clean|].
      apply (follows_bind _ _ _ (Some a)); [now apply follows_clean|]. apply (follows_bind _ _ _ cd); [now apply follows_clean|]. apply (follows_bind _ _ _ (st1, k, du)); [now apply follows_clean|].
      destruct (iv_all_versions st1); [now apply follows_clean|]. apply clean_bind in B as ([] & B6 & B). apply (follows_bind _ _ _ tt); [now apply lax_rest|now apply follows_clean]. }
    destruct F as [F1 F2]. unfold iv_validate. unfold logged in *. destruct (validate_body false dsv force j) as [l r]. cbn [fst snd] in *. subst r. exists st, (no_errors l). split; [reflexivity|exact F2].
  - clear B. assert (E : exists l st', validate_body false dsv force j = (l, Ok (st', false)) /\ (forall c, In (LError c) l -> c = `"E025a") /\ no_errors l = false).
    { unfold validate_body. cbn zeta. destruct (validate_id j) as [l1 r1], B1 as [B1 N1]. cbn [fst snd] in B1, N1. subst r1. unfold wbind at 1. cbn [fst snd].
      destruct (validate_type force match force with Some f => f | None => dsv end j) as [l2 r2], B2 as [B2 N2']. cbn [fst snd] in B2, N2'. subst r2. unfold wbind at 1 2. cbn [fst snd]. rewrite St. unfold wbind, wret. cbn [fst snd].
      eexists _, _. split; [reflexivity|]. rewrite !no_errors_app. split; [|rewrite !andb_false_r; reflexivity]. intros c Hi. unfold no_errors in N1, N2'. rewrite forallb_forall in N1, N2'.
      rewrite !in_app_iff in Hi. destruct Hi as [Hi|[Hi|[[Hi|[]]|[]]]]; [apply N1 in Hi; discriminate Hi|apply N2' in Hi; discriminate Hi|now injection Hi]. }
    destruct E as (l & st' & E & E1 & E2). unfold iv_validate, logged. rewrite E, E2. exists st', false. split; [reflexivity|]. cbn [fst]. intros c Hi. apply E1 in Hi. left. split; [exact Hi|]. exists a. auto.
Qed.
Print Assumptions C92_hidden.

(** So an inventory that passes with lax_digests passes without it exactly if it has standard
    algorithms only. *)
Theorem C92_exactly : forall dsv force j, json_wf j ->
  (exists st, snd (iv_validate false dsv force j) = Ok (st, true)) <-> (exists st, snd (iv_validate true dsv force j) = Ok (st, true)) /\ standard_algorithms j.
Proof.
  intros dsv force j Wj. split.
  - intros [st K]. pose proof K as K'. apply iv_validate_iff in K'; [|exact Wj]. destruct K' as (f & h & bef & O & _). assert (Sj : standard_algorithms j) by (eapply obeys_standard; eauto).
    split; [|exact Sj]. exists st. rewrite (proj2 (alike_validate dsv force j Sj)). exact K.
  - intros [[st K] Sj]. exists st. rewrite <- (proj2 (alike_validate dsv force j Sj)). exact K.
Qed.
Print Assumptions C92_exactly.

(** ** Objects *)

Lemma clean_wfold_each {A S} (f : S -> A -> wexc S) l : forall s r, clean (wfold f l s) r -> forall a, In a l -> exists s1 s2, clean (f s1 a) s2.
Proof.
  induction l as [|x l IH]; intros s r K a Hi; [destruct Hi|]. cbn [wfold] in K. apply clean_bind in K as (s1 & K1 & K). destruct Hi as [<-|Hi]; [eauto|]. eapply IH; eauto.
Qed.
Lemma emap_in {A B} (f : A -> exc B) l : forall r, emap f l = Ok r -> forall a, In a l -> exists b, f a = Ok b /\ In b r.
Proof.
  induction l as [|x l IH]; intros r E a Hi; [destruct Hi|]. cbn [emap] in E. apply ebind_ok in E as (b & E1 & E). apply ebind_ok in E as (t & E2 & E). apply Ok_inv in E. subst r.
  destruct Hi as [<-|Hi]; [exists b; split; [exact E1|now left]|]. destruct (IH t E2 a Hi) as (b' & B1 & B2). exists b'. split; [exact B1|now right].
Qed.
Lemma digest_paths_in man items d p : digest_paths (JObj man) = Ok items -> lists man d p -> In (d, p) items.
Proof.
  unfold digest_paths. cbn [block_items ebind]. intros E (x & Hi & Hp). apply ebind_ok in E as (ll & E1 & E). apply Ok_inv in E. subst items.
  destruct (emap_in _ _ _ E1 _ Hi) as (t & T1 & T2). cbn [fst snd] in T1. apply ebind_ok in T1 as (ps & P1 & P2). apply Ok_inv in P2. subst t.
  apply in_concat. exists (map (fun p0 => (d, p0)) ps). split; [exact T2|]. apply in_map. unfold path_items in P1. destruct x as [| | | | |l|o]; try (now destruct Hp).
  cbn [py_iter ebind] in P1. apply ebind_ok in P1 as (l2 & Q1 & Q2). apply Ok_inv in Q2. subst ps. cbn [strings] in Hp. apply in_flat_map in Hp as (y & Hy & Hp).
  destruct (emap_in _ _ _ Q1 _ Hy) as (t & T3 & T4). apply in_concat. exists t. split; [exact T4|]. destruct y as [| | | |s| |]; try (now destruct Hp). destruct Hp as [<-|[]]. cbn [hashable] in T3. apply Ok_inv in T3. subst t. now left.
Qed.

(** The parts of a successful run *)
Lemma opened_parts H c w h n : snd (validate_opened H c w h n) = Ok true -> exists spec ns u, clean (validate_parts H c w h 0 spec ns) u.
Proof.
  unfold validate_opened. destruct (find_namastes w h (`"0") [] 10) as [ns|e]; [|intros E; discriminate E]. unfold wlift, wbind. cbn [fst snd app].
  destruct (check_declarations c w h ns) as [log [spec|e]]; [|intros E; discriminate E].
  destruct (negb (fs_exists w h INVENTORY_FILENAME)); [intros E; discriminate E|].
  destruct (validate_parts H c w h (n + num_errors log) spec ns) as [log' [u|e]] eqn:Ep; [|intros E; discriminate E].
  cbn [fst snd app]. intros E. apply Ok_inv in E. apply Nat.eqb_eq in E. rewrite num_errors_app in E.
  assert (E1 : (n + num_errors log = 0)%nat) by lia. assert (E3 : num_errors log' = O) by lia. rewrite E1 in Ep. exists spec, ns, u. rewrite Ep. split; [reflexivity|now apply num_errors_0].
Qed.
Lemma iv_algorithm lax dsv force j st b : clean (iv_validate lax dsv force j) (st, b) -> member j (`"digestAlgorithm") (iv_digest_algorithm st).
Proof.
  intros K. assert (B : exists b', clean (validate_body lax dsv force j) (st, b')).
  { unfold iv_validate in K. destruct (validate_body lax dsv force j) as [l [[st' [|]]|e]].
    - destruct K as [K N]. cbn [fst snd] in *. apply Ok_inv in K. injection K as -> _. exists true. split; auto.
    - destruct K as [K N]. cbn [fst snd] in *. apply Ok_inv in K. injection K as -> _. destruct (no_errors l) eqn:El; [rewrite no_errors_app in N; cbn in N; rewrite andb_false_r in N; discriminate N|congruence].
    - destruct K as [K _]. discriminate K. }
  clear K. destruct B as [b' B]. unfold validate_body in B. cbn zeta in B. apply clean_bind in B as (id & B1 & B). apply clean_bind in B as (spec & B2 & B). apply clean_bind in B as (o & B3 & B).
  assert (M : exists a, o = Some a /\ member j (`"digestAlgorithm") a).
  { destruct lax; [apply lax_algorithm in B3 as (a & -> & M & _); eauto|]. clear B. unfold validate_digest_algorithm in B3. cbn zeta in B3. apply clean_bind in B3 as (c & C1 & B3). destruct c; cbn [negb] in B3; [|now apply clean_bind_error in B3].
    apply clean_bind in B3 as (a & A1 & B3). apply clean_lift, py_getitem_member in A1. destruct (json_eq_str a (`"sha512")) eqn:E5; [apply eq_str_iff in E5; subst a; apply clean_ret in B3; eauto|].
    destruct (json_eq_str a (`"sha256")); [apply clean_bind_warning, clean_ret in B3; eauto|now apply clean_bind_error in B3]. }
  destruct M as (a & -> & M). apply clean_bind in B as (cd & _ & B). apply clean_bind in B as ([[st1 k] du] & B5 & B).
  assert (iv_digest_algorithm st1 = a).
  { unfold validate_blocks in B5. cbn zeta in B5. apply clean_bind in B5 as (? & _ & B5). apply clean_bind in B5 as (? & _ & B5). apply clean_bind in B5 as (? & _ & B5). apply clean_bind in B5 as ([? ?] & _ & B5).
    apply clean_bind in B5 as (? & _ & B5). apply clean_bind in B5 as (? & _ & B5). apply clean_ret in B5. injection B5 as <- _ _. reflexivity. }
  assert (st1 = st) by (destruct (iv_all_versions st1); [apply clean_ret in B; now injection B|apply clean_bind in B as (? & _ & B); apply clean_ret in B; now injection B]). congruence.
Qed.

Lemma not_aborted H c w h root last s v : ~ clean (validate_version_dir H c w h root last s v) None.
Proof.
  unfold validate_version_dir. cbn zeta. intros K. destruct (negb _); [apply clean_bind_warning, clean_ret in K; discriminate K|]. apply clean_bind in K as (o & K & K'). destruct o as [[s' sp]|].
  - apply clean_bind in K' as (? & _ & K'). apply clean_ret in K'. discriminate K'.
  - clear K'. destruct (str_eqb v last).
    + apply clean_bind in K as (? & _ & K). apply clean_bind in K as (? & _ & K). destruct (iv_digest_algorithm (ri_iv root)); try (now apply clean_raise in K). apply clean_ret in K. discriminate K.
    + apply clean_bind in K as ([[j st]|] & K1 & K); [|now apply clean_validate_inventory_none in K1]. apply clean_bind in K as (? & _ & K). apply clean_bind in K as (? & _ & K). apply clean_bind in K as (? & _ & K). apply clean_bind in K as (? & _ & K).
      apply clean_bind in K as (? & _ & K). apply clean_bind in K as (? & _ & K). apply clean_bind in K as (? & _ & K). apply clean_ret in K. discriminate K.
Qed.
Lemma inventories_not_aborted H c w h root vs : ~ clean (validate_version_inventories H c w h root vs) None.
Proof.
  unfold validate_version_inventories. cbn zeta. destruct (last_opt vs) as [last|]; [|intros K; apply clean_ret in K; discriminate K]. generalize (mkVis [] [] [] (`"1.0")). induction vs as [|v vs IH]; intros s K; cbn [wfold] in K; [apply clean_ret in K; discriminate K|].
  apply clean_bind in K as ([s'|] & K1 & K); [now apply (IH s')|]. cbn [unless_aborted] in K1. now apply not_aborted in K1.
Qed.
(** as clean_inventory_digest, for all algorithms that are words *)
Lemma digest_file H c w h f dir alg b u : ~ In 10 f -> alg <> [] -> Forall (fun c => is_word c = true) alg ->
  at_path h f = h ++ dir ++ [`"inventory.json"] -> at_path h (f ++ `"." ++ alg) = h ++ dir ++ [`"inventory.json." ++ alg] ->
  look w (h ++ dir ++ [`"inventory.json"]) = Some (EFile b) ->
  clean (validate_inventory_digest H c w h f (JStr alg)) u -> sidecar H (vc_check_digests c) w h dir alg b.
Proof.
  intros Hf Ha Hwd Hp Hp' Hb. unfold validate_inventory_digest, sidecar, at_root. cbv zeta.
  destruct (fs_exists w h (f ++ `"." ++ alg)) eqn:Ex; cbn [negb]; [|intros K; now apply clean_error in K].
  apply fs_exists_look in Ex. rewrite Hp' in Ex. intros K. split; [exact Ex|]. intros Hck.
  unfold validate_inventory_digest_match in K. rewrite Hck in K. cbn [negb] in K.
  destruct (sidecar_name_re f alg Hf Ha Hwd) as (m & Em & Eg). rewrite Em, Eg in K.
  destruct (let* recorded := read_inventory_digest w h (f ++ `"." ++ alg) in let* actual := fs_digest H w h f alg in Ok (str_eqb actual recorded)) as [[|]|e] eqn:X;
    [|now apply clean_error in K|exfalso; destruct e; first [now apply clean_error in K|now apply clean_raise in K]].
  apply ebind_ok in X as (x & E1 & E). apply ebind_ok in E as (y & E2 & E). apply Ok_inv, str_eqb_eq in E. subst y.
  unfold fs_digest in E2. apply ebind_ok in E2 as (b' & E2 & E3). apply fs_read_look in E2. rewrite Hp, Hb in E2. injection E2 as <-.
  apply read_inventory_digest_iff in E1 as (sb & text & l & F1 & F2 & F3 & F4). rewrite Hp' in F1. exists sb, text, l, x. apply file_digest_iff in E3. auto 10.
Qed.
Lemma checked_algorithm H w h alg p x : fs_digest H w h p alg = Ok x -> re_match re_sidecar_name (`"inventory.json." ++ alg) <> None -> In alg [`"sha512"; `"sha256"; `"sha1"; `"md5"].
Proof.
  unfold fs_digest. intros E R. apply ebind_ok in E as (b & _ & E). unfold file_digest in E.
  repeat match type of E with (if str_eqb alg ?s then _ else _) = _ => destruct (str_eqb alg s) eqn:?Q; [apply str_eqb_eq in Q; subst alg; cbn [In]; first [solve [auto 6]|exfalso; apply R; vm_compute; reflexivity]|clear Q] end. discriminate E.
Qed.
Lemma word_algorithm alg : In alg [`"sha512"; `"sha256"; `"sha1"; `"md5"] -> alg <> [] /\ Forall (fun c => is_word c = true) alg /\ fname (`"inventory.json." ++ alg).
Proof. intros Hi. cbn in Hi. destruct Hi as [<-|[<-|[<-|[<-|[]]]]]; (split; [discriminate|]; split; [repeat constructor|apply fname_b_ok; reflexivity]). Qed.

(** Objects that pass with digest checks, with lax_digests or without: the digest algorithm has
    a name; the files of the manifest are there with the digests of the manifest; and if there
    are any, the algorithm is one of four and the digest file has the digest of the
    inventory. *)
Theorem C92_checked : forall H c w h n, vc_check_digests c = true -> tree w -> look w h = Some EDir ->
  snd (validate_opened H c w h n) = Ok true ->
  exists b root alg, look w (h ++ [`"inventory.json"]) = Some (EFile b) /\ json_load b = Ok root /\ member root (`"digestAlgorithm") (JStr alg) /\
    forall man d p, member root (`"manifest") (JObj man) -> lists man d p ->
      In alg [`"sha512"; `"sha256"; `"sha1"; `"md5"] /\ sidecar H true w h [] alg b /\
      exists b' x, look w (at_path h p) = Some (EFile b') /\ digest_of H alg b' x /\ records alg d x.
Proof.
  intros H c w h n Hc Hw Ld V. pose proof (look_fnames_root w h Hw Ld) as Hh. apply opened_parts in V as (spec & ns & u & K). unfold validate_parts in K.
  destruct (validate_inventory c w h INVENTORY_FILENAME spec) as [log [[[j st]|]|e]] eqn:Ev; [| |destruct K as [K _]; discriminate K].
  2:{ exfalso. apply (clean_validate_inventory_none c w h INVENTORY_FILENAME spec). rewrite Ev. destruct K as [_ K]. split; [reflexivity|exact K]. }
  apply clean_bind in K as (u0 & K0 & K). assert (Nl : no_errors log = true) by apply K0.
  assert (Rd : exists b, look w (h ++ [`"inventory.json"]) = Some (EFile b) /\ json_load b = Ok j /\ exists b0, clean (iv_validate (vc_lax_digests c) spec None j) (st, b0)).
  { unfold validate_inventory in Ev. destruct (let* b := fs_read w h INVENTORY_FILENAME in json_load b) as [j'|e] eqn:E.
    2:{ destruct e; cbn in Ev; try discriminate Ev; injection Ev as <- ; discriminate Nl. }
    apply ebind_ok in E as (b & E1 & E2). apply fs_read_look in E1. rewrite (inventory_place h Hh) in E1. exists b. split; [exact E1|].
    destruct (iv_validate (vc_lax_digests c) spec None j') as [l [[st' b0]|e]] eqn:Ei; unfold wbind, wret in Ev; cbn [fst snd] in Ev; [|discriminate Ev]. injection Ev as <- <- <-. split; [exact E2|]. exists b0. rewrite Ei. split; [reflexivity|]. cbn. rewrite app_nil_r in Nl. exact Nl. }
  destruct Rd as (b & Rb & Rj & b0 & Iv). pose proof (iv_algorithm _ _ _ _ _ _ Iv) as Ma. apply num_errors_0 in Nl. rewrite Nl in K. cbn [Nat.add Nat.eqb] in K.
  apply clean_bind in K as (u1 & K1 & K). apply clean_bind in K as (u2 & K2 & K). apply clean_bind in K as (o & K3 & K).
  destruct (iv_digest_algorithm st) as [| | | |alg| |] eqn:Ea; try (destruct K1 as [K1 _]; discriminate K1).
  exists b, j, alg. split; [exact Rb|]. split; [exact Rj|]. split; [exact Ma|]. intros man d p Mm Hl. destruct o as [prior|].
  2:{ now apply inventories_not_aborted in K3. }
  unfold validate_content in K. cbn [ri_inventory ri_iv] in K. rewrite Ea in K. apply clean_bind in K as (seen & _ & K). apply clean_bind in K as (fx & _ & K). apply clean_bind in K as (has & Kh & K). apply clean_bind in K as (rest & Kr & _).
  pose proof (json_load_wf _ _ Rj) as Wj. assert (has = true) as ->.
  { apply clean_lift in Kh. destruct Mm as (dj & -> & Mm). cbn in Kh. apply Ok_inv in Kh. subst has. apply dmem_true. apply (in_map fst) in Mm. exact Mm. }
  apply clean_bind in Kr as (man' & Km & Kr). apply clean_lift, py_getitem_member in Km. pose proof (member_fun _ _ _ _ Wj Km Mm) as ->. apply clean_bind in Kr as (items & Ki & Kr). apply clean_lift in Ki.
  destruct (clean_wfold_each _ _ _ _ Kr (d, p) (digest_paths_in _ _ _ _ Ki Hl)) as (s1 & s2 & Kf). unfold check_file in Kf. destruct (negb (str_in p s1)); [now apply clean_bind_error in Kf|]. rewrite Hc in Kf. apply clean_bind in Kf as (uf & Kf & _).
  apply clean_bind in Kf as (x & Kx & Kf). apply clean_lift in Kx. apply clean_bind in Kf as (ug & Kf & _). destruct (str_eqb x (normalized_digest d alg)) eqn:Er; [|now apply clean_error in Kf]. apply records_iff in Er.
  assert (Ha : In alg [`"sha512"; `"sha256"; `"sha1"; `"md5"]).
  { eapply checked_algorithm; [exact Kx|]. intros R. unfold validate_inventory_digest in K1. cbv zeta in K1. destruct (negb (fs_exists _ _ _)); [now apply clean_error in K1|]. unfold validate_inventory_digest_match in K1. rewrite Hc in K1. cbn [negb] in K1.
    change (INVENTORY_FILENAME ++ `"." ++ alg) with (`"inventory.json." ++ alg) in K1. rewrite R in K1. now apply clean_error in K1. }
  split; [exact Ha|]. destruct (word_algorithm alg Ha) as (W1 & W2 & W3). split.
  - rewrite <- Hc. revert K1. apply digest_file; auto.
    + apply notin_b. reflexivity.
    + apply (inventory_place h Hh).
    + change (INVENTORY_FILENAME ++ `"." ++ alg) with (join [slash] [`"inventory.json." ++ alg]). apply at_path_join; [exact Hh|]. constructor; [exact W3|constructor].
  - unfold fs_digest in Kx. apply ebind_ok in Kx as (b' & X1 & X2). apply fs_read_look in X1. apply file_digest_iff in X2. exists b', x. auto.
Qed.
Print Assumptions C92_checked.

(** ** Findings *)

(** "--lax-digests: allow use of any known digest": an object with a digest algorithm whose name
    has a hyphen, as all the blake2b algorithms, is never valid if digests are checked and it has
    content, because the name is not found in that of the digest file. *)
Theorem C92_known_refuted : forall H c w h n b root alg man d p, vc_check_digests c = true -> tree w -> look w h = Some EDir ->
  look w (h ++ [`"inventory.json"]) = Some (EFile b) -> json_load b = Ok root -> member root (`"digestAlgorithm") (JStr alg) -> In 45 alg ->
  member root (`"manifest") (JObj man) -> lists man d p -> snd (validate_opened H c w h n) <> Ok true.
Proof.
  intros H c w h n b root alg man d p Hc Hw Ld Rb Rj Ma Hy Mm Hl V. destruct (C92_checked H c w h n Hc Hw Ld V) as (b' & root' & alg' & Rb' & Rj' & Ma' & K).
  rewrite Rb in Rb'. injection Rb' as <-. rewrite Rj in Rj'. apply Ok_inv in Rj'. subst root'. pose proof (member_fun _ _ _ _ (json_load_wf _ _ Rj) Ma Ma') as E. injection E as <-.
  destruct (K man d p Mm Hl) as (Ha & _). cbn in Ha. destruct Ha as [<-|[<-|[<-|[<-|[]]]]]; cbn in Hy; repeat (destruct Hy as [Hy|Hy]; [discriminate Hy|]); exact Hy.
Qed.
Print Assumptions C92_known_refuted.

Import Properties_Validator.
Definition ex_lax_inventory (alg : str) (written : str) : str :=
  `"{" ++ q (`"id") ++ `":" ++ q (`"info:a") ++ `"," ++ q (`"type") ++ `":" ++ q (`"https://ocfl.io/1.1/spec/#inventory") ++ `"," ++
  q (`"digestAlgorithm") ++ `":" ++ written ++ `"," ++ q (`"head") ++ `":" ++ q (`"v1") ++ `"," ++
  q (`"manifest") ++ `":{" ++ ex_entry (hex alg (`"one")) (`"v1/content/a") ++ `"}," ++
  q (`"versions") ++ `":{" ++ ex_version (`"v1") (ex_entry (hex alg (`"one")) (`"a")) ++ `"}}".
Definition ex_lax_object (alg written : str) : node :=
  let i := ex_lax_inventory alg written in let s := hex alg i ++ `" inventory.json" ++ [10] in let n := `"inventory.json." ++ alg in
  Dir [(`"o", Dir [(ex_decl, File ex_decl_text); (`"inventory.json", File i); (n, File s);
                   (`"v1", Dir [(`"inventory.json", File i); (n, File s); (`"content", Dir [(`"a", File (`"one"))])])])].
Example C92_ex : let v check w := validate_opened toy_hash (mkVconf check true (`"1.1") (fun _ => 0)) w [`"o"] 0 in
  let blake := ex_lax_object (`"blake2b-512") (q (`"blake2b-512")) in
  v true (ex_lax_object (`"sha1") (q (`"sha1"))) = ([], Ok true) /\
  tree blake /\ v false blake = ([], Ok true) /\ v true blake = ([LError (`"E058b"); LError (`"E058b")], Ok false).
Proof. cbv zeta. split; [vm_compute; reflexivity|]. split; [apply tree_b_ok; vm_compute; reflexivity|]. split; vm_compute; reflexivity. Qed.

(** With lax_digests the algorithm need not even be text: the inventory passes, and validation of
    the object ends with an exception. *)
Theorem C92_text_refuted : exists b j w h, json_load b = Ok j /\ member j (`"digestAlgorithm") (JInt 5) /\
  (exists st, iv_validate true (`"1.1") None j = ([], Ok (st, true))) /\
  tree w /\ look w (h ++ [`"inventory.json"]) = Some (EFile b) /\
  forall H check n, snd (validate_opened H (mkVconf check true (`"1.1") (fun _ => 0)) w h n) = Raise TypeError.
Proof.
  exists (ex_lax_inventory (`"md5") (`"5")). eexists. exists (ex_lax_object (`"md5") (`"5")), [`"o"]. split; [vm_compute; reflexivity|]. split; [eexists; split; [reflexivity|]; vm_compute; tauto|].
  split; [eexists; vm_compute; reflexivity|]. split; [apply tree_b_ok; vm_compute; reflexivity|]. split; [reflexivity|]. intros H check n. destruct check; vm_compute; reflexivity.
Qed.
Print Assumptions C92_text_refuted.
Example C92_hidden_ex : exists j, json_load (ex_lax_inventory (`"sha1") (q (`"sha1"))) = Ok j /\ json_wf j /\
  (exists st, snd (iv_validate true (`"1.1") None j) = Ok (st, true)) /\ fst (iv_validate false (`"1.1") None j) = [LError (`"E025a")].
Proof.
  eexists. split; [vm_compute; reflexivity|]. split; [eapply json_load_wf with (b := ex_lax_inventory (`"sha1") (q (`"sha1"))); vm_compute; reflexivity|]. split; [eexists|]; vm_compute; reflexivity.
Qed.
