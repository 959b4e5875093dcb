(** C64: updating valid objects that other software wrote. *)
From Coq Require Import Permutation Sorted.
From Verif Require Import Base Unicode Regex Utf8 Json PyJson JsonTextModel JsonTextSpec JsonTextProofs JsonFileProofs Log DigestModel LayoutModel LayoutProofs
  ObjectUtilsModel ObjectUtilsProofs InventorySpec InventoryValidatorModel InventoryValidatorProofs InventoryRulesProofs
  InventoryModel InventoryOpsSpec InventoryOpsProofs NewVersionModel NewVersionProofs NewVersionOpsProofs VersionNumberProofs InventoryParseProofs ParseModel
  ContentPathProofs TextFile PathModel FsModel FsSpec FsProofs FswModel FswSpec FswProofs FswCopyProofs ValidatorSpec ValidatorBasicProofs ObjectModel ObjectSpec ObjectInvProofs ObjectRulesProofs
  ObjectParseProofs ObjectAddProofs ContentNameProofs ObjectGrowProofs ObjectStartProofs ObjectCopyProofs ObjectWriteProofs ObjectSourceProofs ObjectFactsProofs NamasteSpec ValidatorVersionProofs ObjectMadeProofs ObjectIntactProofs ObjectExtendProofs FsStepProofs NamasteModel NamasteProofs ObjectStoreProofs ObjectCreateProofs ValidatorModel ValidatorIntactProofs ObjectUpdateProofs ObjectNextProofs ObjectDigestProofs ObjectVersionProofs ValidatorIntactProofs InventoryReadingProofs OtherSpec ObjectOtherProofs ObjectForeignProofs ObjectExamples.

(** ** Writing the new version *)

From Verif Require Import Properties_Layout Properties_Object Properties_Raises Properties_ObjectFindings.
From Verif Require Properties_Validator.

(** If an object is valid, and its inventory is written with care (OtherSpec.v), an update
    with its digest algorithm leaves it valid, unless nothing is to be done. The new version
    has the files of the source directory, and the earlier versions and their files are as
    they were. The other conditions: in the states of the earlier inventories every digest has
    paths, the versions of the specification in them are not later than that of the root
    inventory, which is not later than the one declared, and the content directory is not
    named like an inventory.

    Not here: updates that change the digest algorithm, and some inventories that are not
    written with care. C64_upper_case_refuted, C64_no_paths_refuted and C64_spec_refuted show
    that digests in upper case, digests without paths and later versions of the specification
    have to be excluded. *)
Theorem C64_partial : forall H c e w h sd rb root f hd sp path m abort cv,
  hash_ok H -> tree w -> intact H true w h sd rb root f hd -> careful root f ->
  (forall v j fv, In v (f_versions f) -> inventory_of w h hd v j fv -> lists_paths j /\ no_later (f_spec fv) (f_spec f)) ->
  no_later (f_spec f) sd -> (forall x, f_cdir f <> `"inventory.json" ++ x) ->
  update_call c e w sp path m h -> o_alg c = f_alg f -> vc_lax_digests cv = false ->
  let x := add_version_with_content H c e (Some path) (Some sp) (Some m) abort in
  let new := version_fmt None (N.of_nat (S (List.length (f_versions f)))) in
  exists F, files_at w (dest_of (e_cwd e) sp) F /\
    let files_listed d p := exists es b, In (es, b) F /\ p = join [PathModel.slash] es /\ d = H (f_alg f) b in
    let unchanged := forall d p, version_lists root hd d p <-> files_listed d p in
    ((abort = true /\ unchanged /\ result x w = Ok None /\ after x w = w) \/
     (~ (abort = true /\ unchanged) /\ exists i, result x w = Ok (Some i) /\
       snd (validate_object H cv (after x w) (e_cwd e) path 0) = Ok true /\
       i_head i = Some new /\ (forall d p, in_state i new d p <-> files_listed d p) /\
       (forall v d p, In v (f_versions f) -> (in_state i v d p <-> version_lists root v d p)) /\
       (forall v r, In v (f_versions f) -> look (after x w) (h ++ v :: r) = look w (h ++ v :: r)))).
Proof.
  intros H c e w h sd rb root f hd sp path m abort cv HH Tw I Ca Old Sd Cn Uc Al Lax x new.
  destruct (other_update H c e w h sd rb root f hd sp path m abort HH Tw I Ca Old Sd Cn Uc Al) as (F & Fa & Cases). exists F. split; [exact Fa|]. cbv zeta in *.
  destruct Cases as [?|(Nu & i & R & T & New & Rest)]; [auto|]. right. split; [exact Nu|]. exists i. split; [exact R|]. fold x in T, New, Rest. split; [|exact Rest].
  assert (Hd : look (after x w) h = Some EDir).
  { destruct (in_inventory _ _ _ _ _ _ _ _ _ New) as [X _]. change (look (after x w) (h ++ [inv_name]) = Some (EFile (json_dumps (json_of_inventory i)))) in X. apply (look_above _ h inv_name []). rewrite X. discriminate. }
  pose proof Hd as Hd'. rewrite (uc_place _ _ _ _ _ _ _ Uc) in Hd'. destruct (open_there (e_cwd e) path (after x w) (proj2 (uc_url _ _ _ _ _ _ _ Uc)) Hd') as [R1 _].
  unfold validate_object. rewrite R1. fold (dest_of (e_cwd e) path). rewrite <- (uc_place _ _ _ _ _ _ _ Uc). apply (validate_opened_iff H cv (after x w) h 0 Lax T Hd). split; [auto|].
  destruct (vc_check_digests cv); eexists _, _, _, _, _; [exact New|apply intact_unchecked; exact New].
Qed.
Print Assumptions C64_partial.

(** ** An object of other software *)

Fixpoint texts (j : json) : list str :=
  match j with
  | JStr s => [s]
  | JArr l => flat_map texts l
  | JObj d => flat_map (fun kv => fst kv :: texts (snd kv)) d
  | _ => []
  end.
Lemma texts_in s j : text_in s j -> In s (texts j).
Proof.
  induction 1; cbn [texts].
  - now left.
  - apply in_flat_map. eauto.
  - apply in_flat_map. exists (s, v). split; [auto|now left].
  - apply in_flat_map. exists (k, v). split; [auto|now right].
Qed.

Definition above_b (p q : str) : bool := startswith (p ++ [slash]) q.
Lemma above_b_ok p q : above p q -> above_b p q = true.
Proof. intros [r ->]. unfold above_b. apply startswith_spec. exists r. now rewrite <- app_assoc. Qed.

(** The rules as coded and those of the specification are the same for simple inventories. *)
Definition halfway : reading := {|
  r_type := r_type within_limits; r_digest := r_digest within_limits; r_content := r_content within_limits;
  r_content_above := r_content_above as_coded; r_logical_above := r_logical_above as_coded; r_created := r_created within_limits;
  r_content_directory := r_content_directory within_limits; r_versions := r_versions within_limits |}.
Lemma coded_within_limits j f : (forall s, In s (texts j) -> ascii s /\ ~ In newline s) ->
  (forall t, member j (`"type") (JStr t) -> In t [`"https://ocfl.io/1.0/spec/#inventory"; `"https://ocfl.io/1.1/spec/#inventory"]) ->
  (forall c, member j (`"contentDirectory") (JStr c) -> c <> []) ->
  (forall m p q, member j (`"manifest") (JObj m) -> In p (listed m) -> In q (listed m) -> ~ above p q) ->
  (forall v st p q, state_of j v st -> In p (listed st) -> In q (listed st) -> ~ above p q) ->
  obeys as_coded j f -> obeys within_limits j f.
Proof.
  intros Htx Hty Hcd Hma Hst O. assert (Oh : obeys halfway j f).
  { revert O. apply obeys_mono; cbn [r_type r_digest r_content r_content_above r_logical_above r_created r_content_directory r_versions halfway within_limits by_the_book]; auto.
    - intros t v Hm Hv [c [r [_ E]]]. apply Hty in Hm. destruct Hv as [<-|[<-|[]]]; destruct Hm as [<-|[<-|[]]]; try reflexivity; exfalso; discriminate E.
    - intros a d Hd [e [[->| ->] H]]; [exact H|]. exfalso. destruct (Htx _ (texts_in _ _ Hd)) as [_ Hn]. apply Hn, in_or_app. right. now left.
    - intros p v cd rest Hp -> [[l [H1 H2]] _]. destruct (Htx _ (texts_in _ _ Hp)) as [_ Hn].
      assert (Hr : ~ In newline rest) by (intros Hi; apply Hn, in_or_app; right; right; apply in_or_app; right; now right).
      pose proof (first_line_id rest l Hr H1). subst l. eauto.
    - intros c Hc H. destruct (Htx _ (texts_in _ _ Hc)) as [H1 H2]. now apply coded_rfc3339.
    }
  destruct Oh as (A1 & A2 & A3 & A4 & (M1 & M2 & M3 & M4 & M5 & M6) & A5 & A6 & vs & V & Hb & Hu).
  split; [exact A1|]. split; [exact A2|]. split; [exact A3|]. split; [exact A4|]. split; [split; [exact M1|]; split; [exact M2|]; split; [exact M3|]; split; [exact M4|]; split; [exact M5|]|].
  { intros p q Hp Hq. exact (Hma _ p q M1 Hp Hq). }
  split; [exact A5|]. split; [exact A6|]. exists vs. split; [exact V|]. split; [|exact Hu]. intros v b Hv. destruct (Hb v b Hv) as (st & B1 & B2 & B3 & B4 & S1 & S2 & S3 & S4 & S5). exists st.
  split; [exact B1|]. split; [exact B2|]. split; [exact B3|]. split; [exact B4|]. split; [exact S1|]. split; [exact S2|]. split; [exact S3|]. split; [exact S4|].
  intros p q Hp Hq. apply (Hst v st p q); auto. exists vs, b. destruct V as (V & _). auto.
Qed.

(** A decision of [careful], for examples *)
Definition ascii_line_b (s : str) : bool := forallb (fun c => (c <? 128)%N && negb (c =? newline)%N) s.
Lemma ascii_line_b_ok s : ascii_line_b s = true -> ascii s /\ ~ In newline s.
Proof.
  unfold ascii_line_b. rewrite forallb_forall. intros E. split.
  - apply Forall_forall. intros c Hc. specialize (E c Hc). apply andb_true_iff in E as [E _]. now apply N.ltb_lt.
  - intros Hn. specialize (E _ Hn). apply andb_true_iff in E as [_ E]. now rewrite N.eqb_refl in E.
Qed.
Definition lower_b (s : str) : bool := forallb (fun c => ((48 <=? c) && (c <=? 57) || (97 <=? c) && (c <=? 102))%N) s.
Lemma lower_b_ok s : lower_b s = true -> Forall lower_hex s.
Proof.
  unfold lower_b. rewrite forallb_forall. intros E. apply Forall_forall. intros c Hc. specialize (E c Hc). unfold lower_hex.
  rewrite orb_true_iff, !andb_true_iff, !N.leb_le in E. exact E.
Qed.
Definition keys_b (ks : list str) (j : json) : bool := match j with JObj d => forallb (fun kv => str_in (fst kv) ks) d | _ => true end.
Lemma keys_b_ok ks j k x : keys_b ks j = true -> member j k x -> In k ks.
Proof. intros E (d & -> & Hi). cbn [keys_b] in E. rewrite forallb_forall in E. specialize (E _ Hi). now apply str_in_true. Qed.
Definition some_paths_b (st : json) : bool := match st with JObj d => forallb (fun kv => match strings (snd kv) with [] => false | _ => true end) d | _ => true end.
Definition blocks_b (P : json -> bool) (j : json) : bool :=
  all_members (fun vs => match vs with JObj d => forallb (fun vb => P (snd vb)) d | _ => true end) j (`"versions").
Lemma blocks_b_ok P j vs v b : blocks_b P j = true -> member j (`"versions") (JObj vs) -> In (v, b) vs -> P b = true.
Proof. intros E M Hb. pose proof (all_members_ok _ _ _ _ E M) as V. cbv beta iota in V. rewrite forallb_forall in V. exact (V _ Hb). Qed.
Definition lists_paths_b (j : json) : bool := blocks_b (fun b => all_members some_paths_b b (`"state")) j.
Lemma lists_paths_b_ok j : lists_paths_b j = true -> lists_paths j.
Proof.
  intros E v st d x (vs & b & Mv & Hb & Ms) Hx. pose proof (blocks_b_ok _ _ _ _ _ E Mv Hb) as V. cbv beta in V. pose proof (all_members_ok _ _ _ _ V Ms) as S. cbn [some_paths_b] in S.
  rewrite forallb_forall in S. specialize (S _ Hx). cbn [snd] in S. destruct (strings x); discriminate.
Qed.
Definition apart_b (m : json) : bool :=
  match m with JObj d => forallb (fun p => forallb (fun q => negb (above_b p q)) (listed d)) (listed d) | _ => true end.
Lemma apart_b_ok d p q : apart_b (JObj d) = true -> In p (listed d) -> In q (listed d) -> ~ above p q.
Proof.
  cbn [apart_b]. rewrite forallb_forall. intros E Hp Hq Ab. specialize (E p Hp). rewrite forallb_forall in E. specialize (E q Hq). apply above_b_ok in Ab. rewrite Ab in E. discriminate.
Qed.
Definition simple_b (j : json) : bool :=
  forallb ascii_line_b (texts j) &&
  all_members (fun t => match t with JStr t => str_in t [`"https://ocfl.io/1.0/spec/#inventory"; `"https://ocfl.io/1.1/spec/#inventory"] | _ => false end) j (`"type") &&
  all_members (fun c => match c with JStr [] => false | _ => true end) j (`"contentDirectory") &&
  all_members apart_b j (`"manifest") && blocks_b (fun b => all_members apart_b b (`"state")) j.
Definition careful_b (j : json) : bool :=
  simple_b j && all_members (fun m => match m with JObj d => forallb (fun kv => lower_b (fst kv)) d | _ => false end) j (`"manifest") &&
  all_members (fun fx => match fx with JObj d => forallb (fun kv => ObjectExamples.known_b (fst kv) && match snd kv with JObj b => forallb (fun e => lower_b (fst e)) b | _ => false end) d | _ => false end) j (`"fixity") &&
  lists_paths_b j &&
  keys_b [`"id"; `"type"; `"digestAlgorithm"; `"head"; `"contentDirectory"; `"manifest"; `"versions"; `"fixity"] j &&
  blocks_b (keys_b [`"created"; `"message"; `"user"; `"state"]) j &&
  blocks_b (fun b => all_members (keys_b [`"name"; `"address"]) b (`"user")) j.
Lemma ascii_ok_text s : ascii s -> text s.
Proof. intros A. apply ascii_text. unfold ascii_b. apply forallb_forall. intros c Hc. unfold ascii in A. rewrite Forall_forall in A. now apply N.ltb_lt, A. Qed.
Lemma careful_b_ok j f n : obeys as_coded j f -> f_versions f = names None n -> (1 <= n)%nat -> (N.of_nat n < 99999)%N -> careful_b j = true -> careful j f.
Proof.
  intros O Ev Hn Hmax. unfold careful_b, simple_b. rewrite !andb_true_iff. intros [[[[[[[[[[A1 A2] A3] A4] A5] B] C] D] E] F] G].
  rewrite forallb_forall in A1. assert (Tx : forall s, In s (texts j) -> ascii s /\ ~ In newline s) by (intros s Hs; apply ascii_line_b_ok, A1, Hs).
  pose proof O as (_ & _ & _ & _ & (Mm & _) & _). constructor.
  - apply coded_within_limits; auto.
    + intros t Mt. pose proof (all_members_ok _ _ _ _ A2 Mt) as X. cbv beta iota in X. now apply str_in_true.
    + intros c Mc ->. pose proof (all_members_ok _ _ _ _ A3 Mc) as X. discriminate X.
    + intros m p q Mt. apply apart_b_ok. exact (all_members_ok _ _ _ _ A4 Mt).
    + intros v st p q (vs & b & Mv & Hb & Ms). apply apart_b_ok. pose proof (blocks_b_ok _ _ _ _ _ A5 Mv Hb) as X. cbv beta in X. exact (all_members_ok _ _ _ _ X Ms).
  - intros s Hs. apply ascii_ok_text, Tx, texts_in, Hs.
  - rewrite Ev. apply names_version_sequence; [auto|]. exact Logic.I.
  - rewrite Ev. unfold names. rewrite map_length, seq_length. exact Hmax.
  - intros d x Hx. pose proof (all_members_ok _ _ _ _ B Mm) as X. cbv beta iota in X. rewrite forallb_forall in X. apply lower_b_ok. exact (X _ Hx).
  - intros fx alg block Mf Hb. pose proof (all_members_ok _ _ _ _ C Mf) as X. cbv beta iota in X. rewrite forallb_forall in X. specialize (X _ Hb). cbn [fst snd] in X. apply andb_true_iff in X as [X1 X2].
    split; [now apply ObjectExamples.known_b_ok|]. intros d x Hx. rewrite forallb_forall in X2. apply lower_b_ok. exact (X2 _ Hx).
  - intros p Hp. apply Tx. apply texts_in. eapply text_in_member; [exact Mm|]. now apply text_in_listed.
  - now apply lists_paths_b_ok.
  - intros k x. now apply keys_b_ok.
  - intros vs v b k x Mv Hb. apply keys_b_ok. exact (blocks_b_ok _ _ _ _ _ F Mv Hb).
  - intros vs v b u k x Mv Hb Mu. apply keys_b_ok. pose proof (blocks_b_ok _ _ _ _ _ G Mv Hb) as X. cbv beta in X. exact (all_members_ok _ _ _ _ X Mu).
Qed.

(** Facts are determined by the inventory; those that are computed *)
Lemma facts_computed j f st : json_wf j -> obeys as_coded j f -> snd (iv_validate false [] None j) = Ok (st, true) ->
  f_spec f = iv_spec_version st /\ f_cdir f = iv_content_directory st /\ f_versions f = iv_all_versions st /\ JStr (f_alg f) = iv_digest_algorithm st.
Proof.
  intros Hw O E. pose proof O as (_ & _ & _ & _ & _ & (h & before & Mh & Ev) & _).
  assert (E' : snd (iv_validate false [] None j) = Ok (InventoryRulesProofs.accepted f h, true)).
  { apply iv_validate_iff; [exact Hw|]. exists f, h, before. split; [exact O|]. split; [exact Logic.I|]. auto. }
  rewrite E in E'. injection E' as ->. auto.
Qed.

(** A storage with an object of other software at "o", with logs and extensions, a fixity block,
    no inventory in v1 that would be like those of this library, and files for the next
    version at "s". *)
Definition ex_foreign (inv1 inv2 : str) : node :=
  match Properties_Validator.ex_object_with Properties_Validator.ex_decl Properties_Validator.ex_decl_text inv1 inv2 (`"one") (`"two")
    [(`"logs", Dir [(`"log.txt", File (`"made"))]); (`"extensions", Dir [(`"0000-notes", Dir [(`"n", File (`"x"))])])] with
  | Dir d => Dir (d ++ [(`"s", Dir [(`"b", File (`"two")); (`"c", Dir [(`"d", File (`"three"))])])])
  | n => n
  end.
Definition ex_foreign_ok : node := ex_foreign Properties_Validator.ex_inv1 Properties_Validator.ex_inv2.
Definition ex_next : io (option inventory) := add_version_with_content toy_hash (ex_c (`"sha256")) ex_env (Some (`"o")) (Some (`"s")) (Some ex_meta) true.

Example C64_partial_ex : exists rb root f hd,
  tree ex_foreign_ok /\ intact toy_hash true ex_foreign_ok [`"o"] (`"1.1") rb root f hd /\ careful root f /\
  (forall v j fv, In v (f_versions f) -> inventory_of ex_foreign_ok [`"o"] hd v j fv -> lists_paths j /\ no_later (f_spec fv) (f_spec f)) /\
  no_later (f_spec f) (`"1.1") /\ (forall x, f_cdir f <> `"inventory.json" ++ x) /\
  update_call (ex_c (`"sha256")) ex_env ex_foreign_ok (`"s") (`"o") ex_meta [`"o"] /\ o_alg (ex_c (`"sha256")) = f_alg f /\
  (exists i, result ex_next ex_foreign_ok = Ok (Some i)).
Proof.
  assert (T : tree ex_foreign_ok) by (apply tree_b_ok; vm_compute; reflexivity).
  assert (V : snd (validate_opened toy_hash ex_validator ex_foreign_ok [`"o"] 0) = Ok true) by (vm_compute; reflexivity).
  apply (Properties_Validator.C30_exactly_intact toy_hash ex_validator ex_foreign_ok [`"o"] 0 eq_refl T) in V as (_ & sd & rb & root & f & hd & I); [|reflexivity].
  pose proof (in_inventory _ _ _ _ _ _ _ _ _ I) as [Lr Jr]. pose proof (json_load_wf _ _ Jr) as Wr.
  assert (L : ValidatorSpec.at_root ex_foreign_ok [`"o"] ([] ++ [`"inventory.json"]) = Some (EFile Properties_Validator.ex_inv2)) by (vm_compute; reflexivity).
  rewrite L in Lr. apply Some_inv in Lr. injection Lr as Lr. subst rb. clear L.
  pose proof (in_rules _ _ _ _ _ _ _ _ _ I) as O.
  assert (E : exists st, snd (iv_validate false [] None root) = Ok (st, true) /\ iv_spec_version st = `"1.1" /\ iv_content_directory st = `"content" /\ iv_all_versions st = [`"v1"; `"v2"] /\ iv_digest_algorithm st = JStr (`"sha256")).
  { clear I Wr O. vm_compute in Jr. injection Jr as <-. eexists. split; [vm_compute; reflexivity|]. repeat split; reflexivity. }
  destruct E as (st & E & E1 & E2 & E3 & E4). destruct (facts_computed _ _ _ Wr O E) as (F1 & F2 & F3 & F4). rewrite E1 in F1. rewrite E2 in F2. rewrite E3 in F3. rewrite E4 in F4. injection F4 as F4.
  assert (Sd : sd = `"1.1").
  { destruct (in_declaration _ _ _ _ _ _ _ _ _ I) as (Hs & _ & b & t & X & _). destruct Hs as [<-|[<-|[]]]; [|reflexivity]. vm_compute in X. discriminate X. }
  assert (Hd : hd = `"v2").
  { pose proof O as (_ & _ & _ & _ & _ & (h & before & Mh & Ev) & _). assert (h = hd) by (assert (X : JStr h = JStr hd) by (eapply member_fun; [exact Wr|exact Mh|exact (in_head _ _ _ _ _ _ _ _ _ I)]); now injection X). subst h.
    rewrite F3 in Ev. change [`"v1"; `"v2"] with ([`"v1"] ++ [`"v2"]) in Ev. apply app_inj_tail in Ev as [_ Ev]. auto. }
  subst sd. exists Properties_Validator.ex_inv2, root, f, hd. split; [exact T|]. split; [exact I|]. split; [|split; [|split; [|split; [|split; [|split]]]]].
  - apply (careful_b_ok root f 2 O); [rewrite F3; reflexivity|lia|reflexivity|]. clear - Jr. vm_compute in Jr. injection Jr as <-. vm_compute. reflexivity.
  - intros v j fv Hv (Hne & b & [Lv Jv] & Ov). rewrite F3 in Hv. destruct Hv as [<-|[<-|[]]]; [|now elim Hne].
    assert (L : ValidatorSpec.at_root ex_foreign_ok [`"o"] ([`"v1"] ++ [`"inventory.json"]) = Some (EFile Properties_Validator.ex_inv1)) by (vm_compute; reflexivity).
    rewrite L in Lv. apply Some_inv in Lv. injection Lv as Lv. subst b. clear L. pose proof (json_load_wf _ _ Jv) as Wv.
    assert (X : lists_paths_b j = true /\ exists st, snd (iv_validate false [] None j) = Ok (st, true) /\ iv_spec_version st = `"1.1").
    { clear - Jv. vm_compute in Jv. injection Jv as <-. split; [vm_compute; reflexivity|]. eexists. split; [vm_compute; reflexivity|reflexivity]. }
    destruct X as (X1 & stv & X2 & X3). split; [now apply lists_paths_b_ok|]. left. destruct (facts_computed _ _ _ Wv Ov X2) as (Y & _). now rewrite Y, X3, F1.
  - left. exact F1.
  - rewrite F2. intros x. discriminate.
  - apply (update_b_ok (ex_c (`"sha256")) ex_env ex_foreign_ok (`"s") (`"o") ex_meta T). vm_compute. reflexivity.
  - now rewrite F4.
  - eexists. vm_compute. reflexivity.
Qed.

(** ** What has to be excluded *)

(** In the inventory of version v1 a digest has no paths in the state of v1, and its content file
    is not in the root inventory any more: the object is valid, but not after an update. *)
Section NoPaths.
  Import Properties_Validator.
  Let comma (a b : str) : str := a ++ `"," ++ b.
  Let none (d : str) : str := q d ++ `":[]".
  Definition ex_no_paths1 : str := ex_inventory_with (`"1.1") (`"v1") (comma (ex_entry ex_d1 (`"v1/content/a")) (ex_entry ex_d2 (`"v1/content/z")))
    (ex_version (`"v1") (comma (ex_entry ex_d1 (`"a")) (none ex_d2))) [].
  Definition ex_no_paths2 : str := ex_inventory_with (`"1.1") (`"v2") (comma (ex_entry ex_d1 (`"v1/content/a")) (ex_entry ex_d2 (`"v2/content/b")))
    (comma (ex_version (`"v1") (comma (ex_entry ex_d1 (`"a")) (none ex_d2))) (ex_version (`"v2") (comma (ex_entry ex_d1 (`"a")) (ex_entry ex_d2 (`"b"))))) [].
  Definition ex_old_spec : str := ex_inventory_with (`"1.0") (`"v2") (comma (ex_entry ex_d1 (`"v1/content/a")) (ex_entry ex_d2 (`"v2/content/b")))
    (comma (ex_version (`"v1") (ex_entry ex_d1 (`"a"))) (ex_version (`"v2") (comma (ex_entry ex_d1 (`"a")) (ex_entry ex_d2 (`"b"))))) [].
End NoPaths.
Definition becomes_invalid (w : node) : Prop :=
  tree w /\ update_call (ex_c (`"sha256")) ex_env w (`"s") (`"o") ex_meta [`"o"] /\ ex_valid w = true /\
  (exists i, result ex_next w = Ok (Some i)) /\ snd (validate_object toy_hash ex_validator (after ex_next w) [] (`"o") 0) = Ok false.
Ltac becomes :=
  split; [apply tree_b_ok; vm_compute; reflexivity|];
  split; [apply (update_b_ok (ex_c (`"sha256")) ex_env _ (`"s") (`"o") ex_meta); [apply tree_b_ok; vm_compute; reflexivity|vm_compute; reflexivity]|];
  split; [vm_compute; reflexivity|]; split; [eexists; vm_compute; reflexivity|vm_compute; reflexivity].
Theorem C64_no_paths_refuted : becomes_invalid (ex_foreign ex_no_paths1 ex_no_paths2).
Proof. becomes. Qed.
Print Assumptions C64_no_paths_refuted.

(** The root inventory is of version 1.0 of the specification, that of v1 of version 1.1. *)
Theorem C64_spec_refuted : becomes_invalid (ex_foreign Properties_Validator.ex_inv1 ex_old_spec).
Proof. becomes. Qed.
Print Assumptions C64_spec_refuted.
