(** Property C90: the digest in the root sidecar fixes what an object has. *)
From Coq Require Import Permutation Sorted.
From Verif Require Import Properties_Names Properties_InventoryValidator.
From Verif Require Import Base Unicode Regex Utf8 Json PyJson JsonTextModel JsonTextSpec JsonTextProofs JsonFileProofs Log DigestModel LayoutModel LayoutProofs
  ObjectUtilsModel ObjectUtilsProofs InventorySpec InventoryValidatorModel InventoryValidatorProofs InventoryRulesProofs
  InventoryModel InventoryOpsSpec InventoryOpsProofs NewVersionModel NewVersionProofs NewVersionOpsProofs VersionNumberProofs InventoryParseProofs ParseModel
  ContentPathProofs TextFile PathModel FsModel FsSpec FsProofs FswModel FswSpec FswProofs FswCopyProofs ValidatorSpec ValidatorBasicProofs ObjectModel ObjectSpec ObjectInvProofs ObjectRulesProofs
  ObjectParseProofs ObjectAddProofs ContentNameProofs ObjectGrowProofs ObjectStartProofs ObjectCopyProofs ObjectWriteProofs ObjectSourceProofs ObjectFactsProofs NamasteSpec ValidatorVersionProofs ObjectMadeProofs ObjectIntactProofs ObjectExtendProofs FsStepProofs NamasteModel NamasteProofs ObjectStoreProofs ObjectCreateProofs ValidatorModel ValidatorIntactProofs ObjectUpdateProofs ObjectNextProofs ObjectDigestProofs ObjectVersionProofs ObjectExtractProofs ObjectHistoryProofs ObjectExamples UpdateSpec ParseProofs OpenProofs ChangeProofs FrameProofs UpdateProofs ExtractSpec ExtractProofs.

From Verif Require Import Properties_Inventory Properties_Layout Properties_Object Properties_ObjectFindings Properties_Update.
From Verif Require Import StorageRootProofs Properties_RootFill Properties_Extract.
From Verif Require Properties_Validator InventoryPriorProofs.
Import ListNotations.

(** ** Specification *)

(** The digest file of the root inventory of the object at [h] has the digest [x]. *)
Definition root_digest (w : node) (h : place) (alg x : str) : Prop :=
  exists sb text l, look w (h ++ [`"inventory.json." ++ alg]) = Some (EFile sb) /\ read_text sb = Ok text /\ line text l /\ sidecar_line l x.

Definition part_of (w : node) (h : place) (b : bytes) : Prop := exists r, look w (h ++ r) = Some (EFile b).

(** No two different files of the two objects have the same digest. *)
Definition apart (H : hashfn) (alg : str) (w w' : node) (h h' : place) : Prop :=
  forall b b' x, part_of w h b \/ part_of w' h' b -> part_of w h b' \/ part_of w' h' b' ->
    digest_of H alg b x -> digest_of H alg b' x -> b = b'.

(** ** Proofs *)

Lemma sidecar_line_fun l x y : sidecar_line l x -> sidecar_line l y -> x = y.
Proof.
  intros A B. apply sidecar_line_shape, sidecar_re_shape in A as (m & E1 & E2 & _). apply sidecar_line_shape, sidecar_re_shape in B as (m' & E1' & E2' & _). congruence.
Qed.

Lemma root_digest_fun w h alg x y : root_digest w h alg x -> root_digest w h alg y -> x = y.
Proof.
  intros (sb & t & l & A & B & C & D) (sb' & t' & l' & A' & B' & C' & D'). rewrite A in A'. injection A' as <-. rewrite B in B'. apply Ok_inv in B'. subst t'.
  rewrite (line_unique _ _ _ C' C) in D'. eapply sidecar_line_fun; eauto.
Qed.

(** The algorithm is that of the inventory, and the digest the one of its file. *)
Lemma intact_root_digest H w h spec rb root f head alg x : intact H true w h spec rb root f head -> root_digest w h alg x ->
  f_alg f = alg /\ digest_of H alg rb x /\ part_of w h rb.
Proof.
  intros I R. assert (Ea : f_alg f = alg).
  { destruct R as (sb & t & l & A & _). pose proof (in_root _ _ _ _ _ _ _ _ _ I _ _ A) as E. cbn [root_entry] in E. destruct E as [E|[E|[E|[]]]].
    - exfalso. discriminate E.
    - exfalso. discriminate E.
    - apply app_inv_head in E. exact E. }
  split; [exact Ea|]. split; [|exists [`"inventory.json"]; exact (proj1 (in_inventory _ _ _ _ _ _ _ _ _ I))].
  destruct (in_sidecar _ _ _ _ _ _ _ _ _ I) as [_ S]. destruct (S eq_refl) as (sb & t & l & y & A & B & C & D & Dy).
  rewrite Ea in A, Dy. assert (R' : root_digest w h alg y) by (exists sb, t, l; auto). now rewrite (root_digest_fun _ _ _ _ _ R R').
Qed.

Section Same.
  Variables (H : hashfn) (w w' : node) (h h' : place) (alg x : str).
  Hypothesis R : root_digest w h alg x.
  Hypothesis R' : root_digest w' h' alg x.
  Hypothesis Ap : apart H alg w w' h h'.

  Lemma same_root spec rb root f head spec' rb' root' f' head' :
    intact H true w h spec rb root f head -> intact H true w' h' spec' rb' root' f' head' -> rb' = rb /\ root' = root /\ f' = f /\ f_alg f = alg.
  Proof using All.
    intros I I'. destruct (intact_root_digest _ _ _ _ _ _ _ _ _ _ I R) as (Ea & D & P). destruct (intact_root_digest _ _ _ _ _ _ _ _ _ _ I' R') as (_ & D' & P').
    assert (rb' = rb) by (apply (Ap _ _ x); auto). subst rb'. split; [reflexivity|].
    destruct (in_inventory _ _ _ _ _ _ _ _ _ I) as [_ J1]. destruct (in_inventory _ _ _ _ _ _ _ _ _ I') as [_ J2]. rewrite J1 in J2. apply Ok_inv in J2. subst root'.
    split; [reflexivity|]. split; [|exact Ea]. apply (facts_unique root); [eapply json_load_wf; eauto|apply (in_rules _ _ _ _ _ _ _ _ _ I')|apply (in_rules _ _ _ _ _ _ _ _ _ I)].
  Qed.
End Same.

(** Two valid objects, in whatever file systems, whose root sidecars have the same digest: their
    root inventories are the same file, and so are all content files. *)
Theorem C90_same_content : forall H c w w' h h' n n' alg x,
  vc_lax_digests c = false -> vc_check_digests c = true ->
  tree w -> look w h = Some EDir -> tree w' -> look w' h' = Some EDir ->
  snd (validate_opened H c w h n) = Ok true -> snd (validate_opened H c w' h' n') = Ok true ->
  root_digest w h alg x -> root_digest w' h' alg x -> apart H alg w w' h h' ->
  exists rb root f, look w (h ++ [`"inventory.json"]) = Some (EFile rb) /\ look w' (h' ++ [`"inventory.json"]) = Some (EFile rb) /\
    json_load rb = Ok root /\ obeys as_coded root f /\ f_alg f = alg /\
    forall v r b, In v (f_versions f) -> r <> [] ->
      (look w (h ++ v :: f_cdir f :: r) = Some (EFile b) <-> look w' (h' ++ v :: f_cdir f :: r) = Some (EFile b)).
Proof.
  intros H c w w' h h' n n' alg x Lx Ck Tw Hd Tw' Hd' V V' R R' Ap.
  pose proof V as W. pose proof V' as W'. apply validate_opened_iff in W as (_ & spec & rb & root & f & head & I); auto. apply validate_opened_iff in W' as (_ & spec' & rb' & root' & f' & head' & I'); auto.
  rewrite Ck in I, I'. destruct (same_root _ _ _ _ _ _ _ R R' Ap _ _ _ _ _ _ _ _ _ _ I I') as (-> & -> & -> & Ea).
  destruct (in_inventory _ _ _ _ _ _ _ _ _ I) as [I1 I2]. destruct (in_inventory _ _ _ _ _ _ _ _ _ I') as [I1' _]. pose proof (in_rules _ _ _ _ _ _ _ _ _ I) as Ob.
  exists rb, root, f. split; [exact I1|]. split; [exact I1'|]. split; [exact I2|]. split; [exact Ob|]. split; [exact Ea|].
  intros v r b Hv Hr. destruct (Properties_Validator.C31_same_inventory_same_content H c w w' h h' n n' rb root f Lx Ck Tw Hd Tw' Hd' I1 I1' I2 Ob V V' v r Hv Hr) as [S1 S2].
  assert (Lf : forall w0 h0 b0, look w0 (h0 ++ v :: f_cdir f :: r) = Some (EFile b0) -> leaf w0 (h0 ++ v :: f_cdir f :: r)) by (intros w0 h0 b0 El; split; rewrite El; discriminate).
  assert (Q : leaf w (h ++ v :: f_cdir f :: r) -> exists b0, look w (h ++ v :: f_cdir f :: r) = Some (EFile b0) /\ look w' (h' ++ v :: f_cdir f :: r) = Some (EFile b0)).
  { intros L. destruct (S2 L) as (b1 & b2 & y & A1 & A2 & D1 & D2). unfold at_root in A1, A2. rewrite Ea in D1, D2.
    assert (b2 = b1) by (apply (Ap b2 b1 y); [right; eexists; exact A2|left; eexists; exact A1|exact D2|exact D1]). subst b2. eauto. }
  split; intros L.
  - destruct (Q (Lf _ _ _ L)) as (b0 & A & B). congruence.
  - destruct (Q (proj2 S1 (Lf _ _ _ L))) as (b0 & A & B). congruence.
Qed.
Print Assumptions C90_same_content.

Lemma lists_once st d d' p : NoDup (listed st) -> lists st d p -> lists st d' p -> d = d'.
Proof.
  intros Nd (y & Hy & Hp) (y' & Hy' & Hp'). unfold listed in Nd. revert Nd Hy Hy'. induction st as [|[k z] st IH]; [intros _ []|]. cbn [flat_map snd]. intros Nd Hy Hy'.
  apply NoDup_app_inv in Nd as (N1 & N2 & N3).
  destruct Hy as [E|Hy], Hy' as [E'|Hy'].
  - congruence.
  - injection E as -> ->. exfalso. apply (N3 p Hp). apply in_flat_map. exists (d', y'). auto.
  - injection E' as -> ->. exfalso. apply (N3 p Hp'). apply in_flat_map. exists (d, y). auto.
  - auto.
Qed.

(** So each version of the one is extracted to the same files as that of the other. *)
Theorem C90_same_extracted : forall H c e w w' path path' d d' version n n' alg x i s v,
  vc_lax_digests c = false -> vc_check_digests c = true -> Forall fname (e_cwd e) ->
  tree w -> look w (e_cwd e) = Some EDir -> no_url path -> tree w' -> look w' (e_cwd e) = Some EDir -> no_url path' ->
  let h := dest_of (e_cwd e) path in let h' := dest_of (e_cwd e) path' in
  snd (validate_object H c w (e_cwd e) path n) = Ok true -> snd (validate_object H c w' (e_cwd e) path' n') = Ok true ->
  root_digest w h alg x -> root_digest w' h' alg x -> apart H alg w w' h h' ->
  parse_inventory w h = Ok (i, s) ->
  version = v /\ v <> `"head" /\ is_version i v \/ version = `"head" /\ i_head i = Some v ->
  (forall p q, in_version i v p -> in_version i v q -> ~ above p q) ->
  dest_free w (dest_of (e_cwd e) d) -> dest_free w' (dest_of (e_cwd e) d') ->
  exists L, (exists m, result (extract e (Some path) version d) w = Ok m /\ result (extract e (Some path') version d') w' = Ok m) /\ NoDup (map fst L) /\
    holds (after (extract e (Some path) version d) w) (dest_of (e_cwd e) d) L /\
    holds (after (extract e (Some path') version d') w') (dest_of (e_cwd e) d') L.
Proof.
  intros H c e w w' path path' d d' version n n' alg x i s v Lx Ck Fc Tw Hc Hu Tw' Hc' Hu' h h' V V' R R' Ap Ep Ev Ha Df Df'.
  assert (G : forall w0 path0 n0, tree w0 -> look w0 (e_cwd e) = Some EDir -> no_url path0 -> snd (validate_object H c w0 (e_cwd e) path0 n0) = Ok true ->
    look w0 (dest_of (e_cwd e) path0) = Some EDir /\ exists spec rb root f head, intact H true w0 (dest_of (e_cwd e) path0) spec rb root f head).
  { intros w0 path0 n0 T0 C0 U0 V0. destruct (Properties_Validator.C30_path H c w0 (e_cwd e) path0 n0 U0) as [V1 V2]. fold (dest_of (e_cwd e) path0) in V1, V2.
    destruct (entry_dir_dec (look w0 (dest_of (e_cwd e) path0))) as [Hh|Hh]; [|rewrite (V2 Hh) in V0; discriminate]. rewrite (V1 Hh) in V0. split; [exact Hh|].
    apply validate_opened_iff in V0 as (_ & spec & rb & root & f & head & I); auto. rewrite Ck in I. eauto 10. }
  destruct (G _ _ _ Tw Hc Hu V) as (Hd & spec & rb & root & f & head & I). destruct (G _ _ _ Tw' Hc' Hu' V') as (Hd' & spec' & rb' & root' & f' & head' & I'). clear G. fold h in Hd, I. fold h' in Hd', I'.
  destruct (same_root _ _ _ _ _ _ _ R R' Ap _ _ _ _ _ _ _ _ _ _ I I') as (-> & -> & -> & Ea).
  assert (Fh : Forall fname h) by (apply dest_fnames; auto). assert (Fh' : Forall fname h') by (apply dest_fnames; auto).
  assert (Ep' : parse_inventory w' h' = Ok (i, s)).
  { rewrite <- Ep. unfold parse_inventory.
    assert (Q : forall w0 h0, Forall fname h0 -> look w0 (h0 ++ [`"inventory.json"]) = Some (EFile rb) -> fs_read w0 h0 INVENTORY_FILENAME = Ok rb).
    { intros w0 h0 F0 L0. apply fs_read_look. change INVENTORY_FILENAME with inv_name. rewrite at_path_one; [exact L0|auto|now apply fname_b_ok]. }
    rewrite (Q w h Fh (proj1 (in_inventory _ _ _ _ _ _ _ _ _ I))), (Q w' h' Fh' (proj1 (in_inventory _ _ _ _ _ _ _ _ _ I'))). reflexivity. }
  (* what one extraction gives *)
  assert (X : forall w0 path0 d0 spec0 head0, tree w0 -> look w0 (e_cwd e) = Some EDir -> no_url path0 -> look w0 (dest_of (e_cwd e) path0) = Some EDir ->
    parse_inventory w0 (dest_of (e_cwd e) path0) = Ok (i, s) -> intact H true w0 (dest_of (e_cwd e) path0) spec0 rb root f head0 -> dest_free w0 (dest_of (e_cwd e) d0) ->
    exists L m, result (extract e (Some path0) version d0) w0 = Ok m /\ from_inventory empty_vmeta i (Some v) = Ok m /\ holds (after (extract e (Some path0) version d0) w0) (dest_of (e_cwd e) d0) L /\ NoDup (map fst L) /\
      (forall r b, In (r, b) L -> r <> [] /\ Forall fname r /\ in_version i v (J r) /\ part_of w0 (dest_of (e_cwd e) path0) b /\
         exists st dg, state_of root v st /\ lists st dg (J r) /\ digest_fits H alg b dg) /\
      (forall p, in_version i v p -> exists r b, In (r, b) L /\ p = J r)).
  { clear - Fc Ev Ha Ea. intros w0 path0 d0 spec0 head0 Tw Hc Hu Hh Ep I Df. set (h := dest_of (e_cwd e) path0) in *. assert (Fh : Forall fname h) by (apply dest_fnames; auto).
    destruct (parse_opened _ _ _ _ Ep) as (inv & i0 & g & O). destruct (intact_files _ _ _ _ _ _ _ _ _ _ _ _ _ Tw I Fh O) as [Ei Fl]. subst inv.
    pose proof (facts_unique _ _ _ (oa_wf _ _ _ _ _ _ _ O) (oa_obeys _ _ _ _ _ _ _ O) (in_rules _ _ _ _ _ _ _ _ _ I)) as Ef. subst g.
    assert (Es : extract_setup w0 h version = Ok (i, v)).
    { destruct (setup_ok _ _ _ _ Ep) as ((v' & Hv' & S1) & S2 & _). destruct Ev as [(-> & Nv & Hv)|[-> Hv]]; [now apply S2|]. rewrite S1. congruence. }
    destruct (extract_files e path0 version d0 w0 h i s v Tw Fc Hc Hu eq_refl Hh Ep Es) as (L & m & R & Fm & Hl & Nd & L1 & L2); auto.
    { intros dg k Hk. destruct (Fl _ _ Hk) as (_ & b & _ & Hb & _). eauto. }
    exists L, m. split; [exact R|]. split; [exact Fm|]. split; [exact Hl|]. split; [exact Nd|]. split; [|exact L2].
    pose proof (oa_opened _ _ _ _ _ _ _ O) as Op. intros r b Hi. destruct (L1 r b Hi) as (Hr & Fr & k & Hk & Rb). split; [exact Hr|]. split; [exact Fr|].
    split; [destruct Hk as (dg & Hs & _); exists dg; exact Hs|].
    apply (op_resolves _ _ _ Op) in Hk as (st & man & d1 & x1 & y1 & S1 & S2 & S3 & S4 & S5 & S6).
    assert (Em : man = f_manifest f) by (destruct (oa_obeys _ _ _ _ _ _ _ O) as (_ & _ & _ & _ & (Hmm & _) & _); pose proof (member_fun _ _ _ _ (oa_wf _ _ _ _ _ _ _ O) S2 Hmm) as E; congruence). subst man.
    destruct (in_digests _ _ _ _ _ _ _ _ _ I eq_refl) as (D & _). destruct (D d1 k) as (r2 & b2 & E2 & Hb2 & Hf2); [exists y1; auto|].
    assert (b2 = b).
    { apply fs_read_look in Rb. rewrite E2 in Rb. unfold at_root in Hb2. assert (Fr2 : Forall fname (h ++ r2)) by (apply (look_fnames w0); [auto|rewrite Hb2; discriminate]). apply Forall_app in Fr2 as [_ Fr2].
      rewrite at_path_join in Rb by auto. rewrite Hb2 in Rb. congruence. }
    subst b2. split; [exists r2; exact Hb2|]. exists st, d1. split; [exact S1|]. split; [exists x1; auto|]. rewrite <- Ea. exact Hf2. }
  destruct (X w path d _ _ Tw Hc Hu Hd Ep I Df) as (L & m & X1 & X2 & X3 & X4 & X5 & X6). destruct (X w' path' d' _ _ Tw' Hc' Hu' Hd' Ep' I' Df') as (L' & m' & Y1 & Y2 & Y3 & Y4 & Y5 & Y6). clear X.
  fold h in X5. fold h' in Y5.
  assert (Jw : json_wf root) by (eapply json_load_wf; apply (in_inventory _ _ _ _ _ _ _ _ _ I)).
  assert (B : forall r b b', In (r, b) L -> In (r, b') L' -> b = b').
  { intros r b b' Hb Hb'. destruct (X5 _ _ Hb) as (_ & _ & Hin & P & st & dg & S1 & S2 & (y & Dy & Ry)). destruct (Y5 _ _ Hb') as (_ & _ & _ & P' & st' & dg' & S1' & S2' & (y' & Dy' & Ry')).
    assert (st' = st) by (eapply InventoryPriorProofs.state_of_fun; eauto). subst st'.
    assert (Nd : NoDup (listed st)).
    { pose proof S1 as (vs & bl & M1 & M2 & M3). pose proof (in_rules _ _ _ _ _ _ _ _ _ I) as (_ & _ & _ & _ & _ & _ & _ & vs' & (M1' & _) & Hbl & _).
      pose proof (member_fun _ _ _ _ Jw M1 M1') as E. injection E as <-. destruct (Hbl _ _ M2) as [st0 (_ & _ & _ & M4 & _ & _ & _ & Nd & _)].
      assert (Jb : json_wf bl) by (pose proof (member_wf _ _ _ Jw M1) as Jv; apply json_wf_obj in Jv as [_ Jv]; rewrite Forall_forall in Jv; exact (Jv _ M2)).
      pose proof (member_fun _ _ _ _ Jb M3 M4) as E. injection E as <-. exact Nd. }
    rewrite (lists_once _ _ _ _ Nd S2' S2) in Ry'. rewrite (Properties_Validator.records_fun _ _ _ _ Ry' Ry) in Dy'. apply (Ap b b' y); auto. }
  assert (S : forall q, In q L <-> In q L').
  { assert (T : forall A A' : list (place * bytes), (forall r b, In (r, b) A -> r <> [] /\ Forall fname r /\ in_version i v (J r)) -> (forall r b, In (r, b) A' -> r <> [] /\ Forall fname r /\ in_version i v (J r)) ->
      (forall p, in_version i v p -> exists r b, In (r, b) A' /\ p = J r) -> (forall r b b', In (r, b) A -> In (r, b') A' -> b = b') -> forall q, In q A -> In q A').
    { intros A A' A1 A2 A3 A4 [r b] Hq. destruct (A1 _ _ Hq) as (Hr & Fr & Hin). destruct (A3 _ Hin) as (r' & b' & Hq' & Er). destruct (A2 _ _ Hq') as (Hr' & Fr' & _).
      apply J_inj in Er; auto. subst r'. now rewrite (A4 _ _ _ Hq Hq'). }
    assert (Z : forall r b, In (r, b) L -> r <> [] /\ Forall fname r /\ in_version i v (J r)) by (intros r b Hq; destruct (X5 _ _ Hq) as (? & ? & ? & _); auto).
    assert (Z' : forall r b, In (r, b) L' -> r <> [] /\ Forall fname r /\ in_version i v (J r)) by (intros r b Hq; destruct (Y5 _ _ Hq) as (? & ? & ? & _); auto).
    intros q. split; [apply (T L L' Z Z' Y6 B)|apply (T L' L Z' Z X6)]. intros r b b' Hb Hb'. symmetry. eapply B; eauto. }
  exists L. split; [exists m; split; [exact X1|]; rewrite Y1; f_equal; congruence|]. split; [exact X4|]. split; [exact X3|]. destruct Y3 as [Y31 Y32 Y33]. split.
  - exact Y31.
  - intros r b Hq. apply Y32. now apply S.
  - intros r e0 Hr L0. destruct (Y33 r e0 Hr L0) as (z & b & Hz). exists z, b. now apply S.
Qed.
Print Assumptions C90_same_extracted.

(** So whatever is changed, if the digest in the root sidecar is not: the change is found, unless
    inventory and content files are as they were. *)
Theorem C90_detected : forall H c w w' h n n' alg x,
  vc_lax_digests c = false -> vc_check_digests c = true ->
  tree w -> look w h = Some EDir -> tree w' -> look w' h = Some EDir ->
  snd (validate_opened H c w h n) = Ok true -> root_digest w h alg x -> root_digest w' h alg x -> apart H alg w w' h h ->
  forall rb root f, look w (h ++ [`"inventory.json"]) = Some (EFile rb) -> json_load rb = Ok root -> obeys as_coded root f ->
  look w' (h ++ [`"inventory.json"]) <> Some (EFile rb) \/
  (exists v r b, In v (f_versions f) /\ r <> [] /\
     (look w (h ++ v :: f_cdir f :: r) = Some (EFile b) /\ look w' (h ++ v :: f_cdir f :: r) <> Some (EFile b) \/
      look w (h ++ v :: f_cdir f :: r) <> Some (EFile b) /\ look w' (h ++ v :: f_cdir f :: r) = Some (EFile b))) ->
  snd (validate_opened H c w' h n') <> Ok true.
Proof.
  intros H c w w' h n n' alg x Lx Ck Tw Hd Tw' Hd' V R R' Ap rb root f Rb Jr Ob Ch V'.
  destruct (C90_same_content H c w w' h h n n' alg x Lx Ck Tw Hd Tw' Hd' V V' R R' Ap) as (rb1 & root1 & f1 & A & A' & B & Ob1 & _ & S).
  rewrite Rb in A. injection A as <-. rewrite Jr in B. apply Ok_inv in B. subst root1.
  assert (f1 = f) by (apply (facts_unique root); auto; eapply json_load_wf; eauto). subst f1.
  destruct Ch as [N|(v & r & b & Hv & Hr & [[Y N]|[N Y]])]; [exact (N A')|apply N, (S v r b Hv Hr), Y|apply N, (S v r b Hv Hr), Y].
Qed.
Print Assumptions C90_detected.

(** The example object, and the same with other bytes in the inventory or a content file *)
Definition ex_changed (inv two : str) : node :=
  Dir [(`"o", Dir [(Properties_Validator.ex_decl, File Properties_Validator.ex_decl_text);
     (`"inventory.json", File inv); (`"inventory.json.sha256", File (Properties_Validator.ex_sidecar Properties_Validator.ex_inv2));
     (`"v1", Dir [(`"content", Dir [(`"a", File (`"one"))])]);
     (`"v2", Dir [(`"content", Dir [(`"b", File two)])])])].
Example C90_detected_ex : let V w := snd (validate_opened toy_hash (Properties_Validator.ex_conf true) w [`"o"] 0) in
  V (ex_changed Properties_Validator.ex_inv2 (`"two")) = Ok true /\ root_digest (ex_changed [] []) [`"o"] (`"sha256") (toy_hash (`"sha256") Properties_Validator.ex_inv2) /\
  V (ex_changed Properties_Validator.ex_inv2 (`"three")) = Ok false /\
  V (ex_changed (Properties_Validator.ex_inv2 ++ [10]) (`"two")) = Ok false.
Proof.
  intros V. split; [vm_compute; reflexivity|]. split; [|split; vm_compute; reflexivity].
  clear V. unfold root_digest. eexists _, _, (Properties_Validator.ex_sidecar Properties_Validator.ex_inv2). split; [vm_compute; reflexivity|]. split; [vm_compute; reflexivity|]. split.
  - right. exists (toy_hash (`"sha256") Properties_Validator.ex_inv2 ++ `" inventory.json"), []. split; [vm_compute; reflexivity|]. split; [|vm_compute; reflexivity].
    vm_compute. intros F. repeat (destruct F as [F|F]; [discriminate F|]). exact F.
  - assert (F : forall (q : N -> bool) l, forallb q l = true -> Forall (fun c => q c = true) l) by (intros q l E; apply Forall_forall; now apply forallb_forall).
    exists (`" "), [10%N]. split; [vm_compute; discriminate|]. split; [apply F; vm_compute; reflexivity|]. split; [discriminate|].
    split; [apply F; vm_compute; reflexivity|]. split; [apply F; vm_compute; reflexivity|]. unfold Properties_Validator.ex_sidecar, Properties_Validator.hex. vm_compute. reflexivity.
Qed.

(** The object with and without the inventory in the directory of the last version: two objects
    to which the theorems apply *)
Definition ex_copy : node :=
  Dir [(`"o", Dir [(Properties_Validator.ex_decl, File Properties_Validator.ex_decl_text);
     (`"inventory.json", File Properties_Validator.ex_inv2); (`"inventory.json.sha256", File (Properties_Validator.ex_sidecar Properties_Validator.ex_inv2));
     (`"v1", Dir [(`"content", Dir [(`"a", File (`"one"))])]);
     (`"v2", Dir [(`"inventory.json", File Properties_Validator.ex_inv2); (`"inventory.json.sha256", File (Properties_Validator.ex_sidecar Properties_Validator.ex_inv2));
                  (`"content", Dir [(`"b", File (`"two"))])])])].
Lemma ex_apart : apart toy_hash (`"sha256") ex_copy (ex_changed Properties_Validator.ex_inv2 (`"two")) [`"o"] [`"o"].
Proof.
  set (w := ex_copy). set (w' := ex_changed Properties_Validator.ex_inv2 (`"two")).
  assert (T : tree w) by (apply tree_b_ok; vm_compute; reflexivity). assert (T' : tree w') by (apply tree_b_ok; vm_compute; reflexivity).
  assert (P : forall b, part_of w [`"o"] b \/ part_of w' [`"o"] b -> In b (map snd (concat [files_in w [`"o"]; files_in w' [`"o"]]))).
  { intros b P. cbn [concat]. rewrite app_nil_r, map_app. apply in_or_app. destruct P as [[r P]|[r P]]; [left|right]; (apply in_map_iff; exists (r, b); split; [reflexivity|]; apply files_in_iff; [assumption|vm_compute; reflexivity|exact P]). }
  assert (A : apart_b (`"sha256") [files_in w [`"o"]; files_in w' [`"o"]] = true) by (vm_compute; reflexivity).
  intros b b' x Hb Hb' D D'. apply P in Hb, Hb'. unfold apart_b in A. rewrite forallb_forall in A. specialize (A _ Hb). rewrite forallb_forall in A. specialize (A _ Hb').
  assert (E : forall b0, digest_of toy_hash (`"sha256") b0 x -> x = toy_hash (`"sha256") b0) by (intros b0 [[_ E]|[[E _]|[E _]]]; [exact E|discriminate E|discriminate E]).
  apply E in D, D'. rewrite <- D, <- D', str_eqb_refl in A. cbn in A. now apply str_eqb_eq.
Qed.
Example C90_same_content_ex : let w := ex_copy in let w' := ex_changed Properties_Validator.ex_inv2 (`"two") in
  look w [`"o"; `"v2"; `"content"; `"b"] = Some (EFile (`"two")) /\ look w' [`"o"; `"v2"; `"content"; `"b"] = Some (EFile (`"two")) /\ look w [`"o"; `"v2"; `"inventory.json"] <> look w' [`"o"; `"v2"; `"inventory.json"] /\
  snd (validate_opened toy_hash (Properties_Validator.ex_conf true) w [`"o"] 0) = Ok true /\ snd (validate_opened toy_hash (Properties_Validator.ex_conf true) w' [`"o"] 0) = Ok true /\
  apart toy_hash (`"sha256") w w' [`"o"] [`"o"].
Proof. intros w w'. split; [vm_compute; reflexivity|]. split; [vm_compute; reflexivity|]. split; [vm_compute; discriminate|]. split; [vm_compute; reflexivity|]. split; [vm_compute; reflexivity|exact ex_apart]. Qed.

(** Not all files of an object are fixed by it: those of earlier versions that are not content
    can be gone, without an error. *)
Theorem C90_all_files_refuted : let V w := snd (validate_opened toy_hash (Properties_Validator.ex_conf true) w [`"o"] 0) in
  let w := Properties_Validator.ex_object in let w' := ex_changed Properties_Validator.ex_inv2 (`"two") in
  V w = Ok true /\ V w' = Ok true /\ (exists b, look w [`"o"; `"inventory.json.sha256"] = Some (EFile b) /\ look w' [`"o"; `"inventory.json.sha256"] = Some (EFile b)) /\
  look w [`"o"; `"v1"; `"inventory.json"] <> None /\ look w' [`"o"; `"v1"; `"inventory.json"] = None.
Proof. intros V w w'. split; [vm_compute; reflexivity|]. split; [vm_compute; reflexivity|]. split; [clear V; eexists; split; vm_compute; reflexivity|]. split; [vm_compute; discriminate|vm_compute; reflexivity]. Qed.
Print Assumptions C90_all_files_refuted.
