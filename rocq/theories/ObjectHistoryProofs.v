(** What holds of an object after any number of updates (C34-C36, C39-C41, C45, C46). *)
From Coq Require Import Permutation Sorted.
From Verif Require Import Base Unicode Regex Utf8 Json PyJson JsonTextModel JsonTextSpec JsonTextProofs JsonFileProofs Log DigestModel LayoutModel LayoutProofs
  ObjectUtilsModel ObjectUtilsProofs InventorySpec InventoryValidatorModel InventoryValidatorProofs InventoryRulesProofs
  InventoryModel InventoryOpsSpec InventoryOpsProofs NewVersionModel NewVersionProofs NewVersionOpsProofs VersionNumberProofs InventoryParseProofs ParseModel
  ContentPathProofs TextFile PathModel FsModel FsSpec FsProofs FswModel FswSpec FswProofs FswCopyProofs ValidatorSpec ValidatorBasicProofs ObjectModel ObjectSpec ObjectInvProofs ObjectRulesProofs
  ObjectParseProofs ObjectAddProofs ContentNameProofs ObjectGrowProofs ObjectStartProofs ObjectCopyProofs ObjectWriteProofs ObjectSourceProofs ObjectFactsProofs NamasteSpec ValidatorVersionProofs ObjectMadeProofs ObjectIntactProofs ObjectExtendProofs FsStepProofs NamasteModel NamasteProofs ObjectStoreProofs ObjectCreateProofs ValidatorModel ValidatorIntactProofs ObjectUpdateProofs ObjectNextProofs ObjectDigestProofs ObjectVersionProofs ObjectExtractProofs.
From Verif Require Export ObjectTrackProofs.
From Verif Require Import BuildProofs.

(** * Histories *)

Lemma collision_free_app H P l l' : collision_free H P (l ++ l') -> collision_free H P l.
Proof. intros CF c F F' r b r' b' Pc H1 H2. apply CF; auto; apply in_or_app; auto. Qed.

Theorem history_tracked H h sd P w l : hash_ok H -> history H h sd P w l -> uniform P \/ collision_free H P l -> exists alg spec ivs C, tracked H h sd P w l alg spec ivs C.
Proof.
  intros HH Hi. induction Hi as [h sd P c e w sp op id m F Tw Cc Pc Es Hcd Fa|h sd P c e w sp op id ms n l Tw Bc Pc Es Hcd Fa|h sd P c e w l sp path m abort i F Hi IH Uc Pc Hac Hsd Hn Hout Fa R|h sd P h0 w w' l Hi IH Tw E]; intros Hun.
  - now destruct (create_step H h sd P c e w sp op id m F HH Tw Cc Pc Es Hcd Fa) as (_ & X & _).
  - now destruct (build_made H h sd P c e w sp op id ms n HH Tw Bc Pc Es Hcd l Fa) as (_ & X & _).
  - assert (Hun' : uniform P \/ collision_free H P l) by (destruct Hun as [|Hun]; [auto|right; eapply collision_free_app; eauto]).
    destruct (IH Hun') as (alg & spec & ivs & C & T). destruct (update_step H h sd P c e w l alg spec ivs C sp path m abort F HH T Uc Pc Hac Hsd Hn Hout Fa Hun') as [(_ & _ & R' & _)|(_ & _ & X)]; [congruence|exact X].
  - destruct (IH Hun) as (alg & spec & ivs & C & T). exists alg, spec, ivs, C. destruct T. constructor; auto. eapply made_elsewhere; eauto.
Qed.


Section History.
  Variables (H : hashfn) (h : place) (sd : str) (P : object -> Prop).
  Local Notation uniform := (uniform P).
  Local Notation collision_free := (collision_free H P).
  Local Notation history := (history H h sd P).
  Local Notation same_listing := (same_listing H).
  Local Notation tracked := (tracked H h sd P).
  Local Arguments tr_made {H h sd P}. Local Arguments tr_alg {H h sd P}. Local Arguments tr_files {H h sd P}. Local Arguments tr_names {H h sd P}.
  Local Arguments tr_nodup {H h sd P}. Local Arguments tr_content {H h sd P}. Local Arguments tracked_some {H h sd P}. Local Arguments content_unique {H h sd P}.

  (** ** Consequences *)

  Lemma extracted_files w l alg spec ivs C k F L : tracked w l alg spec ivs C -> collision_free l -> nth_error l k = Some F ->
    (forall r b, In (r, b) L -> r <> [] /\ Forall fname r /\ in_state (ivs (List.length l)) (vn (S k)) (H (alg (List.length l)) b) (J r) /\ exists c, In (c, b) C) ->
    (forall d p, in_state (ivs (List.length l)) (vn (S k)) d p -> exists r b, In (r, b) L /\ p = J r /\ d = H (alg (List.length l)) b) ->
    forall r b, In (r, b) L <-> In (r, b) F.
  Proof using.
    intros T CF E L1 L2. pose proof (tr_made _ _ _ _ _ _ T) as M. pose proof (tracked_some _ _ _ _ _ _ T) as Hn. set (n := List.length l) in *.
    assert (Hk : (1 <= S k <= n)%nat) by (assert (k < n)%nat by (apply nth_error_Some; congruence); lia). assert (HF : In F l) by (eapply nth_error_In; eauto).
    assert (Hv : In (vn (S k)) (names None (S k))) by (apply In_vn; exists (S k); split; [lia|reflexivity]).
    pose proof (tr_files _ _ _ _ _ _ T k F E) as Sf. destruct (tr_alg _ _ _ _ _ _ T n ltac:(lia)) as (cn & Pn & En). destruct (tr_alg _ _ _ _ _ _ T (S k) Hk) as (ck & Pk & Ek).
    assert (A : forall r b, In (r, b) L -> In (r, b) F).
    { intros r b Hi. destruct (L1 r b Hi) as (X1 & X2 & X3 & c0 & X4). assert (Hin : in_version (ivs n) (vn (S k)) (J r)) by (exists (H (alg n) b); exact X3).
      apply (md_paths _ _ _ _ _ _ _ _ _ M (S k) _ _ Hk Hv) in Hin as [d Hd]. pose proof (proj1 (Sf d (J r)) Hd) as (es & b' & Y1 & Y2 & Y3).
      destruct (tr_names _ _ _ _ _ _ T F es b' HF Y1) as [Z1 Z2]. apply names_join_inj in Y2; auto. subst es.
      destruct (stored_of _ _ _ _ _ _ _ (md_sound _ _ _ _ _ _ _ _ _ M (S k) Hk) Hd) as [c Hc].
      destruct (md_resolves _ _ _ _ _ _ _ _ _ M (S k) (vn (S k)) (J r) c Hk Hv) as (d2 & Q1 & Q2). { exists d. auto. }
      assert (d2 = H (alg n) b) by exact (in_state_digest _ _ _ _ _ _ _ _ (md_head _ _ _ _ _ _ _ _ _ M) Q1 X3). subst d2.
      destruct (md_digests _ _ _ _ _ _ _ _ _ M n (H (alg n) b) c ltac:(lia) Q2) as (r1 & b1 & W1 & W2 & W3). destruct (md_digests _ _ _ _ _ _ _ _ _ M (S k) d c Hk Hc) as (r2 & b2 & V1 & V2 & V3).
      destruct (md_content_names _ _ _ _ _ _ _ _ _ r1 b1 M W1) as [G1 G1']. destruct (md_content_names _ _ _ _ _ _ _ _ _ r2 b2 M V1) as [G2 G2'].
      rewrite W2 in V2. apply names_join_inj in V2; auto. subst r2. pose proof (content_unique _ _ _ _ _ _ _ _ _ T W1 V1) as ->.
      destruct (tr_content _ _ _ _ _ _ T c0 b X4) as (F0 & es0 & K1 & K2). destruct (tr_content _ _ _ _ _ _ T r1 b2 W1) as (F1 & es1 & K3 & K4).
      assert (b = b2) by (apply (CF cn F0 F1 es0 b es1 b2); auto; congruence). subst b2. assert (b = b') by (apply (CF ck F1 F es1 b r b'); auto; congruence). now subst b'. }
    intros r b. split; [apply A|]. intros Hi. destruct (tr_names _ _ _ _ _ _ T F r b HF Hi) as [Z1 Z2].
    assert (Hd : in_state (ivs (S k)) (vn (S k)) (H (alg (S k)) b) (J r)) by (apply Sf; eauto).
    assert (Hin : in_version (ivs n) (vn (S k)) (J r)) by (apply (md_paths _ _ _ _ _ _ _ _ _ M (S k) _ _ Hk Hv); eexists; eauto).
    destruct Hin as [d0 Hd0]. destruct (L2 _ _ Hd0) as (r1 & b1 & Y1 & Y2 & Y3). destruct (L1 _ _ Y1) as (X1 & X2 & _). apply names_join_inj in Y2; auto. subst r1.
    pose proof (A _ _ Y1) as Y4. pose proof (tr_nodup _ _ _ _ _ _ T F HF) as Nd. assert (b1 = b) by exact (nodup_fst F r b1 b Nd Y4 Hi). now subst b1.
  Qed.

  Lemma holds_file w0 L r b : holds w0 h L -> look w0 (h ++ r) = Some (EFile b) -> In (r, b) L.
  Proof using.
    intros Hl E. destruct r as [|c r]; [rewrite app_nil_r in E; rewrite (hl_dir _ _ _ Hl) in E; discriminate|]. destruct (hl_only _ _ _ Hl (c :: r) _ ltac:(discriminate) E) as (x & b' & Hi).
    destruct x as [|y x].
    - rewrite app_nil_r in Hi. pose proof (hl_files _ _ _ Hl _ _ Hi) as E'. rewrite E in E'. apply Some_inv in E'. injection E' as ->. exact Hi.
    - exfalso. rewrite (holds_above _ _ _ _ _ _ _ Hl Hi) in E. discriminate.
  Qed.
End History.

Section Read.
  Variables (H : hashfn) (w : node) (h : place) (sd : str) (n : nat) (alg spec : nat -> str) (ivs : nat -> inventory) (C : list (place * bytes)).
  Hypothesis M : made H w h sd n alg spec ivs C.

  Lemma made_parse_version k : (1 <= k <= n)%nat -> parse_inventory w (h ++ [vn k]) = Ok (sort_inv (ivs k), spec k).
  Proof using M.
    intros Hk. pose proof (md_sound _ _ _ _ _ _ _ _ _ M k Hk) as So. unfold parse_inventory. pose proof (md_names _ _ _ _ _ _ _ _ _ M) as Fh.
    assert (Fv : Forall fname (h ++ [vn k])) by (apply Forall_app; split; [auto|]; constructor; [apply vn_fname|constructor]).
    assert (Hr : fs_read w (h ++ [vn k]) INVENTORY_FILENAME = Ok (json_dumps (json_of_inventory (ivs k)))).
    { apply fs_read_look. assert (E : at_path (h ++ [vn k]) INVENTORY_FILENAME = (h ++ [vn k]) ++ [inv_name]) by exact (at_path_one _ inv_name Fv fname_inv). rewrite E, <- app_assoc.
      apply (files_there _ _ _ _ _ _ _ _ _ M). now constructor. }
    rewrite Hr. cbn [ebind]. rewrite (proj2 (sound_bytes _ _ _ _ So)). cbn [ebind]. rewrite <- (sound_parse_json _ _ _ _ So). reflexivity.
  Qed.

  Lemma vn_first k s : (exists c r, s = c :: r /\ c <> 118%N) -> vn k <> s.
  Proof using. intros (c & r & -> & Hc) E. change (vn k) with (118%N :: str_of_N (N.of_nat k)) in E. congruence. Qed.

  Lemma made_at_root x e : look w (h ++ [x]) = Some e -> x = decl_name sd \/ x = inv_name \/ x = side_name (alg n) \/ exists k, x = vn k.
  Proof using M.
    intros E. destruct (hl_only _ _ _ (md_holds _ _ _ _ _ _ _ _ _ M) [x] e ltac:(discriminate) E) as (y & b & Hi). apply (in_object_iff _ _ _ _ _ _ _ _ _ M) in Hi.
    remember ([x] ++ y) as q eqn:Eq. apply (f_equal (hd [])) in Eq; destruct Hi as [| | |k Hk|k Hk|k r0 b Hk Hr Hf Hi]; cbn [hd app] in Eq; subst x; auto; right; right; right; now exists k.
  Qed.
  Lemma made_one_sidecar x e : look w (h ++ [side_name x]) = Some e -> x = alg n.
  Proof using M.
    intros E. destruct (made_at_root _ _ E) as [F|[F|[F|[k F]]]].
    - discriminate F.
    - apply (f_equal (@List.length N)) in F. unfold side_name in F. rewrite app_length in F. cbn in F. lia.
    - now apply app_inv_head in F.
    - exfalso. symmetry in F. revert F. apply vn_first. exists 105%N. eexists. split; [reflexivity|discriminate].
  Qed.
  Lemma made_one_decl x e : look w (h ++ [decl_name x]) = Some e -> x = sd.
  Proof using M.
    intros E. destruct (made_at_root _ _ E) as [F|[F|[F|[k F]]]].
    - now apply app_inv_head in F.
    - discriminate F.
    - discriminate F.
    - exfalso. symmetry in F. revert F. apply vn_first. exists 48%N. eexists. split; [reflexivity|discriminate].
  Qed.

  Lemma made_content k r b : look w (h ++ vn k :: content_directory_to_use (ivs n) :: r) = Some (EFile b) -> In (vn k :: content_directory_to_use (ivs n) :: r, b) C.
  Proof using M.
    intros E. apply (holds_file h w _ _ _ (md_holds _ _ _ _ _ _ _ _ _ M)), (in_object_iff _ _ _ _ _ _ _ _ _ M) in E.
    destruct (md_apart _ _ _ _ _ _ _ _ _ M) as [A1 A2]. remember (vn k :: content_directory_to_use (ivs n) :: r) as q eqn:Eq. destruct E as [| | |k0 Hk|k0 Hk|k0 r0 b Hk Hr Hf Hi].
    - discriminate Eq.
    - discriminate Eq.
    - discriminate Eq.
    - injection Eq as _ Eq _. congruence.
    - injection Eq as _ Eq _. exfalso. apply (A2 k0 Hk). congruence.
    - exact Hi.
  Qed.
  Lemma content_stored r b : (forall b', In (r, b') C -> b' = b) -> In (r, b) C -> exists d, stored (ivs n) d (J r) /\ d = H (alg n) b.
  Proof using M.
    intros U Hi. pose proof (proj2 (md_listed _ _ _ _ _ _ _ _ _ M (J r)) ltac:(eauto)) as Q.
    apply listed_stored in Q as [d Hd]. exists d. split; [auto|]. destruct (md_digests _ _ _ _ _ _ _ _ _ M n d (J r)) as (r1 & b1 & Q1 & Q2 & Q3); [split; [exact (md_some _ _ _ _ _ _ _ _ _ M)|lia]|auto|].
    destruct (md_content_names _ _ _ _ _ _ _ _ _ r b M Hi) as [G1 G1']. destruct (md_content_names _ _ _ _ _ _ _ _ _ r1 b1 M Q1) as [G2 G2']. apply names_join_inj in Q2; auto. subst r1. rewrite (U b1 Q1) in Q3. exact Q3.
  Qed.
End Read.
