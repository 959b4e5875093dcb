(** Changing the digest algorithm of an object (C40): object.py:443-505. *)
From Coq Require Import Permutation Sorted.
From Verif Require Import Base Unicode Regex Utf8 Json PyJson JsonTextModel JsonTextSpec JsonTextProofs JsonFileProofs Log DigestModel LayoutModel LayoutProofs
  ObjectUtilsModel ObjectUtilsProofs InventorySpec InventoryValidatorModel InventoryValidatorProofs InventoryRulesProofs
  InventoryModel InventoryOpsSpec InventoryOpsProofs NewVersionModel NewVersionProofs NewVersionOpsProofs VersionNumberProofs InventoryParseProofs ParseModel
  ContentPathProofs TextFile PathModel FsModel FsSpec FsProofs FswModel FswSpec FswProofs FswCopyProofs ValidatorSpec ValidatorBasicProofs ObjectModel ObjectSpec ObjectInvProofs ObjectRulesProofs
  ObjectParseProofs ObjectAddProofs ContentNameProofs ObjectGrowProofs ObjectStartProofs ObjectCopyProofs ObjectWriteProofs ObjectSourceProofs ObjectFactsProofs NamasteSpec ValidatorVersionProofs ObjectMadeProofs ObjectIntactProofs ObjectExtendProofs FsStepProofs NamasteModel NamasteProofs ObjectStoreProofs ObjectCreateProofs ValidatorModel ValidatorIntactProofs ObjectUpdateProofs ObjectNextProofs.


(** ** Digests and names *)

Lemma block_digest (b : block) d d' l l' p : NoDup (paths_of b) -> In (d, l) b -> In (d', l') b -> In p l -> In p l' -> d = d'.
Proof.
  unfold paths_of. induction b as [|[k x] b IH]; intros Nd H1 H2 P1 P2; [destruct H1|]. cbn in Nd. apply NoDup_app_iff in Nd as (N1 & N2 & N3).
  assert (A : forall q e, In (e, q) b -> In p q -> In p (flat_map snd b)) by (intros q e Hq Hp; apply in_flat_map; exists (e, q); auto).
  destruct H1 as [E1|H1], H2 as [E2|H2].
  - congruence.
  - injection E1 as -> ->. exfalso. exact (N3 p P1 (A _ _ H2 P2)).
  - injection E2 as -> ->. exfalso. exact (N3 p P2 (A _ _ H1 P1)).
  - auto.
Qed.
Lemma in_state_digest i alg s n v d d' p : sound alg s n i -> in_state i v d p -> in_state i v d' p -> d = d'.
Proof.
  intros So (vs & b & st & l & E1 & E2 & E3 & E4 & E5) (vs' & b' & st' & l' & D1 & D2 & D3 & D4 & D5). rewrite E1 in D1. apply Some_inv in D1. subst vs'.
  destruct (so_versions _ _ _ _ So) as (vs0 & Hvs & P). rewrite E1 in Hvs. apply Some_inv in Hvs. subst vs0.
  assert (Nv : NoDup (keys vs)) by (apply (Permutation_NoDup (Permutation_sym P)), names_NoDup).
  assert (b = b') by exact (nodup_fst vs v b b' Nv E2 D2). subst b'. rewrite E3 in D3. apply Some_inv in D3. subst st'.
  destruct (so_blocks _ _ _ _ So _ _ _ E1 E2) as (_ & st' & E & G). rewrite E3 in E. apply Some_inv in E. subst st'.
  exact (block_digest st d d' l l' p (gp_nodup _ (sg_paths _ _ _ G)) E4 D4 E5 D5).
Qed.
Lemma md_content_names H w h sd n alg spec ivs C r b : made H w h sd n alg spec ivs C -> In (r, b) C -> r <> [] /\ Forall fname r.
Proof.
  intros M Hi. split; [|exact (md_fnames _ _ _ _ _ _ _ _ _ M r b Hi)]. intros ->.
  assert (Hp : In (J []) (paths_of (manifest (ivs n)))) by (apply (md_listed _ _ _ _ _ _ _ _ _ M); exists [], b; auto).
  destruct (gp_names _ (so_paths _ _ _ _ (md_head _ _ _ _ _ _ _ _ _ M)) _ Hp) as ([|c r] & N & Fr & E & _); [congruence|]. inversion Fr as [|x y Fc Fr']. subst.
  destruct r as [|c' r]; [cbn in E; destruct Fc as [? _]; congruence|]. rewrite join_cons in E by discriminate. destruct c; [destruct Fc as [? _]; congruence|discriminate].
Qed.

(** ** New digests for old ones *)

Definition remap (f : str -> str) (b : block) : block := map (fun kv => (f (fst kv), snd kv)) b.

Lemma In_remap f b d l : In (d, l) (remap f b) <-> exists d0, d = f d0 /\ In (d0, l) b.
Proof.
  unfold remap. rewrite in_map_iff. split.
  - intros ([d0 l0] & E & Hi). cbn in E. injection E as <- <-. eauto.
  - intros (d0 & -> & Hi). exists (d0, l). auto.
Qed.
Lemma remap_paths f b : paths_of (remap f b) = paths_of b.
Proof. unfold paths_of, remap. induction b as [|[d l] b IH]; [reflexivity|]. cbn. now rewrite IH. Qed.
Lemma remap_keys f b : keys (remap f b) = map f (keys b).
Proof. unfold remap, keys. rewrite !map_map. reflexivity. Qed.
Lemma nodup_inj (f : str -> str) l : NoDup l -> (forall x y, In x l -> In y l -> f x = f y -> x = y) -> NoDup (map f l).
Proof.
  induction 1 as [|x l Hx Hl IH]; intros Hf; [constructor|]. cbn [map]. constructor.
  - intros Hi. apply in_map_iff in Hi as (y & E & Hy). apply Hx. rewrite (Hf x y); [auto|now left|now right|auto].
  - apply IH. intros a b Ha Hb. apply Hf; now right.
Qed.
Lemma remap_full f b : full_block b -> full_block (remap f b).
Proof. intros Fb d l Hi. apply In_remap in Hi as (d0 & _ & Hi). eauto. Qed.

Lemma new_manifest_go H a w h (f : str -> str) m : forall A B,
  (forall d l, In (d, l) m -> new_digest H a w h l = Ok (f d)) -> NoDup (keys A ++ keys m) -> NoDup (keys B ++ map f (keys m)) ->
  efold (fun acc kv => let* d := new_digest H a w h (snd kv) in Ok (dset (fst kv) d (fst acc), dset d (snd kv) (snd acc))) m (A, B) =
    Ok (A ++ map (fun kv => (fst kv, f (fst kv))) m, B ++ remap f m).
Proof.
  induction m as [|[d l] m IH]; intros A B Hd NA NB; cbn [efold]; [now rewrite !app_nil_r|]. cbn [fst snd]. rewrite (Hd d l) by now left. cbn [ebind].
  cbn [keys map fst] in NA, NB. pose proof (NoDup_remove_2 _ _ _ NA) as K1. pose proof (NoDup_remove_2 _ _ _ NB) as K2. rewrite in_app_iff in K1, K2.
  rewrite !dset_new by tauto. rewrite IH.
  - cbn [map remap fst snd]. rewrite <- !app_assoc. reflexivity.
  - intros d' l' Hi. apply Hd. now right.
  - unfold keys in *. rewrite map_app. cbn [map fst]. rewrite <- app_assoc. exact NA.
  - unfold keys in *. rewrite map_app. cbn [map fst]. rewrite <- app_assoc. exact NB.
Qed.
Lemma new_manifest_ok H a w h (f : str -> str) m : (forall d l, In (d, l) m -> new_digest H a w h l = Ok (f d)) -> NoDup (keys m) ->
  (forall d d', In d (keys m) -> In d' (keys m) -> f d = f d' -> d = d') ->
  new_manifest H a w h m = Ok (map (fun kv => (fst kv, f (fst kv))) m, remap f m).
Proof. intros Hd Nd Hf. unfold new_manifest. etransitivity; [apply (new_manifest_go H a w h f m [] []); auto; now apply nodup_inj|reflexivity]. Qed.

Lemma new_state_go (f : str -> str) O st : forall acc, (forall d l, In (d, l) st -> dget d O = Some (f d)) -> NoDup (keys acc ++ map f (keys st)) ->
  efold (fun acc kv => match dget (fst kv) O with Some d => Ok (dset d (snd kv) acc) | None => Raise KeyError end) st acc = Ok (acc ++ remap f st).
Proof.
  induction st as [|[d l] st IH]; intros acc Hd Na; cbn [efold]; [now rewrite app_nil_r|]. cbn [fst snd]. rewrite (Hd d l) by now left. cbn [ebind].
  cbn [keys map fst] in Na. pose proof (NoDup_remove_2 _ _ _ Na) as K. rewrite in_app_iff in K. rewrite dset_new by tauto. rewrite IH.
  - cbn [map remap fst snd]. rewrite <- app_assoc. reflexivity.
  - intros d' l' Hi. apply (Hd d' l'). now right.
  - unfold keys in *. rewrite map_app. cbn [map fst]. rewrite <- app_assoc. exact Na.
Qed.
Lemma new_state_ok (f : str -> str) O st : (forall d l, In (d, l) st -> dget d O = Some (f d)) -> NoDup (keys st) ->
  (forall d d', In d (keys st) -> In d' (keys st) -> f d = f d' -> d = d') -> new_state O st = Ok (remap f st).
Proof. intros Hd Nd Hf. unfold new_state. etransitivity; [apply (new_state_go f O st []); auto; now apply nodup_inj|reflexivity]. Qed.

(** ** The states of all versions *)

Lemma dset_replace {A} k (x : A) d : NoDup (keys d) -> In k (keys d) -> dset k x d = map (fun kv => (fst kv, if str_eqb k (fst kv) then x else snd kv)) d.
Proof.
  induction d as [|[k0 x0] d IH]; intros Nd Hk; [destruct Hk|]. cbn [dset map fst snd]. inversion Nd as [|y l Hy Nd']. subst.
  destruct (str_eqb_spec k k0) as [->|Hn].
  - f_equal. clear -Hy. induction d as [|[k1 x1] d IH]; [reflexivity|]. cbn [map fst snd]. destruct (str_eqb_spec k0 k1) as [->|_]; [exfalso; apply Hy; now left|].
    f_equal. apply IH. intros Hi. apply Hy. now right.
  - f_equal. apply IH; auto. destruct Hk as [Hk|Hk]; [cbn in Hk; congruence|auto].
Qed.

Definition remap_version (f : str -> str) (b : vblock) : vblock := with_state (remap f (or_empty (vb_state b))) b.
Definition remap_versions (f : str -> str) (L : list str) (vs : dict vblock) : dict vblock :=
  map (fun kv => (fst kv, if str_in (fst kv) L then remap_version f (snd kv) else snd kv)) vs.

Lemma states_go (f : str -> str) O L : forall i vs, i_versions i = Some vs -> NoDup (keys vs) -> NoDup L -> incl L (keys vs) ->
  (forall v b, In v L -> In (v, b) vs -> new_state O (or_empty (vb_state b)) = Ok (remap f (or_empty (vb_state b)))) ->
  efold (fun i vdir => let* st := new_state O (state i vdir) in Ok (set_state vdir st i)) L i = Ok (set_versions (remap_versions f L vs) i).
Proof.
  induction L as [|v L IH]; intros i vs Hv Nk NL Hi Hs; cbn [efold].
  - assert (E : remap_versions f [] vs = vs).
    { unfold remap_versions. clear. induction vs as [|[k b] vs IH]; [reflexivity|]. cbn. f_equal. exact IH. }
    rewrite E. destruct i. cbn in Hv. subst. reflexivity.
  - assert (Hk : In v (keys vs)) by (apply Hi; now left). apply in_map_iff in Hk as ([v' b] & E & Hb). cbn in E. subst v'.
    pose proof (In_dget v b vs Nk Hb) as Hg. assert (Es : state i v = or_empty (vb_state b)) by (unfold state, versiondata, versions_block; rewrite Hv; cbn [or_empty]; now rewrite Hg).
    rewrite Es, (Hs v b) by (auto; now left). cbn [ebind]. inversion NL as [|y l Hy NL']. subst.
    rewrite (set_state_versions v _ i vs b Hv Hg). set (vs1 := dset v (with_state (remap f (or_empty (vb_state b))) b) vs).
    assert (E1 : vs1 = map (fun kv => (fst kv, if str_eqb v (fst kv) then remap_version f b else snd kv)) vs).
    { unfold vs1. rewrite dset_replace; auto. apply in_map_iff. exists (v, b). auto. }
    assert (Ek : keys vs1 = keys vs) by (rewrite E1; unfold keys; rewrite map_map; reflexivity).
    rewrite (IH (set_versions vs1 i) vs1); auto.
    + cbn. f_equal. unfold set_versions. cbn. f_equal. f_equal. rewrite E1. unfold remap_versions. rewrite map_map. apply map_ext_in. intros [k x] Hx. cbn [fst snd].
      destruct (str_eqb_spec v k) as [->|Hn].
      * assert (x = b) by exact (nodup_fst vs k x b Nk Hx Hb). subst x. rewrite (proj2 (str_in_false k L)) by auto. cbn [str_in existsb]. rewrite str_eqb_refl. reflexivity.
      * cbn [str_in existsb]. destruct (str_eqb_spec k v); [congruence|]. reflexivity.
    + rewrite Ek. auto.
    + rewrite Ek. intros x Hx. apply Hi. now right.
    + intros v1 b1 H1 H2. rewrite E1 in H2. apply in_map_iff in H2 as ([k x] & E2 & Hx). cbn [fst snd] in E2. destruct (str_eqb_spec v k) as [->|Hn].
      * injection E2 as -> _. contradiction.
      * injection E2 as -> ->. apply (Hs v1); [now right|auto].
Qed.

(** ** The inventory with new digests *)

Definition distinct (H : hashfn) (x : str) (C : list (place * bytes)) : Prop :=
  forall r b r' b', In (r, b) C -> In (r', b') C -> H x b = H x b' -> b = b'.

Definition changed (f : str -> str) (a : str) (fx : option (dict block)) (i : inventory) : inventory :=
  mk_inventory (i_id i) (i_type i) (Some a) (i_head i) (i_cdir i) (Some (remap f (manifest i)))
    (option_map (map (fun kv => (fst kv, remap_version f (snd kv)))) (i_versions i)) fx (i_other i).

Lemma changed_state f a fx i v d p : (forall vs v b, i_versions i = Some vs -> In (v, b) vs -> exists st, vb_state b = Some st) ->
  (in_state (changed f a fx i) v d p <-> exists d0, d = f d0 /\ in_state i v d0 p).
Proof.
  intros Hs. split.
  - intros (vs & b & st & l & E1 & E2 & E3 & E4 & E5). cbn [changed i_versions] in E1. destruct (i_versions i) as [vs0|] eqn:Ev; [|discriminate]. cbn [option_map] in E1. apply Some_inv in E1. subst vs.
    apply in_map_iff in E2 as ([v0 b0] & E & Hb). cbn [fst snd] in E. injection E as -> <-. destruct (Hs vs0 v b0 eq_refl Hb) as [st0 Hst]. cbn in E3. apply Some_inv in E3. rewrite Hst in E3. cbn [or_empty] in E3. subst st.
    apply In_remap in E4 as (d0 & -> & E4). exists d0. split; [auto|]. exists vs0, b0, st0, l. auto.
  - intros (d0 & -> & vs & b & st & l & E1 & E2 & E3 & E4 & E5). exists (map (fun kv => (fst kv, remap_version f (snd kv))) vs), (remap_version f b), (remap f st), l.
    cbn [changed i_versions]. rewrite E1. split; [reflexivity|]. split; [apply in_map_iff; exists (v, b); auto|]. cbn. rewrite E3. split; [reflexivity|]. split; [apply In_remap; eauto|auto].
Qed.
Lemma changed_stored f a fx i d c : (exists m, i_manifest i = Some m) -> (stored (changed f a fx i) d c <-> exists d0, d = f d0 /\ stored i d0 c).
Proof.
  intros [m Hm]. unfold stored. cbn [changed i_manifest]. unfold manifest. rewrite Hm. cbn [or_empty]. split.
  - intros (m' & l & E & Hd & Hc). apply Some_inv in E. subst m'. apply In_remap in Hd as (d0 & -> & Hd). exists d0. split; [auto|]. exists m, l. auto.
  - intros (d0 & -> & m' & l & E & Hd & Hc). apply Some_inv in E. subst m'. exists (remap f m), l. split; [auto|]. split; [apply In_remap; eauto|auto].
Qed.
Lemma changed_key f a fx i v d : (forall vs v b, i_versions i = Some vs -> In (v, b) vs -> exists st, vb_state b = Some st) ->
  (state_key (changed f a fx i) v d <-> exists d0, d = f d0 /\ state_key i v d0).
Proof.
  intros Hs. split.
  - intros (st & l & (vs & b & E1 & E2 & E3) & E4). cbn [changed i_versions] in E1. destruct (i_versions i) as [vs0|] eqn:Ev; [|discriminate]. cbn [option_map] in E1. apply Some_inv in E1. subst vs.
    apply in_map_iff in E2 as ([v0 b0] & E & Hb). cbn [fst snd] in E. injection E as -> <-. destruct (Hs vs0 v b0 eq_refl Hb) as [st0 Hst]. cbn in E3. apply Some_inv in E3. rewrite Hst in E3. cbn [or_empty] in E3. subst st.
    apply In_remap in E4 as (d0 & -> & E4). exists d0. split; [auto|]. exists st0, l. split; [|auto]. exists vs0, b0. auto.
  - intros (d0 & -> & st & l & (vs & b & E1 & E2 & E3) & E4). exists (remap f st), l. split; [|apply In_remap; eauto]. exists (map (fun kv => (fst kv, remap_version f (snd kv))) vs), (remap_version f b).
    cbn [changed i_versions]. rewrite E1. split; [reflexivity|]. split; [apply in_map_iff; exists (v, b); auto|]. cbn. now rewrite E3.
Qed.

Lemma full_sorted i : full i -> full (sort_inv i).
Proof.
  intros [F1 F2]. split.
  - intros d l Hi. unfold manifest, sort_inv in Hi. cbn [i_manifest] in Hi. destruct (i_manifest i) as [m|] eqn:Em; [|destruct Hi]. cbn [option_map or_empty] in Hi. apply (proj1 (In_sort_block _ _)) in Hi.
    apply (F1 d). unfold manifest. now rewrite Em.
  - intros v s Hs d l Hi. apply state_block_sorted in Hs as (s0 & Hs & ->). apply (proj1 (In_sort_block _ _)) in Hi. exact (F2 v s0 Hs d l Hi).
Qed.
Lemma full_kept types i : full i -> full (kept types i).
Proof.
  destruct (kept_fields types i) as (_ & _ & _ & _ & _ & E6 & E7 & _). intros [F1 F2]. split; [unfold manifest; rewrite E6; exact F1|].
  intros v s (vs & b & E1 & E2 & E3). rewrite E7 in E1. apply (F2 v s). exists vs, b. auto.
Qed.
Lemma full_key i v d : full i -> (state_key i v d <-> exists p, in_state i v d p).
Proof.
  intros [_ F2]. split.
  - intros (s & [|p l] & Hs & Hd); [now destruct (F2 v s Hs d [] Hd)|]. exists p. destruct Hs as (vs & b & E1 & E2 & E3). exists vs, b, s, (p :: l). split; [auto|]. split; [auto|]. split; [auto|]. split; [auto|now left].
  - intros (p & vs & b & st & l & E1 & E2 & E3 & E4 & E5). exists st, l. split; [exists vs, b; auto|auto].
Qed.
Lemma full_next alg n i b i' : next_facts alg n i [] b i' -> (exists vs, i_versions i = Some vs) -> full i -> full i'.
Proof.
  intros Nf [vs Hv] [F1 F2]. split; [unfold manifest; rewrite (nf_manifest _ _ _ _ _ _ Nf); exact F1|].
  intros v s (vs' & x & E1 & E2 & E3). apply (nf_blocks _ _ _ _ _ _ Nf vs vs' v x Hv E1) in E2 as [E2|[_ ->]].
  - apply (F2 v s). exists vs, x. auto.
  - cbn in E3. apply Some_inv in E3. subst s. intros d l [].
Qed.

(** The fixity block that start_new_version leaves *)
Definition fixity_after (old : str) (types : option (list str)) (i : inventory) : option (dict block) :=
  match types with
  | None => if str_in old (keys (fixity i)) then i_fixity i else Some (dset old (manifest i) (fixity i))
  | Some l => option_map (filter (fun kv => str_in (fst kv) l)) (i_fixity i)
  end.

Section Change.
  Variables (H : hashfn) (w : node) (h : place) (sd : str) (n : nat) (alg spec : nat -> str) (ivs : nat -> inventory) (C : list (place * bytes)).
  Variables (a : str) (types : option (list str)).
  Hypothesis HH : hash_ok H.
  Hypothesis M : made H w h sd n alg spec ivs C.
  Hypothesis Ha : In a [`"sha512"; `"sha256"].
  Hypothesis Hne : a <> alg n.
  Hypothesis Dold : distinct H (alg n) C.
  Hypothesis Dnew : distinct H a C.
  Hypothesis Hfull : full (ivs n).
  Let i := sort_inv (ivs n).

  Let So : sound (alg n) (spec n) n i := sound_sorted _ _ _ _ (md_head _ _ _ _ _ _ _ _ _ M).
  Let Fi : full i := full_sorted _ Hfull.

  Definition fnew (d : str) : str :=
    match dget d (manifest i) with
    | Some (c :: _) => match ObjectModel.fs_digest H a w h c with Ok x => x | Raise _ => [] end
    | _ => []
    end.

  Lemma some_states : forall vs v b, i_versions i = Some vs -> In (v, b) vs -> exists st, vb_state b = Some st.
  Proof using M. intros vs v b Hv Hb. destruct (so_blocks _ _ _ _ So vs v b Hv Hb) as (_ & st & Hs & _). eauto. Qed.

  Lemma stored_content d c : stored i d c -> exists r b, In (r, b) C /\ c = J r /\ d = H (alg n) b /\ ObjectModel.fs_digest H a w h c = Ok (H a b).
  Proof using M HH Ha.
    intros Hs. apply (proj1 (stored_sorted (ivs n) d c)) in Hs. pose proof (md_some _ _ _ _ _ _ _ _ _ M) as Hn. destruct (md_digests _ _ _ _ _ _ _ _ _ M n d c ltac:(lia) Hs) as (r & b & H1 & H2 & H3).
    exists r, b. split; [auto|]. split; [auto|]. split; [auto|]. unfold ObjectModel.fs_digest.
    assert (Hr : fs_read w h c = Ok b).
    { apply fs_read_look. rewrite H2. rewrite at_path_join; [|apply M|exact (md_fnames _ _ _ _ _ _ _ _ _ M r b H1)]. apply (hl_files _ _ _ (md_holds _ _ _ _ _ _ _ _ _ M)). unfold object_files. rewrite !in_app_iff. auto. }
    rewrite Hr. cbn [ebind]. apply hash_digest; auto.
  Qed.
  Lemma entry_stored d l c : In (d, l) (manifest i) -> In c l -> stored i d c.
  Proof using. intros Hd Hc. apply stored_iff. exists l. auto. Qed.

  (** The new digest is that of any of the files with the old one. *)
  Lemma fnew_content d c r b : stored i d c -> c = J r -> In (r, b) C -> fnew d = H a b.
  Proof using M HH Ha Dold Hfull.
    intros Hs Ec Hi. destruct (stored_content d c Hs) as (r1 & b1 & H1 & H2 & H3 & H4).
    assert (b1 = b). { destruct (md_content_names _ _ _ _ _ _ _ _ _ r b M Hi). destruct (md_content_names _ _ _ _ _ _ _ _ _ r1 b1 M H1). rewrite Ec in H2. apply names_join_inj in H2; auto. subst r1.
      assert (A : forall x, In (r, x) C -> look w (h ++ r) = Some (EFile x)) by (intros x Hx; apply (hl_files _ _ _ (md_holds _ _ _ _ _ _ _ _ _ M)); unfold object_files; rewrite !in_app_iff; auto).
      apply A in Hi, H1. congruence. }
    subst b1. apply stored_iff in Hs as (l & Hd & Hc). pose proof (In_dget d l (manifest i) (so_keys _ _ _ _ So) Hd) as Hg. unfold fnew. rewrite Hg.
    destruct l as [|c0 l]; [destruct Hc|]. destruct (stored_content d c0) as (r2 & b2 & K1 & K2 & K3 & K4); [apply (entry_stored d (c0 :: l)); [auto|now left]|].
    rewrite K4. f_equal. apply (Dold r2 b2 r b K1 Hi). congruence.
  Qed.
  Lemma entry_some d : In d (keys (manifest i)) -> exists c l, In (d, c :: l) (manifest i).
  Proof using Hfull.
    intros Hd. apply in_map_iff in Hd as ([d0 [|c l]] & E & Hi); cbn in E; subst d0; [|eauto]. destruct Fi as [F1 _]. now destruct (F1 d [] Hi).
  Qed.
  Lemma fnew_inj d d' : In d (keys (manifest i)) -> In d' (keys (manifest i)) -> fnew d = fnew d' -> d = d'.
  Proof using M HH Ha Dold Dnew Hfull.
    intros H1 H2 E. destruct (entry_some d H1) as (c & l & E1). destruct (entry_some d' H2) as (c' & l' & E2).
    assert (S1 : stored i d c) by (eapply entry_stored; [exact E1|now left]). assert (S2 : stored i d' c') by (eapply entry_stored; [exact E2|now left]).
    destruct (stored_content _ _ S1) as (r & b & A1 & A2 & A3 & _). destruct (stored_content _ _ S2) as (r' & b' & B1 & B2 & B3 & _).
    rewrite (fnew_content d c r b S1 A2 A1), (fnew_content d' c' r' b' S2 B2 B1) in E. apply (Dnew r b r' b') in E; auto. congruence.
  Qed.
  Lemma fnew_digest d l : In (d, l) (manifest i) -> new_digest H a w h l = Ok (fnew d).
  Proof using M HH Ha Dold Hfull.
    intros Hd. destruct Fi as [F1 _]. pose proof (F1 d l Hd) as Hl. destruct l as [|c l]; [congruence|].
    assert (Each : forall x, In x (c :: l) -> ObjectModel.fs_digest H a w h x = Ok (fnew d)).
    { intros x Hx. pose proof (entry_stored d (c :: l) x Hd Hx) as Hs. destruct (stored_content _ _ Hs) as (r & b & A1 & A2 & A3 & A4). rewrite A4. f_equal. symmetry. exact (fnew_content d x r b Hs A2 A1). }
    unfold new_digest. rewrite (Each c) by now left. cbn [ebind].
    assert (E : emap (fun f => let* d0 := ObjectModel.fs_digest H a w h f in if str_eqb d0 (fnew d) then Ok tt else Raise TypeError) l = Ok (map (fun _ => tt) l)).
    { assert (Each' : forall x, In x l -> ObjectModel.fs_digest H a w h x = Ok (fnew d)) by (intros; apply Each; now right). clear -Each'. induction l as [|x l IH]; [reflexivity|]. cbn [emap map].
      rewrite (Each' x) by now left. cbn [ebind]. rewrite str_eqb_refl. cbn [ebind]. rewrite IH; [reflexivity|]. intros y Hy. apply Each'. now right. }
    rewrite E. reflexivity.
  Qed.
  Lemma state_digest v d p : in_state i v d p -> exists c l, In (d, c :: l) (manifest i).
  Proof using M.
    intros (vs & b & st & l & E1 & E2 & E3 & E4 & _). destruct (so_blocks _ _ _ _ So vs v b E1 E2) as (_ & st' & E & G). rewrite E3 in E. apply Some_inv in E. subst st'. exact (sg_digests _ _ _ G d l E4).
  Qed.

  Theorem change_ok : start_inventory_change H (Some a) types w h i = Ok (changed fnew a (fixity_after (alg n) types i) i, Some (alg n)).
  Proof using M HH Ha Hne Dold Dnew Hfull.
    unfold start_inventory_change. rewrite (so_alg _ _ _ _ So). destruct (str_eqb_spec a (alg n)) as [|_]; [contradiction|].
    set (i2 := change_fixity (alg n) a types (set_alg (Some a) i)).
    assert (Ef : i2 = mk_inventory (i_id i) (i_type i) (Some a) (i_head i) (i_cdir i) (i_manifest i) (i_versions i) (fixity_after (alg n) types i) (i_other i)).
    { unfold i2, change_fixity, fixity_after. destruct types as [l|].
      - cbn [set_alg i_fixity]. destruct (i_fixity i) as [fx|] eqn:Ef; [reflexivity|]. unfold set_alg. now rewrite Ef.
      - rewrite (proj2 (str_eqb_neq _ _) Hne). cbn [negb andb]. change (fixity (set_alg (Some a) i)) with (fixity i). destruct (str_in (alg n) (keys (fixity i))); reflexivity. }
    rewrite Ef. unfold change_digests. change (manifest (mk_inventory _ _ _ _ _ (i_manifest i) _ _ _)) with (manifest i).
    rewrite (new_manifest_ok H a w h fnew (manifest i) fnew_digest (so_keys _ _ _ _ So) fnew_inj). cbn [ebind].
    change (version_directories (mk_inventory (i_id i) (i_type i) (Some a) (i_head i) (i_cdir i) (i_manifest i) (i_versions i) (fixity_after (alg n) types i) (i_other i))) with (version_directories i).
    rewrite (sound_directories _ _ _ _ So). cbn [ebind]. destruct (so_versions _ _ _ _ So) as (vs & Hv & P).
    assert (Nv : NoDup (keys vs)) by (apply (Permutation_NoDup (Permutation_sym P)), names_NoDup).
    rewrite (states_go fnew _ (names None n) _ vs); auto.
    - cbn [ebind]. f_equal. f_equal. unfold changed, set_manifest, set_versions. cbn [i_id i_type i_alg i_head i_cdir i_fixity i_other i_versions]. f_equal. rewrite Hv. cbn [option_map]. f_equal.
      unfold remap_versions. apply map_ext_in. intros [k b] Hb. cbn [fst snd]. f_equal. assert (Hk : In k (names None n)) by (apply (Permutation_in _ P); apply in_map_iff; exists (k, b); auto).
      apply str_in_true in Hk. now rewrite Hk.
    - apply names_NoDup.
    - intros v Hin. exact (Permutation_in _ (Permutation_sym P) Hin).
    - intros v b _ Hb. destruct (so_blocks _ _ _ _ So vs v b Hv Hb) as (_ & st & Hs & G). rewrite Hs. cbn [or_empty].
      assert (Hk : forall d, In d (keys st) -> In d (keys (manifest i))).
      { intros d Hd. apply in_map_iff in Hd as ([d0 l] & E & Hd). cbn in E. subst d0. destruct (sg_digests _ _ _ G d l Hd) as (c & cs & Hc). apply in_map_iff. exists (d, c :: cs). auto. }
      apply new_state_ok; [|exact (sg_keys _ _ _ G)|intros d d' H1 H2; apply fnew_inj; auto].
      intros d l Hd. assert (Hm : In d (keys (manifest i))) by (apply Hk, in_map_iff; exists (d, l); auto).
      apply In_dget.
      + unfold keys. rewrite map_map. cbn [fst]. exact (so_keys _ _ _ _ So).
      + apply in_map_iff in Hm as ([d0 l0] & E & Hm). cbn in E. subst d0. apply in_map_iff. exists (d, l0). auto.
  Qed.

  Lemma fixity_in fx x b : fixity_after (alg n) types i = Some fx -> In (x, b) fx ->
    (exists fx0, i_fixity i = Some fx0 /\ In (x, b) fx0) \/ (x = alg n /\ b = manifest i).
  Proof using.
    unfold fixity_after. destruct types as [l|].
    - destruct (i_fixity i) as [fx0|]; [|discriminate]. cbn [option_map]. intros E Hb. apply Some_inv in E. subst fx. apply filter_In in Hb as [Hb _]. eauto.
    - destruct (str_in (alg n) (keys (fixity i))); [intros E Hb; eauto|]. intros E Hb. apply Some_inv in E. subst fx. apply In_dset_either in Hb as [[-> ->]|Hb]; [auto|].
      left. unfold fixity in Hb. destruct (i_fixity i) as [fx0|]; [|destruct Hb]. eauto.
  Qed.
  Lemma fixity_keys fx : fixity_after (alg n) types i = Some fx -> NoDup (keys fx).
  Proof using M.
    assert (N0 : NoDup (keys (fixity i))).
    { unfold fixity. destruct (i_fixity i) as [fx0|] eqn:E; [|constructor]. exact (proj1 (so_fixity _ _ _ _ So fx0 E)). }
    unfold fixity_after. destruct types as [l|].
    - unfold fixity in N0. destruct (i_fixity i) as [fx0|]; [|discriminate]. cbn [option_map or_empty] in *. intros E. apply Some_inv in E. subst fx. now apply NoDup_keys_filter.
    - destruct (str_in (alg n) (keys (fixity i))); intros E; [unfold fixity in N0; rewrite E in N0; exact N0|]. apply Some_inv in E. subst fx. now apply NoDup_dset.
  Qed.

  Let i1 := changed fnew a (fixity_after (alg n) types i) i.

  Lemma manifest_changed : manifest i1 = remap fnew (manifest i).
  Proof using. reflexivity. Qed.

  Theorem changed_sound : sound a (spec n) n i1.
  Proof using M HH Ha Dold Dnew Hfull.
    constructor; cbn [i1 changed i_id i_type i_alg i_head i_cdir i_manifest i_versions i_fixity i_other]; try (rewrite manifest_changed, ?remap_paths, ?remap_keys).
    - apply So.
    - apply So.
    - apply So.
    - reflexivity.
    - exact Ha.
    - exact (so_cdir _ _ _ _ So).
    - apply So.
    - apply So.
    - apply So.
    - destruct (so_versions _ _ _ _ So) as (vs & Hv & P). rewrite Hv. cbn [option_map]. eexists. split; [reflexivity|]. unfold keys in *. rewrite map_map. exact P.
    - intros vs v b Hv Hb. destruct (i_versions i) as [vs0|] eqn:E; [|discriminate]. cbn [option_map] in Hv. apply Some_inv in Hv. subst vs. apply in_map_iff in Hb as ([v0 b0] & Eb & Hb). cbn [fst snd] in Eb. injection Eb as -> <-.
      destruct (so_blocks _ _ _ _ So vs0 v b0 E Hb) as ([B1 B2 B3 B4] & st & Hs & [G1 G2 G3]). split; [constructor; auto|]. exists (remap fnew st). split; [cbn; now rewrite Hs|]. constructor.
      + rewrite remap_keys. apply nodup_inj; [auto|]. assert (Hk : forall d, In d (keys st) -> In d (keys (manifest i))).
        { intros d Hd. apply in_map_iff in Hd as ([d0 l] & Ed & Hd). cbn in Ed. subst d0. destruct (G2 d l Hd) as (c & cs & Hc). apply in_map_iff. exists (d, c :: cs). auto. }
        intros d d' H1 H2. apply fnew_inj; auto.
      + intros d l Hd. apply In_remap in Hd as (d0 & -> & Hd). destruct (G2 d0 l Hd) as (c & cs & Hc). exists c, cs. apply In_remap. eauto.
      + now rewrite remap_paths.
    - eauto.
    - apply nodup_inj; [exact (so_keys _ _ _ _ So)|exact fnew_inj].
    - intros d l Hd. apply In_remap in Hd as (d0 & -> & Hd). assert (Hk : In d0 (keys (manifest i))) by (apply in_map_iff; exists (d0, l); auto). destruct (entry_some d0 Hk) as (c & cs & Hc).
      pose proof (entry_stored d0 (c :: cs) c Hc (or_introl eq_refl)) as Hs. destruct (stored_content _ _ Hs) as (r & b & A1 & A2 & _). rewrite (fnew_content d0 c r b Hs A2 A1). apply hash_digest; auto.
    - apply So.
    - change (content_directory_to_use i1) with (content_directory_to_use i). apply So.
    - intros d c cs Hd. apply In_remap in Hd as (d0 & -> & Hd). destruct (so_used _ _ _ _ So d0 c cs Hd) as (v & p & Hs). exists v, p. apply changed_state; [exact some_states|eauto].
    - intros fx Hf. split; [now apply fixity_keys|]. intros x b Hb. destruct (fixity_in fx x b Hf Hb) as [(fx0 & E & Hb0)|[-> ->]].
      + destruct (so_fixity _ _ _ _ So fx0 E) as [_ X]. exact (X x b Hb0).
      + split; [exact (so_keys _ _ _ _ So)|]. split.
        * destruct (so_algs _ _ _ _ So) as [<-|[<-|[]]]; eexists; constructor.
        * intros d l Hd. split; [exact (so_digests _ _ _ _ So d l Hd)|]. intros p Hp. apply In_paths_of. exists d, l. auto.
  Qed.

  Lemma changed_full : full i1.
  Proof using M Hfull.
    destruct Fi as [F1 F2]. split; [rewrite manifest_changed; now apply remap_full|]. intros v s (vs & b & E1 & E2 & E3). cbn [i1 changed i_versions] in E1. destruct (i_versions i) as [vs0|] eqn:E; [|discriminate].
    cbn [option_map] in E1. apply Some_inv in E1. subst vs. apply in_map_iff in E2 as ([v0 b0] & Eb & Hb). cbn [fst snd] in Eb. injection Eb as -> <-. cbn in E3. apply Some_inv in E3. subst s. apply remap_full.
    destruct (some_states vs0 v b0 E Hb) as [st Hs]. rewrite Hs. cbn [or_empty]. apply (F2 v st). exists vs0, b0. auto.
  Qed.

  (** If the old inventories have no empty lists, the new one says what they say. *)
  Theorem changed_based : (forall k, (1 <= k <= n)%nat -> full (ivs k)) -> based H n alg ivs C a i1.
  Proof using M HH Ha Hne Dold Dnew Hfull.
    intros Fk. pose proof (md_some _ _ _ _ _ _ _ _ _ M) as Hn. destruct (so_manifest _ _ _ _ So) as [m Hm].
    assert (Is : forall v d p, in_state i v d p <-> in_state (ivs n) v d p) by (intros; apply in_state_sorted).
    assert (St : forall d c, stored i d c <-> stored (ivs n) d c) by (intros; apply stored_sorted).
    assert (Cs : forall v d p, in_state i1 v d p <-> exists d0, d = fnew d0 /\ in_state i v d0 p) by (intros; apply changed_state, some_states).
    assert (Ct : forall d c, stored i1 d c <-> exists d0, d = fnew d0 /\ stored i d0 c) by (intros; apply changed_stored; eauto).
    constructor.
    - reflexivity.
    - reflexivity.
    - intros v p. unfold in_version. split.
      + intros [d Hd]. apply Cs in Hd as (d0 & _ & Hd). exists d0. now apply Is.
      + intros [d Hd]. exists (fnew d). apply Cs. exists d. split; [auto|now apply Is].
    - intros v p c (d & Hd & Hc). exists (fnew d). split; [apply Cs|apply Ct]; exists d; (split; [auto|]); [now apply Is|now apply St].
    - intros k v d Hk Hv Ek. rewrite (full_key _ _ _ (Fk k Hk)), (full_key _ _ _ changed_full). pose proof (md_sound _ _ _ _ _ _ _ _ _ M k Hk) as Sk.
      (* a path of v in both *)
      assert (Both : forall p dk dn, in_state (ivs k) v dk p -> in_state i v dn p -> dk = fnew dn).
      { intros p dk dn H1 H2. destruct H1 as (vs & b & st & l & E1 & E2 & E3 & E4 & E5). destruct (so_blocks _ _ _ _ Sk vs v b E1 E2) as (_ & st' & E & G). rewrite E3 in E. apply Some_inv in E. subst st'.
        destruct (sg_digests _ _ _ G dk l E4) as (c & cs & Hc). assert (Hst : stored (ivs k) dk c) by (apply stored_iff; exists (c :: cs); split; [auto|now left]).
        destruct (md_resolves _ _ _ _ _ _ _ _ _ M k v p c Hk Hv) as (d2 & Q1 & Q2). { exists dk. split; [|auto]. exists vs, b, st, l. auto. }
        apply Is in Q1. apply St in Q2. assert (d2 = dn) by exact (in_state_digest _ _ _ _ _ _ _ _ So Q1 H2). subst d2.
        destruct (md_digests _ _ _ _ _ _ _ _ _ M k dk c Hk Hst) as (r & b' & A1 & A2 & A3). rewrite (fnew_content dn c r b' Q2 A2 A1). now rewrite <- Ek. }
      split.
      + intros [p Hp]. assert (Hin : in_version (ivs n) v p) by (apply (md_paths _ _ _ _ _ _ _ _ _ M k v p Hk Hv); exists d; auto). destruct Hin as [dn Hd]. apply Is in Hd.
        exists p. apply Cs. exists dn. split; [exact (Both p d dn Hp Hd)|auto].
      + intros [p Hp]. apply Cs in Hp as (dn & -> & Hp). assert (Hin : in_version (ivs k) v p) by (apply (md_paths _ _ _ _ _ _ _ _ _ M k v p Hk Hv); exists dn; now apply Is). destruct Hin as [dk Hd].
        exists p. rewrite <- (Both p dk dn Hd Hp). exact Hd.
    - intros p. rewrite !listed_stored. split.
      + intros [d Hd]. apply Ct in Hd as (d0 & _ & Hd). exists d0. now apply St.
      + intros [d Hd]. exists (fnew d). apply Ct. exists d. split; [auto|now apply St].
    - intros d c Hs. apply Ct in Hs as (d0 & -> & Hs). destruct (stored_content _ _ Hs) as (r & b & A1 & A2 & _). exists r, b. split; [auto|]. split; [auto|]. exact (fnew_content d0 c r b Hs A2 A1).
    - intros x d c (fx & b & Ef & Hb & Hc). cbn [i1 changed i_fixity] in Ef. destruct (fixity_in fx x b Ef Hb) as [(fx0 & E & Hb0)|[-> ->]].
      + assert (Hf : fixed i x d c) by (exists fx0, b; auto). apply fixed_sorted in Hf. apply (md_fixity _ _ _ _ _ _ _ _ _ M n) in Hf; [auto|lia].
      + apply stored_iff in Hc. apply St in Hc. apply (md_digests _ _ _ _ _ _ _ _ _ M n); [lia|auto].
  Qed.
End Change.
