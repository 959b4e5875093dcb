(** A first and a further version (C34, C35): from the files that are added to the object that has them. *)
From Coq Require Import Permutation Sorted.
From Verif Require Import Base Unicode Regex Utf8 Json PyJson JsonTextModel JsonTextSpec JsonTextProofs JsonFileProofs Log DigestModel LayoutModel LayoutProofs
  ObjectUtilsModel ObjectUtilsProofs InventorySpec InventoryValidatorModel InventoryValidatorProofs InventoryRulesProofs
  InventoryModel InventoryOpsSpec InventoryOpsProofs NewVersionModel NewVersionProofs NewVersionOpsProofs VersionNumberProofs InventoryParseProofs ParseModel
  ContentPathProofs TextFile PathModel FsModel FsSpec FsProofs FswModel FswSpec FswProofs FswCopyProofs ValidatorSpec ValidatorBasicProofs ObjectModel ObjectSpec ObjectInvProofs ObjectRulesProofs
  ObjectParseProofs ObjectAddProofs ContentNameProofs ObjectGrowProofs ObjectStartProofs ObjectCopyProofs ObjectWriteProofs ObjectSourceProofs ObjectFactsProofs NamasteSpec ValidatorVersionProofs ObjectMadeProofs ObjectIntactProofs.

Notation J := (join [PathModel.slash]).

Lemma choose_list {A B} (P : A -> B -> Prop) l : (forall a, In a l -> exists b, P a b) -> exists m, Forall2 P l m.
Proof.
  induction l as [|a l IH]; intros Hl; [exists []; constructor|]. destruct (Hl a (or_introl eq_refl)) as [b Hb]. destruct IH as [m Hm]; [intros; apply Hl; now right|].
  exists (b :: m). now constructor.
Qed.

(** The files that are copied: source, place in the object and bytes. *)
Record copied (norm : option str) (v cd : str) (F : list (list str * bytes)) (files : dict str) (K : list (str * (place * bytes))) : Prop := {
  cp_files : files = map (fun e => (fst e, J (fst (snd e)))) K;
  cp_each : forall s r b, In (s, (r, b)) K -> exists es r', In (es, b) F /\ s = J es /\ r = v :: cd :: r' /\ content_of norm es r' /\ r' <> [] /\ Forall cname r'
}.

Lemma copied_exists H alg spec n i0 norm fd dd old F nv : growing H alg spec n i0 norm fd dd old F nv ->
  exists K, copied norm (version_fmt None (N.of_nat n)) (content_directory_to_use i0) F (nv_copy nv) K.
Proof.
  intros G.
  destruct (choose_list (fun (sc : str * str) e => fst sc = fst e /\ snd sc = J (fst (snd e)) /\
    exists es r', In (es, snd (snd e)) F /\ fst e = J es /\ fst (snd e) = version_fmt None (N.of_nat n) :: content_directory_to_use i0 :: r' /\ content_of norm es r' /\ r' <> [] /\ Forall cname r') (nv_copy nv)) as [K HK].
  { intros [s c] Hsc. destruct (gw_copy _ _ _ _ _ _ _ _ _ _ _ G s c Hsc) as (es & b & r & H1 & H2 & H3 & H4 & H5 & H6).
    exists (s, (version_fmt None (N.of_nat n) :: content_directory_to_use i0 :: r, b)). cbn [fst snd]. split; [auto|]. split; [auto|]. exists es, r. auto 10. }
  exists K. constructor.
  - induction HK as [|[s c] e l m (H1 & H2 & _) _ IH]; [reflexivity|]. cbn [map fst snd] in *. now rewrite <- IH, H1, H2.
  - intros s r b Hi. clear -HK Hi. induction HK as [|[s' c] e l m (H1 & H2 & H3) _ IH]; [destruct Hi|]. destruct Hi as [->|Hi]; [|auto].
    destruct H3 as (es & r' & H3). cbn [fst snd] in *. exists es, r'. exact H3.
Qed.

(** Room for new files in a directory: nothing has the first name of their paths. *)
Lemma room_fresh w h L : look w h = Some EDir ->
  (forall r b, In (r, b) L -> exists v r', r = v :: r' /\ Forall fname r /\ look w (h ++ [v]) = None) -> NoDup (map fst L) ->
  (forall r b r' b' x, In (r, b) L -> In (r', b') L -> r' = r ++ x -> x = []) -> room w h L.
Proof.
  intros Hd Hf Hn Ha. constructor; [|auto|auto| |].
  - intros r b Hin. destruct (Hf r b Hin) as (v & r' & -> & F & _). split; [discriminate|auto].
  - intros r b Hin. destruct (Hf r b Hin) as (v & r' & -> & _ & N). destruct r' as [|c r']; [exact N|].
    replace (h ++ v :: c :: r') with ((h ++ [v]) ++ c :: r') by (rewrite <- app_assoc; reflexivity). apply look_below_leaf; [discriminate|]. rewrite N. discriminate.
  - intros r b Hin q x E. destruct (Hf r b Hin) as (v & r' & -> & _ & N). destruct (app_prefix_cases h (v :: r') q x E) as [[y ->]|(y & -> & Ey)].
    + right. destruct y as [|c y]; [now rewrite app_nil_r in Hd|]. apply (look_above w q c y). rewrite Hd. discriminate.
    + destruct y as [|c y]; [right; now rewrite app_nil_r|]. cbn [app] in Ey. injection Ey as -> _. left. destruct y as [|c' y]; [exact N|].
      replace (h ++ c :: c' :: y) with ((h ++ [c]) ++ c' :: y) by (rewrite <- app_assoc; reflexivity). apply look_below_leaf; [discriminate|]. rewrite N. discriminate.
Qed.

Lemma copied_facts norm v cd F files K : fname v -> fname cd -> copied norm v cd F files K -> NoDup (map snd files) ->
  (forall r b, In (r, b) (map snd K) -> Forall fname r /\ exists r', r' <> [] /\ r = v :: cd :: r') /\
  NoDup (map fst (map snd K)).
Proof.
  intros Fv Fc [E Ek] Hn. assert (A : forall r b, In (r, b) (map snd K) -> Forall fname r /\ exists r', r' <> [] /\ r = v :: cd :: r').
  { intros r b Hi. apply in_map_iff in Hi as ([s rb] & E1 & Hi). cbn [snd] in E1. subst rb. destruct (Ek s r b Hi) as (es & r' & _ & _ & -> & _ & Hr & Hc).
    split; [|eauto]. constructor; [auto|]. constructor; [auto|]. eapply Forall_impl; [|exact Hc]. intros q Hq. apply Hq. }
  split; [auto|]. rewrite E, map_map in Hn. cbn [fst snd] in Hn. rewrite map_map. rewrite <- (map_map (fun x => fst (snd x)) (fun r => J r)) in Hn. exact (NoDup_map_inv _ _ Hn).
Qed.

(** Content paths of one version are not above one another. *)
Lemma listed_apart alg spec n i r r' x : sound alg spec n i -> Forall fname r -> r <> [] -> Forall fname r' ->
  In (J r) (paths_of (manifest i)) -> In (J r') (paths_of (manifest i)) -> r' = r ++ x -> x = [].
Proof.
  intros So Fr Nr Fr' H1 H2 ->. destruct x as [|c x]; [auto|]. exfalso. apply (gp_apart _ (so_paths _ _ _ _ So) _ _ H1 H2).
  exists (J (c :: x)). clear -Nr. induction r as [|a r IH]; [congruence|]. destruct r as [|b r].
  - cbn [app]. rewrite join_cons by discriminate. reflexivity.
  - change (J (a :: ((b :: r) ++ c :: x)) = J (a :: b :: r) ++ slash :: J (c :: x)). rewrite (join_cons _ a ((b :: r) ++ c :: x)) by discriminate.
    rewrite IH by discriminate. rewrite (join_cons _ a (b :: r)) by discriminate. now rewrite <- !app_assoc.
Qed.

Lemma nodup_fst {A B} (l : list (A * B)) a b b' : NoDup (map fst l) -> In (a, b) l -> In (a, b') l -> b = b'.
Proof.
  induction l as [|[x y] l IH]; intros Hn H1 H2; [destruct H1|]. inversion Hn as [|? ? Hx Hn']; subst. cbn [fst] in *.
  assert (N : forall z, In (x, z) l -> False) by (intros z Hz; apply Hx; apply in_map_iff; now exists (x, z)).
  destruct H1 as [E1|H1], H2 as [E2|H2]; [congruence| | |eauto].
  - injection E1 as <- <-. exfalso. eauto.
  - injection E2 as <- <-. exfalso. eauto.
Qed.

Definition upd {A} (f : nat -> A) (n : nat) (x : A) : nat -> A := fun k => if Nat.eqb k n then x else f k.
Lemma upd_same {A} (f : nat -> A) n x : upd f n x n = x.
Proof. unfold upd. now rewrite Nat.eqb_refl. Qed.
Lemma upd_other {A} (f : nat -> A) n x k : k <> n -> upd f n x k = f k.
Proof. intros Hk. unfold upd. apply Nat.eqb_neq in Hk. now rewrite Hk. Qed.

(** ** The content of the manifest of a growing version *)
Section Content.
  Variables (H : hashfn) (alg spec : str) (n : nat) (i0 : inventory) (norm : option str) (fd dd : bool) (old : option str)
    (F : list (list str * bytes)) (nv : new_version) (K : list (str * (place * bytes))) (C : list (place * bytes)).
  Hypothesis G : growing H alg spec n i0 norm fd dd old F nv.
  Hypothesis Kc : copied norm (version_fmt None (N.of_nat n)) (content_directory_to_use i0) F (nv_copy nv) K.
  Hypothesis Nf : forall es b, In (es, b) F -> es <> [] /\ Forall fname es.
  Hypothesis Nd : NoDup (map fst F).
  Hypothesis Cl : forall p, In p (paths_of (manifest i0)) <-> exists r b, In (r, b) C /\ p = J r.
  Hypothesis Cd : forall d c, stored i0 d c -> exists r b, In (r, b) C /\ c = J r /\ d = H alg b.

  Lemma copied_bytes es b c : In (es, b) F -> In (J es, c) (nv_copy nv) -> exists r, In (J es, (r, b)) K /\ c = J r.
  Proof using Kc Nf Nd.
    intros Hf Hc. rewrite (cp_files _ _ _ _ _ _ Kc) in Hc. apply in_map_iff in Hc as ([s [r b']] & E & Hi). cbn [fst snd] in E. injection E as -> <-.
    destruct (cp_each _ _ _ _ _ _ Kc _ _ _ Hi) as (es' & r' & Hf' & E & _). exists r. split; [|auto].
    destruct (Nf _ _ Hf) as [N1 F1]. destruct (Nf _ _ Hf') as [N2 F2]. apply names_join_inj in E; auto. subst es'.
    now rewrite (nodup_fst _ _ _ _ Nd Hf Hf').
  Qed.
  Lemma copied_in s r b : In (s, (r, b)) K -> In (s, J r) (nv_copy nv).
  Proof using Kc. intros Hi. rewrite (cp_files _ _ _ _ _ _ Kc). apply in_map_iff. exists (s, (r, b)). auto. Qed.

  Lemma grown_listed p : In p (paths_of (manifest (nv_inv nv))) <-> exists r b, In (r, b) (C ++ map snd K) /\ p = J r.
  Proof using G Kc Nf Nd Cl.
    assert (S : forall i p, In p (paths_of (manifest i)) <-> exists d, stored i d p).
    { intros i q. rewrite In_paths_of. split; intros [d Hd]; exists d; now apply stored_iff. }
    rewrite S. split.
    - intros [d Hd]. apply (gw_stored _ _ _ _ _ _ _ _ _ _ _ G) in Hd as [Hd|(es & b & H1 & H2 & _)].
      + destruct (proj1 (Cl p)) as (r & b & Hi & ->); [apply S; eauto|]. exists r, b. split; [apply in_or_app; auto|auto].
      + destruct (copied_bytes es b p H1 H2) as (r & Hi & ->). exists r, b. split; [|auto]. apply in_or_app. right. apply in_map_iff. exists (J es, (r, b)). auto.
    - intros (r & b & Hi & ->). apply in_app_or in Hi as [Hi|Hi].
      + destruct (proj1 (S i0 (J r))) as [d Hd]; [apply Cl; eauto|]. exists d. apply (gw_stored _ _ _ _ _ _ _ _ _ _ _ G). auto.
      + apply in_map_iff in Hi as ([s rb] & E & Hi). cbn [snd] in E. subst rb. destruct (cp_each _ _ _ _ _ _ Kc _ _ _ Hi) as (es & r' & Hf & -> & _).
        exists (H alg b). apply (gw_stored _ _ _ _ _ _ _ _ _ _ _ G). right. exists es, b. split; [auto|]. split; [|auto]. eapply copied_in; eauto.
  Qed.
  Lemma grown_stored d c : stored (nv_inv nv) d c -> exists r b, In (r, b) (C ++ map snd K) /\ c = J r /\ d = H alg b.
  Proof using G Kc Nf Nd Cd.
    intros Hd. apply (gw_stored _ _ _ _ _ _ _ _ _ _ _ G) in Hd as [Hd|(es & b & H1 & H2 & ->)].
    - destruct (Cd d c Hd) as (r & b & Hi & -> & ->). exists r, b. split; [apply in_or_app; auto|auto].
    - destruct (copied_bytes es b c H1 H2) as (r & Hi & ->). exists r, b. split; [|auto]. apply in_or_app. right. apply in_map_iff. exists (J es, (r, b)). auto.
  Qed.
End Content.

Lemma no_fixity alg spec n i a d c : sound alg spec n i -> fixed i a d c -> In c (paths_of (manifest i)).
Proof. intros So (fx & b & Hf & Hb & l & Hl & Hc). destruct (so_fixity _ _ _ _ So fx Hf) as [_ X]. destruct (X a b Hb) as (_ & _ & Y). now apply (Y d l Hl). Qed.
Lemma rest_fixed i i' a d c : same_rest i i' -> fixed i' a d c <-> fixed i a d c.
Proof. intros (_ & _ & _ & _ & _ & E & _). unfold fixed. now rewrite E. Qed.
Lemma rest_cd i i' : same_rest i i' -> content_directory_to_use i' = content_directory_to_use i.
Proof. intros (_ & _ & _ & _ & E & _). unfold content_directory_to_use. now rewrite E. Qed.

Theorem made_first H w h alg spec i0 norm fd dd old F nv K : Forall fname h -> tree w ->
  growing H alg spec 1 i0 norm fd dd old F nv -> (forall p, ~ In p (paths_of (manifest i0))) ->
  sound alg spec 1 i0 ->
  copied norm (vn 1) (content_directory_to_use i0) F (nv_copy nv) K -> (forall es b, In (es, b) F -> es <> [] /\ Forall fname es) -> NoDup (map fst F) ->
  content_directory_to_use i0 <> inv_name -> content_directory_to_use i0 <> side_name alg ->
  holds w h (object_files H spec 1 (fun _ => alg) (fun _ => nv_inv nv) (map snd K)) ->
  made H w h spec 1 (fun _ => alg) (fun _ => spec) (fun _ => nv_inv nv) (map snd K).
Proof.
  intros Hh Tw G Hno So0 Kc Nf Nd A1 A2 Hl. pose proof (gw_sound _ _ _ _ _ _ _ _ _ _ _ G) as So. pose proof (rest_cd _ _ (gw_rest _ _ _ _ _ _ _ _ _ _ _ G)) as Ec.
  assert (E1 : forall k, (1 <= k <= 1)%nat -> k = 1%nat) by (intros; lia).
  constructor; auto.
  - exact (so_spec _ _ _ _ So).
  - intros k Hk. now rewrite (E1 k Hk).
  - intros k v p Hk Hv. reflexivity.
  - intros k v d Hk Hv _. reflexivity.
  - intros k k' _ _ _. apply incl_refl.
  - intros k k' _ _ _. now left.
  - intros k Hk. lia.
  - rewrite Ec. auto.
  - intros p. rewrite (grown_listed H alg spec 1 i0 norm fd dd old F nv K [] G Kc Nf Nd).
    + reflexivity.
    + intros q. split; [intros Hq; exfalso; exact (Hno q Hq)|intros (? & ? & [] & _)].
  - intros r b Hi. apply (copied_facts norm (vn 1) (content_directory_to_use i0) F (nv_copy nv) K) in Hi; [apply Hi|apply vn_fname|apply (so_cdir _ _ _ _ So0)|exact Kc|].
    exact (gw_dests _ _ _ _ _ _ _ _ _ _ _ G).
  - intros k d c _ Hs. destruct (grown_stored H alg spec 1 i0 norm fd dd old F nv K [] G Kc Nf Nd) with (d := d) (c := c) as (r & b & Hi & E); eauto.
    intros d' c' Hd'. exfalso. apply (Hno c'). apply In_paths_of. exists d'. now apply stored_iff.
  - intros k a d c _ Hf. exfalso. apply (rest_fixed i0) in Hf; [|apply (gw_rest _ _ _ _ _ _ _ _ _ _ _ G)]. apply (Hno c). eapply no_fixity; eauto.
Qed.

(** What the next version starts from. *)
Record continues (H : hashfn) (n : nat) (alg spec : nat -> str) (ivs : nat -> inventory) (C : list (place * bytes)) (a s : str) (i0 : inventory) : Prop := {
  cn_id : i_id i0 = i_id (ivs n);
  cn_cdir : i_cdir i0 = i_cdir (ivs n);
  cn_paths : forall v p, In v (names None n) -> (in_version i0 v p <-> in_version (ivs n) v p);
  cn_resolves : forall v p c, In v (names None n) -> resolves (ivs n) v p c -> resolves i0 v p c;
  cn_keys : forall k v d, (1 <= k <= n)%nat -> In v (names None k) -> alg k = a -> (state_key (ivs k) v d <-> state_key i0 v d);
  cn_listed : forall p, In p (paths_of (manifest i0)) <-> In p (paths_of (manifest (ivs n)));
  cn_digests : forall d c, stored i0 d c -> exists r b, In (r, b) C /\ c = J r /\ d = H a b;
  cn_fixity : forall x d c, fixed i0 x d c -> exists r b, In (r, b) C /\ c = J r /\ d = H x b;
  cn_spec : no_later (spec n) s
}.

Lemma no_later_trans a b c : no_later a b -> no_later b c -> no_later a c.
Proof. unfold no_later. intros [->|[-> ->]] [E|[E1 E2]]; subst; auto. Qed.

Section Next.
  Variables (H : hashfn) (w w' : node) (h : place) (sd : str) (n : nat) (alg spec : nat -> str) (ivs : nat -> inventory) (C : list (place * bytes)).
  Variables (a s : str) (i0 : inventory) (norm : option str) (fd dd : bool) (old : option str) (F : list (list str * bytes)) (nv : new_version)
    (K : list (str * (place * bytes))).
  Hypothesis M : made H w h sd n alg spec ivs C.
  Hypothesis Cn : continues H n alg spec ivs C a s i0.
  Hypothesis So0 : sound a s (S n) i0.
  Hypothesis G : growing H a s (S n) i0 norm fd dd old F nv.
  Hypothesis Kc : copied norm (vn (S n)) (content_directory_to_use i0) F (nv_copy nv) K.
  Hypothesis Nf : forall es b, In (es, b) F -> es <> [] /\ Forall fname es.
  Hypothesis Nd : NoDup (map fst F).
  Hypothesis Below : no_later (spec n) sd.
  Hypothesis Apart : content_directory_to_use (ivs n) <> side_name a.
  Let alg' := upd alg (S n) a.
  Let spec' := upd spec (S n) s.
  Let ivs' := upd ivs (S n) (nv_inv nv).
  Let C' := C ++ map snd K.
  Hypothesis Tw' : tree w'.
  Hypothesis Hl : holds w' h (object_files H sd (S n) alg' ivs' C').

  Lemma grown_old v d p : In v (names None n) -> (in_state (nv_inv nv) v d p <-> in_state i0 v d p).
  Proof using G.
    intros Hv. rewrite (gw_state _ _ _ _ _ _ _ _ _ _ _ G). split; [|auto]. intros [?|(-> & _)]; [auto|]. exfalso. apply In_vn in Hv as (k & Hk & E). apply vn_inj in E. clear -Hk E. lia.
  Qed.
  Lemma grown_keys v d : In v (names None n) -> (state_key (nv_inv nv) v d <-> state_key i0 v d).
  Proof using G.
    intros Hv. assert (Hn : v <> version_fmt None (N.of_nat (S n))) by (intros ->; apply In_vn in Hv as (k & Hk & E); apply vn_inj in E; clear -Hk E; lia).
    unfold state_key. split; intros (b & l & Hb & Hd); exists b, l; (split; [|auto]); now apply (gw_others _ _ _ _ _ _ _ _ _ _ _ G).
  Qed.

  Theorem made_next : made H w' h sd (S n) alg' spec' ivs' C'.
  Proof using M Cn So0 G Kc Nf Nd Below Apart Tw' Hl.
    pose proof (md_some _ _ _ _ _ _ _ _ _ M) as Hn. pose proof (gw_rest _ _ _ _ _ _ _ _ _ _ _ G) as Rest.
    assert (En : ivs' (S n) = nv_inv nv) by apply upd_same. assert (Ea : alg' (S n) = a) by apply upd_same. assert (Es : spec' (S n) = s) by apply upd_same.
    assert (O : forall k, (1 <= k <= S n)%nat -> k = S n \/ ((1 <= k <= n)%nat /\ ivs' k = ivs k /\ alg' k = alg k /\ spec' k = spec k)).
    { intros k Hk. destruct (Nat.eq_dec k (S n)) as [->|Hne]; [now left|]. right. split; [lia|]. unfold ivs', alg', spec'. rewrite !upd_other by auto. auto. }
    assert (Nk : forall k v, (1 <= k <= n)%nat -> In v (names None k) -> In v (names None n)).
    { intros k v Hk Hv. apply In_vn in Hv as (j & Hj & ->). apply In_vn. exists j. split; [lia|auto]. }
    assert (Lst : forall p, In p (paths_of (manifest (nv_inv nv))) <-> exists r b, In (r, b) C' /\ p = J r).
    { apply (grown_listed H a s (S n) i0 norm fd dd old F nv K C G Kc Nf Nd). intros p. rewrite (cn_listed _ _ _ _ _ _ _ _ _ Cn). apply (md_listed _ _ _ _ _ _ _ _ _ M). }
    assert (Ec : content_directory_to_use (nv_inv nv) = content_directory_to_use (ivs n)).
    { rewrite (rest_cd _ _ Rest). unfold content_directory_to_use. now rewrite (cn_cdir _ _ _ _ _ _ _ _ _ Cn). }
    constructor.
    - exact (md_names _ _ _ _ _ _ _ _ _ M).
    - exact Tw'.
    - exact Hl.
    - exact (md_sd _ _ _ _ _ _ _ _ _ M).
    - intros k Hk. destruct (O k Hk) as [->|(Hk' & -> & -> & ->)]; [rewrite En, Ea, Es; exact (gw_sound _ _ _ _ _ _ _ _ _ _ _ G)|exact (md_sound _ _ _ _ _ _ _ _ _ M k Hk')].
    - lia.
    - intros k Hk. rewrite En. destruct (O k Hk) as [->|(Hk' & -> & _)]; [now rewrite En|]. rewrite (md_id _ _ _ _ _ _ _ _ _ M k Hk').
      destruct Rest as (-> & _). now rewrite (cn_id _ _ _ _ _ _ _ _ _ Cn).
    - intros k Hk. rewrite En. destruct (O k Hk) as [->|(Hk' & -> & _)]; [now rewrite En|]. rewrite (md_cdir _ _ _ _ _ _ _ _ _ M k Hk').
      destruct Rest as (_ & _ & _ & _ & -> & _). now rewrite (cn_cdir _ _ _ _ _ _ _ _ _ Cn).
    - intros k v p Hk Hv. rewrite En. destruct (O k Hk) as [->|(Hk' & -> & _)]; [now rewrite En|]. rewrite (md_paths _ _ _ _ _ _ _ _ _ M k v p Hk' Hv).
      pose proof (Nk k v Hk' Hv) as Hv'. rewrite <- (cn_paths _ _ _ _ _ _ _ _ _ Cn v p Hv'). unfold in_version. split; intros [d Hd]; exists d; now apply grown_old.
    - intros k v p c Hk Hv. rewrite En. destruct (O k Hk) as [->|(Hk' & -> & _)]; [now rewrite En|]. pose proof (Nk k v Hk' Hv) as Hv'. intros Hr.
      apply (md_resolves _ _ _ _ _ _ _ _ _ M k v p c Hk' Hv) in Hr. apply (cn_resolves _ _ _ _ _ _ _ _ _ Cn v p c Hv') in Hr. destruct Hr as (d & Hd & Hs).
      exists d. split; [now apply grown_old|]. apply (gw_stored _ _ _ _ _ _ _ _ _ _ _ G). auto.
    - intros k v d Hk Hv. rewrite En, Ea. destruct (O k Hk) as [->|(Hk' & -> & -> & _)]; [now rewrite En|]. pose proof (Nk k v Hk' Hv) as Hv'. intros E.
      rewrite grown_keys by auto. exact (cn_keys _ _ _ _ _ _ _ _ _ Cn k v d Hk' Hv E).
    - intros k k' Hk Hkk Hk'. destruct (O k) as [->|(Kk & -> & _)]; [lia| |].
      + assert (k' = S n) by lia. subst k'. apply incl_refl.
      + destruct (O k') as [->|(Kk' & -> & _)]; [lia| |apply (md_grow _ _ _ _ _ _ _ _ _ M); lia]. rewrite En. intros p Hp. apply Lst.
        apply (md_grow _ _ _ _ _ _ _ _ _ M k n) in Hp; try lia. apply (md_listed _ _ _ _ _ _ _ _ _ M) in Hp as (r & b & Hi & ->). exists r, b. split; [apply in_or_app; auto|auto].
    - intros k k' Hk Hkk Hk'. destruct (O k) as [->|(Kk & _ & _ & ->)]; [lia| |].
      + assert (k' = S n) by lia. subst k'. now left.
      + destruct (O k') as [->|(Kk' & _ & _ & ->)]; [lia| |apply (md_specs _ _ _ _ _ _ _ _ _ M); lia]. rewrite Es. eapply no_later_trans; [|exact (cn_spec _ _ _ _ _ _ _ _ _ Cn)].
        apply (md_specs _ _ _ _ _ _ _ _ _ M); lia.
    - intros k Hk. destruct (O k) as [->|(Kk & _ & _ & ->)]; [lia|lia|]. eapply no_later_trans; [|exact Below]. apply (md_specs _ _ _ _ _ _ _ _ _ M); lia.
    - rewrite En, Ec. destruct (md_apart _ _ _ _ _ _ _ _ _ M) as [B1 B2]. split; [auto|]. intros k Hk. destruct (O k Hk) as [->|(Kk & _ & -> & _)]; [now rewrite Ea|auto].
    - rewrite En. exact Lst.
    - intros r b Hi. apply in_app_or in Hi as [Hi|Hi]; [exact (md_fnames _ _ _ _ _ _ _ _ _ M r b Hi)|].
      apply (copied_facts norm (vn (S n)) (content_directory_to_use i0) F (nv_copy nv) K) in Hi; [apply Hi|apply vn_fname|apply (so_cdir _ _ _ _ So0)|exact Kc|].
      exact (gw_dests _ _ _ _ _ _ _ _ _ _ _ G).
    - intros k d c Hk Hs. destruct (O k Hk) as [->|(Kk & Ek & -> & _)].
      + rewrite Ea. rewrite En in Hs. exact (grown_stored H a s (S n) i0 norm fd dd old F nv K C G Kc Nf Nd (cn_digests _ _ _ _ _ _ _ _ _ Cn) d c Hs).
      + rewrite Ek in Hs. destruct (md_digests _ _ _ _ _ _ _ _ _ M k d c Kk Hs) as (r & b & Hi & E). exists r, b. split; [apply in_or_app; auto|auto].
    - intros k x d c Hk Hs. destruct (O k Hk) as [->|(Kk & Ek & _)].
      + rewrite En in Hs. apply (rest_fixed _ _ _ _ _ Rest) in Hs. destruct (cn_fixity _ _ _ _ _ _ _ _ _ Cn x d c Hs) as (r & b & Hi & E). exists r, b. split; [apply in_or_app; auto|auto].
      + rewrite Ek in Hs. destruct (md_fixity _ _ _ _ _ _ _ _ _ M k x d c Kk Hs) as (r & b & Hi & E). exists r, b. split; [apply in_or_app; auto|auto].
  Qed.
End Next.
