(** Building an object from directories with its versions (C47). *)
From Coq Require Import Permutation Sorted.
From Verif Require Import Base Unicode Regex Utf8 Json PyJson JsonTextModel JsonTextSpec JsonTextProofs JsonFileProofs Log DigestModel LayoutModel LayoutProofs
  ObjectUtilsModel ObjectUtilsProofs InventorySpec InventoryValidatorModel InventoryValidatorProofs InventoryRulesProofs
  InventoryModel InventoryOpsSpec InventoryOpsProofs NewVersionModel NewVersionProofs NewVersionOpsProofs VersionNumberProofs InventoryParseProofs ParseModel
  ContentPathProofs TextFile PathModel FsModel FsSpec FsProofs FswModel FswSpec FswProofs FswCopyProofs ValidatorSpec ValidatorBasicProofs ObjectModel ObjectSpec ObjectInvProofs ObjectRulesProofs
  ObjectParseProofs ObjectAddProofs ContentNameProofs ObjectGrowProofs ObjectStartProofs ObjectCopyProofs ObjectWriteProofs ObjectSourceProofs ObjectFactsProofs NamasteSpec ValidatorVersionProofs ObjectMadeProofs ObjectIntactProofs ObjectExtendProofs FsStepProofs NamasteModel NamasteProofs ObjectStoreProofs ObjectCreateProofs ValidatorModel ValidatorIntactProofs ObjectUpdateProofs ObjectNextProofs ObjectDigestProofs ObjectVersionProofs ObjectExtractProofs.
From Verif Require Import ObjectTrackProofs.

(** ** The version directories *)

Lemma taken_parse v k : taken_for v k <-> parse_version_directory v = Ok k.
Proof.
  pose proof (parse_version_directory_correct v) as S. split.
  - intros (ds & nl & E & N & D & L & Le & -> & Z). destruct (parse_version_directory v) as [m|x] eqn:Ep; cbn [parse_spec] in S.
    + destruct S as (ds' & nl' & E' & [N' D'] & L' & Le' & -> & Z'). f_equal. f_equal. rewrite E in E'. apply app_inv_head in E'.
      assert (Dn : forall l, Forall (fun c => is_digit c = true) l -> ~ In 10%N l) by (intros l Hl Hi; rewrite Forall_forall in Hl; specialize (Hl _ Hi); discriminate Hl).
      destruct L as [-> | ->], L' as [-> | ->]; rewrite ?app_nil_r in E'; subst; auto.
      * exfalso. apply (Dn _ D). apply in_or_app. right. now left.
      * exfalso. apply (Dn _ D'). apply in_or_app. right. now left.
      * now apply app_inj_tail in E' as [-> _].
    + exfalso. destruct S as [_ S]. apply S. exists ds, nl. repeat (split; [assumption|]). split; [split; auto|]. auto.
  - intros Ep. rewrite Ep in S. destruct S as (ds & nl & E & [N D] & L & Le & -> & Z). exists ds, nl. auto 10.
Qed.
Lemma taken_raise v x : parse_version_directory v = Raise x -> x = ObjectException.
Proof. intros Ep. pose proof (parse_version_directory_correct v) as S. rewrite Ep in S. apply S. Qed.
Lemma taken_vn k : (1 <= k)%nat -> (N.of_nat k <= 99999)%N -> taken_for (vn k) (N.of_nat k).
Proof. intros H1 H2. apply taken_parse, number_parse, fmt_number; [lia|]. cbn [within]. lia. Qed.

Lemma in_ndset n v l m u : In (m, u) (ndset n v l) -> (m = n /\ u = v) \/ In (m, u) l.
Proof.
  unfold ndset. destruct (existsb _ l).
  - intros Hi. apply in_map_iff in Hi as ([m' u'] & E & Hi). cbn [fst] in E. destruct (N.eqb_spec m' n); injection E as <- <-; auto.
  - intros Hi. apply in_app_or in Hi as [Hi|[E|[]]]; [auto|]. injection E as <- <-. auto.
Qed.
Lemma fst_ndset n v l : map fst (ndset n v l) = if existsb (fun x => (fst x =? n)%N) l then map fst l else map fst l ++ [n].
Proof.
  unfold ndset. destruct (existsb _ l); [|now rewrite map_app]. rewrite map_map. apply map_ext. intros [m u]. cbn [fst]. destruct (N.eqb_spec m n); auto.
Qed.
Lemma nodup_ndset n v l : NoDup (map fst l) -> NoDup (map fst (ndset n v l)).
Proof.
  intros Hn. rewrite fst_ndset. destruct (existsb _ l) eqn:E; [auto|]. apply NoDup_app_iff. split; [auto|]. split; [constructor; [intros []|constructor]|].
  intros x Hx [<-|[]]. apply in_map_iff in Hx as ([m u] & <- & Hi). assert (F : existsb (fun x => (fst x =? fst (m, u))%N) l = true) by (apply existsb_exists; exists (m, u); split; [auto|apply N.eqb_refl]). congruence.
Qed.
Lemma in_fst_ndset n v l m : In m (map fst (ndset n v l)) <-> m = n \/ In m (map fst l).
Proof.
  rewrite fst_ndset. destruct (existsb _ l) eqn:E.
  - split; [auto|]. intros [->|?]; [|auto]. apply existsb_exists in E as (x & Hi & E). apply N.eqb_eq in E. rewrite <- E. now apply in_map.
  - rewrite in_app_iff. cbn [In]. split; [intros [?|[?|[]]]; auto|intros [?|?]; auto].
Qed.

Lemma version_dirs_ok l : exists vs, version_dirs l = Ok vs /\ NoDup (map fst vs) /\
  (forall k v, In (k, v) vs -> In (v, TDir) l /\ taken_for v k) /\ (forall v k, In (v, TDir) l -> taken_for v k -> In k (map fst vs)).
Proof.
  unfold version_dirs. set (f := fun (acc : list (N * str)) (nt : str * ftype) => _).
  assert (G : forall acc, NoDup (map fst acc) -> (forall k v, In (k, v) acc -> taken_for v k) ->
    exists vs, efold f l acc = Ok vs /\ NoDup (map fst vs) /\ (forall k v, In (k, v) vs -> In (k, v) acc \/ (In (v, TDir) l /\ taken_for v k)) /\
      (forall k, In k (map fst acc) -> In k (map fst vs)) /\ (forall v k, In (v, TDir) l -> taken_for v k -> In k (map fst vs))).
  { induction l as [|[v t] l IH]; intros acc Nd Ha.
    - exists acc. cbn [efold]. split; [auto|]. split; [auto|]. split; [auto|]. split; [auto|]. intros ? ? [].
    - cbn [efold]. assert (Ef : exists acc', f acc (v, t) = Ok acc' /\ NoDup (map fst acc') /\ (forall k u, In (k, u) acc' -> In (k, u) acc \/ (u = v /\ t = TDir /\ taken_for v k)) /\
        (forall k, In k (map fst acc) -> In k (map fst acc')) /\ (forall k, t = TDir -> taken_for v k -> In k (map fst acc'))).
      { unfold f. cbn [fst snd]. assert (Same : forall acc', acc' = acc -> (t = TDir -> forall k, ~ taken_for v k) -> NoDup (map fst acc') /\ (forall k u, In (k, u) acc' -> In (k, u) acc \/ (u = v /\ t = TDir /\ taken_for v k)) /\
          (forall k, In k (map fst acc) -> In k (map fst acc')) /\ (forall k, t = TDir -> taken_for v k -> In k (map fst acc'))).
        { intros acc' -> Hn. split; [auto|]. split; [auto|]. split; [auto|]. intros k Et Hk. exfalso. exact (Hn Et k Hk). }
        destruct t; try (exists acc; split; [reflexivity|]; apply Same; [reflexivity|discriminate]).
        destruct (parse_version_directory v) as [m|x] eqn:Ep.
        - exists (ndset m v acc). split; [reflexivity|]. split; [now apply nodup_ndset|]. split; [|split].
          + intros k u Hi. apply in_ndset in Hi as [[-> ->]|Hi]; [right; split; [auto|split; [auto|now apply taken_parse]]|auto].
          + intros k Hk. apply in_fst_ndset. auto.
          + intros k _ Hk. apply taken_parse in Hk. apply in_fst_ndset. left. congruence.
        - rewrite (taken_raise _ _ Ep). exists acc. split; [reflexivity|]. apply Same; [reflexivity|]. intros _ k Hk. apply taken_parse in Hk. congruence. }
      destruct Ef as (acc' & -> & N1 & A1 & A2 & A3). cbn [ebind]. destruct (IH acc' N1) as (vs & E & B1 & B2 & B3 & B4).
      { intros k u Hi. apply A1 in Hi as [Hi|(-> & _ & Hi)]; auto. }
      exists vs. split; [exact E|]. split; [exact B1|]. split; [|split].
      + intros k u Hi. apply B2 in Hi as [Hi|[Hi1 Hi2]]; [apply A1 in Hi as [Hi|(-> & -> & Hi)]; [auto|]|]; right; (split; [|auto]); [now left|now right].
      + auto.
      + intros u k [E'|Hi] Hk; [injection E' as -> ->; apply B3, A3; auto|eauto]. }
  destruct (G [] ltac:(constructor) ltac:(intros ? ? [])) as (vs & E & B1 & B2 & _ & B4). exists vs. split; [exact E|]. split; [exact B1|]. split; [|exact B4].
  intros k v Hi. apply B2 in Hi as [[]|Hi]. exact Hi.
Qed.

Lemma check_sequence_ok n l : check_sequence n l = Ok tt \/ check_sequence n l = Raise ObjectException.
Proof. revert n. induction l as [|[m v] l IH]; intros n; [auto|]. cbn [check_sequence]. destruct (m =? n)%N; auto. Qed.
Lemma check_sequence_numbers l : forall n, check_sequence n l = Ok tt -> forall m, In m (map fst l) -> (n <= m)%N /\ forall j, (n <= j)%N -> (j <= m)%N -> In j (map fst l).
Proof.
  induction l as [|[m v] l IH]; intros n E k Hk; [destruct Hk|]. cbn [check_sequence] in E. destruct (N.eqb_spec m n) as [->|]; [|discriminate]. cbn [map fst] in *. destruct Hk as [<-|Hk].
  - split; [lia|]. intros j H1 H2. left. lia.
  - destruct (IH _ E k Hk) as [H1 H2]. split; [lia|]. intros j H3 H4. destruct (N.eq_dec n j) as [->|]; [now left|]. right. apply H2; lia.
Qed.

Lemma sequence_exact m : forall n l, StronglySorted (fun a b => (fst a <=? fst b)%N = true) l -> NoDup (map fst l) ->
  (forall k, In k (map fst l) <-> exists j, (n <= j < n + m)%nat /\ k = N.of_nat j) -> (forall k v, In (k, v) l -> v = vn (N.to_nat k)) ->
  l = map (fun j => (N.of_nat j, vn j)) (seq n m) /\ check_sequence (N.of_nat n) l = Ok tt.
Proof.
  induction m as [|m IH]; intros n l So Nd Hk Hv.
  - destruct l as [|[k v] l]; [auto|]. exfalso. destruct (proj1 (Hk k)) as (j & Hj & _); [now left|lia].
  - destruct l as [|[k v] l]; [exfalso; destruct (proj2 (Hk (N.of_nat n))); exists n; split; [lia|auto]|].
    apply StronglySorted_inv in So as [So Hd]. rewrite Forall_forall in Hd. cbn [map fst] in *. inversion Nd as [|? ? Hno Nd']; subst.
    assert (Ek : k = N.of_nat n).
    { destruct (proj1 (Hk k)) as (j & Hj & ->); [now left|]. destruct (proj2 (Hk (N.of_nat n))) as [E|Hi]; [exists n; split; [lia|auto]|auto|].
      apply in_map_iff in Hi as ([k' v'] & E & Hi). specialize (Hd _ Hi). cbn [fst] in *. subst k'. apply N.leb_le in Hd. assert (j = n) by lia. now subst j. }
    destruct (IH (S n) l So Nd') as [E1 E2].
    + intros x. split.
      * intros Hx. destruct (proj1 (Hk x)) as (j & Hj & Ex); [now right|]. exists j. split; [|auto]. assert (j <> n) by (intros ->; apply Hno; congruence). lia.
      * intros (j & Hj & ->). destruct (proj2 (Hk (N.of_nat j))) as [E|Hi]; [exists j; split; [lia|auto]| |auto]. exfalso. lia.
    + intros x u Hi. apply Hv. now right.
    + split.
      * cbn [seq map]. rewrite <- E1. f_equal. rewrite (Hv k v (or_introl eq_refl)), Ek. f_equal. f_equal. lia.
      * cbn [check_sequence]. rewrite Ek, N.eqb_refl. replace (N.of_nat n + 1)%N with (N.of_nat (S n)) by lia. exact E2.
Qed.

(** The directories that are there *)
Lemma listing w src : look w src = Some EDir -> Forall fname src -> tree w -> exists l, fs_ls w src [PathModel.slash] = Ok l /\
  forall v, In (v, TDir) l <-> look w (src ++ [v]) = Some EDir.
Proof.
  intros Hd Fs Tw. apply look_dir in Hd as [d Hd]. unfold fs_ls. assert (Ea : at_path src [PathModel.slash] = src) by now rewrite at_path_slash, at_path_nil. rewrite Ea, Hd. cbn [ebind].
  eexists. split; [reflexivity|]. intros v. rewrite (look_child _ _ _ _ Hd). pose proof (tree_get _ _ _ Tw Hd) as Td. apply tree_dir in Td as [Nk _].
  change (rstrip_slash [PathModel.slash]) with (@nil N). rewrite in_map_iff. split.
  - intros ([k m] & E & Hi). cbn [fst snd] in E. injection E as Ek E. change (k = v) in Ek. subst v. rewrite (In_dget _ _ _ Nk Hi). destruct m; try discriminate E. reflexivity.
  - intros E. destruct (dget v d) as [m|] eqn:Eg; [|discriminate]. exists (v, m). split; [|now apply dget_In]. cbn [fst snd]. destruct m; try discriminate E. reflexivity.
Qed.

Lemma sorted_numbers vs : let l := isort (fun a b : N * str => (fst a <=? fst b)%N) vs in
  StronglySorted (fun a b => (fst a <=? fst b)%N = true) l /\ Permutation vs l.
Proof.
  split; [|apply isort_perm]. apply isort_sorted.
  - intros a b. destruct (N.leb_spec (fst a) (fst b)); [now left|right; apply N.leb_le; lia].
  - intros a b c H1 H2. apply N.leb_le in H1, H2. apply N.leb_le. lia.
Qed.

Theorem version_dirs_found w src n : look w src = Some EDir -> Forall fname src -> tree w -> (N.of_nat n <= 99999)%N ->
  (forall k, (1 <= k <= n)%nat -> look w (src ++ [vn k]) = Some EDir) -> (forall v k, look w (src ++ [v]) = Some EDir -> taken_for v k -> exists j, (1 <= j <= n)%nat /\ v = vn j) ->
  version_dirs_in_order w src = Ok (map (fun k => (N.of_nat k, vn k)) (seq 1 n)).
Proof.
  intros Hd Fs Tw Hn Hk Ho. destruct (listing w src Hd Fs Tw) as (l & El & Hl). destruct (version_dirs_ok l) as (vs & Ev & Nd & V1 & V2).
  unfold version_dirs_in_order. rewrite El. cbn [ebind]. rewrite Ev. cbn [ebind]. destruct (sorted_numbers vs) as [So Pm]. set (s := isort _ vs) in *.
  assert (Hs : forall k v, In (k, v) s -> exists j, (1 <= j <= n)%nat /\ v = vn j /\ k = N.of_nat j).
  { intros k v Hi. apply (Permutation_in _ (Permutation_sym Pm)) in Hi. apply V1 in Hi as [Hi Ht]. apply Hl in Hi. destruct (Ho v k Hi Ht) as (j & Hj & ->). exists j. split; [auto|]. split; [auto|].
    apply taken_parse in Ht. pose proof (proj1 (taken_parse _ _) (taken_vn j ltac:(lia) ltac:(lia))) as E. congruence. }
  destruct (sequence_exact n 1 s So) as [E1 E2].
  - eapply Permutation_NoDup; [apply Permutation_map, Pm|exact Nd].
  - intros k. split.
    + intros Hi. apply in_map_iff in Hi as ([k' v] & <- & Hi). destruct (Hs _ _ Hi) as (j & Hj & _ & ->). exists j. split; [lia|auto].
    + intros (j & Hj & ->). apply (Permutation_in _ (Permutation_map fst Pm)). apply (V2 (vn j)); [apply Hl, Hk; lia|apply taken_vn; lia].
  - intros k v Hi. destruct (Hs _ _ Hi) as (j & _ & -> & ->). now rewrite Nat2N.id.
  - change 1%N with (N.of_nat 1). rewrite E2. cbn [ebind]. now rewrite E1.
Qed.

(** A version is missing. *)
Theorem version_dirs_gap w src v k j : look w src = Some EDir -> Forall fname src -> tree w -> look w (src ++ [v]) = Some EDir -> taken_for v k -> (1 <= j < k)%N ->
  (forall u, taken_for u j -> look w (src ++ [u]) <> Some EDir) -> version_dirs_in_order w src = Raise ObjectException.
Proof.
  intros Hd Fs Tw Hv Ht Hj Hno. destruct (listing w src Hd Fs Tw) as (l & El & Hl). destruct (version_dirs_ok l) as (vs & Ev & Nd & V1 & V2).
  unfold version_dirs_in_order. rewrite El. cbn [ebind]. rewrite Ev. cbn [ebind]. destruct (sorted_numbers vs) as [So Pm]. set (s := isort _ vs) in *.
  destruct (check_sequence_ok 1 s) as [E|E]; [|now rewrite E]. exfalso.
  assert (Hi : In k (map fst s)) by (apply (Permutation_in _ (Permutation_map fst Pm)); apply (V2 v); [now apply Hl|auto]).
  destruct (check_sequence_numbers s 1 E k Hi) as [_ C]. specialize (C j ltac:(lia) ltac:(lia)). apply in_map_iff in C as ([j' u] & E1 & C). cbn [fst] in E1. subst j'.
  apply (Permutation_in _ (Permutation_sym Pm)) in C. apply V1 in C as [C1 C2]. apply (Hno u C2). now apply Hl.
Qed.

(** ** Opening them *)
Lemma no_url_join s v : no_url s -> fname v -> no_url (path_join s v).
Proof.
  intros Hu Hv a b E. rewrite path_join_name in E by auto. assert (Ns : ~ In PathModel.slash v) by apply Hv.
  assert (In1 : forall x y, v <> x ++ PathModel.slash :: y) by (intros x y ->; apply Ns; apply in_or_app; right; now left).
  change (`"://") with ([58%N; PathModel.slash] ++ [PathModel.slash]) in E. replace (a ++ ([58%N; PathModel.slash] ++ [PathModel.slash]) ++ b) with ((a ++ [58%N; PathModel.slash]) ++ PathModel.slash :: b) in E by (rewrite <- !app_assoc; reflexivity).
  assert (Hu' : forall l, s <> (a ++ [58%N; PathModel.slash]) ++ PathModel.slash :: l) by (intros l ->; apply (Hu a l); rewrite <- app_assoc; reflexivity).
  destruct (last_opt s) as [c|] eqn:El; [|exact (In1 _ _ E)]. destruct (N.eqb_spec c PathModel.slash) as [->|Hc].
  - apply app_eq_app in E as [x [[E1 E2]|[E1 E2]]].
    + destruct x as [|y x]; [cbn in E2; now apply (In1 [] b)|]. cbn [app] in E2. injection E2 as <- _. exact (Hu' _ E1).
    + exact (In1 _ _ E2).
  - apply last_opt_some in El as [r El]. assert (Last : s <> a ++ [58%N; PathModel.slash]).
    { intros E'. apply Hc. rewrite E' in El. change [58%N; PathModel.slash] with ([58%N] ++ [PathModel.slash]) in El. rewrite app_assoc in El. now apply app_inj_tail in El as [_ <-]. }
    apply app_eq_app in E as [x [[E1 E2]|[E1 E2]]].
    + destruct x as [|y x]; [rewrite app_nil_r in E1; contradiction|]. cbn [app] in E2. injection E2 as <- _. exact (Hu' _ E1).
    + destruct x as [|y x]; [rewrite app_nil_r in E1; congruence|]. cbn [app] in E2. injection E2 as _ E2. exact (In1 _ _ E2).
Qed.
Lemma dest_join cwd s v : fname v -> dest_of cwd (path_join s v) = dest_of cwd s ++ [v].
Proof.
  intros Hv. unfold dest_of. assert (Eb : base_of cwd (path_join s v) = base_of cwd s).
  { rewrite path_join_name by auto. unfold base_of. destruct s as [|x s].
    - change (last_opt (@nil N)) with (@None N). cbv iota. rewrite plain_nostart by now apply fname_plain. reflexivity.
    - destruct (last_opt (x :: s)) as [c|] eqn:El; [|destruct (exists_last (l := x :: s)) as (r & z & E); [discriminate|]; rewrite E, last_opt_app in El; discriminate]. destruct (N.eqb c PathModel.slash); reflexivity. }
  rewrite Eb. now apply at_path_name.
Qed.

(** ** Writing one version and the root of the object *)

Lemma adds_below_trans w1 w2 w3 h : adds_below w1 h w2 -> adds_below w2 h w3 -> adds_below w1 h w3.
Proof. intros [A1 A2] [B1 B2]. split; [auto|]. intros q Hq. rewrite B2 by auto. now apply A2. Qed.

(** All files are below version directories. *)
Definition in_versions (n : nat) (S : list (place * bytes)) : Prop := forall r b, In (r, b) S -> exists k c x, (1 <= k <= n)%nat /\ r = vn k :: c :: x.

Section Write.
  Variables (H : hashfn) (h : place).
  Hypothesis HH : hash_ok H.
  Hypothesis Hh : Forall fname h.

  Definition finish (sd a : str) (i : inventory) : io unit :=
    write_object_declaration sd h ;; (write_inventory_and_sidecar H a h (Some i) [] ;; iret tt).

  Lemma not_there n S w v : holds w h S -> in_versions n S -> (forall k, (1 <= k <= n)%nat -> v <> vn k) -> look w (h ++ [v]) = None.
  Proof using.
    intros Hl Hv Hn. destruct (look w (h ++ [v])) eqn:E; [|auto]. exfalso. destruct (hl_only _ _ _ Hl [v] _ ltac:(discriminate) E) as (x & b & Hi).
    apply Hv in Hi as (k & c & y & Hk & Ek). cbn [app] in Ek. apply (f_equal (hd [])) in Ek. exact (Hn k Hk Ek).
  Qed.

  Theorem finish_ok sd a sp n i w S : In sd [`"1.0"; `"1.1"] -> sound a sp n i -> holds w h S -> in_versions n S -> tree w ->
    let x := finish sd a i in
    result x w = Ok tt /\ holds (after x w) h ([([decl_name sd], decl_text sd)] ++ inv_files H a i [] ++ S) /\ adds_below w h (after x w) /\ tree (after x w).
  Proof using HH Hh.
    intros Hsd So Hl Hv Tw x. pose proof (so_algs _ _ _ _ So) as Ha. pose proof (sound_writable _ _ _ _ So) as Wr. pose proof (hl_dir _ _ _ Hl) as Hd.
    set (D := [([decl_name sd], decl_text sd)]). set (L := inv_files H a i []).
    assert (Root : forall r b, In (r, b) (D ++ L) -> exists k, r = [k] /\ fname k /\ (k = decl_name sd \/ k = inv_name \/ k = side_name a)).
    { unfold D, L, inv_files. cbn [app In]. intros r b [E|[E|[E|[]]]]; injection E as <- _.
      - exists (decl_name sd). split; [auto|]. split; [now apply fname_decl|auto].
      - exists inv_name. split; [auto|]. split; [exact fname_inv|auto].
      - exists (side_name a). split; [auto|]. split; [now apply fname_side, algs_no_slash|auto]. }
    assert (Free : forall k, k = decl_name sd \/ k = inv_name \/ k = side_name a -> look w (h ++ [k]) = None).
    { intros k Hk. apply (not_there n S w k Hl Hv). intros m _ ->. destruct (vn_starts m) as [y Ey]. rewrite Ey in Hk. destruct Hk as [Hk|[Hk|Hk]]; discriminate. }
    assert (R : room w h (D ++ L)).
    { apply room_fresh; auto.
      - intros r b Hi. destruct (Root r b Hi) as (k & -> & Fk & Hk). exists k, []. split; [auto|]. split; [auto|]. now apply Free.
      - unfold D, L, inv_files. cbn [app map fst]. constructor; [|constructor; [|constructor; [intros []|constructor]]].
        + intros [E|[E|[]]]; discriminate (f_equal (fun l => hd [] l) E).
        + intros [E|[]]. exact (side_not_inv_name a (f_equal (hd []) E)).
      - intros r b r' b' y H1 H2 E. destruct (Root _ _ H1) as (k & -> & _). destruct (Root _ _ H2) as (k' & -> & _). cbn [app] in E. now injection E. }
    destruct (write_declaration_ok sd h w Hsd Hh Hd) as [R1 P1]; [apply Free; auto|]. set (x1 := write_object_declaration sd h) in *. set (w1 := after x1 w) in *. change (placed w h D w1) in P1.
    pose proof (room_app _ _ _ _ _ R P1) as Q1. pose proof (placed_keep _ _ _ _ _ _ (room_prefix _ _ _ _ R) P1 Hd) as Hd1.
    destruct (write_inventory_placed H a h i [] w1 HH Ha Hh (Forall_nil _) Wr) as [[s2 R2] P2].
    { now rewrite app_nil_r. }
    { eapply (rm_free _ _ _ Q1 [inv_name]). left. reflexivity. }
    { eapply (rm_free _ _ _ Q1 [side_name a]). right. left. reflexivity. }
    change (join [slash] []) with (@nil N) in R2, P2. set (x2 := write_inventory_and_sidecar H a h (Some i) []) in *.
    pose proof (placed_app _ _ _ _ _ _ R P1 P2) as P. 
    assert (Ex : result x w = Ok tt /\ after x w = after x2 w1).
    { unfold x, finish. fold x1 x2. rewrite (result_seq x1 _ w tt R1), (after_seq x1 _ w tt R1). fold w1. rewrite (result_seq x2 _ w1 s2 R2), (after_seq x2 _ w1 s2 R2). auto. }
    destruct Ex as [E1 E2]. rewrite E2. split; [exact E1|]. split; [|split; [exact (placed_below _ _ _ _ R Hd P)|]].
    - pose proof (placed_holds _ _ _ _ _ Hl R P) as Hl'. eapply holds_ext; [exact Hl'|]. intros r b. rewrite !in_app_iff. tauto.
    - apply tree_after; [apply tree_after; [auto|now apply named_declaration]|now apply named_write_inventory].
  Qed.

  Definition version_writes (a : str) (src : place) (m : nat) (nv : new_version) : io unit :=
    write_inventory_and_sidecar H a h (Some (nv_inv nv)) (vn m) ;; copy_files h src (nv_copy nv).

  Theorem version_ok a sp n i0 norm fd dd old F nv K src w S : growing H a sp (Datatypes.S n) i0 norm fd dd old F nv ->
    copied norm (vn (Datatypes.S n)) (content_directory_to_use i0) F (nv_copy nv) K ->
    content_directory_to_use i0 <> inv_name -> content_directory_to_use i0 <> side_name a ->
    holds w h S -> in_versions n S -> tree w -> (forall s r b, In (s, (r, b)) K -> look w (at_path src s) = Some (EFile b)) ->
    let x := version_writes a src (Datatypes.S n) nv in
    let S' := S ++ inv_files H a (nv_inv nv) [vn (Datatypes.S n)] ++ map snd K in
    result x w = Ok tt /\ holds (after x w) h S' /\ in_versions (Datatypes.S n) S' /\ adds_below w h (after x w) /\ tree (after x w).
  Proof using HH Hh.
    intros G Kc A1 A2 Hl Hv Tw Hs x S'. pose proof (gw_sound _ _ _ _ _ _ _ _ _ _ _ G) as So. pose proof (so_algs _ _ _ _ So) as Ha. pose proof (sound_writable _ _ _ _ So) as Wr.
    pose proof (hl_dir _ _ _ Hl) as Hd. set (m := Datatypes.S n) in *. set (V := inv_files H a (nv_inv nv) [vn m]) in *.
    assert (No : look w (h ++ [vn m]) = None) by (apply (not_there n S w _ Hl Hv); intros k Hk E; apply vn_inj in E; unfold m in E; lia).
    assert (R : room w h (V ++ map snd K)).
    { apply room_fresh; auto.
      - intros r b Hi. destruct (new_case H a sp m i0 norm fd dd old F nv K G Kc r b Hi) as [Fr _]. destruct (new_below H a sp m i0 norm fd dd old F nv K G Kc r b Hi) as (c & r' & ->). eauto.
      - exact (new_nodup H a sp m i0 norm fd dd old F nv K G Kc A1 A2).
      - intros r b r' b' y. exact (new_apart H a sp m i0 norm fd dd old F nv K G Kc A1 A2 r b r' b' y). }
    destruct (write_version_placed H a h (nv_inv nv) (vn m) w HH Ha Hh (vn_fname m) Wr Hd No) as [[s1 R1] P1]. set (x1 := write_inventory_and_sidecar H a h (Some (nv_inv nv)) (vn m)) in *. set (w1 := after x1 w) in *.
    change (placed w h V w1) in P1. pose proof (room_app _ _ _ _ _ R P1) as Q1.
    destruct (copy_files_ok h src K Hh w1 Q1) as [R2 P2].
    { intros s r b Hi. exact (placed_keep _ _ _ _ _ _ (room_prefix _ _ _ _ R) P1 (Hs s r b Hi)). }
    match type of R2 with result (copy_files _ _ ?mm) _ = _ => assert (Ek : mm = nv_copy nv) by exact (eq_sym (cp_files _ _ _ _ _ _ Kc)) end. rewrite Ek in R2, P2. clear Ek.
    set (x2 := copy_files h src (nv_copy nv)) in *. pose proof (placed_app _ _ _ _ _ _ R P1 P2) as P.
    assert (Ex : result x w = Ok tt /\ after x w = after x2 w1).
    { unfold x, version_writes. fold x1 x2. rewrite (result_seq x1 _ w s1 R1), (after_seq x1 _ w s1 R1). fold w1. auto. }
    destruct Ex as [E1 E2]. rewrite E2. split; [exact E1|]. split; [exact (placed_holds _ _ _ _ _ Hl R P)|]. split; [|split; [exact (placed_below _ _ _ _ R Hd P)|]].
    - intros r b Hi. apply in_app_or in Hi as [Hi|Hi].
      + destruct (Hv r b Hi) as (k & c & y & Hk & ->). exists k, c, y. split; [unfold m; lia|auto].
      + destruct (new_below H a sp m i0 norm fd dd old F nv K G Kc r b Hi) as (c & r' & ->). exists m, c, r'. split; [unfold m; lia|auto].
    - apply tree_after; [apply tree_after; [auto|now apply named_write_inventory]|now apply named_copy_files].
  Qed.
End Write.

(** ** All versions *)
Lemma based_self H w h sd n alg spec ivs C : made H w h sd n alg spec ivs C -> based H n alg ivs C (alg n) (ivs n).
Proof.
  intros M. pose proof (md_some _ _ _ _ _ _ _ _ _ M) as Hn. constructor; auto; try reflexivity.
  - intros k v d Hk Hv Ea. exact (md_keys _ _ _ _ _ _ _ _ _ M k v d Hk Hv Ea).
  - intros d c Hs. apply (md_digests _ _ _ _ _ _ _ _ _ M n); [lia|auto].
  - intros x d c Hf. apply (md_fixity _ _ _ _ _ _ _ _ _ M n); [lia|auto].
Qed.

Definition stage (H : hashfn) (alg : nat -> str) (ivs : nat -> inventory) (k : nat) (C : list (place * bytes)) : list (place * bytes) :=
  flat_map (fun j => inv_files H (alg j) (ivs j) [vn j]) (seq 1 k) ++ C.
Lemma stage_next H alg ivs k C a i D r b : In (r, b) (stage H (upd alg (S k) a) (upd ivs (S k) i) (S k) (C ++ D)) <-> In (r, b) (stage H alg ivs k C ++ inv_files H a i [vn (S k)] ++ D).
Proof.
  unfold stage. rewrite seq_S, flat_map_app. cbn [flat_map Nat.add]. rewrite app_nil_r, !upd_same.
  assert (E : flat_map (fun j => inv_files H (upd alg (S k) a j) (upd ivs (S k) i j) [vn j]) (seq 1 k) = flat_map (fun j => inv_files H (alg j) (ivs j) [vn j]) (seq 1 k)).
  { assert (G : forall l, (forall j, In j l -> (j <= k)%nat) -> flat_map (fun j => inv_files H (upd alg (S k) a j) (upd ivs (S k) i j) [vn j]) l = flat_map (fun j => inv_files H (alg j) (ivs j) [vn j]) l).
    { induction l as [|j l IH]; intros Hl; [reflexivity|]. cbn [flat_map]. rewrite IH by (intros x Hx; apply Hl; now right). rewrite !upd_other by (specialize (Hl j (or_introl eq_refl)); lia). reflexivity. }
    apply G. intros j Hj. apply in_seq in Hj. lia. }
  rewrite E. rewrite !in_app_iff. tauto.
Qed.

Section Build.
  Variables (H : hashfn) (h : place) (sd : str) (P : object -> Prop) (c : object) (e : env) (w : node) (sp op id : str) (ms : N -> option vmeta) (n : nat).
  Hypothesis HH : hash_ok H.
  Hypothesis Tw : tree w.
  Hypothesis Bc : build_call c e w sp op id ms h n.
  Hypothesis Pc : P c.
  Hypothesis Es : o_spec c = sd.
  Hypothesis Hcd : forall c', P c' -> o_cdir c <> Some (side_name (o_alg c')).
  Let src := dest_of (e_cwd e) sp.
  Let w1 := after (open_obj_fs e (Some op) true) w.

  Lemma hop : result (open_obj_fs e (Some op) true) w = Ok h /\ holds w1 h [] /\ (forall q, q <> h -> look w1 q = look w q) /\ Forall fname h /\ tree w1.
  Proof using Tw Bc. exact (open_new e w op h (bc_cwd _ _ _ _ _ _ _ _ _ Bc) Tw (bc_place _ _ _ _ _ _ _ _ _ Bc)). Qed.
  Lemma outside k y x : (1 <= k <= n)%nat -> src ++ vn k :: y <> h ++ x.
  Proof using Bc.
    intros Hk E. pose proof (bc_range _ _ _ _ _ _ _ _ _ Bc) as Hr. pose proof (sk_dir _ _ _ (bc_source _ _ _ _ _ _ _ _ _ Bc k Hk)) as Hd. fold src in Hd.
    assert (Hno : forall z, src ++ [vn k] = h ++ z -> z <> [] -> False).
    { intros z Ez Hz. rewrite Ez in Hd. destruct (np_free _ _ _ _ (bc_place _ _ _ _ _ _ _ _ _ Bc)) as (p & kk & _ & _ & [(_ & Hn & _)|(_ & _ & Hn)]).
      - rewrite look_below_leaf in Hd; [discriminate|auto|]. rewrite Hn. discriminate.
      - rewrite (Hn z Hz) in Hd. discriminate. }
    apply app_eq_app in E as [z [[E1 E2]|[E1 E2]]].
    - apply (Hno (z ++ [vn k])); [now rewrite E1, app_assoc|]. destruct z; discriminate.
    - destruct z as [|v z].
      + rewrite app_nil_r in E1. apply (Hno [vn k]); [now rewrite E1|discriminate].
      + cbn [app] in E2. apply (f_equal (hd [])) in E2. cbn [hd] in E2. subst v. apply (bc_out _ _ _ _ _ _ _ _ _ Bc (vn k) (N.of_nat k) z); [apply taken_vn; clear -Hk Hr; lia|exact E1].
  Qed.
  Lemma src_same w' k y : adds_below w1 h w' -> (1 <= k <= n)%nat -> look w' ((src ++ [vn k]) ++ y) = look w ((src ++ [vn k]) ++ y).
  Proof using Tw Bc.
    intros [_ A] Hk. rewrite <- app_assoc. cbn [app]. rewrite A by (intros x; now apply outside). apply hop. intros E. apply (outside k y [] Hk). now rewrite app_nil_r.
  Qed.
  Lemma src_ok w' k : adds_below w1 h w' -> (1 <= k <= n)%nat -> source_ok (o_norm c) w' (src ++ [vn k]).
  Proof using Tw Bc.
    intros A Hk. destruct (bc_source _ _ _ _ _ _ _ _ _ Bc k Hk) as [S1 S2 S3]. fold src in S1, S2, S3. pose proof (src_same w' k) as Sm. constructor.
    - rewrite <- (app_nil_r (src ++ [vn k])), Sm, app_nil_r by auto. exact S1.
    - intros es b. rewrite Sm by auto. apply S2.
    - intros es. rewrite Sm by auto. apply S3.
  Qed.
  Lemma src_files w' k F : adds_below w1 h w' -> (1 <= k <= n)%nat -> files_at w' (src ++ [vn k]) F <-> files_at w (src ++ [vn k]) F.
  Proof using Tw Bc. intros A Hk. unfold files_at. split; intros [N1 N2]; (split; [auto|]); intros es b; rewrite N2; rewrite (src_same w' k es A Hk); reflexivity. Qed.
  Lemma src_open w' k : adds_below w1 h w' -> (1 <= k <= n)%nat ->
    result (open_src_fs e (Some (path_join sp (vn k)))) w' = Ok (src ++ [vn k]) /\ after (open_src_fs e (Some (path_join sp (vn k)))) w' = w'.
  Proof using Tw Bc.
    intros A Hk. pose proof (dest_join (e_cwd e) sp (vn k) (vn_fname k)) as Ed. unfold open_src_fs.
    assert (Hd : look w' (dest_of (e_cwd e) (path_join sp (vn k))) = Some EDir) by (rewrite Ed; exact (sk_dir _ _ _ (src_ok w' k A Hk))).
    destruct (open_there (e_cwd e) (path_join sp (vn k)) w' (no_url_join _ _ (bc_url _ _ _ _ _ _ _ _ _ Bc) (vn_fname k)) Hd) as [R1 R2]. split; [|exact R2]. rewrite R1. f_equal. exact Ed.
  Qed.

  (** After some versions *)
  Definition staged (w' : node) (i : inventory) (l : list (list (place * bytes))) : Prop :=
    exists alg spec ivs C, holds w' h (stage H alg ivs (List.length l) C) /\ in_versions (List.length l) (stage H alg ivs (List.length l) C) /\ tree w' /\ adds_below w1 h w' /\
      tracked H h sd P (after (finish H h sd (o_alg c) i) w') l alg spec ivs C /\ alg (List.length l) = o_alg c /\ ivs (List.length l) = i.

  Lemma sd_known : In sd [`"1.0"; `"1.1"].
  Proof using Bc Es. rewrite <- Es. apply (bc_first _ _ _ _ _ _ _ _ _ Bc). Qed.
  Lemma below_refl w' : adds_below w' h w'.
  Proof using. split; auto. Qed.

  Lemma step_first F : files_at w (src ++ [vn 1]) F -> let x := build_version H c e id sp ms (Some h) None (N.of_nat 1, vn 1) in
    exists i, result x w1 = Ok i /\ staged (after x w1) i [F].
  Proof using HH Tw Bc Pc Es Hcd.
    intros Fa x. destruct hop as (_ & O2 & O3 & O4 & O5). pose proof (bc_range _ _ _ _ _ _ _ _ _ Bc) as Hr. assert (H1 : (1 <= 1 <= n)%nat) by lia.
    pose proof (below_refl w1) as A0. pose proof (src_ok w1 1 A0 H1) as Sk. destruct (src_open w1 1 A0 H1) as [Q1 Q2].
    assert (Fi : exists es b, look w1 ((src ++ [vn 1]) ++ es) = Some (EFile b)).
    { destruct (bc_file _ _ _ _ _ _ _ _ _ Bc) as (es & b & Hf). exists es, b. rewrite src_same by auto. rewrite <- app_assoc. exact Hf. }
    destruct (first_start id (o_alg c) (o_spec c) (o_cdir c) (as_dict (e_now e) (meta_for ms 1)) (o_dedupe c) (or_empty (o_fixity c)) (o_norm c) (bc_first _ _ _ _ _ _ _ _ _ Bc) (meta_block _ _ (bc_meta _ _ _ _ _ _ _ _ _ Bc 1%nat H1)) eq_refl)
      as (i & E1 & B1 & B2 & B3 & B4 & B5 & B6 & B7 & B8).
    destruct (from_srcdir_first H (o_alg c) (o_spec c) i (o_norm c) (o_dedupe c) w1 (src ++ [vn 1]) HH (bc_norm _ _ _ _ _ _ _ _ _ Bc) B1 B2 B3 B4 B5 O5 Sk Fi) as (F' & nv & E2 & Fa' & G).
    set (i0 := blank (`"v1") i) in *.
    assert (Ec : content_directory_to_use i0 = match o_cdir c with Some cd => cd | None => DEFAULT_CONTENT_DIRECTORY end).
    { rewrite <- B8. destruct B4 as [vb Hv]. unfold i0, blank, set_state, update_version. rewrite Hv. reflexivity. }
    assert (Em : manifest i0 = []) by (unfold i0, blank; rewrite manifest_set_state; unfold manifest; now rewrite B5).
    destruct (copied_exists _ _ _ _ _ _ _ _ _ _ _ G) as [K Kc]. change (version_fmt None (N.of_nat 1)) with (vn 1) in Kc.
    pose proof (files_names w1 _ F' O5 (sk_dir _ _ _ Sk) Fa') as Nf. pose proof (proj1 Fa') as Nd.
    assert (A : content_directory_to_use i0 <> inv_name /\ content_directory_to_use i0 <> side_name (o_alg c)).
    { rewrite Ec. destruct (o_cdir c) as [cd|] eqn:Ed; [now apply (bc_cdir _ _ _ _ _ _ _ _ _ Bc)|]. split; discriminate. }
    destruct A as [A1 A2].
    assert (Fs : Forall fname (src ++ [vn 1])) by (apply (look_fnames w1); [auto|rewrite (sk_dir _ _ _ Sk); discriminate]).
    assert (Hs : forall s r b, In (s, (r, b)) K -> look w1 (at_path (src ++ [vn 1]) s) = Some (EFile b)).
    { intros s r b Hi. destruct (cp_each _ _ _ _ _ _ Kc _ _ _ Hi) as (es & r' & Hie & -> & _). destruct (Nf _ _ Hie) as [_ Fe]. rewrite at_path_join by auto. now apply (proj2 Fa'). }
    destruct (version_ok H h HH O4 (o_alg c) (o_spec c) 0 i0 (o_norm c) false (o_dedupe c) None F' nv K (src ++ [vn 1]) w1 [] G Kc A1 A2 O2) as (R & Hl & Hv & Ad & T'); [intros r b []|auto|auto|].
    set (y := version_writes H h (o_alg c) (src ++ [vn 1]) 1 nv) in *.
    assert (Ex : result x w1 = Ok (nv_inv nv) /\ after x w1 = after y w1).
    { unfold x, build_version. rewrite (result_seq _ _ w1 _ Q1), (after_seq _ _ w1 _ Q1), Q2. rewrite result_read, after_read. cbv beta. change (str_eqb (vn 1) (`"v1")) with true. cbv iota.
      assert (Ef : first_of c e id (Some (meta_for ms 1)) = Ok (mk_nv i (o_norm c) false (o_dedupe c) None [])) by exact E1. unfold meta_for in Ef. rewrite Ef. cbn [ebind]. rewrite E2.
      change (write_inventory_and_sidecar H (o_alg c) h (Some (nv_inv nv)) (vn 1) ;; copy_files h (src ++ [vn 1]) (nv_copy nv)) with y. rewrite (result_seq y _ w1 tt R), (after_seq y _ w1 tt R). auto. }
    destruct Ex as [Ex1 Ex2]. exists (nv_inv nv). split; [exact Ex1|]. rewrite Ex2.
    pose proof (gw_sound _ _ _ _ _ _ _ _ _ _ _ G) as So. 
    destruct (finish_ok H h HH O4 sd (o_alg c) (o_spec c) 1 (nv_inv nv) (after y w1) _ sd_known So Hl Hv T') as (_ & Hl2 & _ & T2).
    exists (fun _ => o_alg c), (fun _ => o_spec c), (fun _ => nv_inv nv), (map snd K). cbn [List.length].
    assert (Est : stage H (fun _ => o_alg c) (fun _ => nv_inv nv) 1 (map snd K) = [] ++ inv_files H (o_alg c) (nv_inv nv) [vn 1] ++ map snd K) by (unfold stage; cbn [seq flat_map]; now rewrite app_nil_r).
    rewrite Est. split; [exact Hl|]. split; [exact Hv|]. split; [auto|]. split; [exact Ad|]. split; [|auto].
    assert (No : forall p, ~ In p (paths_of (manifest i0))) by (rewrite Em; intros p []).
    assert (Fu : full i0).
    { unfold i0, blank. apply set_state_full.
      - intros d l Hi. assert (Ei : manifest i = []) by (unfold manifest; now rewrite B5). rewrite Ei in Hi. destruct Hi.
      - intros d l [].
      - intros v st Hv' (vs & b & X1 & X2 & _). rewrite B7 in X1. apply Some_inv in X1. subst vs. destruct X2 as [X2|[]]. exfalso. apply Hv'. congruence.
      - intros vs X1. rewrite B7 in X1. apply Some_inv in X1. subst vs. constructor; [intros []|constructor]. }
    pose proof (proj1 (src_files w1 1 F' A0 H1) Fa') as Fw. pose proof (files_unique _ _ _ _ Fw Fa) as EF.
    refine (track_first H h sd P c _ i0 (o_norm c) false (o_dedupe c) None F F' nv K Pc Es Hcd eq_refl G Kc _ _ Ec (gw_full _ _ _ _ _ _ _ _ _ _ _ G Fu) EF (proj1 Fa) _ _).
    - intros d p Hst. apply (No p). apply In_paths_of. exists d. now apply stored_iff.
    - intros v d p Hst. pose proof B2 as So'. apply (in_state_iff _ _ _ _ (sound_dicts _ _ _ _ So')) in Hst. unfold i0, blank, state, versiondata, set_state, update_version in Hst. destruct B4 as [vb Hv']. rewrite Hv' in Hst.
      unfold versions_block at 1, set_versions in Hst. cbn [i_versions or_empty] in Hst. destruct (str_eqb_spec v (`"v1")) as [->|Hne].
      + rewrite dget_dset_same in Hst. destruct Hst as (l & [] & _).
      + rewrite dget_dset_other in Hst by auto. unfold versions_block in Hst. rewrite B7 in Hst. cbn [or_empty dget] in Hst. apply str_eqb_neq in Hne. rewrite Hne in Hst. destruct Hst as (l & [] & _).
    - intros r b Hb. apply EF in Hb. eauto.
    - apply (made_first H _ h (o_alg c) (o_spec c) i0 (o_norm c) false (o_dedupe c) None F' nv K); auto.
      rewrite Es in *. unfold object_files. cbn [seq flat_map]. rewrite app_nil_r. exact Hl2.
  Qed.

  Lemma step_next w' i l F : staged w' i l -> let k := S (List.length l) in (k <= n)%nat -> files_at w (src ++ [vn k]) F ->
    let x := build_version H c e id sp ms (Some h) (Some i) (N.of_nat k, vn k) in
    exists i', result x w' = Ok i' /\ staged (after x w') i' (l ++ [F]).
  Proof using HH Tw Bc Pc Es Hcd.
    intros (alg & spec & ivs & C & Hl & Hv & T' & Ad & T & Ea & Ei) k Hk Fa x. set (g := after (finish H h sd (o_alg c) i) w') in *.
    pose proof (tr_made _ _ _ _ _ _ _ _ _ _ T) as M. pose proof (tracked_some _ _ _ _ _ _ _ _ _ _ T) as Hn1. set (m := List.length l) in *.
    destruct hop as (_ & _ & _ & O4 & _). pose proof (bc_range _ _ _ _ _ _ _ _ _ Bc) as Hr. assert (Hkn : (1 <= k <= n)%nat) by (unfold k; lia).
    pose proof (src_ok w' k Ad Hkn) as Sk. destruct (src_open w' k Ad Hkn) as [Q1 Q2].
    assert (So : sound (o_alg c) (spec m) m i) by (rewrite <- Ea, <- Ei; exact (md_head _ _ _ _ _ _ _ _ _ M)).
    assert (B : based H m alg ivs C (o_alg c) i) by (rewrite <- Ea, <- Ei; exact (based_self _ _ _ _ _ _ _ _ _ M)).
    destruct (next_start (o_alg c) (spec m) m i (as_dict (e_now e) (meta_for ms k)) (o_norm c) (o_forward_delta c) (o_dedupe c) false None So ltac:(unfold k in Hkn; lia) (meta_block _ _ (bc_meta _ _ _ _ _ _ _ _ _ Bc k Hkn))) as (i0 & E & Nf).
    cbv iota in Nf. pose proof (nf_sound _ _ _ _ _ _ Nf) as Si0.
    assert (Ec : content_directory_to_use i0 = content_directory_to_use i) by (unfold content_directory_to_use; now rewrite (nf_cdir _ _ _ _ _ _ Nf)).
    assert (Eman : manifest i0 = manifest i) by (unfold manifest; now rewrite (nf_manifest _ _ _ _ _ _ Nf)).
    destruct (from_srcdir_grow H (o_alg c) (`"1.1") k i0 (o_norm c) (o_forward_delta c) (o_dedupe c) None w' (src ++ [vn k])
      (mk_nv i0 (o_norm c) (o_forward_delta c) (o_dedupe c) None []) HH (bc_norm _ _ _ _ _ _ _ _ _ Bc)) as (F' & nv & E2 & Fa' & G).
    { intros p Hp. rewrite Eman in Hp. destruct (so_content _ _ _ _ So p Hp) as (v & r & Hv' & _ & Hf & _ & ->). exists v, r. rewrite Ec. replace (k - 1)%nat with m by (unfold k; lia). auto. }
    { intros d p Hs. apply (nf_state _ _ _ _ _ _ Nf) in Hs as [(vs & b & st & l0 & Hvs & Hb & _)|[_ (l0 & [] & _)]].
      destruct (so_versions _ _ _ _ So) as (vs' & Hvs' & Pm). assert (vs' = vs) by congruence. subst vs'.
      assert (Hi : In (version_fmt None (N.of_nat k)) (names None m)) by (apply (Permutation_in _ Pm); apply in_map_iff; eexists; split; [|exact Hb]; reflexivity).
      now apply not_next in Hi. }
    { exact T'. }
    { exact Sk. }
    { now apply growing_start. }
    destruct (copied_exists _ _ _ _ _ _ _ _ _ _ _ G) as [K Kc]. change (version_fmt None (N.of_nat k)) with (vn k) in Kc.
    pose proof (files_names w' _ F' T' (sk_dir _ _ _ Sk) Fa') as Nm. pose proof (proj1 Fa') as Nd.
    assert (Fs : Forall fname (src ++ [vn k])) by (apply (look_fnames w'); [auto|rewrite (sk_dir _ _ _ Sk); discriminate]).
    assert (Hs : forall s r b, In (s, (r, b)) K -> look w' (at_path (src ++ [vn k]) s) = Some (EFile b)).
    { intros s r b Hi. destruct (cp_each _ _ _ _ _ _ Kc _ _ _ Hi) as (es & r' & Hie & -> & _). destruct (Nm _ _ Hie) as [_ Fe]. rewrite at_path_join by auto. now apply (proj2 Fa'). }
    assert (A2 : content_directory_to_use (ivs m) <> side_name (o_alg c)) by exact (tr_cdir _ _ _ _ _ _ _ _ _ _ T c Pc).
    assert (A1' : content_directory_to_use i0 <> inv_name) by (rewrite Ec, <- Ei; apply M).
    assert (A2' : content_directory_to_use i0 <> side_name (o_alg c)) by (rewrite Ec, <- Ei; exact A2).
    destruct (version_ok H h HH O4 (o_alg c) (`"1.1") m i0 (o_norm c) (o_forward_delta c) (o_dedupe c) None F' nv K (src ++ [vn k]) w' _ G Kc A1' A2' Hl Hv T' Hs) as (R & Hl' & Hv' & Ad' & T1).
    change (S m) with k in R, Hl', Hv', Ad', T1. set (y := version_writes H h (o_alg c) (src ++ [vn k]) k nv) in *.
    assert (Ex : result x w' = Ok (nv_inv nv) /\ after x w' = after y w').
    { unfold x, build_version. rewrite (result_seq _ _ w' _ Q1), (after_seq _ _ w' _ Q1), Q2. rewrite result_read, after_read. cbv beta.
      assert (Ev : str_eqb (vn k) (`"v1") = false) by (apply str_eqb_neq; change (`"v1") with (vn 1); intros Ev; apply vn_inj in Ev; unfold k in Ev; lia). rewrite Ev.
      change (metadata_dict e (Some match ms (N.of_nat k) with Some mm => mm | None => empty_vmeta end)) with (Some (as_dict (e_now e) (meta_for ms k))).
      change DEFAULT_SPEC_VERSION with (`"1.1"). rewrite E. cbn [ebind]. rewrite E2.
      change (write_inventory_and_sidecar H (o_alg c) h (Some (nv_inv nv)) (vn k) ;; copy_files h (src ++ [vn k]) (nv_copy nv)) with y. rewrite (result_seq y _ w' tt R), (after_seq y _ w' tt R). auto. }
    destruct Ex as [Ex1 Ex2]. exists (nv_inv nv). split; [exact Ex1|]. rewrite Ex2.
    pose proof (gw_sound _ _ _ _ _ _ _ _ _ _ _ G) as Son.
    destruct (finish_ok H h HH O4 sd (o_alg c) (`"1.1") k (nv_inv nv) (after y w') _ sd_known Son Hl' Hv' T1) as (_ & Hl2 & _ & T2).
    exists (upd alg k (o_alg c)), (upd spec k (`"1.1")), (upd ivs k (nv_inv nv)), (C ++ map snd K).
    assert (El : List.length (l ++ [F]) = k) by (rewrite app_length; cbn [List.length]; unfold k, m; lia). rewrite El.
    pose proof (fun r b => stage_next H alg ivs m C (o_alg c) (nv_inv nv) (map snd K) r b) as Sn. change (S m) with k in Sn.
    split; [eapply holds_ext; [exact Hl'|]; intros r b; symmetry; apply Sn|].
    split; [intros r b Hi; apply Sn in Hi; exact (Hv' r b Hi)|]. split; [exact T1|]. split; [eapply adds_below_trans; eauto|]. split; [|now rewrite !upd_same].
    pose proof (proj1 (src_files w' k F' Ad Hkn) Fa') as Fw. pose proof (files_unique _ _ _ _ Fw Fa) as EF.
    refine (track_next H h sd P c g _ l alg spec ivs C i (spec m) (as_dict (e_now e) (meta_for ms k)) i0 (o_norm c) (o_forward_delta c) (o_dedupe c) None F F' nv K T Pc (conj eq_refl eq_refl) So _ _ Nf G Kc EF (proj1 Fa) _ _).
    - rewrite <- Ei. apply (tr_full _ _ _ _ _ _ _ _ _ _ T). unfold m. lia.
    - intros d p p' X1 X2. rewrite <- Ei in X1, X2. eauto.
    - intros r b Hb. apply EF in Hb. eauto.
    - refine (made_next H g _ h sd m alg spec ivs C (o_alg c) (`"1.1") i0 (o_norm c) (o_forward_delta c) (o_dedupe c) None F' nv K M _ Si0 G Kc Nm Nd _ A2 T2 _).
      + eapply next_continues; eauto. apply So.
      + apply (tr_spec _ _ _ _ _ _ _ _ _ _ T). destruct (bc_spec _ _ _ _ _ _ _ _ _ Bc) as [E'|E']; [left; congruence|right; unfold k in Hkn; fold m; lia].
      + eapply holds_ext; [exact Hl2|]. intros r b. unfold object_files. rewrite !upd_same. rewrite !in_app_iff. fold (stage H alg ivs m C). pose proof (Sn r b) as Q. unfold stage in Q at 1. rewrite !in_app_iff in Q. tauto.
  Qed.

  Lemma steps_rest l2 : forall w' i l, staged w' i l -> Forall2 (fun k F => files_at w (src ++ [vn k]) F) (seq (S (List.length l)) (List.length l2)) l2 -> (List.length l + List.length l2 <= n)%nat ->
    let x := build_versions H c e id sp ms (Some h) (Some i) (map (fun k => (N.of_nat k, vn k)) (seq (S (List.length l)) (List.length l2))) in
    exists i', result x w' = Ok (Some i') /\ staged (after x w') i' (l ++ l2).
  Proof using HH Tw Bc Pc Es Hcd.
    induction l2 as [|F l2 IH]; intros w' i l Sg Fa Hn.
    - cbn [List.length seq map build_versions]. rewrite app_nil_r. exists i. auto.
    - cbn [List.length seq map build_versions] in *. inversion Fa as [|? ? ? ? Fa1 Fa2 E1 E2]; subst.
      destruct (step_next w' i l F Sg ltac:(lia) Fa1) as (i' & R & Sg'). cbv zeta in R, Sg'. set (x1 := build_version H c e id sp ms (Some h) (Some i) _) in *.
      rewrite (result_seq x1 _ w' i' R), (after_seq x1 _ w' i' R). assert (El : List.length (l ++ [F]) = S (List.length l)) by (rewrite app_length; cbn [List.length]; lia).
      specialize (IH (after x1 w') i' (l ++ [F]) Sg'). rewrite El in IH. destruct (IH Fa2 ltac:(lia)) as (i2 & R2 & Sg2). exists i2. split; [exact R2|]. rewrite <- app_assoc in Sg2. exact Sg2.
  Qed.

  (** What building an object does *)
  Theorem build_made_inv l : Forall2 (fun k F => files_at w (src ++ [vn k]) F) (seq 1 n) l ->
    let x := build H c e sp ms (Some op) in
    (exists i alg spec ivs C, result x w = Ok (Some i) /\ tracked H h sd P (after x w) l alg spec ivs C /\ ivs (List.length l) = i /\
      exists w1, result (build_versions H c e id sp ms (Some h) None (map (fun k => (N.of_nat k, vn k)) (seq 1 n))) w1 = Ok (Some i)) /\
    (forall q en, look w q = Some en -> look (after x w) q = Some en) /\ (forall q, (forall y, q <> h ++ y) -> look (after x w) q = look w q).
  Proof using HH Tw Bc Pc Es Hcd.
    intros Fa x. destruct hop as (O1 & O2 & O3 & O4 & O5). pose proof (bc_range _ _ _ _ _ _ _ _ _ Bc) as Hr. pose proof (below_refl w1) as A0.
    assert (Keep : forall q en, look w q = Some en -> look w1 q = Some en).
    { intros q en Hq. destruct (place_eq_dec q h) as [->|Hne]; [|now rewrite O3]. rewrite (hl_dir _ _ _ O2). destruct (np_free _ _ _ _ (bc_place _ _ _ _ _ _ _ _ _ Bc)) as (p & k & _ & _ & [(_ & F1 & _)|(_ & F1 & _)]); rewrite F1 in Hq; congruence. }
    assert (Sd : look w src = Some EDir).
    { pose proof (sk_dir _ _ _ (bc_source _ _ _ _ _ _ _ _ _ Bc 1%nat ltac:(lia))) as Hd. apply (parent_above w src (vn 1)). fold src in Hd. rewrite Hd. discriminate. }
    assert (Fs : Forall fname src) by (apply (look_fnames w); [exact Tw|rewrite Sd; discriminate]).
    destruct (open_there (e_cwd e) sp w1 (bc_url _ _ _ _ _ _ _ _ _ Bc)) as [Q1 Q2]; [exact (Keep _ _ Sd)|]. fold (dest_of (e_cwd e) sp) in Q1. fold src in Q1.
    assert (Ed : version_dirs_in_order w1 src = Ok (map (fun k => (N.of_nat k, vn k)) (seq 1 n))).
    { apply version_dirs_found; auto; [lia| |].
      - intros k Hk. exact (sk_dir _ _ _ (src_ok w1 k A0 Hk)).
      - intros v k Hd Ht. destruct (place_eq_dec (src ++ [v]) h) as [E|Hne]; [exfalso; exact (bc_out _ _ _ _ _ _ _ _ _ Bc v k [] Ht (eq_sym E))|]. rewrite O3 in Hd by auto. exact (bc_dirs _ _ _ _ _ _ _ _ _ Bc v k Hd Ht). }
    pose proof (F2_length _ _ _ Fa) as Len. rewrite seq_length in Len.
    assert (Lp : exists i, result (build_versions H c e id sp ms (Some h) None (map (fun k => (N.of_nat k, vn k)) (seq 1 n))) w1 = Ok (Some i) /\
      staged (after (build_versions H c e id sp ms (Some h) None (map (fun k => (N.of_nat k, vn k)) (seq 1 n))) w1) i l).
    { destruct l as [|F l]; [cbn [List.length] in Len; lia|]. assert (En : n = S (List.length l)) by exact Len. rewrite En in Fa |- *. cbn [seq map build_versions] in *. 
      assert (Fa12 : files_at w (src ++ [vn 1]) F /\ Forall2 (fun k F0 => files_at w (src ++ [vn k]) F0) (seq 2 (List.length l)) l) by (clear -Fa; inversion Fa; auto). destruct Fa12 as [Fa1 Fa2].
      destruct (step_first F Fa1) as (i1 & R1 & Sg1). set (x1 := build_version H c e id sp ms (Some h) None _) in *.
      rewrite (result_seq x1 _ w1 i1 R1), (after_seq x1 _ w1 i1 R1). exact (steps_rest l (after x1 w1) i1 [F] Sg1 Fa2 ltac:(cbn [List.length]; lia)). }
    destruct Lp as (i & R & Sg). set (x2 := build_versions H c e id sp ms (Some h) None _) in *. set (w2 := after x2 w1) in *.
    destruct Sg as (alg & spec & ivs & C & Hl & Hv & T2 & Ad2 & T & Ea & Ei).
    assert (So : sound (o_alg c) (spec (List.length l)) (List.length l) i) by (rewrite <- Ea, <- Ei; exact (md_head _ _ _ _ _ _ _ _ _ (tr_made _ _ _ _ _ _ _ _ _ _ T))).
    destruct (finish_ok H h HH O4 sd (o_alg c) _ _ i w2 _ sd_known So Hl Hv T2) as (R3 & _ & Ad3 & _).
    set (x3 := finish H h sd (o_alg c) i) in *.
    assert (Ex : result x w = Ok (Some i) /\ after x w = after x3 w2).
    { unfold x, build. rewrite (bc_id _ _ _ _ _ _ _ _ _ Bc). set (y := open_obj_fs e (Some op) true) in *.
      assert (Ry : result (do hh <- y ;; iret (Some hh)) w = Ok (Some h) /\ after (do hh <- y ;; iret (Some hh)) w = w1) by (rewrite (result_seq y _ w h O1), (after_seq y _ w h O1); auto).
      destruct Ry as [Ry1 Ry2]. rewrite (result_seq _ _ w _ Ry1), (after_seq _ _ w _ Ry1), Ry2. change (open_src_fs e (Some sp)) with (fsw_openfs (e_cwd e) sp false true). rewrite (result_seq _ _ w1 src Q1), (after_seq _ _ w1 src Q1), Q2.
      rewrite result_read, after_read. cbv beta. rewrite Ed. fold x2. rewrite (result_seq x2 _ w1 _ R), (after_seq x2 _ w1 _ R). fold w2. rewrite Es.
      change (write_object_declaration sd h ;; (write_inventory_and_sidecar H (o_alg c) h (Some i) [] ;; iret tt)) with x3. rewrite (result_seq x3 _ w2 tt R3), (after_seq x3 _ w2 tt R3). auto. }
    destruct Ex as [Ex1 Ex2]. rewrite Ex2. split; [exists i, alg, spec, ivs, C; eauto 6|]. destruct (adds_below_trans _ _ _ _ Ad2 Ad3) as [B1 B2]. split.
    - intros q en Hq. apply B1, Keep, Hq.
    - intros q Hq. rewrite B2 by auto. apply O3. intros ->. apply (Hq []). now rewrite app_nil_r.
  Qed.
  Theorem build_made l : Forall2 (fun k F => files_at w (src ++ [vn k]) F) (seq 1 n) l ->
    let x := build H c e sp ms (Some op) in
    (exists i, result x w = Ok (Some i)) /\ (exists alg spec ivs C, tracked H h sd P (after x w) l alg spec ivs C) /\
    (forall q en, look w q = Some en -> look (after x w) q = Some en) /\ (forall q, (forall y, q <> h ++ y) -> look (after x w) q = look w q).
  Proof using HH Tw Bc Pc Es Hcd.
    intros Fa x. destruct (build_made_inv l Fa) as ((i & alg & spec & ivs & C & Q1 & Q2 & _) & Q3 & Q4). split; [eauto|]. split; [eauto|]. split; [exact Q3|exact Q4].
  Qed.
End Build.

(** ** What the inventory says of all versions *)
Lemma head_files H h sd P w l alg spec ivs C k F : tracked H h sd P w l alg spec ivs C -> uniform P -> nth_error l k = Some F ->
  same_files H (ivs (List.length l)) (alg (List.length l)) (vn (S k)) F.
Proof.
  intros T Un E. pose proof (tr_made _ _ _ _ _ _ _ _ _ _ T) as M. set (n := List.length l) in *. assert (Hk : (1 <= S k <= n)%nat) by (assert (k < n)%nat by (apply nth_error_Some; congruence); lia).
  pose proof (tr_files _ _ _ _ _ _ _ _ _ _ T k F E) as Sf. assert (Ea : alg (S k) = alg n).
  { destruct (tr_alg _ _ _ _ _ _ _ _ _ _ T (S k) Hk) as (c & Pc & ->). destruct (tr_alg _ _ _ _ _ _ _ _ _ _ T n ltac:(lia)) as (c' & Pc' & ->). now apply Un. }
  assert (Hv : In (vn (S k)) (names None (S k))) by (apply In_vn; exists (S k); split; [lia|reflexivity]). pose proof (md_sound _ _ _ _ _ _ _ _ _ M (S k) Hk) as So. pose proof (md_head _ _ _ _ _ _ _ _ _ M) as Sn.
  assert (A : forall d p, in_state (ivs (S k)) (vn (S k)) d p -> in_state (ivs n) (vn (S k)) d p).
  { intros d p Hs. destruct (stored_of _ _ _ _ _ _ _ So Hs) as [c Hc]. destruct (md_resolves _ _ _ _ _ _ _ _ _ M (S k) (vn (S k)) p c Hk Hv) as (d2 & Q1 & Q2); [exists d; auto|].
    destruct (md_digests _ _ _ _ _ _ _ _ _ M (S k) d c Hk Hc) as (r & b & R1 & R2 & R3). destruct (md_digests _ _ _ _ _ _ _ _ _ M n d2 c ltac:(lia) Q2) as (r' & b' & S1 & S2 & S3).
    assert (r = r').
    { rewrite R2 in S2. assert (Nr : forall r0 b0, In (r0, b0) C -> r0 <> []) by (intros r0 b0 Hr; destruct (content_shape _ _ _ _ _ _ _ _ _ M r0 b0 Hr) as (? & ? & _ & _ & _ & ->); discriminate).
      apply names_join_inj in S2; eauto using (md_fnames _ _ _ _ _ _ _ _ _ M). }
    subst r'. rewrite (content_unique _ _ _ _ _ _ _ _ _ _ r b b' T R1 S1) in R3. rewrite Ea in R3. assert (Ed : d2 = d) by congruence. rewrite <- Ed. exact Q1. }
  intros d p. rewrite <- Ea. rewrite <- (Sf d p). split; [|apply A]. intros Hs. assert (Hin : in_version (ivs n) (vn (S k)) p) by (exists d; exact Hs).
  apply (md_paths _ _ _ _ _ _ _ _ _ M (S k) _ _ Hk Hv) in Hin as [d0 Hd0]. pose proof (A _ _ Hd0) as Hs0. rewrite (in_state_digest _ _ _ _ _ _ _ _ Sn Hs Hs0). exact Hd0.
Qed.
