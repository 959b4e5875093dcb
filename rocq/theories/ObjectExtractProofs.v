(** Extracting versions and files from objects: object.py:677-785. *)
From Coq Require Import Permutation Sorted.
From Verif Require Import Base Unicode Regex Utf8 Json PyJson JsonTextModel JsonTextSpec JsonTextProofs JsonFileProofs Log DigestModel LayoutModel LayoutProofs
  ObjectUtilsModel ObjectUtilsProofs InventorySpec InventoryValidatorModel InventoryValidatorProofs InventoryRulesProofs
  InventoryModel InventoryOpsSpec InventoryOpsProofs NewVersionModel NewVersionProofs NewVersionOpsProofs VersionNumberProofs InventoryParseProofs ParseModel
  ContentPathProofs TextFile PathModel FsModel FsSpec FsProofs FswModel FswSpec FswProofs FswCopyProofs ValidatorSpec ValidatorBasicProofs ObjectModel ObjectSpec ObjectInvProofs ObjectRulesProofs
  ObjectParseProofs ObjectAddProofs ContentNameProofs ObjectGrowProofs ObjectStartProofs ObjectCopyProofs ObjectWriteProofs ObjectSourceProofs ObjectFactsProofs NamasteSpec ValidatorVersionProofs ObjectMadeProofs ObjectIntactProofs ObjectExtendProofs FsStepProofs NamasteModel NamasteProofs ObjectStoreProofs ObjectCreateProofs ValidatorModel ValidatorIntactProofs ObjectUpdateProofs ObjectNextProofs ObjectDigestProofs ObjectVersionProofs.


(** * The destination *)

(** ** os.path.normpath *)
Definition kept_part (c : str) : Prop := c <> [] /\ c <> `"." /\ ~ In PathModel.slash c.
Lemma norm_step_parts abs acc c : ~ In PathModel.slash c -> Forall kept_part acc -> Forall kept_part (norm_step abs acc c).
Proof.
  intros Hc Ha. unfold norm_step. destruct (str_eqb_spec c []) as [->|H1]; [auto|]. destruct (str_eqb_spec c (`".")) as [->|H2]; [auto|]. cbn [orb].
  assert (K : kept_part c) by (split; [auto|]; split; auto).
  destruct (str_eqb_spec c (`"..")) as [->|H3]; cbn [negb]; [|now constructor].
  destruct acc as [|p r]; [destruct abs; repeat constructor; auto|]. destruct (str_eqb p (`"..")); [now constructor|]. now inversion Ha.
Qed.
Lemma resolve_step_kept acc c : kept_part c -> c <> `".." -> resolve_step acc c = c :: acc.
Proof.
  intros (H1 & H2 & _) H3. unfold resolve_step. apply str_eqb_neq in H1, H2, H3. now rewrite H1, H2, H3.
Qed.
Lemma norm_step_resolve abs acc c base : ~ In PathModel.slash c -> Forall kept_part acc -> (abs = true -> base = []) ->
  fold_left resolve_step (rev (norm_step abs acc c)) base = resolve_step (fold_left resolve_step (rev acc) base) c.
Proof.
  intros Hc Ha Hb. unfold norm_step. destruct (str_eqb_spec c []) as [->|H1]; [reflexivity|]. destruct (str_eqb_spec c (`".")) as [->|H2]; [reflexivity|]. cbn [orb].
  destruct (str_eqb_spec c (`"..")) as [->|H3]; cbn [negb].
  - destruct acc as [|p r].
    + destruct abs; [|reflexivity]. rewrite (Hb eq_refl). reflexivity.
    + destruct (str_eqb_spec p (`"..")) as [->|Hp]; [cbn [rev]; rewrite !fold_left_app; reflexivity|].
      inversion Ha as [|? ? Kp Kr]; subst. cbn [rev]. rewrite fold_left_app. cbn [fold_left]. rewrite (resolve_step_kept _ _ Kp Hp). reflexivity.
  - cbn [rev]. rewrite fold_left_app. reflexivity.
Qed.
Lemma norm_fold abs l : Forall (fun c => ~ In PathModel.slash c) l -> forall acc base, Forall kept_part acc -> (abs = true -> base = []) ->
  Forall kept_part (fold_left (norm_step abs) l acc) /\
  fold_left resolve_step (rev (fold_left (norm_step abs) l acc)) base = fold_left resolve_step l (fold_left resolve_step (rev acc) base).
Proof.
  induction 1 as [|c l Hc Hl IH]; intros acc base Ha Hb; [auto|]. cbn [fold_left].
  destruct (IH (norm_step abs acc c) base (norm_step_parts _ _ _ Hc Ha) Hb) as [I1 I2]. split; [auto|]. now rewrite I2, norm_step_resolve.
Qed.

Definition norm_parts (d : str) : list str := rev (fold_left (norm_step (startswith (`"/") d)) (split_on PathModel.slash d) []).
Definition norm_root (d : str) : str :=
  if startswith (`"/") d then if startswith (`"//") d && negb (startswith (`"///") d) then `"//" else `"/" else [].
Lemma normpath_eq d : normpath d = match norm_root d ++ J (norm_parts d) with [] => `"." | r => r end.
Proof. unfold normpath, norm_root, norm_parts. now destruct d. Qed.
Lemma norm_parts_kept d : Forall kept_part (norm_parts d).
Proof. unfold norm_parts. apply Forall_rev. apply (norm_fold _ _ (split_noslash d) [] []); auto. Qed.
Lemma J_nil l : Forall kept_part l -> J l = [] -> l = [].
Proof. destruct l as [|a l]; [auto|]. intros K E. exfalso. inversion K as [|? ? Ka _]; subst. destruct l as [|b l]; [exact (proj1 Ka E)|]. rewrite join_cons in E by discriminate. destruct a; discriminate. Qed.
Lemma split_parts l : l <> [] -> Forall kept_part l -> split_on PathModel.slash (J l) = l.
Proof. intros Hl K. apply split_join; [auto|]. intros x Hx. rewrite Forall_forall in K. apply (K x Hx). Qed.
Lemma norm_start d : startswith [PathModel.slash] (normpath d) = startswith [PathModel.slash] d.
Proof.
  rewrite normpath_eq. unfold norm_root. pose proof (norm_parts_kept d) as K. destruct (startswith (`"/") d) eqn:E.
  - change (startswith [PathModel.slash] d = true) in E. rewrite E. destruct (startswith (`"//") d && negb (startswith (`"///") d)); reflexivity.
  - change (startswith [PathModel.slash] d = false) in E. rewrite E. cbn [app]. destruct (norm_parts d) as [|a l] eqn:En; [reflexivity|].
    inversion K as [|? ? Ka _]; subst. assert (X : exists c a' t, J (a :: l) = c :: t /\ a = c :: a').
    { destruct Ka as (Ka & _). destruct a as [|c a']; [congruence|]. destruct l as [|b l]; [exists c, a', a'; auto|]. rewrite join_cons by discriminate. eexists _, _, _. split; reflexivity. }
    destruct X as (c & a' & t & -> & ->). destruct Ka as (_ & _ & Ka). unfold startswith. destruct (N.eqb_spec PathModel.slash c) as [<-|Hn]; [exfalso; apply Ka; now left|reflexivity].
Qed.
Lemma norm_place base d : Forall fname base -> (startswith [PathModel.slash] d = true -> base = []) -> at_path base (normpath d) = at_path base d.
Proof.
  intros Fb Hb. rewrite normpath_eq. pose proof (norm_parts_kept d) as K.
  assert (E : resolve (base ++ norm_parts d) = at_path base d).
  { unfold at_path, resolve, norm_parts. rewrite !fold_left_app. f_equal. rewrite (proj2 (norm_fold (startswith (`"/") d) (split_on PathModel.slash d) (split_noslash d) [] (fold_left resolve_step base []) (Forall_nil _) ltac:(intros Ha; rewrite (Hb Ha); reflexivity))). reflexivity. }
  rewrite <- E.
  assert (S0 : forall p, at_path base (PathModel.slash :: p) = at_path base p) by (intros p; apply at_path_slash).
  assert (Ej : at_path base (J (norm_parts d)) = resolve (base ++ norm_parts d)).
  { unfold at_path. destruct (norm_parts d) as [|a l] eqn:En; [change (split_on PathModel.slash (J [])) with [@nil N]; rewrite resolve_app_nil, app_nil_r; reflexivity|].
    rewrite split_parts; [reflexivity|discriminate|auto]. }
  destruct (norm_root d ++ J (norm_parts d)) as [|c r] eqn:Er.
  - apply app_eq_nil in Er as [_ Er]. apply (J_nil _ K) in Er. rewrite Er. rewrite app_nil_r. unfold at_path. change (split_on PathModel.slash (`".")) with [`"."].
    unfold resolve. rewrite fold_left_app. reflexivity.
  - rewrite <- Er. unfold norm_root. destruct (startswith (`"/") d); [|exact Ej]. destruct (startswith (`"//") d && negb (startswith (`"///") d)).
    + change (`"//" ++ J (norm_parts d)) with (PathModel.slash :: PathModel.slash :: J (norm_parts d)). now rewrite !S0.
    + change (`"/" ++ J (norm_parts d)) with (PathModel.slash :: J (norm_parts d)). now rewrite S0.
Qed.


Lemma blank_first m : forall l u v, Forall kept_part l \/ l = [[]] -> repeat [] m ++ l = u ++ [] :: v -> Forall (eq []) u.
Proof.
  induction m as [|m IH]; intros l u v Hl E.
  - cbn in E. destruct Hl as [K|K]; subst l.
    + exfalso. rewrite Forall_forall in K. assert (Z : kept_part []) by (apply K, in_or_app; right; now left). now apply (proj1 Z).
    + destruct u as [|x u]; [constructor|]. injection E as <- E. destruct u; discriminate.
  - destruct u as [|x u]; [constructor|]. cbn in E. injection E as <- E. constructor; [auto|]. eapply IH; eauto.
Qed.
Lemma blank_join u : Forall (eq []) u -> forall c, In c (J u) -> c = PathModel.slash.
Proof.
  induction 1 as [|x u Hx Hu IH]; intros c Hc; [destruct Hc|]. subst x. destruct u as [|y u]; [destruct Hc|]. rewrite join_cons in Hc by discriminate. cbn [app] in Hc.
  destruct Hc as [<-|Hc]; auto.
Qed.
Lemma norm_no_url d : no_url (normpath d).
Proof.
  intros a b E. rewrite normpath_eq in E. pose proof (norm_parts_kept d) as K.
  assert (X : norm_root d ++ J (norm_parts d) = a ++ `"://" ++ b).
  { destruct (norm_root d ++ J (norm_parts d)); [|exact E]. apply (f_equal (@List.length _)) in E. rewrite !app_length in E. cbn in E. lia. }
  assert (R : exists m, norm_root d = repeat PathModel.slash m).
  { unfold norm_root. destruct (startswith (`"/") d); [|now exists 0%nat]. destruct (startswith (`"//") d && negb (startswith (`"///") d)); [now exists 2%nat|now exists 1%nat]. }
  destruct R as [m Rm]. rewrite Rm in X. clear E.
  assert (S1 : split_on PathModel.slash (repeat PathModel.slash m ++ J (norm_parts d)) = repeat [] m ++ split_on PathModel.slash (J (norm_parts d))).
  { clear. induction m as [|m IH]; [reflexivity|]. cbn [repeat app]. rewrite split_slash, IH. reflexivity. }
  rewrite X in S1. change (a ++ `"://" ++ b) with (a ++ (`":" ++ PathModel.slash :: (PathModel.slash :: b))) in S1. rewrite app_assoc, split_on_app_gen, split_slash in S1.
  symmetry in S1. apply blank_first in S1.
  - assert (C : 58%N = PathModel.slash) by (apply (blank_join _ S1); rewrite join_split; apply in_or_app; right; now left). discriminate C.
  - destruct (norm_parts d) as [|x l]; [now right|left]. rewrite split_parts; [auto|discriminate|auto].
Qed.

(** ** The parent directory and the name in it *)
Lemma resolve_fix h l : Forall fname h -> resolve (h ++ l) = rev (fold_left resolve_step l (rev h)).
Proof. intros Fh. unfold resolve. rewrite fold_left_app, (resolve_names [] h) by auto. now rewrite app_nil_r. Qed.
Lemma at_path_then h p k : Forall fname h -> (p = [] \/ last_opt p = Some PathModel.slash) -> ~ In PathModel.slash k -> at_path (at_path h p) k = at_path h (p ++ k).
Proof.
  intros Fh Hp Hk. unfold at_path at 1. rewrite (split_on_single PathModel.slash k) by auto. rewrite resolve_fix by now apply at_path_fnames.
  destruct Hp as [->|Hp].
  - rewrite app_nil_l. unfold at_path. change (split_on PathModel.slash []) with [@nil N]. rewrite (split_on_single PathModel.slash k) by auto. rewrite !resolve_fix by auto. cbn [fold_left].
    rewrite rev_involutive. reflexivity.
  - assert (E : exists q, p = q ++ [PathModel.slash]).
    { destruct (snoc_case p) as (q & x & ->); [intros ->; discriminate Hp|]. rewrite last_opt_app in Hp. apply Some_inv in Hp. subst x. eauto. }
    destruct E as [q ->]. rewrite <- app_assoc. change ([PathModel.slash] ++ k) with (PathModel.slash :: k). unfold at_path. rewrite (split_on_app_gen _ q []), (split_on_app_gen _ q k), (split_on_single PathModel.slash k) by auto. rewrite !resolve_fix by auto.
    rewrite !fold_left_app. cbn [fold_left split_on]. rewrite rev_involutive. reflexivity.
Qed.
Lemma rsplit_parts s : exists p k, s = p ++ k /\ (p = [] \/ last_opt p = Some PathModel.slash) /\ ~ In PathModel.slash k.
Proof.
  induction s as [|c s (p & k & -> & Hp & Hk)] ; [exists [], []; repeat split; auto|].
  destruct Hp as [->|Hp].
  - destruct (N.eq_dec c PathModel.slash) as [->|Hc]; [exists [PathModel.slash], k; repeat split; auto|]. exists [], (c :: k). repeat split; auto. intros [?|?]; [congruence|auto].
  - exists (c :: p), k. repeat split; auto. right. destruct p; [discriminate|]. change (c :: n :: p) with ([c] ++ n :: p). now rewrite last_opt_app2.
Qed.
Lemma split_place cwd s : Forall fname cwd -> exists pd k, path_split s = (pd, k) /\ base_of cwd pd = base_of cwd s /\
  at_path (at_path (base_of cwd s) pd) k = at_path (base_of cwd s) s /\ ~ In PathModel.slash k /\
  (exists t, s = pd ++ t) /\ exists p, s = p ++ k /\ (p = [] \/ last_opt p = Some PathModel.slash) /\ at_path (base_of cwd s) pd = at_path (base_of cwd s) p.
Proof.
  intros Fc. destruct (rsplit_parts s) as (p & k & -> & Hp & Hk). rewrite (path_split_name p k Hk Hp).
  match goal with |- exists pd k', (?m, _) = _ /\ _ => set (pp := m); exists pp, k end. split; [reflexivity|].
  assert (Fb : Forall fname (base_of cwd (p ++ k))) by (unfold base_of; destruct (startswith _ _); [constructor|auto]).
  assert (E : at_path (base_of cwd (p ++ k)) pp = at_path (base_of cwd (p ++ k)) p) by (unfold pp; destruct (rstrip_slash p) as [|x q] eqn:Er; [reflexivity|]; rewrite <- Er; apply at_path_rstrip).
  split; [|split; [rewrite E; now apply at_path_then|split; [auto|split; [|exists p; auto]]]].
  - unfold base_of, pp. destruct (rstrip_slash p) as [|x q] eqn:Er.
    + destruct p as [|c p]; [|reflexivity]. cbn [app]. destruct k as [|c k]; [reflexivity|]. unfold startswith. cbn [startswith].
      destruct (N.eqb_spec PathModel.slash c) as [<-|]; [exfalso; apply Hk; now left|]. reflexivity.
    + destruct (rstrip_split p) as [m Em]. rewrite Er in Em. rewrite Em. reflexivity.
  - unfold pp. destruct (rstrip_slash p) as [|x q] eqn:Er; [now exists k|]. destruct (rstrip_split p) as [m Em]. rewrite Er in Em. rewrite Em. eexists. rewrite <- app_assoc. reflexivity.
Qed.

(** Only the first parts are .., and there are none after a slash. *)
Definition dots_first (abs : bool) (acc : list str) : Prop :=
  exists f g, acc = f ++ g /\ Forall (fun c => c <> `"..") f /\ Forall (eq (`"..")) g /\ (abs = true -> g = []).
Lemma norm_step_dots abs acc c : dots_first abs acc -> dots_first abs (norm_step abs acc c).
Proof.
  intros (f & g & -> & Hf & Hg & Ha). unfold norm_step. destruct (str_eqb c [] || str_eqb c (`".")); [exists f, g; auto|].
  destruct (str_eqb_spec c (`"..")) as [->|Hc]; cbn [negb]; [|exists (c :: f), g; auto].
  destruct f as [|x f]; cbn [app].
  - destruct g as [|y g]; [destruct abs; [exists [], []; auto|]; exists [], [`".."]; repeat split; auto; discriminate|].
    inversion Hg as [|? ? Hy Hg']; subst. change (str_eqb (`"..") (`"..")) with true. cbv iota. exists [], (`".." :: `".." :: g). repeat split; auto. intros Hb. specialize (Ha Hb). discriminate.
  - inversion Hf as [|? ? Hx Hf']; subst. apply str_eqb_neq in Hx. rewrite Hx. exists f, g. auto.
Qed.
Lemma norm_fold_dots abs l : forall acc, dots_first abs acc -> dots_first abs (fold_left (norm_step abs) l acc).
Proof. induction l as [|c l IH]; intros acc Ha; [auto|]. apply IH. now apply norm_step_dots. Qed.
Lemma dots_up m : forall acc, Forall (eq (`"..")) m -> exists x, acc = x ++ fold_left resolve_step m acc.
Proof.
  induction m as [|c m IH]; intros acc Hm; [now exists []|]. inversion Hm as [|? ? <- Hm']; subst. cbn [fold_left]. change (resolve_step acc (`"..")) with (tl acc).
  destruct (IH (tl acc) Hm') as [x Ex]. destruct acc as [|a acc]; [exists x; exact Ex|]. exists (a :: x). cbn [tl] in Ex. rewrite Ex at 1. reflexivity.
Qed.

Lemma J_snoc l x : l <> [] -> J (l ++ [x]) = (J l ++ [PathModel.slash]) ++ x.
Proof.
  induction l as [|a l IH]; [congruence|]. intros _. destruct l as [|b l]; [cbn [app]; rewrite join_cons by discriminate; cbn [join]; now rewrite <- app_assoc|].
  change ((a :: b :: l) ++ [x]) with (a :: (b :: l) ++ [x]). rewrite join_cons by discriminate. rewrite IH by discriminate. rewrite (join_cons _ a) by discriminate. now rewrite <- !app_assoc.
Qed.
Lemma noslash_unique p k q x : p ++ k = q ++ x -> (p = [] \/ last_opt p = Some PathModel.slash) -> (q = [] \/ last_opt q = Some PathModel.slash) ->
  ~ In PathModel.slash k -> ~ In PathModel.slash x -> p = q /\ k = x.
Proof.
  intros E Hp Hq Hk Hx. pose proof (rsplit_app p k Hk Hp) as E1. pose proof (rsplit_app q x Hx Hq) as E2. rewrite E, E2 in E1. injection E1 as -> ->. auto.
Qed.

(** The destination is a name in its parent directory, or the parent directory is one of those
    the current one is in. *)
Lemma dest_split cwd d : Forall fname cwd -> exists pd k, path_split (normpath d) = (pd, k) /\ no_url pd /\
  at_path (at_path (base_of cwd pd) pd) k = dest_of cwd d /\ ~ In PathModel.slash k /\
  ((fname k /\ dest_of cwd d = at_path (base_of cwd pd) pd ++ [k]) \/ exists x, cwd = at_path (base_of cwd pd) pd ++ x).
Proof.
  intros Fc. set (s := normpath d).
  assert (Bs : base_of cwd s = base_of cwd d) by (unfold base_of, s; now rewrite norm_start).
  assert (Fb : Forall fname (base_of cwd d)) by (unfold base_of; destruct (startswith _ _); [constructor|auto]).
  assert (Ns : at_path (base_of cwd d) s = dest_of cwd d).
  { apply norm_place; [auto|]. intros E. unfold base_of. now rewrite E. }
  destruct (split_place cwd s Fc) as (pd & k & E1 & E2 & E3 & E4 & [t Et] & p & Ep & Hp & Epp). rewrite Bs in *.
  exists pd, k. split; [auto|]. split; [apply (no_url_prefix pd t); rewrite <- Et; apply norm_no_url|]. rewrite E2. split; [congruence|]. split; [auto|].
  destruct (fname_dec k) as [Fk|Fk].
  { left. split; [auto|]. rewrite <- Ns, <- E3. now apply at_path_one; [apply at_path_fnames|]. }
  right. rewrite Epp. clear Epp E3 Et t E1 E2 pd.
  pose proof (norm_parts_kept d) as K. assert (Dd : dots_first (startswith (`"/") d) (rev (norm_parts d))).
  { unfold norm_parts. rewrite rev_involutive. apply norm_fold_dots. exists [], []. auto. }
  assert (Hroot : startswith (`"/") d = true -> base_of cwd d = []) by (intros E; unfold base_of; change [PathModel.slash] with (`"/"); now rewrite E).
  assert (R : norm_root d = [] /\ startswith (`"/") d = false \/ startswith (`"/") d = true /\ last_opt (norm_root d) = Some PathModel.slash /\ (at_path [] (norm_root d) = [])).
  { unfold norm_root. destruct (startswith (`"/") d); [right|left; auto]. split; [auto|]. destruct (startswith (`"//") d && negb (startswith (`"///") d)); split; reflexivity. }
  destruct (norm_parts d) as [|y l0] eqn:En.
  { assert (Es : s = match norm_root d with [] => `"." | r => r end) by (unfold s; rewrite normpath_eq, En; cbn [join]; now rewrite app_nil_r).
    destruct R as [[R1 R2]|(R1 & R2 & R3)].
    - rewrite R1 in Es. rewrite Es in Ep. apply (noslash_unique [] (`".")) in Ep as [<- <-]; auto; [|intros [?|[]]; discriminate].
      exists []. rewrite app_nil_r. unfold base_of. change [PathModel.slash] with (`"/"). rewrite R2. unfold at_path. change (split_on PathModel.slash []) with [@nil N]. rewrite resolve_app_nil. now rewrite resolve_fnames.
    - rewrite (Hroot R1). destruct (norm_root d) as [|c r] eqn:Er; [discriminate|]. rewrite Es in Ep. rewrite <- (app_nil_r (c :: r)) in Ep. apply noslash_unique in Ep as [<- _]; auto.
      rewrite R3. now exists cwd. }
  destruct (snoc_case (y :: l0)) as (l & z & El); [discriminate|]. rewrite El in *. clear El y l0.
  apply Forall_app in K as [Kl Kz]. inversion Kz as [|? ? Kz' _]; subst. destruct Kz' as (Kz1 & Kz2 & Kz3).
  assert (Es : s = (norm_root d ++ match l with [] => [] | _ => J l ++ [PathModel.slash] end) ++ z).
  { unfold s. rewrite normpath_eq, En. destruct l as [|y l]; [cbn [app join]; rewrite app_nil_r|rewrite J_snoc by discriminate; rewrite app_assoc].
    - destruct (norm_root d ++ z) eqn:E0; [|auto]. apply app_eq_nil in E0 as [_ E0]. congruence.
    - set (q := (norm_root d ++ J (y :: l) ++ [PathModel.slash])). destruct (q ++ z) eqn:E0; [|reflexivity]. apply app_eq_nil in E0 as [_ E0]. congruence. }
  assert (Eq : z = k /\ norm_root d ++ match l with [] => [] | _ => J l ++ [PathModel.slash] end = p).
  { rewrite Es in Ep. apply noslash_unique in Ep as [? ?]; auto. destruct l as [|y l]; [rewrite app_nil_r; destruct R as [[R1 _]|(_ & R2 & _)]; auto|right]. rewrite app_assoc. apply last_opt_app. }
  destruct Eq as [-> Eq]. assert (Ez : k = `"..").
  { destruct (list_eq_dec N.eq_dec k (`"..")) as [?|Hk]; [auto|]. exfalso. apply Fk. split; auto. }
  destruct Dd as (f & g & Efg & Hf & Hg & Ha). rewrite rev_app_distr in Efg. cbn [rev app] in Efg.
  destruct f as [|x f]; [|injection Efg as <- _; inversion Hf; subst; congruence]. cbn [app] in Efg.
  destruct R as [[R1 R2]|(R1 & _)]; [|rewrite (Ha R1) in Efg; discriminate].
  rewrite R1 in Eq. cbn [app] in Eq. rewrite <- Eq. unfold base_of. change [PathModel.slash] with (`"/") at 1. rewrite R2.
  assert (Hl : Forall (eq (`"..")) l) by (rewrite <- (rev_involutive l); apply Forall_rev; rewrite <- Efg in Hg; now inversion Hg).
  destruct (dots_up l (rev cwd) Hl) as [x Ex]. exists (rev x).
  assert (Ea : at_path cwd match l with [] => [] | _ => J l ++ [PathModel.slash] end = rev (fold_left resolve_step l (rev cwd))).
  { destruct l as [|y l]; [unfold at_path; change (split_on PathModel.slash []) with [@nil N]; rewrite resolve_app_nil, resolve_fnames by auto; cbn [fold_left]; now rewrite rev_involutive|].
    pose proof (at_path_slashes cwd (J (y :: l)) 1) as Sl. cbn [repeat] in Sl. rewrite Sl. clear Sl. unfold at_path. rewrite split_parts by (auto; discriminate). now rewrite resolve_fix. }
  apply (f_equal (@rev _)) in Ex. rewrite rev_involutive, rev_app_distr in Ex. transitivity (rev (fold_left resolve_step l (rev cwd)) ++ rev x); [exact Ex|]. f_equal. symmetry. exact Ea.
Qed.

Lemma above_dir w q x : tree w -> look w (q ++ x) = Some EDir -> look w q = Some EDir.
Proof. intros _ Hl. destruct x as [|c x]; [now rewrite app_nil_r in Hl|]. apply (look_above w q c x). rewrite Hl. discriminate. Qed.

Lemma open_missing e d w : no_url d -> look w (dest_of (e_cwd e) d) <> Some EDir ->
  result (open_obj_fs e (Some d) false) w = Raise ObjectException /\ after (open_obj_fs e (Some d) false) w = w.
Proof.
  intros Hu Hn. destruct (open_obj_catch e d false w) as (O1 & _ & O3).
  assert (Hd : fs_isdir w (base_of (e_cwd e) d) d = false).
  { destruct (fs_isdir w (base_of (e_cwd e) d) d) eqn:E; [|auto]. apply fs_isdir_look in E. now contradiction Hn. }
  assert (R : result (fsw_openfs (e_cwd e) d false true) w = Raise FileNotFoundError /\ after (fsw_openfs (e_cwd e) d false true) w = w).
  { unfold fsw_openfs. rewrite split_url_none by auto. change (str_eqb (`"file") (`"file")) with true. cbv iota.
    change (if startswith [PathModel.slash] d then [] else e_cwd e) with (base_of (e_cwd e) d). rewrite result_read, after_read. cbv beta. rewrite Hd. auto. }
  destruct R as [R1 R2]. split; [now apply O3|]. now rewrite O1.
Qed.
Lemma result_fail {A B} (x : io A) (f : A -> io B) w er : result x w = Raise er -> result (ibind x f) w = Raise er /\ after (ibind x f) w = after x w.
Proof. unfold result, after, ibind. destruct (x w) as [s [a|e0]]; cbn [fst snd]; [discriminate|]. intros E. injection E as ->. auto. Qed.

(** Opening the destination of an extraction *)
Theorem open_dest e w d : Forall fname (e_cwd e) -> look w (e_cwd e) = Some EDir -> tree w ->
  let dst := dest_of (e_cwd e) d in let x := open_destination e d in
  (look w dst = Some EDir -> (forall r, r <> [] -> look w (dst ++ r) = None) -> result x w = Ok dst /\ after x w = w) /\
  (look w dst = Some EDir -> (exists r, r <> [] /\ look w (dst ++ r) <> None) -> result x w = Raise ObjectException /\ after x w = w) /\
  (look w dst = None -> look w (removelast dst) = Some EDir -> result x w = Ok dst /\ changes w (after x w) dst (Some EDir)) /\
  (look w dst = None -> look w (removelast dst) <> Some EDir -> result x w = Raise ObjectException /\ after x w = w) /\
  (look w dst <> None -> look w dst <> Some EDir -> result x w = Raise OSError /\ after x w = w).
Proof.
  intros Fc Hc Tw dst x. destruct (dest_split (e_cwd e) d Fc) as (pd & k & E1 & E2 & E3 & E0 & E4). set (P := at_path (base_of (e_cwd e) pd) pd) in *. fold dst in E3, E4.
  assert (FP : Forall fname P) by (apply at_path_fnames; unfold base_of; destruct (startswith _ _); [constructor|auto]).
  assert (HP : look w dst <> None \/ look w (removelast dst) = Some EDir -> look w P = Some EDir).
  { intros Hx. destruct E4 as [[Fk Ed]|[z Ez]].
    - destruct Hx as [Hx|Hx]; [|rewrite Ed, List.removelast_last in Hx; exact Hx]. rewrite Ed in Hx. now apply (parent_above w P k).
    - apply (above_dir w P z Tw). rewrite <- Ez. exact Hc. }
  assert (E5 : (fname k /\ dst = P ++ [k]) \/ exists y, e_cwd e = dst ++ y).
  { destruct (fname_dec k) as [Fk|Fk]; [left; split; [auto|]; rewrite <- E3; now apply at_path_one|right].
    destruct E4 as [[? _]|[z Ez]]; [contradiction|]. rewrite <- E3. unfold at_path. rewrite (split_on_single _ k) by auto. rewrite resolve_fix by auto. cbn [fold_left]. unfold resolve_step.
    destruct (str_eqb_spec k []) as [->|N1]; cbn [orb]; [exists z; now rewrite rev_involutive|]. destruct (str_eqb_spec k (`".")) as [->|N2]; [exists z; now rewrite rev_involutive|].
    destruct (str_eqb_spec k (`"..")) as [->|N3]; [|exfalso; apply Fk; split; auto]. destruct P as [|c P0] using rev_ind; [now exists (e_cwd e)|]. rewrite rev_app_distr. cbn [rev app tl]. rewrite rev_involutive.
    exists (c :: z). rewrite Ez, <- app_assoc. reflexivity. }
  assert (Step : look w P = Some EDir -> result (open_obj_fs e (Some pd) false) w = Ok P /\ after (open_obj_fs e (Some pd) false) w = w).
  { intros Hx. destruct (open_there (e_cwd e) pd w E2 Hx) as [R1 R2]. destruct (open_obj_catch e pd false w) as (O1 & O2 & _). split; [now apply O2|]. now rewrite O1. }
  unfold x, open_destination. rewrite E1.
  assert (Go : look w P = Some EDir -> forall B (f : place -> io B), result (ibind (open_obj_fs e (Some pd) false) f) w = result (f P) w /\ after (ibind (open_obj_fs e (Some pd) false) f) w = after (f P) w).
  { intros Hx B f. destruct (Step Hx) as [S1 S2]. rewrite (result_seq _ _ w P S1), (after_seq _ _ w P S1), S2. auto. }
  assert (Es : at_path P k = dst) by exact E3.
  assert (Edir : look w dst = Some EDir -> fs_isdir w P k = true) by (intros Hx; apply fs_isdir_look; now rewrite Es).
  assert (Enot : look w dst <> Some EDir -> fs_isdir w P k = false) by (intros Hx; destruct (fs_isdir w P k) eqn:E; [apply fs_isdir_look in E; rewrite Es in E; contradiction|auto]).
  set (rest := (fun parent => do d0 <- iread (fun w0 => Ok (fs_isdir w0 parent k)) ;; (if d0 : bool then do l <- iread (fun w0 => fs_ls w0 parent k) ;; match l with [] => iret tt | _ => iraise ObjectException end else fs_makedir parent k) ;; iret (fsw_opendir_as_fs parent k))).
  split; [|split; [|split; [|split]]].
  - intros Hd He. assert (Hne : look w dst <> None) by (rewrite Hd; discriminate). destruct (Go (HP (or_introl Hne)) _ rest) as [G1 G2].
    fold rest. rewrite G1, G2. unfold rest. rewrite result_read, after_read. cbv beta. rewrite (Edir Hd).
    apply look_dir in Hd as [dd Hd]. assert (El : fs_ls w P k = Ok []).
    { unfold fs_ls. rewrite Es, Hd. cbn [ebind]. destruct dd as [|[c m] dd]; [reflexivity|]. exfalso. specialize (He [c] ltac:(discriminate)). rewrite (look_child _ _ _ _ Hd) in He. cbn [dget] in He. rewrite str_eqb_refl in He. discriminate. }
    unfold fsw_opendir_as_fs. rewrite Es. unfold result, after, ibind, iread. rewrite El. split; reflexivity.
  - intros Hd (r & Hr & Hl). assert (Hne : look w dst <> None) by (rewrite Hd; discriminate). destruct (Go (HP (or_introl Hne)) _ rest) as [G1 G2].
    fold rest. rewrite G1, G2. unfold rest. rewrite result_read, after_read. cbv beta. rewrite (Edir Hd).
    apply look_dir in Hd as [dd Hd]. assert (El : exists a l, fs_ls w P k = Ok (a :: l)).
    { unfold fs_ls. rewrite Es, Hd. cbn [ebind]. destruct dd as [|[c m] dd]; [|cbn [map]; eauto]. exfalso. destruct r as [|c r]; [congruence|]. apply Hl. rewrite look_app, Hd. reflexivity. }
    destruct El as (a & l & El). unfold result, after, ibind, iread. rewrite El. split; reflexivity.
  - intros Hd Hp. destruct (Go (HP (or_intror Hp)) _ rest) as [G1 G2].
    fold rest. rewrite G1, G2. unfold rest. rewrite result_read, after_read. cbv beta. rewrite Enot by (rewrite Hd; discriminate).
    destruct E5 as [[Fk Ed]|E4'].
    + destruct (makedir_one w P k FP Fk (HP (or_intror Hp))) as [R C]; [now rewrite <- Ed|].
      rewrite (result_seq _ _ w tt R), (after_seq _ _ w tt R). unfold fsw_opendir_as_fs. rewrite Es, Ed. split; [reflexivity|exact C].
    + exfalso. destruct E4' as [y Ey]. assert (Hx : look w dst = Some EDir) by (apply (above_dir w dst y Tw); rewrite <- Ey; exact Hc). congruence.
  - intros Hd Hp. destruct E5 as [[Fk Ed]|E4'].
    + destruct (open_missing e pd w E2) as [R A]; [fold P; rewrite Ed, List.removelast_last in Hp; exact Hp|].
      match goal with |- result (ibind _ ?f) _ = _ /\ _ => destruct (result_fail _ f w _ R) as [F1 F2] end. rewrite F1, F2, A. auto.
    + exfalso. destruct E4' as [y Ey]. assert (Hx : look w dst = Some EDir) by (apply (above_dir w dst y Tw); rewrite <- Ey; exact Hc). congruence.
  - intros Hd Hp. destruct (Go (HP (or_introl Hd)) _ rest) as [G1 G2].
    fold rest. rewrite G1, G2. unfold rest. rewrite result_read, after_read. cbv beta. rewrite Enot by auto.
    assert (Ee : fs_exists w P k = true) by (apply fs_exists_look; now rewrite Es).
    unfold result, after, ibind, fs_makedir. rewrite Ee. split; reflexivity.
Qed.

(** * Writing the files *)

Lemma extract_one_ok w h dst f r b : Forall fname dst -> r <> [] -> Forall fname r -> look w (at_path h f) = Some (EFile b) ->
  look w (dst ++ r) = None -> dirs_to w (dst ++ r) ->
  result (extract_one h dst f (J r)) w = Ok tt /\ placed w dst [(r, b)] (after (extract_one h dst f (J r)) w).
Proof.
  intros Fd Hr Fr Hf Hn Hd. destruct (copy_into_ok w dst h f r b Fd Hr Fr Hf Hn Hd) as [R P].
  destruct (snoc_case r Hr) as (a & k & ->). apply Forall_app in Fr as [Fa Fk]. inversion Fk as [|? ? Fk' _]; subst.
  set (dp := path_dirname (J (a ++ [k]))). assert (Edp : at_path dst dp = dst ++ a) by now apply dirname_place.
  assert (Same : result (extract_one h dst f (J (a ++ [k]))) w = result (copy_into_object dst h f (J (a ++ [k])) true) w /\
                 after (extract_one h dst f (J (a ++ [k]))) w = after (copy_into_object dst h f (J (a ++ [k])) true) w).
  { unfold extract_one, copy_into_object. fold dp. rewrite result_read, after_read. cbn [andb].
    destruct (fs_exists w dst dp) eqn:E; cbn [negb].
    - apply fs_exists_look in E. rewrite Edp in E. assert (Ed : look w (dst ++ a) = Some EDir).
      { destruct (Hd (dst ++ a) [k]) as [F|F]; [now rewrite app_assoc|contradiction|auto]. }
      rewrite <- Edp in Ed. apply makedirs_exist_ok in Ed. unfold result, after, ibind. rewrite Ed. cbn [fst snd]. split; reflexivity.
    - apply fs_exists_false in E. assert (Hd' : dirs_to w (at_path dst dp)).
      { rewrite Edp. intros q x Ex. apply (Hd q (x ++ [k])). now rewrite app_assoc, Ex, app_assoc. }
      destruct (makedirs_ok w dst dp true E Hd') as [R1 L1]. destruct (makedirs_ok w dst dp false E Hd') as [R2 L2].
      assert (Em : after (fs_makedirs dst dp true) w = after (fs_makedirs dst dp false) w).
      { revert R1 R2. unfold result, after, fs_makedirs. destruct (missing w [] (at_path dst dp)) as [[|? ?]|]; cbn [fst snd]; try reflexivity. }
      rewrite (result_seq _ _ w tt R1), (after_seq _ _ w tt R1), (result_seq _ _ w tt R2), (after_seq _ _ w tt R2), Em. auto. }
  destruct Same as [-> ->]. auto.
Qed.

Lemma extract_each_ok h dst f (L : list (place * bytes)) : Forall fname dst -> forall w, room w dst L ->
  (forall r b, In (r, b) L -> look w (at_path h f) = Some (EFile b)) ->
  let x := iter (extract_one h dst f) (map (fun e => J (fst e)) L) in
  result x w = Ok tt /\ placed w dst L (after x w).
Proof.
  intros Fd. induction L as [|[r b] L IH]; intros w R Hs x; [split; [reflexivity|apply placed_nil]|].
  unfold x. cbn [map fst]. rewrite iter_cons. destruct (rm_names _ _ _ R r b (or_introl eq_refl)) as [N1 N2].
  destruct (extract_one_ok w h dst f r b Fd N1 N2 (Hs r b (or_introl eq_refl)) (rm_free _ _ _ R r b (or_introl eq_refl)) (rm_dirs _ _ _ R r b (or_introl eq_refl))) as [E1 P1].
  rewrite (result_seq _ _ w tt E1), (after_seq _ _ w tt E1). set (w1 := after (extract_one h dst f (J r)) w) in *.
  pose proof (room_prefix w dst [(r, b)] L R) as R1.
  destruct (IH w1) as [I1 I2]; [exact (room_cons _ _ _ _ _ _ R P1)| |split; [exact I1|exact (placed_cons _ _ _ _ _ _ _ R P1 I2)]].
  intros r' b' Hi. apply (placed_keep w dst [(r, b)] w1 _ _ R1 P1). apply (Hs r' b'). now right.
Qed.

(** The files of the entries of a state *)
Inductive planned (w : node) (h : place) (inv : inventory) : list (str * list str) -> list (place * bytes) -> Prop :=
| plan_nil : planned w h inv [] []
| plan_cons d fs f b L1 st L : first_content_path inv d = Ok f -> look w (at_path h f) = Some (EFile b) -> fs = map (fun e => J (fst e)) L1 ->
    (forall r b', In (r, b') L1 -> b' = b) -> planned w h inv st L -> planned w h inv ((d, fs) :: st) (L1 ++ L).

Lemma extract_all_ok h dst inv st : Forall fname dst -> forall w L, planned w h inv st L -> room w dst L ->
  let x := iter (extract_entry h dst inv) st in
  result x w = Ok tt /\ placed w dst L (after x w).
Proof.
  intros Fd w L P. revert w P. revert L. induction st as [|[d fs] st IH]; intros L w P R x; inversion P as [|? ? f b L1 ? L2 E1 E2 E3 E4 E5]; subst.
  - split; [reflexivity|apply placed_nil].
  - unfold x. rewrite iter_cons.
    destruct (extract_each_ok h dst f L1 Fd w (room_prefix _ _ _ _ R)) as [R1 P1]; [intros r b' Hi; now rewrite (E4 _ _ Hi)|].
    assert (Ee : extract_entry h dst inv (d, map (fun e => J (fst e)) L1) w = iter (extract_one h dst f) (map (fun e => J (fst e)) L1) w).
    { unfold extract_entry. cbn [fst snd]. unfold ibind at 1, iread. rewrite E1. change (apply_all [] w) with w. now destruct (iter (extract_one h dst f) (map (fun e => J (fst e)) L1) w). }
    assert (R1' : result (extract_entry h dst inv (d, map (fun e => J (fst e)) L1)) w = Ok tt) by (unfold result; rewrite Ee; exact R1).
    rewrite (result_seq _ _ w tt R1'), (after_seq _ _ w tt R1').
    assert (Ea : after (extract_entry h dst inv (d, map (fun e => J (fst e)) L1)) w = after (iter (extract_one h dst f) (map (fun e => J (fst e)) L1)) w) by (unfold after; now rewrite Ee).
    rewrite Ea. set (w1 := after (iter (extract_one h dst f) (map (fun e => J (fst e)) L1)) w) in *.
    assert (Q : planned w1 h inv st L2).
    { clear -E5 P1 R. apply room_prefix in R. induction E5 as [|d1 fs1 f1 b1 L3 st L4 X1 X2 X3 X4 X5 IH]; [constructor|]. econstructor; eauto. now apply (placed_keep w dst L1 w1 _ _ R P1). }
    destruct (IH L2 w1 Q (room_app _ _ _ _ _ R P1)) as [I1 I2]. split; [exact I1|]. exact (placed_app _ _ _ _ _ _ R P1 I2).
Qed.

(** * Extracting a version *)

Lemma dest_opened e w d : Forall fname (e_cwd e) -> look w (e_cwd e) = Some EDir -> tree w -> dest_free w (dest_of (e_cwd e) d) ->
  let dst := dest_of (e_cwd e) d in let x := open_destination e d in
  result x w = Ok dst /\ holds (after x w) dst [] /\ (forall q, q <> dst -> look (after x w) q = look w q) /\ Forall fname dst /\ (forall q en, look w q = Some en -> look (after x w) q = Some en).
Proof.
  intros Fc Hc Tw Hf dst x. destruct (open_dest e w d Fc Hc Tw) as (O1 & _ & O3 & _). fold dst x in O1, O3.
  assert (Fd : Forall fname dst) by (apply at_path_fnames; unfold base_of; destruct (startswith _ _); [constructor|auto]).
  destruct Hf as [[H1 H2]|[H1 H2]]; fold dst in H1, H2.
  - destruct (O3 H1 H2) as [R C]. split; [auto|]. split; [|split; [intros q Hq; exact (changes_other _ _ _ _ _ C Hq)|split; [auto|]]].
    + apply holds_empty; [exact (changes_at _ _ _ _ C)|]. intros r Hr. rewrite (changes_other _ _ _ _ _ C).
      * apply look_below_leaf; [auto|]. rewrite H1. discriminate.
      * intros E. rewrite <- (app_nil_r dst) in E at 2. apply app_inv_head in E. contradiction.
    + intros q en Hq. rewrite (changes_other _ _ _ _ _ C); [auto|]. intros ->. congruence.
  - destruct (O1 H1 H2) as [R A]. rewrite A. split; [auto|]. split; [now apply holds_empty|]. auto.
Qed.

Lemma planned_keep w w' h inv st L : (forall q en, look w q = Some en -> look w' q = Some en) -> planned w h inv st L -> planned w' h inv st L.
Proof. intros K P. induction P; econstructor; eauto. Qed.

Theorem extract_ok e w path version d inv v L m : Forall fname (e_cwd e) -> look w (e_cwd e) = Some EDir -> tree w ->
  no_url path -> look w (dest_of (e_cwd e) path) = Some EDir -> extract_setup w (dest_of (e_cwd e) path) version = Ok (inv, v) ->
  planned w (dest_of (e_cwd e) path) inv (state inv v) L -> (forall r b, In (r, b) L -> r <> [] /\ Forall fname r) -> NoDup (map fst L) ->
  (forall r b r' b' x, In (r, b) L -> In (r', b') L -> r' = r ++ x -> x = []) -> from_inventory empty_vmeta inv (Some v) = Ok m ->
  dest_free w (dest_of (e_cwd e) d) ->
  let dst := dest_of (e_cwd e) d in let x := extract e (Some path) version d in
  result x w = Ok m /\ holds (after x w) dst L /\ (forall q, (forall y, q <> dst ++ y) -> look (after x w) q = look w q) /\
  (forall q en, look w q = Some en -> look (after x w) q = Some en).
Proof.
  intros Fc Hc Tw Hu Hh Es Pl Nm Nd Ap Em Hf dst x. destruct (dest_opened e w d Fc Hc Tw Hf) as (O1 & O2 & O3 & O4 & O5). fold dst in O1, O2, O3, O4, O5.
  set (y := open_destination e d) in *. set (w1 := after y w) in *. set (h := dest_of (e_cwd e) path) in *.
  assert (Oh : result (open_obj_fs e (Some path) false) w = Ok h /\ after (open_obj_fs e (Some path) false) w = w).
  { destruct (open_there (e_cwd e) path w Hu Hh) as [R1 R2]. destruct (open_obj_catch e path false w) as (Q1 & Q2 & _). split; [now apply Q2|]. now rewrite Q1. }
  destruct Oh as [Oh1 Oh2].
  assert (R : room w1 dst L).
  { constructor; auto.
    - intros r b Hi. destruct (Nm _ _ Hi) as [Hr _]. destruct (look w1 (dst ++ r)) eqn:E; [|auto]. destruct (hl_only _ _ _ O2 r e0 Hr E) as (? & ? & []).
    - intros r b Hi q x0 Ex. destruct (app_prefix_cases _ _ _ _ Ex) as [[z Ez]|(z & Ez & _)].
      + right. destruct z as [|c z]; [rewrite app_nil_r in Ez; rewrite <- Ez; apply O2|]. rewrite Ez in O2. apply (look_above w1 q c z). rewrite (hl_dir _ _ _ O2). discriminate.
      + destruct z as [|c z]; [right; rewrite Ez, app_nil_r; apply O2|left]. rewrite Ez. destruct (look w1 (dst ++ c :: z)) eqn:E; [|auto]. destruct (hl_only _ _ _ O2 (c :: z) e0 ltac:(discriminate) E) as (? & ? & []). }
  destruct (extract_all_ok h dst inv (state inv v) O4 w1 L (planned_keep _ _ _ _ _ _ O5 Pl) R) as [R1 P1].
  set (z := iter (extract_entry h dst inv) (state inv v)) in *.
  assert (Ex : result x w = Ok m /\ after x w = after z w1).
  { unfold x, extract. rewrite (result_seq _ _ w h Oh1), (after_seq _ _ w h Oh1), Oh2. rewrite result_read, after_read. cbv beta. rewrite Es.
    fold y. rewrite (result_seq y _ w dst O1), (after_seq y _ w dst O1). fold w1. fold z. rewrite (result_seq z _ w1 tt R1), (after_seq z _ w1 tt R1).
    rewrite result_iread, after_iread. auto. }
  destruct Ex as [X1 X2]. rewrite X2. split; [auto|]. destruct (placed_below _ _ _ _ R (hl_dir _ _ _ O2) P1) as [B1 B2].
  split; [exact (placed_holds _ _ _ _ _ O2 R P1)|]. split; [|intros q en Hq; now apply B1, O5].
  intros q Hq. rewrite B2 by auto. apply O3. intros ->. apply (Hq []). now rewrite app_nil_r.
Qed.

(** * Extracting a version of an object this library wrote *)

Lemma md_version H w h sd n alg spec ivs C k : made H w h sd n alg spec ivs C -> (1 <= k <= n)%nat ->
  extract_setup w h (vn k) = Ok (sort_inv (ivs n), vn k).
Proof.
  intros M Hk. unfold extract_setup. rewrite (made_parse _ _ _ _ _ _ _ _ _ M). cbn [ebind fst].
  assert (Hh : str_eqb (vn k) (`"head") = false).
  { apply str_eqb_neq. intros E. destruct (vn_starts k) as [r Er]. rewrite E in Er. discriminate Er. }
  rewrite Hh. rewrite (sound_directories _ _ _ _ (sound_sorted _ _ _ _ (md_head _ _ _ _ _ _ _ _ _ M))). cbn [ebind].
  assert (Hi : str_in (vn k) (names None n) = true) by (apply str_in_true, In_vn; eauto). now rewrite Hi.
Qed.

Lemma plan_exists w h inv (A : str -> bytes -> Prop) st : (forall d l, In (d, l) st -> exists f b, first_content_path inv d = Ok f /\ look w (at_path h f) = Some (EFile b) /\ A d b) ->
  (forall p, In p (paths_of st) -> exists r, r <> [] /\ Forall fname r /\ p = J r) ->
  exists L, planned w h inv st L /\ map (fun e => J (fst e)) L = paths_of st /\
    (forall r b, In (r, b) L -> r <> [] /\ Forall fname r /\ exists d, block_has st d (J r) /\ A d b).
Proof.
  induction st as [|[d l] st IH]; intros Hf Hp; [exists []; split; [constructor|]; split; [reflexivity|intros r b []]|].
  destruct IH as (L & P & E & N); [intros d' l' Hi; apply (Hf d' l'); now right|intros p Hi; apply Hp; cbn [paths_of flat_map snd]; apply in_or_app; now right|].
  destruct (Hf d l (or_introl eq_refl)) as (f & b & F1 & F2 & F3).
  assert (G : exists L1, map (fun e : place * bytes => J (fst e)) L1 = l /\ forall r b', In (r, b') L1 -> b' = b /\ r <> [] /\ Forall fname r).
  { assert (Hl : forall p, In p l -> exists r, r <> [] /\ Forall fname r /\ p = J r) by (intros p Hi; apply Hp; cbn [paths_of flat_map snd]; apply in_or_app; now left).
    clear -Hl. induction l as [|p l IH]; [exists []; split; [reflexivity|intros r b' []]|]. destruct IH as (L1 & E1 & N1); [intros q Hq; apply Hl; now right|].
    destruct (Hl p (or_introl eq_refl)) as (r & R1 & R2 & ->). exists ((r, b) :: L1). cbn [map fst]. split; [f_equal; exact E1|]. intros r' b' [Ei|Hi]; [injection Ei as <- <-; auto|eauto]. }
  destruct G as (L1 & E1 & N1). exists (L1 ++ L). split; [econstructor; eauto; intros r b' Hi; now apply (N1 r b')|].
  split; [rewrite map_app; unfold paths_of; cbn [flat_map snd]; f_equal; [exact E1|exact E]|].
  intros r b' Hi. apply in_app_or in Hi as [Hi|Hi].
  - destruct (N1 r b' Hi) as (-> & R1 & R2). split; [auto|]. split; [auto|]. exists d. split; [|auto]. exists l. split; [now left|]. rewrite <- E1. apply in_map_iff. exists (r, b). auto.
  - destruct (N r b' Hi) as (R1 & R2 & d' & (l' & D1 & D2) & D3). split; [auto|]. split; [auto|]. exists d'. split; [exists l'; split; [now right|auto]|auto].
Qed.

Lemma made_plan H w h sd n alg spec ivs C k : made H w h sd n alg spec ivs C -> (1 <= k <= n)%nat ->
  let i := sort_inv (ivs n) in
  exists L, planned w h i (state i (vn k)) L /\
    (forall r b, In (r, b) L -> r <> [] /\ Forall fname r /\ in_state (ivs n) (vn k) (H (alg n) b) (J r) /\ exists c, In (c, b) C) /\
    (forall d p, in_state (ivs n) (vn k) d p -> exists r b, In (r, b) L /\ p = J r /\ d = H (alg n) b) /\
    NoDup (map fst L) /\ (forall r b r' b' x, In (r, b) L -> In (r', b') L -> r' = r ++ x -> x = []).
Proof.
  intros M Hk i. pose proof (sound_sorted _ _ _ _ (md_head _ _ _ _ _ _ _ _ _ M)) as So. fold i in So.
  pose proof (sound_dicts _ _ _ _ So) as Di. destruct (so_versions _ _ _ _ So) as (vs & Hvs & P).
  assert (Hv : In (vn k) (keys vs)) by (apply (Permutation_in _ (Permutation_sym P)), In_vn; eauto).
  apply in_map_iff in Hv as ([v0 b0] & E0 & Hv). cbn in E0. subst v0. destruct (so_blocks _ _ _ _ So vs _ _ Hvs Hv) as (_ & st & Est & Sg).
  assert (Es : state i (vn k) = st).
  { unfold state, versiondata, versions_block. rewrite Hvs. cbn [or_empty]. destruct Di as (_ & Dv & _). assert (Nv : NoDup (keys vs)) by (apply (Permutation_NoDup (Permutation_sym P)), names_NoDup).
    rewrite (In_dget (vn k) b0 vs Nv Hv). rewrite Est. reflexivity. }
  destruct (plan_exists w h i (fun d b => d = H (alg n) b /\ exists c, In (c, b) C) st) as (L & Pl & Em & Nm).
  - intros d l Hi. destruct (sg_digests _ _ _ Sg d l Hi) as (c & cs & Hc). assert (Sc : stored (ivs n) d c).
    { apply stored_sorted. apply stored_iff. exists (c :: cs). split; [exact Hc|now left]. }
    destruct (md_digests _ _ _ _ _ _ _ _ _ M n d c ltac:(lia) Sc) as (r & b & Hr & -> & Ed). exists (J r), b. split.
    + unfold first_content_path. rewrite (In_dget d (J r :: cs) (manifest i) (so_keys _ _ _ _ So) Hc). reflexivity.
    + split; [|split; [auto|eauto]]. rewrite at_path_join; [|apply M|eapply md_fnames; eauto]. apply (hl_files _ _ _ (md_holds _ _ _ _ _ _ _ _ _ M)). unfold object_files. rewrite !in_app_iff. auto.
  - intros p Hp. destruct (gp_names _ (sg_paths _ _ _ Sg) p Hp) as (r & R1 & R2 & R3 & _). eauto.
  - rewrite Es. exists L. split; [exact Pl|].
    assert (Is : forall d p, in_state (ivs n) (vn k) d p <-> block_has st d p).
    { intros d p. rewrite <- (in_state_sorted (ivs n)). fold i. rewrite (in_state_iff i (vn k) d p Di), Es. reflexivity. }
    split; [|split; [|split]].
    + intros r b Hi. destruct (Nm r b Hi) as (R1 & R2 & d & R3 & -> & R4). split; [auto|]. split; [auto|]. split; [now apply Is|auto].
    + intros d p Hs. apply Is in Hs. assert (Hp : In p (paths_of st)) by (apply In_paths_of; eauto). rewrite <- Em in Hp. apply in_map_iff in Hp as ([r b] & Er & Hi). cbn in Er. subst p.
      exists r, b. split; [auto|]. split; [auto|]. destruct (Nm r b Hi) as (_ & _ & d' & R3 & R4 & _). rewrite <- R4. exact (paths_unique st d d' (J r) (gp_nodup _ (sg_paths _ _ _ Sg)) Hs R3).
    + pose proof (gp_nodup _ (sg_paths _ _ _ Sg)) as X. rewrite <- Em in X. apply (NoDup_map_inv J). rewrite map_map. exact X.
    + intros r b r' b' x H1 H2 Ex. destruct x as [|c x]; [auto|exfalso]. apply (gp_apart _ (sg_paths _ _ _ Sg) (J r) (J r')).
      * rewrite <- Em. apply in_map_iff. exists (r, b). auto.
      * rewrite <- Em. apply in_map_iff. exists (r', b'). auto.
      * exists (J (c :: x)). rewrite Ex. destruct (Nm r b H1) as (Rn & _). now apply join_app.
Qed.

Lemma md_head_version H w h sd n alg spec ivs C : made H w h sd n alg spec ivs C -> extract_setup w h (`"head") = Ok (sort_inv (ivs n), vn n).
Proof.
  intros M. unfold extract_setup. rewrite (made_parse _ _ _ _ _ _ _ _ _ M). cbn [ebind fst]. change (str_eqb (`"head") (`"head")) with true. cbv iota.
  unfold head_of. rewrite (so_head _ _ _ _ (sound_sorted _ _ _ _ (md_head _ _ _ _ _ _ _ _ _ M))). reflexivity.
Qed.

Theorem extract_made H e w path h sd n alg spec ivs C k version d : made H w h sd n alg spec ivs C -> (1 <= k <= n)%nat -> (version = vn k \/ version = `"head" /\ k = n) ->
  Forall fname (e_cwd e) -> look w (e_cwd e) = Some EDir -> no_url path -> h = dest_of (e_cwd e) path -> dest_free w (dest_of (e_cwd e) d) ->
  let dst := dest_of (e_cwd e) d in let x := extract e (Some path) version d in
  exists L m b0, result x w = Ok m /\ holds (after x w) dst L /\
    (forall q, (forall y, q <> dst ++ y) -> look (after x w) q = look w q) /\ (forall q en, look w q = Some en -> look (after x w) q = Some en) /\
    (forall r b, In (r, b) L -> r <> [] /\ Forall fname r /\ in_state (ivs n) (vn k) (H (alg n) b) (J r) /\ exists c, In (c, b) C) /\
    (forall d p, in_state (ivs n) (vn k) d p -> exists r b, In (r, b) L /\ p = J r /\ d = H (alg n) b) /\ NoDup (map fst L) /\
    dget (vn k) (versions_block (sort_inv (ivs n))) = Some b0 /\
    m = mk_vmeta (i_id (ivs n)) (vb_created b0) (vb_message b0) (dget (`"name") (or_empty (vb_user b0))) (dget (`"address") (or_empty (vb_user b0))).
Proof.
  intros M Hk Hver Fc Hc Hu Eh Hf dst x. destruct (made_plan _ _ _ _ _ _ _ _ _ k M Hk) as (L & Pl & L1 & L2 & L3 & L4). set (i := sort_inv (ivs n)) in *.
  assert (Es : extract_setup w h version = Ok (i, vn k)) by (destruct Hver as [-> | [-> ->]]; [eapply md_version; eauto|eapply md_head_version; eauto]).
  pose proof (sound_sorted _ _ _ _ (md_head _ _ _ _ _ _ _ _ _ M)) as So. fold i in So. destruct (so_versions _ _ _ _ So) as (vs & Hvs & P).
  assert (Hv : In (vn k) (keys vs)) by (apply (Permutation_in _ (Permutation_sym P)), In_vn; eauto).
  apply in_map_iff in Hv as ([v0 b0] & E0 & Hv). cbn in E0. subst v0. assert (Nv : NoDup (keys vs)) by (apply (Permutation_NoDup (Permutation_sym P)), names_NoDup).
  pose proof (In_dget (vn k) b0 vs Nv Hv) as Hg.
  set (m := mk_vmeta (i_id (ivs n)) (vb_created b0) (vb_message b0) (dget (`"name") (or_empty (vb_user b0))) (dget (`"address") (or_empty (vb_user b0)))).
  assert (Ef : from_inventory empty_vmeta i (Some (vn k)) = Ok m).
  { unfold from_inventory. rewrite Hvs. cbn [or_else]. rewrite Hg. unfold m, empty_vmeta. cbn [vm_created vm_message vm_name vm_address].
    assert (O : forall A (o : option A), or_else o None = o) by (intros A [?|]; reflexivity). rewrite !O. reflexivity. }
  pose proof (hl_dir _ _ _ (md_holds _ _ _ _ _ _ _ _ _ M)) as Hh. rewrite Eh in Hh, Es, Pl.
  destruct (extract_ok e w path version d i (vn k) L m Fc Hc (md_tree _ _ _ _ _ _ _ _ _ M) Hu Hh Es Pl) as (R1 & R2 & R3 & R4); auto.
  { intros r b Hi. destruct (L1 r b Hi) as (? & ? & _). auto. }
  exists L, m, b0. split; [exact R1|]. split; [exact R2|]. split; [exact R3|]. split; [exact R4|]. split; [auto|]. split; [auto|]. split; [auto|]. split; [|reflexivity].
  unfold versions_block. now rewrite Hvs.
Qed.
