(** What is left by an update that is interrupted, compared to what it has begun with and to what
    it would have ended with (C88). *)
From Coq Require Import Permutation Sorted.
From Verif Require Import Properties_Names Properties_InventoryValidator Properties_Inventory.
From Verif Require Import Base Unicode Regex Utf8 Json PyJson JsonTextModel JsonTextSpec JsonTextProofs JsonFileProofs Log DigestModel LayoutModel LayoutProofs
  ObjectUtilsModel ObjectUtilsProofs InventorySpec InventoryValidatorModel InventoryValidatorProofs InventoryRulesProofs
  InventoryModel InventoryOpsSpec InventoryOpsProofs NewVersionModel NewVersionProofs NewVersionOpsProofs VersionNumberProofs InventoryParseProofs ParseModel
  ContentPathProofs TextFile PathModel FsModel FsSpec FsProofs FswModel FswSpec FswProofs FswCopyProofs ValidatorSpec ValidatorBasicProofs ObjectModel ObjectSpec ObjectInvProofs ObjectRulesProofs
  ObjectParseProofs ObjectAddProofs ContentNameProofs ObjectGrowProofs ObjectStartProofs ObjectCopyProofs ObjectWriteProofs ObjectSourceProofs ObjectFactsProofs NamasteSpec ValidatorVersionProofs ObjectMadeProofs ObjectIntactProofs ObjectExtendProofs FsStepProofs NamasteModel NamasteProofs ObjectStoreProofs ObjectCreateProofs ValidatorModel ValidatorIntactProofs ObjectUpdateProofs ObjectNextProofs ObjectDigestProofs ObjectVersionProofs ObjectExtractProofs ObjectHistoryProofs ObjectExamples UpdateSpec ParseProofs OpenProofs ChangeProofs FrameProofs UpdateProofs Properties_Update.
Import ListNotations.

Lemma start_none H c e objdir srcdir da types metadata carry w : fst (start_new_version H c e objdir srcdir da types metadata carry w) = [].
Proof.
  destruct (start_acts (fun _ => False) H c e objdir srcdir da types metadata carry w) as [_ A].
  destruct (fst (start_new_version H c e objdir srcdir da types metadata carry w)) as [|s l]; [reflexivity|]. destruct (A s (or_introl eq_refl)).
Qed.

(** Everything the update writes is written by write_new_version. *)
Lemma update_parts H c e objdir srcdir metadata abort w : tree w -> Forall fname (e_cwd e) ->
  let x := add_version_with_content H c e objdir srcdir metadata abort in
  (fst (x w) = [] /\ forall i, result x w <> Ok (Some i)) \/
  exists h src nv0 nv l, result (start_new_version H c e objdir srcdir (Some (o_alg c)) (o_fixity c) metadata false) w = Ok (h, src, nv0) /\
    Forall plain_path l /\ nv = nv_do H (fs_read w src) (map (fun p => OAdd p p None) l) nv0 /\
    let y := write_new_version H (o_alg c) h src nv in
    fst (x w) = fst (y w) /\ result x w = (let* i := result y w in Ok (Some i)).
Proof.
  intros Tw Fc x. pose proof (start_none H c e objdir srcdir (Some (o_alg c)) (o_fixity c) metadata false w) as Es.
  change (result x w) with (snd (x w)). destruct (x w) as [sx rx] eqn:Ex. cbn [fst snd]. unfold x, add_version_with_content in Ex.
  unfold ibind at 1 in Ex. destruct (start_new_version H c e objdir srcdir (Some (o_alg c)) (o_fixity c) metadata false w) as [s0 [[[h src] nv0]|ex]] eqn:St.
  2:{ left. cbn [fst] in Es. injection Ex as <- <-. split; [exact Es|intros i F; discriminate F]. }
  cbn [fst] in Es. subst s0. cbn [apply_all fold_left app] in Ex.
  assert (Rs : result (start_new_version H c e objdir srcdir (Some (o_alg c)) (o_fixity c) metadata false) w = Ok (h, src, nv0)) by (unfold result; rewrite St; reflexivity).
  destruct (start_source _ _ _ _ _ _ _ _ _ _ _ _ _ Fc Rs) as (Fs & Ds & d & ->).
  unfold ibind, iread in Ex. cbn [apply_all fold_left app] in Ex.
  destruct (nv_from_srcdir H w src nv0) as [nv|ex] eqn:En; [|left; injection Ex as <- <-; split; [reflexivity|intros i F; discriminate F]].
  destruct (srcdir_run _ _ _ _ _ Tw Fs Ds En) as (l & Pl & _ & Run). apply run_do in Run.
  destruct (if abort then let* d0 := diff_with_previous nv in Ok (Some d0) else Ok None) as [diff|ex]; [|left; injection Ex as <- <-; split; [reflexivity|intros i F; discriminate F]].
  destruct diff as [[|y diff]|]; [left; injection Ex as <- <-; split; [reflexivity|intros i F; discriminate F]| |];
    (right; exists h, src, nv0, nv, l; split; [exact Rs|]; split; [exact Pl|]; split; [exact Run|]; cbv zeta; unfold result;
     destruct (write_new_version H (o_alg c) h src nv w) as [sw [i|ex]]; cbn [iret fst snd ebind app] in *; rewrite ?app_nil_r in Ex; injection Ex as <- <-; split; reflexivity).
Qed.

Section Late.
  Context (H : hashfn) (alg : str) (h src : place) (nv : new_version) (v : str) (w : node).
  Context (Tw : tree w) (Fh : Forall fname h) (Hd : look w h = Some EDir).
  Context (Fo : forall o, nv_old_alg nv = Some o -> ~ In PathModel.slash o) (Hv : i_head (nv_inv nv) = Some v).
  Context (Fv : fname v) (Vi : v <> inv_name) (Vs : forall o, v <> side_name o) (Cv : forall s c, In (s, c) (nv_copy nv) -> below_v v c).
  Let y := write_new_version H alg h src nv.
  Let w0 := after (first_part h nv) w.
  Let w1 := after (fs_makedir h v) w0.
  Let x2 := copy_files h src (nv_copy nv).
  Let w2 := after x2 w1.
  Let x3 := write_inventory_and_sidecar H alg h (Some (nv_inv nv)) v.
  Let w3 := after x3 w2.
  Let x4 := write_inventory_and_sidecar H alg h (Some (nv_inv nv)) [].
  Let t0 := first_tree h nv w Tw Fh Fo.
  Let a1 := acts_mkv h nv v w Tw Fh Hd Fo Fv.

  (** Once the root inventory is touched, nothing but it and its sidecar is to be written. *)
  Lemma ends_late r : result y w = Ok r -> exists s3 s4,
    result (fs_makedir h v) w0 = Ok tt /\ result x2 w1 = Ok tt /\ result x3 w2 = Ok s3 /\ result x4 w3 = Ok s4 /\ after y w = after x4 w3 /\ r = nv_inv nv.
  Proof using Hv.
    intros R. unfold y, write_new_version in R |- *. fold (first_part h nv) in R |- *.
    apply seq_ok in R as ([] & R0 & R & A0). rewrite A0. fold w0 in R |- *. clear A0.
    apply seq_ok in R as (v' & R1 & R & A1). rewrite A1. rewrite result_iread in R1. unfold head_of in R1. rewrite Hv in R1. apply Ok_inv in R1. subst v'. rewrite after_iread in R |- *. clear A1.
    apply seq_ok in R as ([] & Mk & R & A2). rewrite A2. fold w1 in R |- *. fold x2 in R |- *. clear A2.
    apply seq_ok in R as ([] & R2 & R & A3). rewrite A3. fold w2 in R |- *. fold x3 in R |- *. clear A3.
    apply seq_ok in R as (s3 & R3 & R & A4). rewrite A4. fold w3 in R |- *. fold x4 in R |- *. clear A4.
    apply seq_ok in R as (s4 & R4 & R & A5). rewrite A5. clear A5. exists s3, s4. apply Ok_inv in R. repeat split; auto.
  Qed.

  Lemma crash_late w' : crash y w w' -> look w' (h ++ [inv_name]) <> look w (h ++ [inv_name]) ->
    result (fs_makedir h v) w0 = Ok tt /\ forall q, ~ (q = h ++ [inv_name] \/ q = h ++ [side_name alg]) -> look w' q = look w3 q.
  Proof using All.
    intros Cr Hne. unfold y, write_new_version in Cr. fold (first_part h nv) in Cr.
    pose proof (first_inv h nv w Tw Fh Fo) as I0. fold w0 in I0.
    apply crash_bind in Cr as [Cr|([] & _ & Cr)].
    { exfalso. apply Hne. apply (crash_other _ _ _ _ _ Tw (acts_first h nv w Fh Fo) Cr). intros (o & _ & _ & F). apply app_inv_head in F. apply (f_equal (hd [])) in F. cbn [hd] in F. symmetry in F. revert F. apply side_not_inv. }
    fold w0 in Cr. apply crash_bind in Cr as [Cr|(v' & Ev & Cr)].
    { exfalso. apply Hne. apply crash_none in Cr; [|reflexivity]. subst w'. exact I0. }
    rewrite result_iread in Ev. unfold head_of in Ev. rewrite Hv in Ev. apply Ok_inv in Ev. subst v'. rewrite after_iread in Cr.
    assert (Nv : ~ (h ++ [inv_name] = h ++ [v])).
    { intros F. apply app_inv_head in F. apply (f_equal (hd [])) in F. cbn [hd] in F. exact (Vi (eq_sym F)). }
    assert (Ni : ~ (exists z, h ++ [inv_name] = h ++ v :: z)).
    { intros [z F]. apply app_inv_head in F. apply (f_equal (hd [])) in F. cbn [hd] in F. exact (Vi (eq_sym F)). }
    apply crash_bind in Cr as [Cr|([] & Mk & Cr)].
    { exfalso. apply Hne. rewrite <- I0. exact (crash_other _ _ _ _ _ t0 a1 Cr Nv). }
    split; [exact Mk|].
    fold w1 in Cr. assert (I1 : look w1 (h ++ [inv_name]) = look w (h ++ [inv_name])).
    { rewrite <- I0. exact (acts_other _ _ _ _ t0 a1 Nv). }
    pose proof (tree1 h nv v w Tw Fh Hd Fo Fv) as t1. pose proof (acts2 h src nv v w Tw Fh Hd Fo Fv Vs Cv Mk) as a2.
    apply crash_bind in Cr as [Cr|([] & R2 & Cr)].
    { exfalso. apply Hne. rewrite <- I1. exact (crash_other _ _ _ _ _ t1 a2 Cr Ni). }
    fold x2 w2 in Cr. assert (I2 : look w2 (h ++ [inv_name]) = look w (h ++ [inv_name])).
    { rewrite <- I1. exact (acts_other _ _ _ _ t1 a2 Ni). }
    assert (N3 : ~ (h ++ [inv_name] = h ++ [v; inv_name] \/ h ++ [inv_name] = h ++ [v; side_name alg])).
    { intros [F|F]; apply app_inv_head in F; discriminate F. }
    pose proof (tree2 h src nv v w Tw Fh Hd Fo Fv Vs Cv Mk) as t2. pose proof (acts3 H alg h src nv v w Tw Fh Hd Fo Fv Vs Cv Mk) as a3.
    apply crash_bind in Cr as [Cr|(s3 & R3 & Cr)].
    { exfalso. apply Hne. rewrite <- I2. exact (crash_other _ _ _ _ _ t2 a3 Cr N3). }
    fold x3 w3 in Cr. pose proof (tree3 H alg h src nv v w Tw Fh Hd Fo Fv Vs Cv Mk) as t3. pose proof (acts4 H alg h src nv v w Tw Fh Hd Fo Fv Vs Cv Mk) as a4.
    fold x4 in Cr. apply crash_bind in Cr as [Cr|(s4 & _ & Cr)]; intros q Hq.
    - exact (crash_other _ _ _ _ _ t3 a4 Cr Hq).
    - apply crash_none in Cr; [|reflexivity]. rewrite Cr. exact (acts_other _ _ _ _ t3 a4 Hq).
  Qed.

  Theorem late_ended w' r : result y w = Ok r -> crash y w w' -> look w' (h ++ [inv_name]) <> look w (h ++ [inv_name]) ->
    (forall q, q <> h ++ [inv_name] -> q <> h ++ [side_name alg] -> look w' q = look (after y w) q) /\
    look (after y w) (h ++ [inv_name]) = look w' (h ++ [v; inv_name]) /\
    look (after y w) (h ++ [side_name alg]) = look w' (h ++ [v; side_name alg]).
  Proof using All.
    intros R Cr Hne. destruct (crash_late w' Cr Hne) as [Mk L]. destruct (ends_late r R) as (s3 & s4 & _ & R2 & R3 & R4 & E & _). rewrite E.
    pose proof (tree2 h src nv v w Tw Fh Hd Fo Fv Vs Cv Mk) as t2. pose proof (tree3 H alg h src nv v w Tw Fh Hd Fo Fv Vs Cv Mk) as t3. pose proof (acts4 H alg h src nv v w Tw Fh Hd Fo Fv Vs Cv Mk) as a4.
    assert (E0 : at_path h [] = h) by (rewrite <- (app_nil_r h) at 2; apply (at_path_join h []); auto).
    destruct (inv_done H alg h (nv_inv nv) v w2 t2 Fh (dir2 h src nv v w Tw Fh Hd Fo Fv Vs Cv Mk) s3 R3) as (b & d & t & Eb & Ex & Et & L1 & L2).
    destruct (inv_done H alg h (nv_inv nv) [] w3 t3 Fh (dir3 H alg h src nv v w Tw Fh Hd Fo Fv Vs Cv Mk) s4 R4) as (b' & d' & t' & Eb' & Ex' & Et' & L3 & L4).
    assert (b' = b) by congruence. subst b'. assert (d' = d) by (apply file_digest_iff in Ex, Ex'; congruence). subst d'. assert (t' = t) by congruence. subst t'.
    fold x3 w3 in L1, L2. fold x4 in L3, L4. rewrite (at_path_one h v Fh Fv), <- app_assoc in L1, L2. rewrite E0 in L3, L4. cbn [app] in L1, L2.
    split; [|split].
    - intros q N1 N2. rewrite L by (intros [F|F]; auto). symmetry. apply (acts_other _ _ _ _ t3 a4). intros [F|F]; auto.
    - rewrite L3. rewrite L; [symmetry; exact L1|]. intros [F|F]; apply app_inv_head in F; discriminate F.
    - rewrite L4. rewrite L; [symmetry; exact L2|]. intros [F|F]; apply app_inv_head in F; discriminate F.
  Qed.
End Late.
