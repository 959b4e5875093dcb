(** Property C88: an update that has been interrupted can be undone or completed. *)
From Coq Require Import Permutation Sorted.
From Verif Require Import Properties_Names Properties_InventoryValidator Properties_Inventory.
From Verif Require Import Base Unicode Regex Utf8 Json PyJson JsonTextModel JsonTextSpec JsonTextProofs JsonFileProofs Log DigestModel LayoutModel LayoutProofs
  ObjectUtilsModel ObjectUtilsProofs InventorySpec InventoryValidatorModel InventoryValidatorProofs InventoryRulesProofs
  InventoryModel InventoryOpsSpec InventoryOpsProofs NewVersionModel NewVersionProofs NewVersionOpsProofs VersionNumberProofs InventoryParseProofs ParseModel
  ContentPathProofs TextFile PathModel FsModel FsSpec FsProofs FswModel FswSpec FswProofs FswCopyProofs ValidatorSpec ValidatorBasicProofs ObjectModel ObjectSpec ObjectInvProofs ObjectRulesProofs
  ObjectParseProofs ObjectAddProofs ContentNameProofs ObjectGrowProofs ObjectStartProofs ObjectCopyProofs ObjectWriteProofs ObjectSourceProofs ObjectFactsProofs NamasteSpec ValidatorVersionProofs ObjectMadeProofs ObjectIntactProofs ObjectExtendProofs FsStepProofs NamasteModel NamasteProofs ObjectStoreProofs ObjectCreateProofs ValidatorModel ValidatorIntactProofs ObjectUpdateProofs ObjectNextProofs ObjectDigestProofs ObjectVersionProofs ObjectExtractProofs ObjectHistoryProofs ObjectExamples UpdateSpec ParseProofs OpenProofs ChangeProofs FrameProofs UpdateProofs Properties_Update ObjectTrackProofs RecoverProofs
  Properties_Layout Properties_Object Properties_SidecarTool.
Import ListNotations.

(** * What is meant *)

(** In u, the inventory and the sidecar with algorithm a in the root directory h are those in the
    directory of version v in w. *)
Record root_copied (h : place) (v a : str) (w u : node) : Prop := {
  rc_inv : look u (h ++ [inv_name]) = look w (h ++ [v; inv_name]);
  rc_side : look u (h ++ [side_name a]) = look w (h ++ [v; side_name a])
}.

Lemma place_in (h : place) (v : str) q : (exists y, q = h ++ v :: y) \/ (forall y, q <> h ++ v :: y).
Proof.
  destruct (list_eq_dec (list_eq_dec N.eq_dec) (firstn (Datatypes.S (List.length h)) q) (h ++ [v])) as [E|E].
  - left. exists (skipn (Datatypes.S (List.length h)) q). rewrite <- (firstn_skipn (Datatypes.S (List.length h)) q) at 1. rewrite E, <- app_assoc. reflexivity.
  - right. intros y ->. apply E. rewrite firstn_app, firstn_all2 by lia. replace (_ - _)%nat with 1%nat by lia. reflexivity.
Qed.

(** * Completing *)

(** Any object: if an update that would not have failed is interrupted when it has begun with the
    root inventory, then copying inventory and sidecar from the directory of the new version to
    the root gives exactly what the update would have given. *)
Theorem C88_completed : forall H c e objdir srcdir metadata abort w w' h i v u,
  hash_ok H -> tree w -> Forall fname (e_cwd e) ->
  let x := add_version_with_content H c e objdir srcdir metadata abort in
  result x w = Ok (Some i) -> i_head i = Some v -> result (open_obj_fs e objdir false) w = Ok h ->
  crash x w w' -> look w' (h ++ [inv_name]) <> look w (h ++ [inv_name]) ->
  root_copied h v (o_alg c) w' u ->
  (forall q, q <> h ++ [inv_name] -> q <> h ++ [side_name (o_alg c)] -> look u q = look w' q) ->
  forall q, look u q = look (after x w) q.
Proof.
  intros H c e objdir srcdir metadata abort w w' h i v u HH Tw Fc x R Hi Eh Cr Hne [U1 U2] U3 q.
  destruct (update_parts H c e objdir srcdir metadata abort w Tw Fc) as [[_ F]|(h' & src & nv0 & nv & l & St & Pl & En & Ef & Er)]; [destruct (F i R)|]. fold x in Ef, Er.
  assert (h' = h) by (destruct (start_inv _ _ _ _ _ _ _ _ _ _ _ _ _ St) as (_ & _ & _ & _ & Eo & _); congruence). subst h'.
  set (y := write_new_version H (o_alg c) h src nv) in *.
  assert (Ea : after x w = after y w) by (unfold after; rewrite Ef; reflexivity).
  assert (Cy : crash y w w') by (unfold crash in *; rewrite <- Ef; exact Cr).
  rewrite R in Er. destruct (result y w) as [r|ex] eqn:Ry; [|discriminate]. cbn [ebind] in Er. apply Ok_inv in Er. apply Some_inv in Er. subst r.
  destruct (UpdateProofs.built H c e objdir srcdir (Some (o_alg c)) (o_fixity c) metadata false w h src nv0 (map (fun p => OAdd p p None) l) (o_alg c) HH Tw Fc St (adds_plain l Pl)) as (i1 & s & inv & i0 & f & v' & Pi & O & Fh & Hd & Vv & Cd & Al & B & _).
  rewrite <- En in B.
  assert (Fo : forall o, nv_old_alg nv = Some o -> ~ In PathModel.slash o).
  { intros o Eo. rewrite (bd_old _ _ _ _ _ B) in Eo. apply Some_inv in Eo. subst o. now apply algs_no_slash. }
  assert (Cv : forall s0 c0, In (s0, c0) (nv_copy nv) -> below_v v' c0).
  { intros s0 c0 Hc. apply (in_content_below v' _ c0 Cd). now apply (bd_copy _ _ _ _ _ B s0 c0). }
  pose proof (bd_head _ _ _ _ _ B) as Hv. destruct Vv as (Fv & Vi & Vs).
  destruct (ends_late H (o_alg c) h src nv v' w Hv i Ry) as (_ & _ & _ & _ & _ & _ & _ & ->). assert (v' = v) by congruence. subst v'.
  destruct (late_ended H (o_alg c) h src nv v w Tw Fh Hd Fo Hv Fv Vi Vs Cv w' _ Ry Cy Hne) as (L1 & L2 & L3). fold y in L1, L2, L3.
  rewrite Ea. destruct (place_eq_dec q (h ++ [inv_name])) as [->|N1]; [rewrite L2; exact U1|].
  destruct (place_eq_dec q (h ++ [side_name (o_alg c)])) as [->|N2]; [rewrite L3; exact U2|].
  rewrite (U3 q N1 N2). apply L1; assumption.
Qed.

(** * Undoing *)

(** An object of this library: wherever the update is interrupted, removing the directory of the
    new version and, with another algorithm, its root sidecar, and copying inventory and sidecar
    from the directory of the version before to the root gives back what was there before. *)
Theorem C88_undone_partial : forall H h sd P w l c e sp path m abort F w' u i s old,
  hash_ok H -> history H h sd P w l -> uniform P \/ collision_free H P l ->
  update_call c e w sp path m h -> P c -> In (o_alg c) [`"sha512"; `"sha256"] ->
  sd = `"1.1" \/ List.length l = 1%nat -> (N.of_nat (List.length l) < 99999)%N ->
  uniform P \/ (forall y, h <> dest_of (e_cwd e) sp ++ y) -> files_at w (dest_of (e_cwd e) sp) F ->
  Forall fname (e_cwd e) ->
  crash (add_version_with_content H c e (Some path) (Some sp) (Some m) abort) w w' ->
  parse_inventory w h = Ok (i, s) -> i_alg i = Some old ->
  tree u -> (forall y, look u (h ++ vn (Datatypes.S (List.length l)) :: y) = None) ->
  root_copied h (vn (List.length l)) old w' u ->
  (o_alg c <> old -> look u (h ++ [side_name (o_alg c)]) = None) ->
  (forall q, (forall y, q <> h ++ vn (Datatypes.S (List.length l)) :: y) -> q <> h ++ [inv_name] -> q <> h ++ [side_name old] -> q <> h ++ [side_name (o_alg c)] -> look u q = look w' q) ->
  (forall q, look u q = look w q) /\ history H h sd P u l.
Proof.
  intros H h sd P w l c e sp path m abort F w' u i s old HH Hi Hun Uc Pc Hac Hsd Hn Hout Fa Fc Cr Pi Eo Tu U1 [U2 U3] U4 U5.
  assert (Q : forall q, look u q = look w q); [|split; [exact Q|]; apply (elsewhere H h sd P h w u l Hi Tu); intros y; apply Q].
  destruct (history_tracked H h sd P w l HH Hi Hun) as (alg & spec & ivs & C & T). pose proof (tr_made _ _ _ _ _ _ _ _ _ _ T) as M.
  set (n := List.length l) in *. pose proof (md_some _ _ _ _ _ _ _ _ _ M) as Hn1. pose proof (md_tree _ _ _ _ _ _ _ _ _ M) as Tw.
  assert (Ea : old = alg n).
  { rewrite (made_parse _ _ _ _ _ _ _ _ _ M) in Pi. apply Ok_inv in Pi. injection Pi as E1 _. pose proof (so_alg _ _ _ _ (sound_sorted _ _ _ _ (md_head _ _ _ _ _ _ _ _ _ M))) as A3. rewrite E1 in A3. congruence. }
  subst old.
  set (v := vn (Datatypes.S n)) in *.
  assert (Fh : h = dest_of (e_cwd e) path) by apply Uc.
  (* what is there before *)
  assert (W0 : look w (h ++ [v]) = None).
  { destruct (look w (h ++ [v])) as [en|] eqn:E; [|reflexivity]. exfalso. destruct (hl_only _ _ _ (md_holds _ _ _ _ _ _ _ _ _ M) [v] en) as (y & b & Hy); [discriminate|exact E|].
    destruct (old_file H w h sd n alg spec ivs C M _ _ Hy) as [(k & Ek & Hk)|(k & k2 & z & Ek & Hk)].
    - apply (f_equal (hd [])) in Ek. cbn [app hd] in Ek. unfold v in Ek. destruct (vn_starts (Datatypes.S n)) as [q Eq]. rewrite Eq in Ek. destruct Hk as [-> | [-> | ->]]; discriminate.
    - apply (f_equal (hd [])) in Ek. cbn [app hd] in Ek. apply vn_inj in Ek. clear -Ek Hk. lia. }
  assert (W1 : forall y, look w (h ++ v :: y) = None).
  { intros y. destruct (look w (h ++ v :: y)) as [en|] eqn:E; [|reflexivity]. exfalso. destruct y as [|k y]; [congruence|].
    rewrite (look_prefix_dir w (h ++ v :: k :: y) (h ++ [v]) (k :: y)) in W0; [discriminate|rewrite E; discriminate|rewrite <- app_assoc; reflexivity|discriminate]. }
  assert (W2 : o_alg c <> alg n -> look w (h ++ [side_name (o_alg c)]) = None).
  { intros Ne. destruct (look w (h ++ [side_name (o_alg c)])) as [en|] eqn:E; [|reflexivity]. destruct (Ne (made_one_sidecar _ _ _ _ _ _ _ _ _ M _ _ E)). }
  assert (W3 : look w (h ++ [inv_name]) = look w (h ++ [vn n; inv_name])).
  { rewrite (files_there _ _ _ _ _ _ _ _ _ M _ _ (IO_inv _ _ _ _ _ _)). symmetry. apply (files_there _ _ _ _ _ _ _ _ _ M), IO_vinv. lia. }
  assert (W4 : look w (h ++ [side_name (alg n)]) = look w (h ++ [vn n; side_name (alg n)])).
  { rewrite (files_there _ _ _ _ _ _ _ _ _ M _ _ (IO_side _ _ _ _ _ _)). symmetry. apply (files_there _ _ _ _ _ _ _ _ _ M), IO_vside. lia. }
  (* what can have been written *)
  assert (K : forall q, (forall y, q <> h ++ v :: y) -> q <> h ++ [inv_name] -> q <> h ++ [side_name (alg n)] -> q <> h ++ [side_name (o_alg c)] -> look w' q = look w q).
  { set (x := add_version_with_content H c e (Some path) (Some sp) (Some m) abort) in *.
    destruct (update_parts H c e (Some path) (Some sp) (Some m) abort w Tw Fc) as [[E0 _]|(h' & src & nv0 & nv & l0 & St & Pl & En & Ef & Er)].
    - apply crash_none in Cr; [|exact E0]. subst w'. reflexivity.
    - fold x in Ef, Er. rewrite En in Ef, Er. clear nv En. set (y := write_new_version H (o_alg c) h' src _) in *.
      assert (Cy : crash y w w') by (unfold crash in *; rewrite <- Ef; exact Cr).
      destruct (C37_partial _ _ _ _ _ _ _ _ _ _ _ _ _ _ _ w' HH Tw Fc St (adds_plain l0 Pl) Cy) as (v1 & i1 & s1 & o1 & Hv1 & Pi1 & Ea1 & K1 & _).
      destruct (C37_partial _ _ _ _ _ _ _ _ _ _ _ _ _ _ _ _ HH Tw Fc St (adds_plain l0 Pl) (crash_done y w)) as (v2 & i2 & s2 & o2 & Hv2 & Pi2 & Ea2 & K2 & _).
      assert (v2 = v1) by congruence. subst v2. assert (o2 = o1) by congruence. subst o2.
      assert (h' = h).
      { destruct (start_inv _ _ _ _ _ _ _ _ _ _ _ _ _ St) as (_ & _ & _ & _ & Eh & _). pose proof (hl_dir _ _ _ (md_holds _ _ _ _ _ _ _ _ _ M)) as Hd.
        destruct (open_obj_catch e path false w) as (_ & O & _). rewrite Fh in Hd. destruct (open_there (e_cwd e) path w (proj2 (uc_url _ _ _ _ _ _ _ Uc)) Hd) as [O1 _].
        rewrite (O _ O1) in Eh. apply Ok_inv in Eh. rewrite <- Eh, Fh. reflexivity. }
      subst h'. assert (o1 = alg n) by congruence. subst o1.
      assert (v1 = v).
      { destruct (update_step_inv H h sd P c e w l alg spec ivs C sp path m abort F HH T Uc Pc Hac Hsd Hn Hout Fa Hun) as [(_ & _ & R & _)|(_ & j & alg' & spec' & ivs' & C' & R & T' & _)]; fold x in R.
        - rewrite R in Er. destruct (result y w); discriminate.
        - assert (A : after x w = after y w) by (unfold after; rewrite Ef; reflexivity). change (tracked H h sd P (after x w) (l ++ [F]) alg' spec' ivs' C') in T'. rewrite A in T'.
          pose proof (tr_made _ _ _ _ _ _ _ _ _ _ T') as M'. assert (El : List.length (l ++ [F]) = Datatypes.S n) by (rewrite app_length; cbn [List.length]; apply Nat.add_1_r). rewrite El in M'.
          assert (Hr : (1 <= Datatypes.S n <= Datatypes.S n)%nat) by (clear; lia).
          assert (L : look (after y w) (h ++ [v; inv_name]) <> None) by (unfold v; rewrite (files_there _ _ _ _ _ _ _ _ _ M' _ _ (IO_vinv _ _ _ _ _ _ (Datatypes.S n) Hr)); discriminate).
          destruct (list_eq_dec N.eq_dec v1 v) as [E|Ne]; [exact E|]. destruct L. rewrite <- (W1 [inv_name]). apply K2.
          + intros [_ [z Ez]]. apply app_inv_head in Ez. injection Ez as E _. congruence.
          + intros E. apply app_inv_head in E. discriminate E.
          + intros E. apply app_inv_head in E. discriminate E.
          + intros E. apply app_inv_head in E. discriminate E. }
      subst v1. intros q Q1 Q2 Q3 Q4. apply K1; auto. intros [_ [z Ez]]. exact (Q1 z Ez). }
  intros q.
  destruct (place_in h v q) as [[y ->]|Nq]; [rewrite U1, W1; reflexivity|].
  assert (Kn : forall z, look w' (h ++ vn n :: z) = look w (h ++ vn n :: z)).
  { intros z. apply K.
    - intros y E. apply app_inv_head in E. apply (f_equal (hd [])) in E. cbn [hd] in E. apply vn_inj in E. clear -E. lia.
    - intros E. apply app_inv_head in E. apply (f_equal (hd [])) in E. cbn [hd] in E. revert E. apply vn_first. exists 105%N. eexists. split; [reflexivity|discriminate].
    - intros E. apply app_inv_head in E. apply (f_equal (hd [])) in E. cbn [hd] in E. revert E. apply vn_first. exists 105%N. eexists. split; [reflexivity|discriminate].
    - intros E. apply app_inv_head in E. apply (f_equal (hd [])) in E. cbn [hd] in E. revert E. apply vn_first. exists 105%N. eexists. split; [reflexivity|discriminate]. }
  destruct (place_eq_dec q (h ++ [inv_name])) as [->|N1]; [rewrite U2, W3; apply Kn|].
  destruct (place_eq_dec q (h ++ [side_name (alg n)])) as [->|N2]; [rewrite U3, W4; apply Kn|].
  destruct (place_eq_dec q (h ++ [side_name (o_alg c)])) as [->|N3].
  { assert (Ne : o_alg c <> alg n) by (intros E; apply N2; rewrite E; reflexivity). rewrite (U4 Ne), (W2 Ne). reflexivity. }
  rewrite (U5 q Nq N1 N2 N3). apply K; assumption.
Qed.

(** The object of this library completed is the one with the new version. *)
Theorem C88_completed_history_partial : forall H h sd P w l c e sp path m abort F w' u,
  hash_ok H -> history H h sd P w l -> uniform P \/ collision_free H P l ->
  update_call c e w sp path m h -> P c -> In (o_alg c) [`"sha512"; `"sha256"] ->
  sd = `"1.1" \/ List.length l = 1%nat -> (N.of_nat (List.length l) < 99999)%N ->
  uniform P \/ (forall y, h <> dest_of (e_cwd e) sp ++ y) -> files_at w (dest_of (e_cwd e) sp) F ->
  Forall fname (e_cwd e) ->
  let x := add_version_with_content H c e (Some path) (Some sp) (Some m) abort in
  crash x w w' -> look w' (h ++ [inv_name]) <> look w (h ++ [inv_name]) ->
  tree u -> root_copied h (vn (Datatypes.S (List.length l))) (o_alg c) w' u ->
  (forall q, q <> h ++ [inv_name] -> q <> h ++ [side_name (o_alg c)] -> look u q = look w' q) ->
  (forall q, look u q = look (after x w) q) /\ history H h sd P u (l ++ [F]).
Proof.
  intros H h sd P w l c e sp path m abort F w' u HH Hi Hun Uc Pc Hac Hsd Hn Hout Fa Fc x Cr Hne Tu U1 U2.
  destruct (history_tracked H h sd P w l HH Hi Hun) as (alg & spec & ivs & C & T). pose proof (tr_made _ _ _ _ _ _ _ _ _ _ T) as M. pose proof (md_tree _ _ _ _ _ _ _ _ _ M) as Tw.
  assert (Eh : result (open_obj_fs e (Some path) false) w = Ok h).
  { pose proof (hl_dir _ _ _ (md_holds _ _ _ _ _ _ _ _ _ M)) as Hd. pose proof (uc_place _ _ _ _ _ _ _ Uc) as Fh.
    destruct (open_obj_catch e path false w) as (_ & O & _). rewrite Fh in Hd |- *. destruct (open_there (e_cwd e) path w (proj2 (uc_url _ _ _ _ _ _ _ Uc)) Hd) as [O1 _]. exact (O _ O1). }
  destruct (update_step_inv H h sd P c e w l alg spec ivs C sp path m abort F HH T Uc Pc Hac Hsd Hn Hout Fa Hun) as [(_ & _ & R & _)|(_ & j & alg' & spec' & ivs' & C' & R & T' & Ej)]; fold x in R.
  - exfalso. destruct (update_parts H c e (Some path) (Some sp) (Some m) abort w Tw Fc) as [[E0 _]|(h' & src & nv0 & nv & l0 & St & Pl & En & Ef & Er)].
    + apply crash_none in Cr; [|exact E0]. subst w'. apply Hne. reflexivity.
    + fold x in Er. rewrite R in Er. destruct (result (write_new_version H (o_alg c) h' src nv) w); discriminate.
  - pose proof (tr_made _ _ _ _ _ _ _ _ _ _ T') as M'. pose proof (so_head _ _ _ _ (md_head _ _ _ _ _ _ _ _ _ M')) as Hh.
    assert (El : List.length (l ++ [F]) = Datatypes.S (List.length l)) by (rewrite app_length; cbn [List.length]; apply Nat.add_1_r).
    rewrite El, Ej in Hh.
    assert (Q : forall q, look u q = look (after x w) q).
    { exact (C88_completed H c e (Some path) (Some sp) (Some m) abort w w' h j _ u HH Tw Fc R Hh Eh Cr Hne U1 U2). }
    split; [exact Q|]. apply (elsewhere H h sd P h (after x w) u (l ++ [F])); [|exact Tu|intros y; apply Q].
    exact (added H h sd P c e w l sp path m abort j F Hi Uc Pc Hac Hsd Hn Hout Fa R).
Qed.

(** When the update is undone, it can be tried again. *)
Theorem C88_again_partial : forall H h sd P w l c e sp path m abort F u,
  hash_ok H -> history H h sd P w l -> uniform P \/ collision_free H P l ->
  update_call c e w sp path m h -> P c -> In (o_alg c) [`"sha512"; `"sha256"] ->
  sd = `"1.1" \/ List.length l = 1%nat -> (N.of_nat (List.length l) < 99999)%N ->
  uniform P \/ (forall y, h <> dest_of (e_cwd e) sp ++ y) -> files_at w (dest_of (e_cwd e) sp) F ->
  tree u -> (forall q, look u q = look w q) ->
  let x := add_version_with_content H c e (Some path) (Some sp) (Some m) abort in
  (exists i, result x u = Ok (Some i)) /\ history H h sd P (after x u) (l ++ [F]) \/
  result x u = Ok None /\ abort = true /\ after x u = u.
Proof.
  intros H h sd P w l c e sp path m abort F u HH Hi Hun [U1 U2 U3 U4 [S1 S2 S3] U6] Pc Hac Hsd Hn Hout [F1 F2] Tu Q.
  apply (C35_update_succeeds_partial H h sd P u l c e sp path m abort F); auto.
  - apply (elsewhere H h sd P h w u l Hi Tu). intros y. apply Q.
  - constructor; auto. constructor; [rewrite Q; exact S1|intros es b; rewrite Q; apply S2|intros es; rewrite Q; apply S3].
  - split; [exact F1|]. intros es b. rewrite Q. apply F2.
Qed.

(** * Examples *)

(** The object with two versions gets a third, with another digest algorithm, and writing stops
    while the root inventory is written. *)
Definition ex_torn (n : nat) : node := apply_all (firstn n (fst (ex_update (`"sha512") (`"s3") true ex_updated))) ex_updated.
(** Without the removed names in the object's directory, and with copies of some files of a
    version's directory *)
Definition ex_fix (removed : list str) (from : str) (copied : list str) (w : node) : node :=
  let fix_o (o : list (str * node)) := fold_left (fun o k => dset k (match look w [`"o"; from; k] with Some (EFile b) => File b | _ => Dir [] end) o) copied (filter (fun y => negb (str_in (fst y) removed)) o) in
  match w with
  | Dir d => Dir (map (fun x => if str_eqb (fst x) (`"o") then (fst x, match snd x with Dir o => Dir (fix_o o) | n => n end) else x) d)
  | n => n
  end.
Definition ex_undone : node := ex_fix [`"v3"; side_name (`"sha512")] (`"v2") [inv_name; side_name (`"sha256")] (ex_torn 7).
Definition ex_completed : node := ex_fix [] (`"v3") [inv_name; side_name (`"sha512")] (ex_torn 7).

Lemma dget_filter (p : str -> bool) (d : list (str * node)) k : p k = true -> dget k (filter (fun x => p (fst x)) d) = dget k d.
Proof.
  intros Hp. induction d as [|[k' n] d IH]; [reflexivity|]. cbn [filter fst]. destruct (p k') eqn:Ek; cbn [dget]; destruct (str_eqb_spec k k') as [->|_]; auto. congruence.
Qed.
Lemma look_filter (p : str -> bool) d d' : filter (fun x => p (fst x)) d = filter (fun x => p (fst x)) d' -> forall k r, p k = true -> look (Dir d) (k :: r) = look (Dir d') (k :: r).
Proof. intros E k r Hp. unfold look. cbn [get]. rewrite <- (dget_filter p d k Hp), <- (dget_filter p d' k Hp), E. reflexivity. Qed.
Lemma ex_rest ks d d' o o' : filter (fun x => negb (str_eqb (fst x) (`"o"))) d = filter (fun x => negb (str_eqb (fst x) (`"o"))) d' ->
  dget (`"o") d = Some (Dir o) -> dget (`"o") d' = Some (Dir o') ->
  filter (fun x => negb (str_in (fst x) ks)) o = filter (fun x => negb (str_in (fst x) ks)) o' ->
  forall q, (forall k y, In k ks -> q <> [`"o"] ++ k :: y) -> look (Dir d) q = look (Dir d') q.
Proof.
  intros E1 G1 G2 E2 q Hq. destruct q as [|k r]; [reflexivity|]. destruct (str_eqb_spec k (`"o")) as [->|Hk].
  - assert (X : forall x, look (Dir x) (`"o" :: r) = match dget (`"o") x with Some m => look m r | None => None end) by (intros x; unfold look; cbn [get]; destruct (dget (`"o") x); reflexivity).
    rewrite !X, G1, G2. destruct r as [|k r]; [reflexivity|]. apply (look_filter (fun k => negb (str_in k ks)) o o' E2).
    destruct (str_in_spec k ks) as [Hi|_]; [|reflexivity]. destruct (Hq k r Hi). reflexivity.
  - apply (look_filter (fun k => negb (str_eqb k (`"o"))) d d' E1). destruct (str_eqb_spec k (`"o")); [contradiction|reflexivity].
Qed.

Definition ex_entries (w : node) : list (str * node) := match w with Dir d => d | _ => [] end.
Definition ex_o (w : node) : list (str * node) := match dget (`"o") (ex_entries w) with Some n => ex_entries n | None => [] end.
Lemma ex_torn_crash n : crash (ex_update (`"sha512") (`"s3") true) ex_updated (ex_torn n).
Proof.
  exists (firstn n (fst (ex_update (`"sha512") (`"s3") true ex_updated))). split; [|reflexivity].
  rewrite <- (firstn_skipn n (fst (ex_update (`"sha512") (`"s3") true ex_updated))) at 2. constructor.
Qed.
Lemma ex_call3 : update_call (ex_c (`"sha512")) ex_env ex_updated (`"s3") (`"o") ex_meta [`"o"].
Proof.
  assert (T : tree ex_updated) by (apply tree_b_ok; vm_compute; reflexivity).
  pose proof (update_b_ok (ex_c (`"sha512")) ex_env ex_updated (`"s3") (`"o") ex_meta T) as Uc. apply Uc. vm_compute. reflexivity.
Qed.
Lemma ex_files3 : files_at ex_updated (dest_of [] (`"s3")) (files_in ex_updated (dest_of [] (`"s3"))).
Proof. apply files_b_ok; [apply tree_b_ok|]; vm_compute; reflexivity. Qed.
Lemma ex_collision_free2 : collision_free toy_hash ex_any (firstn 2 ex_files).
Proof.
  intros c F F' r b r' b' Pc H1 H2. apply (ex_collision_free c F F' r b r' b' Pc).
  - rewrite <- (firstn_skipn 2 ex_files). apply in_or_app. now left.
  - rewrite <- (firstn_skipn 2 ex_files). apply in_or_app. now left.
Qed.

Example C88_undone_ex :
  snd (validate_object toy_hash (mkVconf true false (`"1.1") (fun _ => 0%N)) (ex_torn 7) [] (`"o") 0) <> Ok true /\
  ex_undone <> ex_updated /\ (forall q, look ex_undone q = look ex_updated q) /\ history toy_hash [`"o"] (`"1.1") ex_any ex_undone (firstn 2 ex_files).
Proof.
  split; [vm_compute; discriminate|]. split; [vm_compute; discriminate|].
  destruct (parse_inventory ex_updated [`"o"]) as [[i s]|ex] eqn:Pi; [|vm_compute in Pi; discriminate Pi].
  assert (Ea : i_alg i = Some (`"sha256")) by (vm_compute in Pi; injection Pi as <- _; reflexivity).
  refine (C88_undone_partial toy_hash [`"o"] (`"1.1") ex_any ex_updated (firstn 2 ex_files) (ex_c (`"sha512")) ex_env (`"s3") (`"o") ex_meta true _ (ex_torn 7) ex_undone i s (`"sha256")
    toy_hash_ok ex_history2 (or_intror ex_collision_free2) ex_call3 _ _ _ _ _ ex_files3 _ (ex_torn_crash 7) Pi Ea _ _ _ _ _).
  - exists (`"sha512"). split; [now left|reflexivity].
  - now left.
  - now left.
  - reflexivity.
  - right. intros y E. discriminate E.
  - constructor.
  - apply tree_b_ok. vm_compute. reflexivity.
  - intros y. vm_compute. reflexivity.
  - constructor; vm_compute; reflexivity.
  - intros _. vm_compute. reflexivity.
  - intros q Q1 Q2 Q3 Q4. destruct (place_in [`"o"] inv_name q) as [[[|k y] ->]|R2]; [contradiction|vm_compute; reflexivity|].
    destruct (place_in [`"o"] (side_name (`"sha256")) q) as [[[|k y] ->]|R3]; [contradiction|vm_compute; reflexivity|].
    destruct (place_in [`"o"] (side_name (`"sha512")) q) as [[[|k y] ->]|R4]; [contradiction|vm_compute; reflexivity|].
    apply (ex_rest [vn 3; inv_name; side_name (`"sha256"); side_name (`"sha512")] (ex_entries ex_undone) (ex_entries (ex_torn 7)) (ex_o ex_undone) (ex_o (ex_torn 7))); try (vm_compute; reflexivity).
    intros k y [<-|[<-|[<-|[<-|[]]]]]; auto.
Qed.
Example C88_completed_ex :
  (exists ex, result (ex_update (`"sha512") (`"s3") true) (ex_torn 7) = Raise ex) /\
  (forall q, look ex_completed q = look ex_updated3 q) /\ history toy_hash [`"o"] (`"1.1") ex_any ex_completed ex_files.
Proof.
  split; [eexists; vm_compute; reflexivity|].
  assert (E : ex_files = firstn 2 ex_files ++ [files_in ex_updated (dest_of [] (`"s3"))]) by (vm_compute; reflexivity). rewrite E. clear E.
  refine (C88_completed_history_partial toy_hash [`"o"] (`"1.1") ex_any ex_updated (firstn 2 ex_files) (ex_c (`"sha512")) ex_env (`"s3") (`"o") ex_meta true _ (ex_torn 7) ex_completed
    toy_hash_ok ex_history2 (or_intror ex_collision_free2) ex_call3 _ _ _ _ _ ex_files3 _ (ex_torn_crash 7) _ _ _ _).
  - exists (`"sha512"). split; [now left|reflexivity].
  - now left.
  - now left.
  - reflexivity.
  - right. intros y E. discriminate E.
  - constructor.
  - vm_compute. discriminate.
  - apply tree_b_ok. vm_compute. reflexivity.
  - constructor; vm_compute; reflexivity.
  - intros q Q2 Q4. destruct (place_in [`"o"] inv_name q) as [[[|k y] ->]|R2]; [contradiction|vm_compute; reflexivity|].
    destruct (place_in [`"o"] (side_name (`"sha512")) q) as [[[|k y] ->]|R4]; [contradiction|vm_compute; reflexivity|].
    apply (ex_rest [inv_name; side_name (`"sha512")] (ex_entries ex_completed) (ex_entries (ex_torn 7)) (ex_o ex_completed) (ex_o (ex_torn 7))); try (vm_compute; reflexivity).
    intros k y [<-|[<-|[]]]; auto.
Qed.

Print Assumptions C88_completed.
Print Assumptions C88_undone_partial.
Print Assumptions C88_completed_history_partial.
Print Assumptions C88_again_partial.
