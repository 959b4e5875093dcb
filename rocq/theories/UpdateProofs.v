(** New versions built with the API: where their files go (C37, C38, C40, C42). *)
From Coq Require Import Permutation.
From Verif Require Import Properties_Names Properties_InventoryValidator Properties_Inventory.
From Verif Require Import Base Unicode Regex Utf8 Json PyJson JsonTextModel JsonTextSpec JsonTextProofs JsonFileProofs Log DigestModel LayoutModel LayoutProofs
  ObjectUtilsModel ObjectUtilsProofs InventorySpec InventoryValidatorModel InventoryValidatorProofs InventoryRulesProofs
  InventoryModel InventoryOpsSpec InventoryOpsProofs NewVersionModel NewVersionProofs NewVersionOpsProofs VersionNumberProofs InventoryParseProofs ParseModel
  ContentPathProofs TextFile PathModel FsModel FsSpec FsProofs FswModel FswSpec FswProofs FswCopyProofs ValidatorSpec ValidatorBasicProofs ObjectModel ObjectSpec ObjectInvProofs ObjectRulesProofs
  ObjectParseProofs ObjectAddProofs ContentNameProofs ObjectGrowProofs ObjectStartProofs ObjectCopyProofs ObjectWriteProofs ObjectSourceProofs ObjectFactsProofs NamasteSpec ValidatorVersionProofs ObjectMadeProofs ObjectIntactProofs ObjectExtendProofs FsStepProofs NamasteModel NamasteProofs ObjectStoreProofs ObjectCreateProofs ValidatorModel ValidatorIntactProofs ObjectUpdateProofs ObjectNextProofs ObjectDigestProofs ObjectVersionProofs ObjectExtractProofs ObjectHistoryProofs ObjectExamples UpdateSpec ParseProofs OpenProofs ChangeProofs FrameProofs.


(** ** Opening *)

Lemma openfs_place cwd d ok w h : Forall fname cwd -> result (fsw_openfs cwd d false ok) w = Ok h -> Forall fname h /\ look w h = Some EDir.
Proof.
  intros Fc. unfold fsw_openfs. destruct (match split_url d with None => _ | Some mp => mp end) as [method path]. destruct (str_eqb method _); [|discriminate].
  set (base := if startswith _ path then [] else cwd). assert (Fb : Forall fname base) by (unfold base; destruct (startswith _ path); auto).
  rewrite result_read. destruct (fs_isdir w base path) eqn:E; [|discriminate]. intros R. apply Ok_inv in R. subst h. split; [now apply at_path_fnames|now apply fs_isdir_look].
Qed.
Lemma open_obj_place e d w h : Forall fname (e_cwd e) -> result (open_obj_fs e d false) w = Ok h -> Forall fname h /\ look w h = Some EDir.
Proof.
  intros Fc E. destruct d as [d|]; [|discriminate]. apply (openfs_place (e_cwd e) d true w h Fc). unfold open_obj_fs, result in E. unfold result.
  destruct (fsw_openfs (e_cwd e) d false true w) as [s [a|[]]]; cbn [snd] in *; congruence.
Qed.

(** ** The name of the next version *)

Definition vname (v : str) : Prop := fname v /\ v <> inv_name /\ forall o, v <> side_name o.
Lemma vname_v r : ~ In PathModel.slash r -> vname (118%N :: r).
Proof.
  intros Hr. split; [|split; [discriminate|intros o E; discriminate E]]. split; [discriminate|]. split; [intros E; discriminate E|]. split; [intros E; discriminate E|].
  intros [E|E]; [discriminate E|auto].
Qed.
Lemma digits_no_slash s : Forall (fun c => is_ascii_digit c = true) s -> ~ In PathModel.slash s.
Proof. intros F Hi. rewrite Forall_forall in F. apply F in Hi. discriminate. Qed.
Lemma next_vname i v : next_directory i None = Ok v -> vname v.
Proof.
  unfold next_directory. intros E. apply ebind_ok in E as [vs [_ E]]. apply ebind_ok in E as [ns [_ E]]. destruct (_ =? 0)%N.
  - apply Ok_inv in E. subst v. apply vname_v. intros [E|[]]. discriminate E.
  - destruct (last_opt vs) as [u|]; [|discriminate]. unfold next_version_directory in E. destruct (re_match _ u) as [m|]; [|discriminate].
    set (n := (int_of_digits (group_or_nil 1 m) + 1)%N) in E. assert (Fn : ~ In PathModel.slash (str_of_N n)).
    { intros Hi. pose proof (str_of_N_digits n) as F. rewrite Forall_forall in F. apply F in Hi. discriminate. }
    destruct (str_eqb _ _).
    + destruct (Nat.eqb _ _); [|discriminate]. apply Ok_inv in E. subst v. apply (vname_v (48%N :: zero_pad (List.length u - 2) (str_of_N n))). unfold zero_pad. intros [E|Hi]; [discriminate E|].
      apply in_app_or in Hi as [Hi|Hi]; [apply repeat_spec in Hi; discriminate|auto].
    + apply Ok_inv in E. subst v. now apply (vname_v (str_of_N n)).
Qed.

(** ** Operations on a new version *)


Lemma plain_path_names p : plain_path p -> exists r, r <> [] /\ Forall fname r /\ p = J r.
Proof.
  rewrite ContentPathProofs.plain_path_split. intros F. exists (split_on PathModel.slash p). split; [apply split_on_nonnil|]. split; [|symmetry; apply join_split].
  apply Forall_forall. intros e He. rewrite Forall_forall in F. destruct (F e He) as (H1 & H2 & H3). split; [auto|]. split; [auto|]. split; [auto|]. eapply split_on_noc; eauto.
Qed.

(** A content path of the new version *)
Definition in_content (v cd c : str) : Prop :=
  exists r, r <> [] /\ Forall fname r /\ c = J (match cd with [] => v :: r | _ => v :: cd :: r end).
Lemma in_content_below v cd c : (cd = [] \/ fname cd) -> in_content v cd c -> below_v v c.
Proof.
  intros Hc (r & Nr & Fr & ->). destruct cd as [|x cd]; [exists r; auto|]. exists ((x :: cd) :: r). split; [discriminate|]. split; [|reflexivity].
  constructor; [destruct Hc; [discriminate|auto]|auto].
Qed.

Lemma suffix_plain f k : plain_path f -> plain_path (f ++ `"__" ++ str_of_N k).
Proof.
  intros Hf. apply plain_path_suffix; auto.
  - intros Hi. apply in_app_or in Hi as [Hi|Hi]; [destruct Hi as [Hi|[Hi|[]]]; discriminate|].
    pose proof (str_of_N_digits k) as F. rewrite Forall_forall in F. apply F in Hi. discriminate.
  - rewrite app_length. change (List.length (`"__")) with 2%nat. pose proof (str_of_N_nonnil k). destruct (str_of_N k); [congruence|]. cbn. lia.
Qed.

Lemma join_no_dir v f : fname v -> plain_path f -> path_join_list [v; []; f] = v ++ PathModel.slash :: f.
Proof.
  intros (V1 & _ & _ & V4) Hf. apply plain_path_head in Hf as [F1 F2]. cbn [path_join_list fold_left].
  assert (L : last_opt v <> Some PathModel.slash) by (intros E; apply last_opt_some in E as [r ->]; apply V4, in_or_app; right; now left).
  assert (E1 : path_join v [] = v ++ [PathModel.slash]).
  { destruct v as [|z v _] using rev_ind; [congruence|]. unfold path_join. cbn [startswith]. rewrite last_opt_app in *. destruct (N.eqb_spec z PathModel.slash) as [->|]; [congruence|]. reflexivity. }
  rewrite E1. unfold path_join. change [47%N] with [PathModel.slash] in F1. rewrite F1.
  rewrite last_opt_app, N.eqb_refl. now rewrite <- app_assoc.
Qed.

Lemma map_filepath_in H nv v cd s c : hash_ok H -> i_head (nv_inv nv) = Some v -> fname v -> content_directory_to_use (nv_inv nv) = cd -> (cd = [] \/ fname cd) ->
  plain_path s -> map_filepath H nv s = Ok c -> in_content v cd c.
Proof.
  intros HH Hv Fv Ec Hc Hs E.
  assert (Pv : plain_name v) by (destruct Fv as (? & ? & ? & ?); repeat split; auto).
  destruct cd as [|x cd].
  - unfold map_filepath in E. apply ebind_ok in E as [f [Ef E]]. unfold head_of in E. rewrite Hv in E. cbn [ebind] in E. rewrite Ec in E.
    destruct (normalize_filepath_ok H _ s f HH Hs Ef) as [_ Hf]. rewrite join_no_dir in E by auto.
    assert (G : exists g, plain_path g /\ c = v ++ PathModel.slash :: g).
    { destruct (str_in _ _).
      - apply make_unused_filepath_spec in E as (_ & k & Hk & -> & _). unfold candidate. destruct (N.eqb_spec k 1) as [->|Hk1]; [exists f; auto|].
        exists (f ++ `"__" ++ str_of_N k). split; [now apply suffix_plain|]. repeat (rewrite <- ?app_assoc; cbn [app]). reflexivity.
      - apply Ok_inv in E. exists f. auto. }
    destruct G as (g & Hg & ->). destruct (plain_path_names g Hg) as (r & Nr & Fr & ->). exists r. split; [auto|]. split; [auto|]. now rewrite join_cons.
  - assert (Fc : fname (x :: cd)) by (destruct Hc; [discriminate|auto]). assert (Pc : plain_name (content_directory_to_use (nv_inv nv))) by (rewrite Ec; destruct Fc as (? & ? & ? & ?); repeat split; auto).
    destruct (map_filepath_correct H nv s c v HH Hv Pv Pc Hs E) as (_ & f & t & -> & _ & _ & Hft & _). rewrite Ec. destruct (plain_path_names _ Hft) as (r & Nr & Fr & Er).
    exists r. split; [auto|]. split; [auto|]. rewrite join_cons by discriminate. rewrite join_cons by auto. rewrite <- Er. reflexivity.
Qed.

Lemma given_in v cd c : fname v -> (cd = [] \/ fname cd) -> plain_path c -> startswith (v ++ `"/" ++ cd ++ `"/") c = true -> in_content v cd c.
Proof.
  intros Fv Hc Hp E. apply startswith_spec in E as [r ->]. destruct cd as [|x cd].
  - exfalso. assert (E : (v ++ `"/" ++ [] ++ `"/") ++ r = v ++ 47%N :: [] ++ 47%N :: r) by (repeat (rewrite <- ?app_assoc; cbn [app]); reflexivity).
    rewrite E in Hp. apply ContentPathProofs.plain_path_split in Hp. rewrite (split_on_app 47%N v ([] ++ 47%N :: r)) in Hp by apply Fv.
    rewrite (split_on_app 47%N [] r) in Hp by (intros []). rewrite Forall_forall in Hp. destruct (Hp []) as [F _]; [right; now left|congruence].
  - assert (Fc : fname (x :: cd)) by (destruct Hc; [discriminate|auto]). set (d := x :: cd) in *. clearbody d.
    assert (E : (v ++ `"/" ++ d ++ `"/") ++ r = v ++ 47%N :: d ++ 47%N :: r) by (repeat (rewrite <- ?app_assoc; cbn [app]); reflexivity).
    rewrite E in *. pose proof Hp as Hp0. apply ContentPathProofs.plain_path_split in Hp. rewrite (split_on_app 47%N v (d ++ 47%N :: r)) in Hp by apply Fv. rewrite (split_on_app 47%N d r) in Hp by apply Fc.
    apply Forall_inv_tail, Forall_inv_tail in Hp. rename Hp into Hr.
    apply ContentPathProofs.plain_path_split in Hr. destruct (plain_path_names r Hr) as (l & Nl & Fl & ->). exists l. split; [auto|]. split; [auto|].
    destruct d as [|y d]; [destruct Fc; congruence|]. rewrite join_cons by discriminate. now rewrite join_cons.
Qed.

(** What holds of a new version that is being built. *)
Record building (src : str -> exc bytes) (v cd : str) (o : option str) (nv : new_version) : Prop := {
  bd_head : i_head (nv_inv nv) = Some v;
  bd_cdir : content_directory_to_use (nv_inv nv) = cd;
  bd_old : nv_old_alg nv = o;
  bd_copy : forall s c, In (s, c) (nv_copy nv) -> in_content v cd c /\ exists b, src s = Ok b
}.

Lemma cdir_same i j : i_cdir j = i_cdir i -> content_directory_to_use j = content_directory_to_use i.
Proof. unfold content_directory_to_use. now intros ->. Qed.
Lemma set_state_fields v st i : i_head (set_state v st i) = i_head i /\ i_cdir (set_state v st i) = i_cdir i.
Proof. unfold set_state, update_version. destruct (dget v (versions_block i)); split; reflexivity. Qed.
Lemma delete_fields v p i : i_head (fst (delete_logical_path v p i)) = i_head i /\ i_cdir (fst (delete_logical_path v p i)) = i_cdir i.
Proof.
  unfold delete_logical_path. destruct (find _ _) as [[d l]|]; [|auto]. destruct (_ <? _)%nat; [apply set_state_fields|].
  cbn [fst]. match goal with |- context [dget d ?m] => destruct (dget d m) end; apply set_state_fields.
Qed.

Theorem step_building H src v cd o op nv : hash_ok H -> fname v -> (cd = [] \/ fname cd) -> plain_op op -> building src v cd o nv ->
  building src v cd o (fst (nv_step H src op nv)).
Proof.
  intros HH Fv Hc Hop [B1 B2 B3 B4]. assert (Same : forall j, i_head j = i_head (nv_inv nv) -> i_cdir j = i_cdir (nv_inv nv) -> building src v cd o (set_inv j nv)).
  { intros j E1 E2. constructor; cbn; [congruence|rewrite (cdir_same _ _ E2); auto|auto|auto]. }
  assert (Self : building src v cd o nv) by (constructor; auto).
  destruct op as [s p c|p|p q]; cbn [nv_step plain_op] in *.
  - destruct Hop as [Hs Hcp]. unfold nv_add, head_of. rewrite B1. rewrite B2.
    destruct (match c with None => _ | Some _ => _ end) as [cpath|e] eqn:Ec; [|exact Self].
    assert (Hin : in_content v cd cpath).
    { destruct c as [c|].
      - destruct (startswith _ c) eqn:Es; [|discriminate]. cbn [negb] in Ec. destruct (str_in c _); [discriminate|]. apply Ok_inv in Ec. subst cpath. now apply given_in.
      - eapply map_filepath_in; eauto. }
    destruct (str_in p _); [exact Self|]. destruct (let* x := src s in _) as [d|e] eqn:Ed; [|exact Self]. apply ebind_ok in Ed as [b [Eb _]].
    destruct (dget v (versions_block (nv_inv nv))); [|exact Self]. destruct (set_state_fields v (append_to d p (state (nv_inv nv) v)) (nv_inv nv)) as [S1 S2].
    set (i1 := set_state v _ (nv_inv nv)) in *. destruct (_ || _ || _); [|apply Same; auto].
    unfold add_file_to_manifest. assert (M : forall j, i_head j = i_head (nv_inv nv) -> i_cdir j = i_cdir (nv_inv nv) ->
      building src v cd o (mk_nv j (nv_norm nv) (nv_forward_delta nv) (nv_dedupe nv) (nv_old_alg nv) (dset s cpath (nv_copy nv)))).
    { intros j E1 E2. constructor; cbn; [congruence|rewrite (cdir_same _ _ E2); auto|auto|]. intros s' c' Hi. apply In_dset_either in Hi as [[-> ->]|Hi]; [eauto|apply B4; auto]. }
    destruct (str_in cpath _); apply M; cbn; auto.
  - unfold nv_delete. pose proof (delete_fields (current (nv_inv nv)) p (nv_inv nv)) as [D1 D2].
    destruct (delete_logical_path _ _ _) as [j [x|e]]; cbn [fst] in *; [apply Same; auto|]. destruct e; apply Same; auto.
  - unfold nv_rename. destruct (str_in q _); [exact Self|]. pose proof (delete_fields (current (nv_inv nv)) p (nv_inv nv)) as [D1 D2].
    destruct (delete_logical_path _ _ _) as [j [x|e]]; cbn [fst] in *.
    + match goal with |- context [set_state ?a ?b j] => destruct (set_state_fields a b j) as [S1 S2] end. apply Same; congruence.
    + destruct e; apply Same; auto.
Qed.

Lemma run_do H src ops : forall nv nv', nv_run H src ops nv = (nv', Ok tt) -> nv' = nv_do H src ops nv.
Proof.
  induction ops as [|op ops IH]; intros nv nv' E; cbn [nv_run] in E; [injection E as <-; reflexivity|]. destruct (nv_step H src op nv) as [nv1 [[]|e]] eqn:Es; [|discriminate].
  apply IH in E. unfold nv_do. cbn [fold_left]. rewrite Es. exact E.
Qed.
Theorem do_building H src v cd o ops : hash_ok H -> fname v -> (cd = [] \/ fname cd) -> Forall plain_op ops ->
  forall nv, building src v cd o nv -> building src v cd o (nv_do H src ops nv).
Proof.
  intros HH Fv Hc F. induction F as [|op ops Hop _ IH]; intros nv B; [exact B|]. unfold nv_do. cbn [fold_left]. apply IH. now apply step_building.
Qed.

(** ** Starting *)

Lemma change_fields H da types w h i i3 o : start_inventory_change H da types w h i = Ok (i3, o) ->
  i_cdir i3 = i_cdir i /\ o = i_alg i /\ exists old, i_alg i = Some old /\ i_alg i3 = Some (match da with Some a => a | None => old end).
Proof.
  unfold start_inventory_change. destruct (i_alg i) as [old|] eqn:Ea; [|discriminate]. set (a := match da with Some a => a | None => old end).
  destruct (change_fixity_fields old a types (set_alg (Some a) i)) as (F1 & F2 & F3 & F4 & _ & F5 & _). set (i2 := change_fixity old a types (set_alg (Some a) i)) in *. cbn in F4, F5.
  intros E. apply ebind_ok in E as [j [E E']]. apply Ok_inv in E'. injection E' as -> <-.
  assert (G : i_cdir i3 = i_cdir i2 /\ i_alg i3 = i_alg i2).
  { destruct (str_eqb a old); [apply Ok_inv in E; subst i3; auto|]. unfold change_digests in E. apply ebind_ok in E as [[O1 M1] [_ E]]. apply ebind_ok in E as [L [_ E]]. apply ebind_ok in E as [i4 [E4 E]]. apply Ok_inv in E. subst i3. cbn.
    clear -E4. revert E4. generalize i2. induction L as [|x L IH]; intros k E; cbn [efold] in E; [apply Ok_inv in E; subst; auto|].
    apply ebind_ok in E as [k1 [E1 E]]. apply ebind_ok in E1 as [st [_ E1]]. apply Ok_inv in E1. subst k1. destruct (IH _ E) as [I1 I2]. rewrite I1, I2.
    unfold set_state, update_version. destruct (dget x (versions_block k)); split; reflexivity. }
  destruct G as [G1 G2]. split; [rewrite G1; exact F5|]. split; [auto|]. exists old. split; [auto|]. rewrite G2. exact F4.
Qed.

Lemma open_cdir w h i s inv i0 f : open_at w h i s inv i0 f -> content_directory_to_use i = [] \/ fname (content_directory_to_use i).
Proof.
  intros O. pose proof (oa_opened _ _ _ _ _ _ _ O) as Op. destruct (reads_valid as_coded inv f (oa_wf _ _ _ _ _ _ _ O) (oa_obeys _ _ _ _ _ _ _ O)) as (i0' & E0 & Hr).
  rewrite (oa_read _ _ _ _ _ _ _ O) in E0. apply Ok_inv in E0. subst i0'. destruct (op_rest _ _ _ Op) as (_ & _ & _ & _ & Ec & _). rewrite (cdir_same _ _ Ec), (rd_cdir _ _ _ _ Hr).
  pose proof (oa_obeys _ _ _ _ _ _ _ O) as (_ & _ & _ & Hc & _). unfold content_directory_rule in Hc. destruct (f_cdir_set f).
  - destruct Hc as (_ & C1 & C2 & C3). destruct (f_cdir f) as [|x c] eqn:E; [auto|]. right. split; [discriminate|]. split; [exact C2|]. split; [exact C3|exact C1].
  - right. destruct Hc as [_ ->]. split; [discriminate|]. split; [intros F; discriminate F|]. split; [intros F; discriminate F|]. intros Hi. repeat (destruct Hi as [Hi|Hi]; [discriminate Hi|]). destruct Hi.
Qed.

Lemma open_algs w h i s inv i0 f : open_at w h i s inv i0 f -> In (f_alg f) [`"sha512"; `"sha256"].
Proof. intros O. pose proof (oa_obeys _ _ _ _ _ _ _ O) as (_ & _ & Ha & _). apply Ha. Qed.

Lemma next_building i spec md norm fd dd carry o nv src : next_version i spec md norm fd dd carry o = Ok nv ->
  exists v, vname v /\ building src v (content_directory_to_use i) o nv.
Proof.
  intros E. unfold next_version in E. apply ebind_ok in E as [i1 [E1 E]].
  assert (F : i_cdir i1 = i_cdir i).
  { destruct (spec_version i) as [s|]; [|discriminate]. destruct (str_eqb spec s); [apply Ok_inv in E1; subst; auto|]. destruct (str_ltb spec s); [discriminate|]. apply Ok_inv in E1. subst i1. reflexivity. }
  destruct (add_version None md _ None i1) as [i2 [v|e]] eqn:Ea; [|discriminate]. apply Ok_inv in E. subst nv. exists v.
  unfold add_version in Ea. destruct (next_directory i1 None) as [u|e] eqn:En; [|discriminate]. injection Ea as <- ->. split; [eapply next_vname; eauto|].
  constructor; cbn; auto; [|intros s c []]. now apply cdir_same.
Qed.

(** What start_new_version gives *)
Theorem start_building H c e objdir srcdir da types metadata carry w h src nv : Forall fname (e_cwd e) ->
  result (start_new_version H c e objdir srcdir da types metadata carry) w = Ok (h, src, nv) ->
  exists i s inv i0 f v, parse_inventory w h = Ok (i, s) /\ open_at w h i s inv i0 f /\ Forall fname h /\ look w h = Some EDir /\ vname v /\
    (content_directory_to_use i = [] \/ fname (content_directory_to_use i)) /\ In (f_alg f) [`"sha512"; `"sha256"] /\
    (forall rd, building rd v (content_directory_to_use i) (Some (f_alg f)) nv).
Proof.
  intros Fc E. destruct (start_inv _ _ _ _ _ _ _ _ _ _ _ _ _ E) as (i & s & i3 & o & E1 & E2 & E3 & E4 & E5 & E6 & _).
  destruct (parse_opened _ _ _ _ E4) as (inv & i0 & f & O). destruct (open_obj_place _ _ _ _ Fc E1) as [Fh Hd].
  destruct (change_fields _ _ _ _ _ _ _ _ E5) as (C1 & C2 & _). rewrite (oa_alg _ _ _ _ _ _ _ O) in C2.
  assert (B : forall rd, exists v, vname v /\ building rd v (content_directory_to_use i) (Some (f_alg f)) nv).
  { intros rd. rewrite <- (cdir_same _ _ C1), <- C2. eapply next_building; eauto. }
  destruct (B (fun _ => Raise OSError)) as (v & Vv & Bv). exists i, s, inv, i0, f, v.
  split; [exact E4|]. split; [exact O|]. split; [exact Fh|]. split; [exact Hd|]. split; [exact Vv|]. split; [eapply open_cdir; eauto|]. split; [eapply open_algs; eauto|].
  intros rd. destruct (B rd) as (v' & _ & Bv'). assert (v' = v) by (pose proof (bd_head _ _ _ _ _ Bv); pose proof (bd_head _ _ _ _ _ Bv'); congruence). subst v'. exact Bv'.
Qed.

Lemma number_no_slash x n : number x n -> ~ In 47%N x.
Proof.
  intros ((w & ds & -> & _ & F & _) & _). intros [E|Hi]; [discriminate E|]. rewrite Forall_forall in F. apply F in Hi. unfold ascii_digit in Hi. lia.
Qed.
Lemma next_fname i spec md norm fd dd carry o nv v : next_version i spec md norm fd dd carry o = Ok nv -> i_head (nv_inv nv) = Some v -> fname v.
Proof.
  intros E Hv. destruct (next_building _ _ _ _ _ _ _ _ _ (fun _ => Raise OSError) E) as (u & Vu & B). rewrite (bd_head _ _ _ _ _ B) in Hv. apply Some_inv in Hv. subst u. apply Vu.
Qed.
Lemma metadata_no_state e m b : metadata_dict e m = Some b -> vb_state b = None.
Proof. unfold metadata_dict. destruct m as [m|]; [|discriminate]. cbn. intros E. apply Some_inv in E. subst b. reflexivity. Qed.


(** The content path belongs to an earlier version. *)
Lemma old_content w h i s inv i0 f d c v : open_at w h i s inv i0 f -> stored i d c -> ~ is_version i v -> fname v -> ~ in_directory v c.
Proof.
  intros O Hs Hv Fv [r E]. destruct (open_content _ _ _ _ _ _ _ O d c Hs) as (_ & x & rest & Hx & Ec & _). apply Hv, (open_is_version _ _ _ _ _ _ _ O). assert (x = v); [|now subst].
  assert (Fx : ~ In 47%N x).
  { apply (open_is_version _ _ _ _ _ _ _ O) in Hx. destruct (op_numbered _ _ _ (oa_opened _ _ _ _ _ _ _ O) x Hx) as (n & Hn). apply (number_no_slash x n Hn). }
  rewrite Ec in E. pose proof (f_equal (fun z => hd [] (split_on 47%N z)) E) as E'. cbn beta in E'.
  change (v ++ `"/" ++ r) with (v ++ 47%N :: r) in E'. change InventorySpec.slash with 47%N in E'. rewrite (split_on_app 47%N x), (split_on_app 47%N v) in E' by (auto; apply Fv). exact E'.
Qed.

(** What is known of the versions after start_new_version. *)
Theorem start_versions H c e objdir srcdir da types metadata carry w h src nv i s : 
  result (start_new_version H c e objdir srcdir da types metadata carry) w = Ok (h, src, nv) -> parse_inventory w h = Ok (i, s) -> kept_if H da w h i ->
  exists i3 v, same_versions i i3 /\ next_of i3 carry nv v /\ ~ is_version i v /\ (forall k, (exists d, stored i3 d k) <-> exists d, stored i d k) /\
    nv_good v nv /\ (forall rd, copies_agree H rd v nv) /\ i_head i3 = i_head i /\ dicts_ok i3 /\
    i_alg i3 = match da with Some a => Some a | None => i_alg i end.
Proof.
  intros E P Ka. destruct (start_inv _ _ _ _ _ _ _ _ _ _ _ _ _ E) as (i' & s' & i3 & o & _ & _ & _ & E4 & E5 & E6 & _). rewrite P in E4. apply Ok_inv in E4. injection E4 as <- <-.
  destruct (parse_opened _ _ _ _ P) as (inv & i0 & f & O). pose proof (oa_alg _ _ _ _ _ _ _ O) as Ea.
  destruct (change_keeps H w h i s inv i0 f da types i3 o O) as (C1 & C2 & C3 & C4 & C5 & C6 & C7 & C8); [|exact E5|].
  { destruct da as [a|]; [|congruence]. intros Hne. apply (Ka a eq_refl). rewrite Ea. congruence. }
  assert (Hn : numbered_versions i3) by (intros v Hv; apply (op_numbered _ _ _ (oa_opened _ _ _ _ _ _ _ O)); now apply C1).
  destruct (next_keeps _ _ _ _ _ _ _ _ _ C6 Hn (metadata_no_state e metadata) E6) as (v & Nx). exists i3, v.
  assert (Nv : ~ is_version i v) by (intros F; apply (nx_new _ _ _ _ Nx); now apply C1).
  destruct (open_head _ _ _ _ _ _ _ O) as (v0 & before & Ev0 & Ef).
  assert (Vs : i_versions i3 <> None).
  { assert (V0 : is_version i3 v0) by (apply C1; apply (open_is_version _ _ _ _ _ _ _ O); rewrite Ef; apply in_or_app; right; now left). destruct V0 as (vs & b & F & _). congruence. }
  assert (G : forall rd, nv_good v nv /\ copies_agree H rd v nv).
  { intros rd. destruct (C42_next_version H rd i3 _ _ _ _ _ _ _ _ v0 C6 (eq_trans C3 Ev0) (C7 v0) Vs E6) as (u & Hu & G1 & G2). rewrite (nx_head _ _ _ _ Nx) in Hu. apply Some_inv in Hu. subst u.
    split; [exact G1|]. apply G2. intros d k Hk. destruct (proj1 (C8 k) (ex_intro _ d Hk)) as [d' Hk'].
    apply (old_content _ _ _ _ _ _ _ d' k v O Hk' Nv). apply (next_fname _ _ _ _ _ _ _ _ _ _ E6 (nx_head _ _ _ _ Nx)). }
  split; [exact C1|]. split; [exact Nx|]. split; [exact Nv|]. split; [exact C8|]. split; [apply (G (fun _ => Raise OSError))|]. split; [intros rd; apply G|]. split; [exact C3|]. split; [exact C6|]. rewrite C4, Ea. now destruct da.
Qed.

(** Content paths of the new version have one digest each. *)
Definition one_each (v : str) (i : inventory) : Prop := forall d d' c, stored i d c -> stored i d' c -> in_directory v c -> d = d'.
Lemma step_one H src v op nv nv' : nv_good v nv -> one_each v (nv_inv nv) -> nv_step H src op nv = (nv', Ok tt) -> one_each v (nv_inv nv').
Proof.
  intros [G1 G2 G3 G4] O1 E. destruct op as [s p cp|p|old new]; cbn [nv_step] in E.
  - destruct (nv_add_correct H src s p cp nv nv' (Ok tt) v G1 G2 E) as [(_ & e & F)|(_ & _ & _ & d0 & a & o & _ & _ & _ & _ & _ & Sto & Hc & _)]; [discriminate|].
    intros d d' c H1 H2 Hi. apply Sto in H1 as [H1|[-> E1]]; apply Sto in H2 as [H2|[-> E2]]; auto.
    + exact (O1 d d' c H1 H2 Hi).
    + exfalso. exact (proj1 (Hc c E2) d H1).
    + exfalso. exact (proj1 (Hc c E1) d' H2).
  - unfold nv_delete, current in E. rewrite G1 in E. cbn [or_empty] in E. destruct (delete_logical_path v p (nv_inv nv)) as [i1 r1] eqn:Ed.
    destruct (delete_correct _ _ _ _ _ G2 G4 Ed) as [(_ & _ & ->)|(d & Hd & -> & D' & Sr & St & Sto)]; [discriminate|].
    assert (En : nv' = set_inv i1 nv) by congruence. subst nv'. cbn [nv_inv set_inv]. intros d1 d2 c H1 H2 Hi. apply Sto in H1 as [H1 _], H2 as [H2 _]. exact (O1 d1 d2 c H1 H2 Hi).
  - destruct (rename_correct old new nv nv' (Ok tt) v G1 G2 G4 E) as [(_ & _ & F)|(Hn & d & Hd & _ & En & D' & Sr & St & Sto)]; [discriminate|].
    intros d1 d2 c H1 H2 Hi. apply Sto in H1 as [H1 _], H2 as [H2 _]. exact (O1 d1 d2 c H1 H2 Hi).
Qed.
Lemma run_one H src v ops : forall nv nv', nv_good v nv -> one_each v (nv_inv nv) -> nv_run H src ops nv = (nv', Ok tt) -> one_each v (nv_inv nv').
Proof.
  induction ops as [|op ops IH]; intros nv nv' G O1 E; cbn [nv_run] in E; [assert (nv' = nv) by congruence; now subst|].
  destruct (nv_step H src op nv) as [nv1 [[]|e]] eqn:Es; [|discriminate]. apply (IH nv1); auto; [eapply step_good; eauto|eapply step_one; eauto].
Qed.

Lemma step_alg H src v op nv nv' : nv_good v nv -> nv_step H src op nv = (nv', Ok tt) -> i_alg (nv_inv nv') = i_alg (nv_inv nv).
Proof.
  intros [G1 G2 G3 G4] E. destruct op as [s p cp|p|old new]; cbn [nv_step] in E.
  - destruct (nv_add_correct H src s p cp nv nv' (Ok tt) v G1 G2 E) as [(_ & e & F)|(_ & _ & _ & d0 & a & o & _ & _ & _ & Sr & _)]; [discriminate|]. apply Sr.
  - unfold nv_delete, current in E. rewrite G1 in E. cbn [or_empty] in E. destruct (delete_logical_path v p (nv_inv nv)) as [i1 r1] eqn:Ed.
    destruct (delete_correct _ _ _ _ _ G2 G4 Ed) as [(_ & _ & ->)|(d & Hd & -> & D' & Sr & _)]; [discriminate|]. assert (En : nv' = set_inv i1 nv) by congruence. subst nv'. apply Sr.
  - destruct (rename_correct old new nv nv' (Ok tt) v G1 G2 G4 E) as [(_ & _ & F)|(Hn & d & Hd & _ & En & D' & Sr & _)]; [discriminate|]. apply Sr.
Qed.
Lemma run_alg H src v ops : forall nv nv', nv_good v nv -> nv_run H src ops nv = (nv', Ok tt) -> i_alg (nv_inv nv') = i_alg (nv_inv nv).
Proof.
  induction ops as [|op ops IH]; intros nv nv' G E; cbn [nv_run] in E; [assert (nv' = nv) by congruence; now subst|].
  destruct (nv_step H src op nv) as [nv1 [[]|e]] eqn:Es; [|discriminate]. rewrite (IH nv1 nv'); auto; [eapply step_alg; eauto|eapply step_good; eauto].
Qed.

(** Adding all files of the source directory is a series of operations. *)
Lemma srcdir_run H w src nv nv' : tree w -> Forall fname src -> look w src = Some EDir -> nv_from_srcdir H w src nv = Ok nv' ->
  exists l, Forall plain_path l /\ NoDup l /\ nv_run H (fs_read w src) (map (fun p => OAdd p p None) l) nv = (nv', Ok tt).
Proof.
  intros Tw Fs Ds E. unfold nv_from_srcdir in E. apply ebind_ok in E as [files [E1 E]]. apply look_dir in Ds as [d En]. pose proof (tree_get _ _ _ Tw En) as Tn.
  rewrite (fsw_walk_files_ok w src [PathModel.slash] (Dir d)) in E1; [|auto|intros F; discriminate F| |reflexivity].
  2:{ rewrite at_path_slash. rewrite <- En. f_equal. transitivity (src ++ []); [|apply app_nil_r]. now apply (at_path_join src []). }
  apply Ok_inv in E1. set (ns := leaves (Dir d)) in *.
  assert (Nm : forall r, In r ns -> r <> [] /\ Forall fname r).
  { intros r Hr. apply (leaves_spec (Dir d) r Tn eq_refl) in Hr as [H1 H2]. split; [intros ->; apply H2; reflexivity|]. apply (look_fnames (Dir d)); auto. }
  assert (P : Permutation files (sorted_strs files)) by apply isort_perm.
  exists (sorted_strs files). split; [|split].
  - apply (Permutation_Forall P). subst files. apply Forall_forall. intros p Hp. apply in_map_iff in Hp as (r & <- & Hr). destruct (Nm r Hr) as [Nr Fr].
    now apply names_plain.
  - apply (Permutation_NoDup P). subst files. apply NoDup_map_inj; [now apply leaves_nodup|]. intros r r' Hr Hr' Ej. destruct (Nm r Hr) as [N1 F1], (Nm r' Hr') as [N2 F2]. exact (names_join_inj r r' F1 F2 N1 N2 Ej).
  - unfold add_from_srcdir in E. change (fun p => fs_read w src p) with (fs_read w src) in E. clear -E. revert nv E. induction (sorted_strs files) as [|p l IH]; intros nv E; cbn [nv_add_all map nv_run nv_step] in *.
    + apply Ok_inv in E. now subst.
    + destruct (nv_add H (fs_read w src) p p None nv) as [nv1 [[]|e]]; [auto|discriminate].
Qed.

(** ** Opening and starting write nothing *)

Lemma openfs_none cwd d ok w : fst (fsw_openfs cwd d false ok w) = [].
Proof.
  unfold fsw_openfs. destruct (match split_url d with None => _ | Some mp => mp end) as [method path]. destruct (str_eqb method _); [|reflexivity].
  unfold ibind, iread, iret. destruct (fs_isdir _ _ _); reflexivity.
Qed.
Lemma open_obj_none e d w : fst (open_obj_fs e d false w) = [].
Proof.
  unfold open_obj_fs. destruct d as [d|]; [|reflexivity]. pose proof (openfs_none (e_cwd e) d true w) as E. destruct (fsw_openfs (e_cwd e) d false true w) as [s [a|[]]]; exact E.
Qed.
Lemma open_src_none e d w : fst (open_src_fs e d w) = [].
Proof. destruct d as [d|]; [apply openfs_none|reflexivity]. Qed.
Lemma start_acts P H c e objdir srcdir da types metadata carry w : acts_at P (start_new_version H c e objdir srcdir da types metadata carry) w.
Proof.
  unfold start_new_version. apply acts_bind; [apply acts_none, open_obj_none|]. intros h _. apply acts_bind; [apply acts_read|]. intros ok _. destruct (negb ok); [apply acts_raise|].
  apply acts_bind; [apply acts_read|]. intros r _. apply acts_bind; [apply acts_none, open_src_none|]. intros src _. apply acts_bind; [apply acts_read|]. intros nv _. apply acts_ret.
Qed.
(** The source directory *)
Lemma start_source H c e objdir srcdir da types metadata carry w h src nv : Forall fname (e_cwd e) ->
  result (start_new_version H c e objdir srcdir da types metadata carry) w = Ok (h, src, nv) -> Forall fname src /\ look w src = Some EDir /\ exists d, srcdir = Some d.
Proof.
  intros Fc E. destruct (start_inv _ _ _ _ _ _ _ _ _ _ _ _ _ E) as (i & s & i3 & o & _ & E2 & _). destruct srcdir as [d|]; [|discriminate].
  destruct (openfs_place _ _ _ _ _ Fc E2) as [F L]. eauto.
Qed.

(** What add_version_with_content writes is what write_new_version writes for the version with
    all files of the source directory. *)
Lemma add_version_crash H c e objdir srcdir metadata abort w w' : tree w -> Forall fname (e_cwd e) ->
  crash (add_version_with_content H c e objdir srcdir metadata abort) w w' ->
  (forall q, look w' q = look w q) \/
  exists h src nv0 nv l, result (start_new_version H c e objdir srcdir (Some (o_alg c)) (o_fixity c) metadata false) w = Ok (h, src, nv0) /\
    Forall plain_path l /\ NoDup l /\ nv_run H (fs_read w src) (map (fun p => OAdd p p None) l) nv0 = (nv, Ok tt) /\
    crash (write_new_version H (o_alg c) h src nv) w w'.
Proof.
  intros Tw Fc Cr. unfold add_version_with_content in Cr. assert (No : forall q : place, ~ False) by (intros _ []).
  apply crash_bind in Cr as [Cr|([[h src] nv0] & St & Cr)].
  { left. intros q. exact (crash_other _ _ _ _ q Tw (start_acts (fun _ => False) _ _ _ _ _ _ _ _ _ _) Cr (No q)). }
  destruct (start_inv _ _ _ _ _ _ _ _ _ _ _ _ _ St) as (_ & _ & _ & _ & _ & _ & _ & _ & _ & _ & Ew). rewrite Ew in Cr. clear Ew.
  destruct (start_source _ _ _ _ _ _ _ _ _ _ _ _ _ Fc St) as (Fs & Ds & d & Ed). subst srcdir.
  apply crash_bind in Cr as [Cr|(nv & Rn & Cr)].
  { left. intros q. apply crash_none in Cr; [|reflexivity]. now subst. }
  rewrite result_iread in Rn. rewrite after_iread in Cr. apply crash_bind in Cr as [Cr|(diff & _ & Cr)].
  { left. intros q. apply crash_none in Cr; [|reflexivity]. now subst. }
  rewrite after_iread in Cr. destruct (srcdir_run _ _ _ _ _ Tw Fs Ds Rn) as (l & Pl & Nl & Run).
  assert (Cr' : (forall q, look w' q = look w q) \/ crash (write_new_version H (o_alg c) h src nv) w w').
  { destruct diff as [[|x diff]|]; [left; intros q; apply crash_none in Cr; [|reflexivity]; now subst| |];
      (apply crash_bind in Cr as [Cr|(inv & R & Cr)]; [right; exact Cr|]; apply crash_none in Cr; [|reflexivity]; subst w'; right; apply crash_done). }
  destruct Cr' as [Cr'|Cr']; [left; exact Cr'|right]. exists h, src, nv0, nv, l. auto.
Qed.
Lemma adds_plain l : Forall plain_path l -> Forall plain_op (map (fun p => OAdd p p None) l).
Proof. intros F. apply Forall_forall. intros op Ho. apply in_map_iff in Ho as (p & <- & Hp). rewrite Forall_forall in F. split; [auto|exact I]. Qed.

(** Adding distinct files to a version without any is harmless. *)
Lemma adds_harmless H src v l : forall nv, nv_good v nv -> NoDup l -> (forall s, In s (keys (nv_copy nv)) -> ~ In s l) -> forall nv', nv_run H src (map (fun p => OAdd p p None) l) nv = (nv', Ok tt) ->
  harmless_run H src v (map (fun p => OAdd p p None) l) nv.
Proof.
  induction l as [|p l IH]; intros nv G Nl Hk nv' E; [exact I|]. cbn [map nv_run harmless_run harmless] in *. inversion Nl as [|? ? Hp Nl']; subst. split; [right; intros F; apply (Hk p F); now left|].
  destruct (nv_step H src (OAdd p p None) nv) as [nv1 [[]|e]] eqn:Es; [|discriminate]. cbn [fst]. apply (IH nv1) with (nv' := nv'); auto; [eapply step_good; eauto|].
  cbn [nv_step] in Es. destruct (nv_add_correct H src p p None nv nv1 (Ok tt) v (g_head _ _ G) (g_dicts _ _ G) Es) as [(_ & e & F)|(_ & _ & _ & d & a & o & _ & _ & _ & _ & _ & _ & _ & Hc & _)]; [discriminate|].
  intros s Hs Hi. rewrite Hc in Hs. destruct o as [c0|]; [|exact (Hk s Hs (or_intror Hi))].
  apply in_map_iff in Hs as ([s' c'] & Ek & Hs). cbn [fst] in Ek. subst s'. apply In_dset_either in Hs as [[-> ->]|Hs]; [exact (Hp Hi)|]. apply (Hk s); [now apply (in_map fst) in Hs|now right].
Qed.

Lemma not_inventory cd v c n : cd <> [] -> fname cd -> fname v -> fname n -> in_content v cd c -> c <> J [v; n].
Proof.
  intros Nc Fd Fv Fn (r & Nr & Fr & ->) E. destruct cd as [|x cd]; [now apply Nc|].
  apply names_join_inj in E; [|constructor; [exact Fv|now constructor]|constructor; [exact Fv|constructor; [exact Fn|constructor]]|discriminate|discriminate]. apply (f_equal (@List.length _)) in E. destruct r; [now apply Nr|discriminate E].
Qed.

(** ** Writing what was built *)

Section Written.
  Variables (H : hashfn) (c : object) (e : env) (objdir srcdir da : option str) (types : option (list str)) (metadata : option vmeta) (carry : bool).
  Variables (w : node) (h src : place) (nv0 : new_version) (ops : list nv_op) (alg : str).
  Hypothesis HH : hash_ok H.
  Hypothesis Tw : tree w.
  Hypothesis Fc : Forall fname (e_cwd e).
  Hypothesis St : result (start_new_version H c e objdir srcdir da types metadata carry) w = Ok (h, src, nv0).
  Hypothesis Pl : Forall plain_op ops.
  Let rd := fs_read w src.
  Let nv := nv_do H rd ops nv0.

  Theorem built : exists i s inv i0 f v, parse_inventory w h = Ok (i, s) /\ open_at w h i s inv i0 f /\ Forall fname h /\ look w h = Some EDir /\ vname v /\
    (content_directory_to_use i = [] \/ fname (content_directory_to_use i)) /\ In (f_alg f) [`"sha512"; `"sha256"] /\
    building rd v (content_directory_to_use i) (Some (f_alg f)) nv /\
    acts_at (may alg h nv v w) (write_new_version H alg h src nv) w.
  Proof using HH Tw Fc St Pl.
    destruct (start_building _ _ _ _ _ _ _ _ _ _ _ _ _ Fc St) as (i & s & inv & i0 & f & v & E & O & Fh & Hd & Vv & Cd & Al & B).
    exists i, s, inv, i0, f, v. split; [exact E|]. split; [exact O|]. split; [exact Fh|]. split; [exact Hd|]. split; [exact Vv|]. split; [exact Cd|]. split; [exact Al|].
    assert (B' : building rd v (content_directory_to_use i) (Some (f_alg f)) nv) by (apply do_building; auto; apply Vv). split; [exact B'|].
    apply write_acts; auto.
    - intros o Eo. rewrite (bd_old _ _ _ _ _ B') in Eo. apply Some_inv in Eo. subst o. now apply algs_no_slash.
    - apply (bd_head _ _ _ _ _ B').
    - apply Vv.
    - apply Vv.
    - intros x y Hi. apply (in_content_below v _ y Cd). now apply (bd_copy _ _ _ _ _ B' x y).
  Qed.

  Variables (i : inventory) (s : str) (nv1 : new_version) (v1 : str).
  Hypothesis Pi : parse_inventory w h = Ok (i, s).
  Hypothesis Ka : kept_if H da w h i.
  Hypothesis Cd : content_directory_to_use i <> [].
  Hypothesis Rn : nv_run H rd ops nv0 = (nv1, Ok tt).
  Hypothesis Hv1 : i_head (nv_inv nv0) = Some v1.
  Hypothesis Hr : harmless_run H rd v1 ops nv0.

  (** The content files of the new version are those copied. *)
  Lemma copied_files w' : 
    (forall s0 c0, In (s0, c0) (nv_copy nv1) -> exists s' b, In (s', c0) (nv_copy nv1) /\ fs_read w src s' = Ok b /\ look w' (at_path h c0) = Some (EFile b)) ->
    forall d k, stored (nv_inv nv1) d k -> in_directory v1 k -> exists a b, i_alg (nv_inv nv1) = Some a /\ look w' (at_path h k) = Some (EFile b) /\ digest_of H a b d.
  Proof using HH Tw Fc St Pl Pi Ka Rn Hv1 Hr.
    destruct (start_versions _ _ _ _ _ _ _ _ _ _ _ _ _ _ _ St Pi Ka) as (i3 & v & Sv & Nx & Nv & Es & G & Ca & _). assert (v1 = v) by (pose proof (nx_head _ _ _ _ Nx); congruence). subst v1.
    assert (O0 : one_each v (nv_inv nv0)).
    { intros d d' k H1 _ Hi. exfalso. assert (H1' : stored i3 d k) by (unfold stored in *; rewrite <- (nx_manifest _ _ _ _ Nx); exact H1).
      destruct (proj1 (Es k) (ex_intro _ d H1')) as [d0 Hk]. destruct (parse_opened _ _ _ _ Pi) as (inv & i0 & f & O).
      destruct (start_building _ _ _ _ _ _ _ _ _ _ _ _ _ Fc St) as (i' & s' & inv' & i0' & f' & v' & _ & _ & _ & _ & Vv & _ & _ & B).
      assert (v' = v) by (pose proof (bd_head _ _ _ _ _ (B rd)); congruence). subst v'. exact (old_content _ _ _ _ _ _ _ d0 k v O Hk Nv (proj1 Vv) Hi). }
    pose proof (run_one _ _ _ _ _ _ G O0 Rn) as O1. destruct (run_agree _ _ _ _ _ _ G (Ca rd) Hr Rn) as [G1 C1].
    intros Cp d k Hk Hi. destruct (ca_copied _ _ _ _ C1 d k Hk Hi) as (s0 & a & Hs & Ea & _). destruct (Cp s0 k Hs) as (s' & b & Hs' & Rb & Lb).
    destruct (ca_listed _ _ _ _ C1 s' k Hs') as (d' & a' & Hk' & Ea' & (b' & Rb' & Hd)). assert (a' = a) by congruence. subst a'. assert (d' = d) by (exact (O1 d' d k Hk' Hk Hi)). subst d'.
    unfold rd in Rb'. assert (b' = b) by congruence. subst b'. exists a, b. split; [auto|]. split; [auto|]. now apply file_digest_iff.
  Qed.

  (** What is needed for the theorems about writing *)
  Lemma writable : ~ In PathModel.slash alg -> exists old, Forall fname h /\ look w h = Some EDir /\ vname v1 /\ (forall o, nv_old_alg nv1 = Some o -> ~ In PathModel.slash o) /\ i_head (nv_inv nv1) = Some v1 /\
    (forall s c, In (s, c) (nv_copy nv1) -> below_v v1 c) /\ (forall s c, In (s, c) (nv_copy nv1) -> exists b, fs_read w src s = Ok b) /\
    (forall s c, In (s, c) (nv_copy nv1) -> c <> J [v1; inv_name] /\ c <> J [v1; side_name alg]) /\ i_alg i = Some old.
  Proof using HH Tw Fc St Pl Pi Cd Rn Hv1.
    destruct (start_building _ _ _ _ _ _ _ _ _ _ _ _ _ Fc St) as (i' & s' & inv & i0 & f & v & Pi' & O & Fh & Hd & Vv & Cd' & Al & B0). rewrite Pi in Pi'. apply Ok_inv in Pi'. injection Pi' as <- <-.
    assert (v = v1) by (pose proof (bd_head _ _ _ _ _ (B0 rd)); congruence). subst v.
    assert (B : building rd v1 (content_directory_to_use i) (Some (f_alg f)) nv1).
    { rewrite (run_do _ _ _ _ _ Rn). apply do_building; auto. apply Vv. }
    destruct Cd' as [Cd'|Fd]; [contradiction|]. intros Ha. exists (f_alg f).
    split; [exact Fh|]. split; [exact Hd|]. split; [exact Vv|]. split; [intros o Eo; rewrite (bd_old _ _ _ _ _ B) in Eo; apply Some_inv in Eo; subst o; now apply algs_no_slash|].
    split; [apply (bd_head _ _ _ _ _ B)|]. split; [intros s0 c0 Hi; apply (in_content_below v1 _ c0 (or_intror Fd)); now apply (bd_copy _ _ _ _ _ B s0 c0)|].
    split; [intros s0 c0 Hi; now apply (bd_copy _ _ _ _ _ B s0 c0)|]. split; [|apply (oa_alg _ _ _ _ _ _ _ O)].
    intros s0 c0 Hi. destruct (bd_copy _ _ _ _ _ B s0 c0 Hi) as [Hc _].
    split; (apply (not_inventory (content_directory_to_use i) v1 c0); auto; [apply Vv|]); [apply fname_inv|now apply fname_side].
  Qed.

  (** Interrupted at any moment *)
  Theorem crashed w' : ~ In PathModel.slash alg -> crash (write_new_version H alg h src nv1) w w' -> look w' (h ++ [inv_name]) <> look w (h ++ [inv_name]) ->
    (exists b x t, write_text (json_dumps (json_of_inventory (nv_inv nv1))) = Ok b /\ digest_of H alg b x /\ write_text (x ++ `" inventory.json" ++ [10%N]) = Ok t /\
       look w' (h ++ [v1; inv_name]) = Some (EFile b) /\ look w' (h ++ [v1; side_name alg]) = Some (EFile t)) /\
    (forall d k, stored (nv_inv nv1) d k -> in_directory v1 k -> exists a b, i_alg (nv_inv nv1) = Some a /\ look w' (at_path h k) = Some (EFile b) /\ digest_of H a b d).
  Proof using HH Tw Fc St Pl Pi Ka Cd Rn Hv1 Hr.
    intros Ha Cr Hne. destruct (writable Ha) as (old & Fh & Hd & (Fv & Vi & Vs) & Fo & Hh & Cv & Cs & Ci & _).
    destruct (write_crash H alg h src nv1 v1 w Tw Fh Hd Fo Hh Fv Vi Vs Cv Cs Ci w' Cr Hne) as [W1 W2]. split; [exact W1|]. now apply copied_files.
  Qed.

  (** Finished *)
  Theorem finished r : ~ In PathModel.slash alg -> result (write_new_version H alg h src nv1) w = Ok r -> let w' := after (write_new_version H alg h src nv1) w in
    (exists b x t, write_text (json_dumps (json_of_inventory (nv_inv nv1))) = Ok b /\ digest_of H alg b x /\ write_text (x ++ `" inventory.json" ++ [10%N]) = Ok t /\
       look w' (h ++ [v1; inv_name]) = Some (EFile b) /\ look w' (h ++ [v1; side_name alg]) = Some (EFile t) /\
       look w' (h ++ [inv_name]) = Some (EFile b) /\ look w' (h ++ [side_name alg]) = Some (EFile t)) /\
    (forall d k, stored (nv_inv nv1) d k -> in_directory v1 k -> exists a b, i_alg (nv_inv nv1) = Some a /\ look w' (at_path h k) = Some (EFile b) /\ digest_of H a b d) /\
    (forall y b, look w' (h ++ v1 :: y) = Some (EFile b) -> y = [inv_name] \/ y = [side_name alg] \/
       exists d k, stored (nv_inv nv1) d k /\ in_directory v1 k /\ at_path h k = h ++ v1 :: y).
  Proof using HH Tw Fc St Pl Pi Ka Cd Rn Hv1 Hr.
    intros Ha R w'. destruct (writable Ha) as (old & Fh & Hd & (Fv & Vi & Vs) & Fo & Hh & Cv & Cs & Ci & _).
    destruct (write_done H alg h src nv1 v1 w Tw Fh Hd Fo Hh Fv Vi Vs Cv Cs Ci r R) as (_ & W1 & W2 & W3). split; [exact W1|]. split; [now apply copied_files|].
    intros y b L. destruct (W3 y b L) as [E|[E|(s0 & k & Hi & E)]]; auto. right; right.
    destruct (start_versions _ _ _ _ _ _ _ _ _ _ _ _ _ _ _ St Pi Ka) as (i3 & v & Sv & Nx & Nv & Es & G & Ca & _). assert (Ev : v = v1) by (pose proof (nx_head _ _ _ _ Nx); congruence). rewrite Ev in *.
    destruct (run_agree _ _ _ _ _ _ G (Ca rd) Hr Rn) as [_ C1]. destruct (ca_listed _ _ _ _ C1 s0 k Hi) as (d & a & Hk & _). exists d, k. split; [exact Hk|]. split; [|exact E].
    destruct (Cv s0 k Hi) as (q & Nq & Fq & Eq). destruct q as [|q0 q]; [now contradiction Nq|]. exists (J (q0 :: q)). rewrite Eq. apply join_cons. discriminate.
  Qed.
End Written.

