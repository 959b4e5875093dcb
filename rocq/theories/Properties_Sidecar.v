(** Property C41 for the sidecar tool: what it writes. *)
From Verif Require Import Base Unicode Regex Utf8 Json PathModel DigestModel LayoutModel ObjectUtilsModel Log InventoryModel NewVersionModel
  InventoryValidatorModel ParseModel TextFile FsModel FsSpec FsProofs FswModel FswSpec FswProofs FswCopyProofs NamasteProofs
  FsStepProofs NamasteModel ValidatorModel ValidatorSpec ValidatorBasicProofs ObjectModel ObjectWriteProofs ObjectSpec ObjectCreateProofs UpdateSpec ChangeProofs FrameProofs
  ObjectExamples Properties_Layout Properties_Object Properties_ObjectFindings.
Import ListNotations.

(** The digest algorithm the tool uses: the one given, else sha512, whatever is in the inventory. *)
Definition tool_algorithm (given : option str) : str := match given with Some a => a | None => `"sha512" end.

(** What the tool does after the object has been opened at [h] *)
Definition tool_steps (H : hashfn) (h : place) (given : option str) : io unit :=
  do alg <- iread (fun w => match given with
                            | Some a => Ok a
                            | None => match parse_inventory w h with
                                      | Ok _ | Raise ObjectException => Ok DEFAULT_DIGEST_ALGORITHM
                                      | Raise e => Raise e
                                      end
                            end) ;;
  (write_inventory_and_sidecar H alg h None [] ;; iret tt).

Lemma tool_start H e dir given w : no_url dir -> look w (dest_of (e_cwd e) dir) = Some EDir ->
  create_sidecar H e dir given w =
    match look w (dest_of (e_cwd e) dir ++ [inv_name]) with
    | Some (EFile _) => tool_steps H (dest_of (e_cwd e) dir) given w
    | _ => ([], Ok tt)
    end.
Proof.
  intros Hu Hd. unfold create_sidecar. cbv zeta.
  assert (Eb : (if startswith [slash] (path_join dir INVENTORY_FILENAME) then [] else e_cwd e) = base_of (e_cwd e) dir).
  { unfold base_of. destruct dir as [|c d]; [reflexivity|].
    assert (E : exists r, path_join (c :: d) INVENTORY_FILENAME = c :: r).
    { unfold path_join. change (startswith [slash] INVENTORY_FILENAME) with false. cbv iota.
      destruct (last_opt (c :: d)) as [l|] eqn:El; [destruct (N.eqb l slash); eexists; reflexivity|].
      exfalso. revert El. unfold last_opt. destruct (rev (c :: d)) eqn:Er; [|discriminate].
      apply (f_equal (@List.length N)) in Er. rewrite rev_length in Er. discriminate Er. }
    destruct E as [r ->]. reflexivity. }
  rewrite Eb, (at_path_name _ dir inv_name fname_inv). fold (dest_of (e_cwd e) dir).
  unfold ibind at 1. cbn [iread apply_all fold_left]. unfold look.
  destruct (get w (dest_of (e_cwd e) dir ++ [inv_name])) as [[x|es|]|y]; try reflexivity.
  destruct (open_there (e_cwd e) dir w Hu Hd) as [R A].
  assert (O : open_obj_fs e (Some dir) false w = ([], Ok (dest_of (e_cwd e) dir))).
  { unfold open_obj_fs. assert (E : fsw_openfs (e_cwd e) dir false true w = ([], Ok (dest_of (e_cwd e) dir))).
    { unfold fsw_openfs. rewrite split_url_none by auto. change (str_eqb (`"file") (`"file")) with true. cbv iota.
      unfold ibind at 1. cbn [iread apply_all fold_left]. change (if startswith [slash] dir then [] else e_cwd e) with (base_of (e_cwd e) dir).
      apply fs_isdir_look in Hd. unfold dest_of in *. rewrite Hd. reflexivity. }
    rewrite E. reflexivity. }
  unfold ibind at 1. rewrite O. cbn [apply_all fold_left]. fold (tool_steps H (dest_of (e_cwd e) dir) given).
  destruct (tool_steps H (dest_of (e_cwd e) dir) given w) as [s r]. reflexivity.
Qed.

(** The algorithm that is used *)
Lemma tool_alg h given w a' : result (iread (fun w => match given with
                            | Some a => Ok a
                            | None => match parse_inventory w h with
                                      | Ok _ | Raise ObjectException => Ok DEFAULT_DIGEST_ALGORITHM
                                      | Raise e => Raise e
                                      end
                            end)) w = Ok a' -> a' = tool_algorithm given.
Proof.
  intros E. rewrite result_iread in E. destruct given as [g|]; cbn [tool_algorithm].
  - apply Ok_inv in E. auto.
  - destruct (parse_inventory w h) as [?|[]]; try discriminate E; apply Ok_inv in E; subst a'; reflexivity.
Qed.
Lemma tool_place h : Forall fname h -> at_path h (path_join [] INVENTORY_FILENAME) = h ++ [inv_name].
Proof. intros F. etransitivity; [exact (at_path_name h [] inv_name fname_inv)|]. rewrite at_path_nil by exact F. reflexivity. Qed.
Lemma tool_side h a : Forall fname h -> ~ In PathModel.slash a -> at_path h (path_join [] (INVENTORY_FILENAME ++ `"." ++ a)) = h ++ [side_name a].
Proof.
  intros F Ha. change (INVENTORY_FILENAME ++ `"." ++ a) with (side_name a).
  rewrite (at_path_name h [] (side_name a)), at_path_nil; [reflexivity|exact F|exact (fname_side a Ha)].
Qed.
(** With the directory there is nothing to create but the sidecar. *)
Lemma tool_writes H h a w : Forall fname h -> look w h = Some EDir ->
  write_inventory_and_sidecar H a h None [] w =
     (do digest <- iread (fun w => ObjectModel.fs_digest H a w h (path_join [] INVENTORY_FILENAME)) ;;
      fs_write_text h (path_join [] (INVENTORY_FILENAME ++ `"." ++ a)) (digest ++ `" " ++ INVENTORY_FILENAME ++ [10%N]) ;;
      iret (path_join [] (INVENTORY_FILENAME ++ `"." ++ a))) w.
Proof.
  intros F Hd. assert (Ex2 : fs_exists w h [] = true) by (apply fs_exists_look; rewrite at_path_nil by exact F; rewrite Hd; discriminate).
  unfold write_inventory_and_sidecar. unfold ibind at 1. cbn [iread]. rewrite Ex2. cbn [apply_all fold_left].
  unfold ibind at 1. cbn [iret apply_all fold_left]. unfold ibind at 1. cbn [iret apply_all fold_left].
  match goal with |- context [let (_, _) := ?y w in _] => destruct (y w) end. reflexivity.
Qed.

(** All it does is done to the sidecar. *)
Lemma tool_acts H e dir given w b : tree w -> no_url dir ->
  look w (dest_of (e_cwd e) dir) = Some EDir -> look w (dest_of (e_cwd e) dir ++ [inv_name]) = Some (EFile b) ->
  acts_at (fun p => p = dest_of (e_cwd e) dir ++ [side_name (tool_algorithm given)]) (create_sidecar H e dir given) w.
Proof.
  intros Tw Hu Hd Hi. unfold acts_at. rewrite (tool_start H e dir given w Hu Hd), Hi. set (h := dest_of (e_cwd e) dir) in *.
  assert (F : Forall fname h) by (apply (look_fnames w); [exact Tw|rewrite Hd; discriminate]).
  unfold tool_steps. apply (acts_bind (fun p => p = h ++ [side_name (tool_algorithm given)])); [apply acts_read|]. intros a' R. apply tool_alg in R. rewrite R. rewrite after_iread.
  apply acts_bind; [|intros; apply acts_ret]. unfold acts_at. rewrite (tool_writes H h _ w F Hd).
  apply (acts_bind (fun p => p = h ++ [side_name (tool_algorithm given)])); [apply acts_read|]. intros d Ed. rewrite result_iread in Ed. unfold ObjectModel.fs_digest in Ed.
  apply ebind_ok in Ed. destruct Ed as (b' & _ & Ed). rewrite after_iread.
  apply acts_bind; [|intros; apply acts_ret]. apply acts_write_text; [exact F|].
  apply tool_side; [exact F|exact (known_no_slash _ _ _ _ Ed)].
Qed.

(** * C41 *)

(** If there is an inventory in the directory, the tool writes one file and nothing else: the
    sidecar for the algorithm given with the digest of the inventory file. *)
Theorem C41_tool : forall H e dir given w b,
  tree w -> no_url dir ->
  let h := dest_of (e_cwd e) dir in let a := tool_algorithm given in let x := create_sidecar H e dir given in
  look w h = Some EDir -> look w (h ++ [inv_name]) = Some (EFile b) ->
  (result x w = Ok tt -> exists d t, digest_of H a b d /\ write_text (d ++ `" inventory.json" ++ [10%N]) = Ok t /\
     changes w (after x w) (h ++ [side_name a]) (Some (EFile t))) /\
  (forall w' q, crash x w w' -> q <> h ++ [side_name a] -> look w' q = look w q).
Proof.
  intros H e dir given w b Tw Hu h a x Hd Hi.
  assert (Ex : x w = tool_steps H h given w).
  { unfold x. rewrite (tool_start H e dir given w Hu Hd). fold h. rewrite Hi. reflexivity. }
  assert (Fh : Forall fname h) by (apply (look_fnames w); [exact Tw|rewrite Hd; discriminate]).
  assert (E0 : at_path h [] = h) by (rewrite <- (app_nil_r h) at 2; apply (at_path_join h []); auto).
  assert (Ei : at_path h (path_join [] INVENTORY_FILENAME) = h ++ [inv_name]) by (etransitivity; [exact (at_path_name h [] inv_name fname_inv)|]; rewrite E0; reflexivity).
  assert (Ea : forall a', result (iread (fun w => match given with
                            | Some a => Ok a
                            | None => match parse_inventory w h with
                                      | Ok _ | Raise ObjectException => Ok DEFAULT_DIGEST_ALGORITHM
                                      | Raise e => Raise e
                                      end
                            end)) w = Ok a' -> a' = a).
  { intros a' E. rewrite result_iread in E. unfold a. destruct given as [g|]; cbn [tool_algorithm].
    - apply Ok_inv in E. auto.
    - destruct (parse_inventory w h) as [?|[]]; try discriminate E; apply Ok_inv in E; subst a'; reflexivity. }
  assert (Ex2 : fs_exists w h [] = true) by (apply fs_exists_look; rewrite E0, Hd; discriminate).
  assert (Ew : forall a', write_inventory_and_sidecar H a' h None [] w =
     (do digest <- iread (fun w => ObjectModel.fs_digest H a' w h (path_join [] INVENTORY_FILENAME)) ;;
      fs_write_text h (path_join [] (INVENTORY_FILENAME ++ `"." ++ a')) (digest ++ `" " ++ INVENTORY_FILENAME ++ [10%N]) ;;
      iret (path_join [] (INVENTORY_FILENAME ++ `"." ++ a'))) w).
  { intros a'. unfold write_inventory_and_sidecar. unfold ibind at 1. cbn [iread]. rewrite Ex2. cbn [apply_all fold_left].
    unfold ibind at 1. cbn [iret apply_all fold_left]. unfold ibind at 1. cbn [iret apply_all fold_left].
    match goal with |- context [let (_, _) := ?y w in _] => destruct (y w) end. reflexivity. }
  split.
  - intro R. unfold result in R. rewrite Ex in R. fold (result (tool_steps H h given) w) in R.
    unfold after. rewrite Ex. fold (after (tool_steps H h given) w).
    unfold tool_steps in R |- *. apply seq_ok in R. destruct R as (a' & R1 & R & A). apply Ea in R1. rewrite R1 in R, A. clear a' R1.
    rewrite after_iread in R, A. apply seq_ok in R. destruct R as (s & R2 & _ & A2). rewrite A, A2. change (after (iret tt) ?z) with z.
    unfold result in R2. unfold after at 1. rewrite Ew in R2 |- *.
    match type of R2 with snd (?y w) = _ => fold (result y w) in R2; fold (after y w) end.
    rewrite result_read in R2. rewrite after_read.
    unfold ObjectModel.fs_digest in R2 |- *.
    assert (Rb : fs_read w h (path_join [] INVENTORY_FILENAME) = Ok b) by (apply fs_read_look; rewrite Ei; exact Hi).
    rewrite Rb in R2 |- *. cbn [ebind] in R2 |- *. destruct (file_digest H a b) as [d|] eqn:Ed; [|discriminate R2].
    assert (Es : at_path h (path_join [] (INVENTORY_FILENAME ++ `"." ++ a)) = h ++ [side_name a]).
    { change (INVENTORY_FILENAME ++ `"." ++ a) with (side_name a). rewrite (at_path_name h [] (side_name a)), E0; [reflexivity|].
      apply fname_side. exact (known_no_slash _ _ _ _ Ed). }
    apply seq_ok in R2. destruct R2 as ([] & R3 & _ & A3). rewrite A3. change (after (iret ?y) ?z) with z.
    destruct (write_text_done _ _ _ _ R3) as (t & Wt & C). rewrite Es in C.
    exists d, t. split; [apply file_digest_iff; exact Ed|]. split; [exact Wt|exact C].
  - intros w' q (c & Hc & ->) Hq. exact (acts_cut _ x w q c Tw (tool_acts H e dir given w b Tw Hu Hd Hi) Hc Hq).
Qed.

(** Without an inventory in the directory it does nothing. *)
Theorem C41_tool_ignored : forall H e dir given w, no_url dir ->
  let h := dest_of (e_cwd e) dir in
  look w h = Some EDir -> (forall b, look w (h ++ [inv_name]) <> Some (EFile b)) ->
  create_sidecar H e dir given w = ([], Ok tt).
Proof.
  intros H e dir given w Hu h Hd Hi. rewrite (tool_start H e dir given w Hu Hd). fold h.
  destruct (look w (h ++ [inv_name])) as [[b| |]|] eqn:E; try reflexivity. destruct (Hi b eq_refl).
Qed.

(** On the object of this library with sha256 and the option for sha256, the sidecar is written
    again as it was, and the object stays valid. *)
Example ex_tool :
  let x := create_sidecar toy_hash ex_env (`"o") (Some (`"sha256")) in
  tree ex_created /\ look ex_created (dest_of (e_cwd ex_env) (`"o")) = Some EDir /\
  (exists b, look ex_created [`"o"; inv_name] = Some (EFile b)) /\
  result x ex_created = Ok tt /\ ex_valid (after x ex_created) = true.
Proof.
  cbv zeta. split; [apply tree_b_ok; vm_compute; reflexivity|]. split; [vm_compute; reflexivity|].
  split; [eexists; vm_compute; reflexivity|]. split; vm_compute; reflexivity.
Qed.

Print Assumptions C41_tool.
Print Assumptions C41_tool_ignored.
