(** C51 and C58: declaration files. *)
From Coq Require Import Sorted.
From Verif Require Import Base Unicode Utf8 TextFile PathModel FsModel FsSpec FsProofs FswModel FswSpec FswProofs FswCopyProofs.
From Verif Require Import NamasteModel NamasteSpec NamasteProofs.
Open Scope N_scope.

(** * C51 *)

Theorem C51_tvalue : forall content,
  (List.length (content_to_tvalue content) <= 40)%nat /\
  Forall (fun c => is_word c = true \/ In c [46; 45; 58; 95]) (content_to_tvalue content).
Proof.
  intros s. split.
  - unfold content_to_tvalue. rewrite map_length. apply firstn_le_length.
  - apply Forall_forall. intros c H. apply tvalue_chars in H as [H|H]; [|right; cbn; auto].
    unfold tvalue_char in H. apply orb_true_iff in H as [H|H]; auto. right. unfold char_in in H.
    apply existsb_exists in H as (x & Hx & E). apply N.eqb_eq in E. subst x. cbn in Hx |- *. tauto.
Qed.
Print Assumptions C51_tvalue.

(** Of a content without white space at the ends, the tag value is the first 40 characters
    with those not allowed replaced. *)
Theorem C51_tvalue_chars : forall content,
  (forall c r, content = c :: r -> is_space c = false) -> (forall c r, content = r ++ [c] -> is_space c = false) ->
  List.length (content_to_tvalue content) = Nat.min 40 (List.length content) /\
  forall n c, nth_error content n = Some c -> (n < 40)%nat ->
    nth_error (content_to_tvalue content) n = Some (if is_word c || (c =? 46) || (c =? 45) || (c =? 58) then c else 95).
Proof.
  intros s Hh Ht.
  assert (Hl : forall t, (forall c r, t = c :: r -> is_space c = false) -> lstrip t = t).
  { intros [|c r] H; [reflexivity|]. cbn [lstrip]. now rewrite (H c r eq_refl). }
  assert (Hs : strip_spaces s = s).
  { unfold strip_spaces. rewrite (Hl s Hh), (Hl (rev s)); [apply rev_involutive|]. intros c r E. apply (Ht c (rev r)).
    rewrite <- (rev_involutive s), E. reflexivity. }
  unfold content_to_tvalue. rewrite Hs. split; [now rewrite map_length, firstn_length|].
  intros n c Hn Hlt. rewrite nth_error_map. rewrite nth_error_firstn_lt by auto. rewrite Hn. cbn [option_map]. f_equal.
  unfold tvalue_char, char_in. cbn [lit existsb]. rewrite orb_false_r.
  change (ascii_code "."%char) with 46. change (ascii_code "-"%char) with 45. change (ascii_code ":"%char) with 58. now rewrite !orb_assoc.
Qed.
Print Assumptions C51_tvalue_chars.
Example C51_tvalue_ex : content_to_tvalue (`"  ocfl 1.1/x-y:z_w ") = `"ocfl_1.1_x-y:z_w".
Proof. reflexivity. Qed.

(** A file written for a content whose tag value is not empty passes the check; nothing else
    is changed. *)
Theorem C51_written_passes : forall w h dir d content b,
  let n := mkNamaste d content None in
  let p := at_path h dir ++ [filename n] in
  let w' := after (namaste_write n h dir) w in
  tree w -> look w (at_path h dir) = Some EDir -> ~ In slash d -> (look w p = None \/ exists c, look w p = Some (EFile c)) ->
  no_crlf content -> content_to_tvalue content <> [] -> utf8_encode (content ++ [10]) = Ok b ->
  result (namaste_write n h dir) w = Ok tt /\
  check_content n w' h dir = Ok tt /\
  content_ok (mkNamaste d [] (Some (content_to_tvalue content))) w' h dir = Ok true /\
  changes w w' p (Some (EFile b)).
Proof.
  intros w h dir d content b n p w' Hw Hdir Hd Hp Hc Ht Hb.
  assert (Hf : fname (filename n)).
  { unfold filename, n. cbn [n_d tvalue n_tvalue n_content]. unfold fname. destruct d as [|c d].
    - cbn [app lit]. repeat split; try discriminate. intros [E|E]; [discriminate|]. now apply tvalue_no_slash in E.
    - destruct d as [|c' d].
      + cbn [app lit]. repeat split; try discriminate. intros [E|[E|E]]; [apply Hd; now left|discriminate|now apply tvalue_no_slash in E].
      + cbn [app]. repeat split; try discriminate.
        * intros E. injection E as _ _ E. destruct d; discriminate.
        * intros H. change (c :: c' :: d ++ `"=" ++ content_to_tvalue content) with ((c :: c' :: d) ++ `"=" ++ content_to_tvalue content) in H.
          apply in_app_or in H as [H|[H|H]]; [contradiction|discriminate|now apply tvalue_no_slash in H]. }
  assert (Hat : at_path h (path_join dir (filename n)) = p) by (unfold p; now apply at_path_name).
  assert (Hfree : fresh_place w (at_path h (path_join dir (filename n))) \/ exists c, look w (at_path h (path_join dir (filename n))) = Some (EFile c)).
  { rewrite Hat. destruct Hp as [Hp|Hp]; auto. left. unfold fresh_place, p. rewrite removelast_last. repeat split; auto. destruct (at_path h dir); discriminate. }
  destruct (write_text_file w h (path_join dir (filename n)) (content ++ [10]) b Hfree Hb) as [Hr Hch].
  assert (Hrd : forall m, filename m = filename n -> tvalue m = content_to_tvalue content -> check_content m w' h dir = Ok tt).
  { intros m Hfm Htm. unfold check_content. rewrite Htm, Hfm.
    destruct (str_eqb_spec (content_to_tvalue content) []); [contradiction|].
    unfold fs_read_text. assert (Hrd : fs_read w' h (path_join dir (filename n)) = Ok b).
    { apply fs_read_look. unfold w', namaste_write. cbn [n_content]. rewrite (Hch _). destruct (place_eq_dec _ _); congruence. }
    rewrite Hrd. cbn [ebind]. unfold read_text. rewrite (utf8_roundtrip _ _ Hb). cbn [ebind].
    rewrite tvalue_newlines by auto. now rewrite str_eqb_refl. }
  split; [exact Hr|]. split; [now apply Hrd|]. split.
  - unfold content_ok. rewrite Hrd; reflexivity.
  - intros q. rewrite <- Hat. exact (Hch q).
Qed.
Print Assumptions C51_written_passes.
Definition ex_root : node := Dir [(`"r", Dir [(`"0=ocfl_1.0", File [1]); (`"x", File [2]); (`"0=a", Dir [])]); (`"f", File [3])].
Lemma ex_root_ok : tree ex_root. Proof. apply tree_b_ok. reflexivity. Qed.
Example C51_written_ex :
  let w' := after (namaste_write (mkNamaste (`"0") (`"ocfl_object_1.1") None) [] (`"r")) ex_root in
  look w' [`"r"; `"0=ocfl_object_1.1"] = Some (EFile (`"ocfl_object_1.1" ++ [10])) /\
  check_content (mkNamaste (`"0") (`"ocfl_object_1.1") None) w' [] (`"r") = Ok tt.
Proof. vm_compute. auto. Qed.

(** Text files turn "\r\n" into "\n" when read: a content with it fails its own check. *)
Theorem C51_crlf_refuted : exists w h dir d content,
  let n := mkNamaste d content None in
  tree w /\ look w (at_path h dir) = Some EDir /\ tvalue n <> [] /\ result (namaste_write n h dir) w = Ok tt /\
  check_content n (after (namaste_write n h dir) w) h dir = Raise NamasteException.
Proof.
  exists ex_root, [], (`"r"), (`"0"), (`"a" ++ [13; 10] ++ `"b"). split; [apply ex_root_ok|].
  split; [reflexivity|]. split; [discriminate|]. split; reflexivity.
Qed.
Print Assumptions C51_crlf_refuted.

(** A file is found with exactly the tag asked for. Directories count as well. *)
Theorem C51_find : forall w h d dir limit,
  tree w -> walkable dir -> look w (at_path h dir) = Some EDir ->
  (at_most limit (tagged w (at_path h dir) d) ->
     exists l, find_namastes w h d dir limit = Ok l /\
       (forall name, In name (map filename l) <-> tagged w (at_path h dir) d name) /\
       StronglySorted before_name (map filename l) /\
       Forall (fun n => n_d n = d) l) /\
  (~ at_most limit (tagged w (at_path h dir) d) -> find_namastes w h d dir limit = Raise NamasteException).
Proof.
  intros w h d dir limit Hw Hdir Hl. apply look_dir in Hl as (e & Hg).
  rewrite (few_length w _ e d limit Hw Hg), (find_namastes_ok w h e dir d limit Hw Hdir Hg). cbv zeta.
  set (l := filter (startswith (d ++ `"=")) (keys e)).
  assert (Hnd : NoDup l) by (apply NoDup_filter; apply (dir_names w _ e Hw Hg)).
  split; intros H.
  - destruct (Nat.ltb_spec limit (List.length l)); [lia|]. eexists. split; [reflexivity|]. rewrite map_filename.
    rewrite skipn_back.
    + split; [|split].
      * intros name. unfold sorted_strs. rewrite In_isort. now apply names_tagged.
      * now apply sorted_before.
      * apply Forall_forall. intros n Hn. apply in_map_iff in Hn as (f & <- & _). reflexivity.
    + apply Forall_forall. intros f Hf. unfold sorted_strs in Hf. apply In_isort in Hf. now apply filter_In in Hf.
  - destruct (Nat.ltb_spec limit (List.length l)); [reflexivity|lia].
Qed.
Print Assumptions C51_find.
Example C51_find_ex : exists l, find_namastes ex_root [] (`"0") (`"r") 10 = Ok l /\ map filename l = [`"0=a"; `"0=ocfl_1.0"].
Proof. eexists. split; [reflexivity|reflexivity]. Qed.
Example C51_find_limit : find_namastes ex_root [] (`"0") (`"r") 1 = Raise NamasteException.
Proof. reflexivity. Qed.

(** * C58 *)

Definition path_place (cwd : place) (path : str) : place := at_path (if startswith [slash] path then [] else cwd) path.

Theorem C58_directory : forall message w cwd path,
  let p := path_place cwd path in
  let t := find_path_type message w cwd path in
  tree w -> Forall fname cwd -> no_url path -> look w p = Some EDir -> at_most 10 (tagged w p (`"0")) ->
  (t = Ok (`"object") <-> first_declaration w p true) /\
  (t = Ok (`"root") <-> first_declaration w p false) /\
  (exists text, t = Ok text /\ text <> `"file").
Proof.
  intros message w cwd path p t Hw Hcwd Hu Hl Hfew. apply look_dir in Hl as (e & Hg).
  assert (Hdir : fs_isdir w (base_of cwd path) path = true).
  { apply fs_isdir_look. apply get_look in Hg. exact Hg. }
  assert (Hf : find_namastes w p (`"0") [] 10 = Ok (map mk0 (sorted_strs (filter (startswith (`"0=")) (keys e))))).
  { rewrite (find_namastes_ok w p e [] (`"0") 10 Hw).
    - cbv zeta. pose proof (proj1 (few_length w p e (`"0") 10 Hw Hg) Hfew) as Hlen.
      destruct (Nat.ltb_spec 10 (List.length (filter (startswith (`"0" ++ `"=")) (keys e)))); [lia|reflexivity].
    - unfold walkable. cbn. discriminate.
    - assert (E : at_path p [] = p).
      { apply at_path_nil. unfold p, path_place. apply at_path_fnames. destruct (startswith [slash] path); auto. }
      rewrite E. exact Hg. }
  assert (Ht : t = match sorted_strs (filter (startswith (`"0=")) (keys e)) with
     | [] => Ok (`"no 0= declaration file")
     | f :: r => match first_ocfl (map mk0 (f :: r)) with
                 | Some x => Ok x
                 | None => Ok (`"unrecognized 0= declaration file or files (first is " ++ tvalue (mk0 f) ++ `")") end end).
  { unfold t, find_path_type. rewrite openfs_ok, Hdir by auto. change (at_path (base_of cwd path) path) with p. rewrite Hf.
    cbn [ebind]. destruct (sorted_strs _); reflexivity. }
  set (l := sorted_strs (filter (startswith (`"0=")) (keys e))) in *.
  assert (Hin : forall n, In n l <-> tagged w p (`"0") n).
  { intros n. unfold l, sorted_strs. rewrite In_isort. apply (names_tagged w p e (`"0") n Hw Hg). }
  assert (Hs : StronglySorted before_name l) by (apply sorted_before, NoDup_filter; apply (dir_names w p e Hw Hg)).
  assert (Hpre : Forall (fun f => startswith (`"0=") f = true) l).
  { apply Forall_forall. intros n Hn. apply Hin in Hn as [_ [x ->]]. reflexivity. }
  pose proof (first_ocfl_ok l Hs Hpre) as Hfirst.
  assert (Hdecl : forall o, first_declaration w p o -> exists n, In n l /\ ocfl_declaration o n).
  { intros o (n & A & B & _). exists n. split; auto. apply Hin. split; auto. eapply decl_prefix; eauto. }
  assert (Hnone : (forall name o, In name l -> ~ ocfl_declaration o name) -> forall o, ~ first_declaration w p o).
  { intros H o Ho. destruct (Hdecl o Ho) as (n & A & B). exact (H _ _ A B). }
  destruct l as [|f r].
  - assert (Hno : forall o, ~ first_declaration w p o) by (apply Hnone; intros name o []).
    rewrite Ht. split; [|split].
    + split; [discriminate|intros H; exfalso; exact (Hno _ H)].
    + split; [discriminate|intros H; exfalso; exact (Hno _ H)].
    + eexists; split; [reflexivity|discriminate].
  - rewrite Ht. destruct (first_ocfl (map mk0 (f :: r))) as [x|].
    + destruct Hfirst as (o & name & -> & Hn & Hd & Hmin).
      assert (Hfd : first_declaration w p o).
      { exists name. split; [now apply Hin in Hn as [Hn _]|]. split; [exact Hd|]. intros other o' Hl Ho. apply (Hmin other o'); auto.
        apply Hin. split; auto. eapply decl_prefix; eauto. }
      assert (Hun : forall o', first_declaration w p o' -> o' = o) by (intros o' Ho'; eapply first_decl_unique; eauto).
      destruct o.
      * split; [split; auto|]. split; [split; [discriminate|]|eexists; split; [reflexivity|discriminate]].
        intros Ho. specialize (Hun _ Ho). discriminate.
      * split; [split; [discriminate|]|]. { intros Ho. specialize (Hun _ Ho). discriminate. }
        split; [split; auto|]. eexists; split; [reflexivity|discriminate].
    + specialize (Hnone Hfirst). split; [|split].
      * split; [discriminate|intros H; exfalso; exact (Hnone _ H)].
      * split; [discriminate|intros H; exfalso; exact (Hnone _ H)].
      * eexists; split; [reflexivity|discriminate].
Qed.
Print Assumptions C58_directory.

(** More than ten 0= files are not reported by a text but by an exception that the callers
    do not expect. *)
Theorem C58_too_many : forall message w cwd path,
  let p := path_place cwd path in
  tree w -> Forall fname cwd -> no_url path -> look w p = Some EDir -> ~ at_most 10 (tagged w p (`"0")) ->
  find_path_type message w cwd path = Raise NamasteException.
Proof.
  intros message w cwd path p Hw Hcwd Hu Hl Hfew. apply look_dir in Hl as (e & Hg).
  assert (Hdir : fs_isdir w (base_of cwd path) path = true) by (apply fs_isdir_look; apply get_look in Hg; exact Hg).
  unfold find_path_type. rewrite openfs_ok, Hdir by auto. change (at_path (base_of cwd path) path) with p.
  assert (E : at_path p [] = p).
  { apply at_path_nil. unfold p, path_place. apply at_path_fnames. destruct (startswith [slash] path); auto. }
  rewrite (find_namastes_ok w p e [] (`"0") 10 Hw).
  - cbv zeta. rewrite (few_length w p e (`"0") 10 Hw Hg) in Hfew.
    destruct (Nat.ltb_spec 10 (List.length (filter (startswith (`"0" ++ `"=")) (keys e)))); [reflexivity|lia].
  - unfold walkable. cbn. discriminate.
  - now rewrite E.
Qed.
Print Assumptions C58_too_many.
Definition eleven : node :=
  Dir (map (fun c => ([48; 61; c], File [])) [97; 98; 99; 100; 101; 102; 103; 104; 105; 106; 107] ++ [(`"0=ocfl_1.0", File [])]).
Theorem C58_too_many_refuted : exists w path, tree w /\ look w (path_place [] path) = Some EDir /\
  forall message text, find_path_type message w [] path <> Ok text.
Proof.
  exists eleven, (`"."). split; [apply tree_b_ok; reflexivity|]. split; [reflexivity|]. intros m t. vm_compute. discriminate.
Qed.
Print Assumptions C58_too_many_refuted.

(** A path that is not a directory: [k] is its last element. *)
Theorem C58_not_directory : forall message w cwd dir k,
  let path := dir ++ k in
  let p := path_place cwd path in
  let t := find_path_type message w cwd path in
  tree w -> Forall fname cwd -> no_url path -> fname k -> dir = [] \/ last_opt dir = Some slash ->
  look w p <> Some EDir ->
  (t = Ok (`"file") <-> look w p <> None) /\
  (look w p = None -> exists text, t = Ok text /\ ~ In text [`"object"; `"root"; `"file"]).
Proof.
  intros message w cwd dir k path p t Hw Hcwd Hu Hk Hdir Hl.
  assert (Hs : ~ In slash k) by apply Hk.
  assert (Hno : fs_isdir w (base_of cwd path) path = false).
  { destruct (fs_isdir w (base_of cwd path) path) eqn:E; auto. apply fs_isdir_look in E. contradiction. }
  set (parent := if str_eqb (fst (path_split path)) [] then `"." else fst (path_split path)).
  assert (Hsplit : path_split path = (match rstrip_slash dir with [] => dir | s => s end, k)) by now apply path_split_name.
  assert (Hparent : at_path (base_of cwd path) parent = at_path (base_of cwd path) dir /\ base_of cwd parent = base_of cwd path /\ no_url parent).
  { unfold parent. rewrite Hsplit. cbn [fst]. destruct Hdir as [->|Hdir].
    - cbn [str_eqb rstrip_slash rev lstrip_slash]. change (rstrip_slash []) with (@nil N). cbn [str_eqb]. unfold path. cbn [app].
      destruct k as [|c k]; [now destruct Hk|]. unfold base_of. cbn [startswith].
      destruct (N.eqb_spec slash c); [subst; exfalso; apply Hs; now left|]. cbn [andb]. split; [unfold at_path, resolve; now rewrite !fold_left_app|]. split; [reflexivity|].
      intros a b E. destruct a as [|x a]; [discriminate|]. destruct a; discriminate.
    - destruct dir as [|c dir']; [discriminate|]. destruct (rstrip_split (c :: dir')) as [m Em].
      destruct (rstrip_slash (c :: dir')) as [|c' s] eqn:Er.
      + cbn [str_eqb]. split; [reflexivity|]. split; [reflexivity|]. eapply no_url_prefix; exact Hu.
      + cbn [str_eqb]. rewrite <- Er, at_path_rstrip. split; [reflexivity|]. rewrite Er. split.
        * unfold base_of, path. cbn [app] in Em. injection Em as <- Em. reflexivity.
        * eapply no_url_prefix. unfold path in Hu. rewrite Em in Hu. rewrite <- app_assoc in Hu. exact Hu. }
  destruct Hparent as (Hpp & Hpb & Hpu).
  assert (Hp : p = at_path (base_of cwd path) dir ++ [k]).
  { unfold p, path_place. fold (base_of cwd path). rewrite <- (at_path_name _ dir k Hk). f_equal. unfold path.
    rewrite path_join_name by auto. destruct Hdir as [->|Hd']; [reflexivity|]. rewrite Hd'. now rewrite N.eqb_refl. }
  assert (Hk' : at_path (at_path (base_of cwd path) dir) k = p).
  { rewrite Hp. refine (at_path_join _ [k] _ (Forall_cons _ Hk (Forall_nil _))). apply at_path_fnames. unfold base_of. destruct (startswith _ _); auto. }
  assert (Ht : t = if fs_isdir w (base_of cwd path) dir then
      (if negb (fs_exists w (at_path (base_of cwd path) dir) k) then Ok (`"path does not exist") else Ok (`"file"))
      else Ok (`"path cannot be opened, and nor can parent (" ++ message ++ `")")).
  { unfold t, find_path_type. rewrite openfs_ok, Hno by auto. rewrite (surjective_pairing (path_split path)). cbv beta iota.
    fold parent. rewrite openfs_ok by auto. rewrite Hpb. unfold fs_isdir at 1. rewrite Hpp. fold (fs_isdir w (base_of cwd path) dir).
    destruct (fs_isdir w (base_of cwd path) dir); [|reflexivity]. rewrite Hsplit. cbn [snd].
    destruct (negb (fs_exists w (at_path (base_of cwd path) dir) k)); [reflexivity|].
    destruct (fs_isdir w (at_path (base_of cwd path) dir) k) eqn:E; [|reflexivity]. apply fs_isdir_look in E. rewrite Hk' in E. contradiction. }
  destruct (look w p) as [e|] eqn:El.
  - assert (Hd : fs_isdir w (base_of cwd path) dir = true).
    { apply fs_isdir_look. rewrite Hp in El. apply (look_above w _ k []). change (at_path (base_of cwd path) dir ++ k :: []) with (at_path (base_of cwd path) dir ++ [k]). intros C. rewrite C in El. discriminate. }
    rewrite Ht, Hd. rewrite (proj2 (fs_exists_look w _ k)) by (rewrite Hk', El; discriminate). cbn [negb]. split; [split; [discriminate|auto]|discriminate].
  - rewrite Ht. assert (Hx : fs_exists w (at_path (base_of cwd path) dir) k = false) by (apply fs_exists_false; now rewrite Hk').
    rewrite Hx. cbn [negb]. destruct (fs_isdir w (base_of cwd path) dir).
    + split; [split; [discriminate|congruence]|]. intros _. eexists. split; [reflexivity|]. intros [E|[E|[E|[]]]]; discriminate.
    + split; [split; [discriminate|congruence]|]. intros _. eexists. split; [reflexivity|]. intros [E|[E|[E|[]]]]; discriminate.
Qed.
Print Assumptions C58_not_directory.
Example C58_ex : find_path_type [] ex_root [`"r"] (`".") = Ok (`"root") /\ find_path_type [] ex_root [`"r"] (`"x") = Ok (`"file") /\
  find_path_type [] ex_root [] (`"/f") = Ok (`"file") /\ find_path_type [] ex_root [] (`"/r/0=a") = Ok (`"no 0= declaration file") /\
  find_path_type [] ex_root [] (`"y") = Ok (`"path does not exist").
Proof. repeat split. Qed.
