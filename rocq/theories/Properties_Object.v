(** C34, C35, C36, C39, C41, C45 and C46: objects that are created and updated. *)
From Coq Require Import Permutation Sorted.
From Verif Require Import Base Unicode Regex Utf8 Json PyJson JsonTextModel JsonTextSpec JsonTextProofs JsonFileProofs Log DigestModel LayoutModel LayoutProofs
  ObjectUtilsModel ObjectUtilsProofs InventorySpec InventoryValidatorModel InventoryValidatorProofs InventoryRulesProofs
  InventoryModel InventoryOpsSpec InventoryOpsProofs NewVersionModel NewVersionProofs NewVersionOpsProofs VersionNumberProofs InventoryParseProofs ParseModel
  ContentPathProofs TextFile PathModel FsModel FsSpec FsProofs FswModel FswSpec FswProofs FswCopyProofs ValidatorSpec ValidatorBasicProofs ObjectModel ObjectSpec ObjectInvProofs ObjectRulesProofs
  ObjectParseProofs ObjectAddProofs ContentNameProofs ObjectGrowProofs ObjectStartProofs ObjectCopyProofs ObjectWriteProofs ObjectSourceProofs ObjectFactsProofs NamasteSpec ValidatorVersionProofs ObjectMadeProofs ObjectIntactProofs ObjectExtendProofs FsStepProofs NamasteModel NamasteProofs ObjectStoreProofs ObjectCreateProofs ValidatorModel ValidatorIntactProofs ObjectUpdateProofs ObjectNextProofs ObjectDigestProofs ObjectVersionProofs ObjectExtractProofs ObjectHistoryProofs ObjectExamples.

From Verif Require Import Properties_Layout.

(** * A file system to look at *)

Definition ex_now : str := `"2020-01-02T03:04:05Z".
Definition ex_env : env := mk_env [] ex_now (fun _ => 0%N).
Definition ex_settings (alg spec : str) (norm : option str) (dd fd : bool) : object :=
  mk_object (Some (`"info:a")) None alg norm spec fd dd false None.
Definition ex_meta : vmeta := mk_vmeta None None (Some (`"m")) (Some (JStr (`"n"))) (Some (JStr (`"mailto:a@b.c"))).
Definition ex_sources : node :=
  Dir [(`"s1", Dir [(`"a", File (`"one")); (`"d", Dir [(`"b", File (`"two")); (`"c", File (`"one"))]); (`"e", Dir [])]);
       (`"s2", Dir [(`"a", File (`"one")); (`"d", Dir [(`"b", File (`"three"))])]); (`"s3", Dir [(`"b", File (`"two"))])].
Definition ex_c (alg : str) : object := ex_settings alg (`"1.1") None true true.
Definition ex_created : node := after (create toy_hash (ex_c (`"sha256")) ex_env (Some (`"s1")) (Some ex_meta) (Some (`"o"))) ex_sources.
Definition ex_update (alg sp : str) (abort : bool) : io (option inventory) :=
  add_version_with_content toy_hash (ex_c alg) ex_env (Some (`"o")) (Some sp) (Some ex_meta) abort.
Definition ex_updated : node := after (ex_update (`"sha256") (`"s2") false) ex_created.
(* the digest algorithm changes *)
Definition ex_updated3 : node := after (ex_update (`"sha512") (`"s3") true) ex_updated.

Definition ex_any : object -> Prop := fun c => exists alg, In alg [`"sha512"; `"sha256"] /\ c = ex_c alg.
Definition ex_files : list (list (place * bytes)) := map (fun s => files_in ex_sources [s]) [`"s1"; `"s2"; `"s3"].

Lemma ex_tree : tree ex_sources. Proof. apply tree_b_ok. vm_compute. reflexivity. Qed.
Lemma ex_create_call : create_call (ex_c (`"sha256")) ex_env ex_sources (`"s1") (`"o") (`"info:a") ex_meta [`"o"].
Proof. apply (create_b_ok (ex_c (`"sha256")) ex_env ex_sources (`"s1") (`"o") ex_meta (`"info:a") ex_tree eq_refl). vm_compute. reflexivity. Qed.
Lemma ex_history1 : history toy_hash [`"o"] (`"1.1") ex_any ex_created (firstn 1 ex_files).
Proof.
  apply (created toy_hash [`"o"] (`"1.1") ex_any (ex_c (`"sha256")) ex_env ex_sources (`"s1") (`"o") (`"info:a") ex_meta); try reflexivity.
  - exact ex_tree.
  - exact ex_create_call.
  - exists (`"sha256"). split; [right; now left|reflexivity].
  - discriminate.
  - apply files_b_ok; [exact ex_tree|vm_compute; reflexivity].
Qed.
Lemma ex_history_next alg w l sp abort : In alg [`"sha512"; `"sha256"] -> history toy_hash [`"o"] (`"1.1") ex_any w l -> tree_b w = true -> update_b (ex_c alg) ex_env w sp (`"o") ex_meta = true ->
  (match dest_of [] sp with [x] => negb (str_eqb x (`"o")) | _ => false end) = true -> (N.of_nat (List.length l) <? 99999)%N = true ->
  files_b w (dest_of [] sp) = true -> (match result (ex_update alg sp abort) w with Ok (Some _) => true | _ => false end) = true ->
  history toy_hash [`"o"] (`"1.1") ex_any (after (ex_update alg sp abort) w) (l ++ [files_in w (dest_of [] sp)]).
Proof.
  intros Ha Hi T U Hs Hn Hf R. apply tree_b_ok in T. destruct (result (ex_update alg sp abort) w) as [[i|]|] eqn:Er; try discriminate.
  pose proof (update_b_ok (ex_c alg) ex_env w sp (`"o") ex_meta T U) as Uc. change (dest_of (e_cwd ex_env) (`"o")) with [`"o"] in Uc.
  refine (added toy_hash [`"o"] (`"1.1") ex_any (ex_c alg) ex_env w l sp (`"o") ex_meta abort i (files_in w (dest_of [] sp)) Hi Uc _ Ha (or_introl eq_refl) (proj1 (N.ltb_lt _ _) Hn) _ (files_b_ok _ _ T Hf) Er); [exists alg; auto|].
  right. intros y E. change (e_cwd ex_env) with (@nil str) in E. destruct (dest_of [] sp) as [|x [|? ?]]; try discriminate. cbn in E. injection E as <- _. discriminate.
Qed.
Lemma ex_history2 : history toy_hash [`"o"] (`"1.1") ex_any ex_updated (firstn 2 ex_files).
Proof.
  assert (E : firstn 2 ex_files = firstn 1 ex_files ++ [files_in ex_created (dest_of [] (`"s2"))]) by (vm_compute; reflexivity). rewrite E.
  apply (ex_history_next (`"sha256") ex_created (firstn 1 ex_files) (`"s2") false); [right; now left|exact ex_history1|vm_compute; reflexivity..].
Qed.
Lemma ex_history3 : history toy_hash [`"o"] (`"1.1") ex_any ex_updated3 ex_files.
Proof.
  assert (E : ex_files = firstn 2 ex_files ++ [files_in ex_updated (dest_of [] (`"s3"))]) by (vm_compute; reflexivity). rewrite E at 1.
  apply (ex_history_next (`"sha512") ex_updated (firstn 2 ex_files) (`"s3") true); [now left|exact ex_history2|vm_compute; reflexivity..].
Qed.
Definition apart_b (alg : str) (l : list (list (place * bytes))) : bool :=
  let bs := map snd (concat l) in forallb (fun b => forallb (fun b' => negb (str_eqb (toy_hash alg b) (toy_hash alg b')) || str_eqb b b') bs) bs.
Lemma ex_collision_free : collision_free toy_hash ex_any ex_files.
Proof.
  assert (Q : forall alg, apart_b alg ex_files = true -> forall F F' r b r' b', In F ex_files -> In F' ex_files -> In (r, b) F -> In (r', b') F' -> toy_hash alg b = toy_hash alg b' -> b = b').
  { intros alg A F F' r b r' b' H1 H2 H3 H4 E. unfold apart_b in A. rewrite forallb_forall in A. assert (I : forall F r b, In F ex_files -> In (r, b) F -> In b (map snd (concat ex_files))).
    { intros F0 r0 b0 X Y. apply in_map_iff. exists (r0, b0). split; [auto|]. apply in_concat. eauto. }
    specialize (A b (I _ _ _ H1 H3)). rewrite forallb_forall in A. specialize (A b' (I _ _ _ H2 H4)). rewrite E, str_eqb_refl in A. cbn in A. now apply str_eqb_eq. }
  intros c F F' r b r' b' (alg & Ha & ->). cbn [ex_c ex_settings o_alg]. apply Q. destruct Ha as [<-|[<-|[]]]; vm_compute; reflexivity.
Qed.

(** * C34 *)

(** A call of create that is all right (create_call in ObjectSpec.v) gives an object that is
    valid, and changes nothing else. *)
Theorem C34_created_valid_partial : forall H c e w sp op id m h v,
  hash_ok H -> tree w -> create_call c e w sp op id m h -> vc_lax_digests v = false ->
  let x := create H c e (Some sp) (Some m) (Some op) in
  (exists i, result x w = Ok i) /\
  snd (validate_object H v (after x w) (e_cwd e) op 0) = Ok true /\
  (forall q, (forall y, q <> h ++ y) -> look (after x w) q = look w q).
Proof.
  intros H c e w sp op id m h v HH T Cc Hl x. pose proof Cc as [C1 C2 C3 C4 C5 C6 C7 C8 C9 [N1 N2 N3]].
  destruct (create_made H c e w sp op id m (dest_of (e_cwd e) sp) h HH C1 T C2 C3 C5 C6 C4 C7 eq_refl C8 C9 (cc_place _ _ _ _ _ _ _ _ Cc)) as (F & nv & i0 & K & Fa & _ & _ & _ & _ & _ & _ & _ & R & M & _ & Fr).
  split; [eauto|]. split; [|exact Fr]. exact (made_valid H _ h _ 1 _ _ _ _ v e op HH M N1 N2 Hl).
Qed.
Print Assumptions C34_created_valid_partial.
Example C34_created_valid_ex : snd (validate_object toy_hash (mkVconf true false (`"1.1") (fun _ => 0%N)) ex_created [] (`"o") 0) = Ok true.
Proof. apply (C34_created_valid_partial toy_hash (ex_c (`"sha256")) ex_env ex_sources (`"s1") (`"o") (`"info:a") ex_meta [`"o"]); [exact toy_hash_ok|exact ex_tree|exact ex_create_call|reflexivity]. Qed.

(** * C35 *)

(** Objects are valid, whatever the calls that made them. *)
Theorem C35_updated_valid_partial : forall H h sd P w l v cwd path,
  hash_ok H -> history H h sd P w l -> uniform P \/ collision_free H P l ->
  no_url path -> h = dest_of cwd path -> vc_lax_digests v = false ->
  snd (validate_object H v w cwd path 0) = Ok true.
Proof.
  intros H h sd P w l v cwd path HH Hi Hun Hu Eh Hl. destruct (history_tracked H h sd P w l HH Hi Hun) as (alg & spec & ivs & C & T).
  exact (made_valid H w h sd _ alg spec ivs C v (mk_env cwd [] (fun _ => 0%N)) path HH (tr_made _ _ _ _ _ _ _ _ _ _ T) Hu Eh Hl).
Qed.
Print Assumptions C35_updated_valid_partial.
Example C35_updated_valid_ex : snd (validate_object toy_hash (mkVconf true false (`"1.1") (fun _ => 0%N)) ex_updated3 [] (`"o") 0) = Ok true.
Proof.
  apply (C35_updated_valid_partial toy_hash [`"o"] (`"1.1") ex_any ex_updated3 ex_files); [exact toy_hash_ok|exact ex_history3|right; exact ex_collision_free|now apply no_url_b_ok|reflexivity..].
Qed.

(** An update that is all right does not fail, and the object is then one with another version. *)
Theorem C35_update_succeeds_partial : forall H h sd P w l c e sp path m abort F,
  hash_ok H -> history H h sd P w l -> uniform P \/ collision_free H P l ->
  update_call c e w sp path m h -> P c -> In (o_alg c) [`"sha512"; `"sha256"] ->
  sd = `"1.1" \/ List.length l = 1%nat -> (N.of_nat (List.length l) < 99999)%N ->
  uniform P \/ (forall y, h <> dest_of (e_cwd e) sp ++ y) ->
  files_at w (dest_of (e_cwd e) sp) F ->
  let x := add_version_with_content H c e (Some path) (Some sp) (Some m) abort in
  (exists i, result x w = Ok (Some i)) /\ history H h sd P (after x w) (l ++ [F]) \/
  result x w = Ok None /\ abort = true /\ after x w = w.
Proof.
  intros H h sd P w l c e sp path m abort F HH Hi Hun Uc Pc Ha Hsd Hn Hout Fa x. destruct (history_tracked H h sd P w l HH Hi Hun) as (alg & spec & ivs & C & T).
  destruct (update_step H h sd P c e w l alg spec ivs C sp path m abort F HH T Uc Pc Ha Hsd Hn Hout Fa Hun) as [(Q1 & _ & Q2 & Q3)|(_ & [i Q] & _)]; [right; auto|].
  left. split; [eauto|]. eapply added; eauto.
Qed.
Print Assumptions C35_update_succeeds_partial.

(** * C36 *)

(** A version is extracted exactly as it was added: there are the files of its source directory
    and nothing else, and nothing else changes. *)
Theorem C36_extracted_as_added_partial : forall H h sd P w l k F e path version d,
  hash_ok H -> history H h sd P w l -> collision_free H P l ->
  nth_error l k = Some F -> version = vn (S k) \/ version = `"head" /\ S k = List.length l ->
  Forall fname (e_cwd e) -> look w (e_cwd e) = Some EDir -> no_url path -> h = dest_of (e_cwd e) path ->
  dest_free w (dest_of (e_cwd e) d) ->
  let x := extract e (Some path) version d in
  (exists m, result x w = Ok m) /\
  holds (after x w) (dest_of (e_cwd e) d) F /\
  (forall q, (forall y, q <> dest_of (e_cwd e) d ++ y) -> look (after x w) q = look w q).
Proof.
  intros H h sd P w l k F e path version d HH Hi CF E Hv Fc Hc Hu Eh Df x. destruct (history_tracked H h sd P w l HH Hi (or_intror CF)) as (alg & spec & ivs & C & T).
  assert (Hk : (1 <= S k <= List.length l)%nat) by (assert (k < List.length l)%nat by (apply nth_error_Some; congruence); lia).
  destruct (extract_made H e w path h sd (List.length l) alg spec ivs C (S k) version d (tr_made _ _ _ _ _ _ _ _ _ _ T) Hk Hv Fc Hc Hu Eh Df) as (L & m & b0 & R & Ho & Fr & _ & L1 & L2 & _).
  split; [eauto|]. split; [|exact Fr]. apply (holds_ext _ _ L); [exact Ho|]. exact (extracted_files H h sd P w l alg spec ivs C k F L T CF E L1 L2).
Qed.
Print Assumptions C36_extracted_as_added_partial.
Example C36_extracted_as_added_ex :
  let x := extract ex_env (Some (`"o")) (`"v1") (`"new") in
  holds (after x ex_updated3) [`"new"] [([`"a"], `"one"); ([`"d"; `"b"], `"two"); ([`"d"; `"c"], `"one")].
Proof.
  apply (C36_extracted_as_added_partial toy_hash [`"o"] (`"1.1") ex_any ex_updated3 ex_files 0 _ ex_env (`"o") (`"v1") (`"new"));
    [exact toy_hash_ok|exact ex_history3|exact ex_collision_free|reflexivity|now left|constructor|reflexivity|now apply no_url_b_ok|reflexivity|].
  left. split; vm_compute; reflexivity.
Qed.

(** * C39 *)

(** With dedupe and forward delta on, all files of content in the object have different digests. *)
Theorem C39_stored_once_partial : forall H h sd P w l i s,
  hash_ok H -> history H h sd P w l -> uniform P \/ collision_free H P l ->
  (forall c, P c -> o_dedupe c = true /\ o_forward_delta c = true) ->
  parse_inventory w h = Ok (i, s) ->
  (forall d p p', stored i d p -> stored i d p' -> p = p') /\
  exists a, i_alg i = Some a /\
    forall k r b k' r' b', let cd := content_directory_to_use i in
      look w (h ++ vn k :: cd :: r) = Some (EFile b) -> look w (h ++ vn k' :: cd :: r') = Some (EFile b') -> H a b = H a b' ->
      vn k :: r = vn k' :: r'.
Proof.
  intros H h sd P w l i s HH Hi Hun Hp E. destruct (history_tracked H h sd P w l HH Hi Hun) as (alg & spec & ivs & C & T). pose proof (tr_made _ _ _ _ _ _ _ _ _ _ T) as M.
  rewrite (made_parse _ _ _ _ _ _ _ _ _ M) in E. apply Ok_inv in E. injection E as <- <-. pose proof (md_head _ _ _ _ _ _ _ _ _ M) as So.
  split. { intros d p p' H1 H2. apply (tr_once _ _ _ _ _ _ _ _ _ _ T Hp d); now apply stored_sorted. }
  exists (alg (List.length l)). split; [exact (so_alg _ _ _ _ (sound_sorted _ _ _ _ So))|]. intros k r b k' r' b' cd L1 L2 Eb.
  change cd with (content_directory_to_use (ivs (List.length l))) in L1, L2.
  apply (made_content _ _ _ _ _ _ _ _ _ M) in L1, L2.
  destruct (content_stored _ _ _ _ _ _ _ _ _ M _ b (fun b0 H0 => content_unique _ _ _ _ _ _ _ _ _ _ _ _ _ T H0 L1) L1) as (d & S1 & D1).
  destruct (content_stored _ _ _ _ _ _ _ _ _ M _ b' (fun b0 H0 => content_unique _ _ _ _ _ _ _ _ _ _ _ _ _ T H0 L2) L2) as (d' & S2 & D2).
  assert (Ed : d' = d) by congruence. rewrite Ed in S2. pose proof (tr_once _ _ _ _ _ _ _ _ _ _ T Hp d _ _ S1 S2) as Ej.
  destruct (md_content_names _ _ _ _ _ _ _ _ _ _ b M L1) as [G1 G1']. destruct (md_content_names _ _ _ _ _ _ _ _ _ _ b' M L2) as [G2 G2']. apply names_join_inj in Ej; auto.
  pose proof (f_equal (hd []) Ej) as E1. pose proof (f_equal (fun q => tl (tl q)) Ej) as E2. cbn [hd tl] in E1, E2. congruence.
Qed.
Print Assumptions C39_stored_once_partial.
Example C39_stored_once_ex : exists i s, parse_inventory ex_updated3 [`"o"] = Ok (i, s) /\ (forall c, ex_any c -> o_dedupe c = true /\ o_forward_delta c = true).
Proof. eexists _, _. split; [vm_compute; reflexivity|]. intros c (alg & _ & ->). split; reflexivity. Qed.

(** With dedupe on and forward delta off, this holds within each version. *)
Theorem C39_once_per_version_partial : forall H h sd P w l i s,
  hash_ok H -> history H h sd P w l -> uniform P \/ collision_free H P l ->
  (forall c, P c -> o_dedupe c = true) -> parse_inventory w h = Ok (i, s) ->
  exists a, i_alg i = Some a /\
    forall k r b r' b', let cd := content_directory_to_use i in
      look w (h ++ vn k :: cd :: r) = Some (EFile b) -> look w (h ++ vn k :: cd :: r') = Some (EFile b') -> H a b = H a b' -> r = r'.
Proof.
  intros H h sd P w l i s HH Hi Hun Hp E. destruct (history_tracked H h sd P w l HH Hi Hun) as (alg & spec & ivs & C & T). pose proof (tr_made _ _ _ _ _ _ _ _ _ _ T) as M.
  rewrite (made_parse _ _ _ _ _ _ _ _ _ M) in E. apply Ok_inv in E. injection E as <- <-. pose proof (md_head _ _ _ _ _ _ _ _ _ M) as So.
  exists (alg (List.length l)). split; [exact (so_alg _ _ _ _ (sound_sorted _ _ _ _ So))|]. intros k r b r' b' cd L1 L2 Eb.
  change cd with (content_directory_to_use (ivs (List.length l))) in L1, L2.
  apply (made_content _ _ _ _ _ _ _ _ _ M) in L1, L2.
  destruct (content_stored _ _ _ _ _ _ _ _ _ M _ b (fun b0 H0 => content_unique _ _ _ _ _ _ _ _ _ _ _ _ _ T H0 L1) L1) as (d & S1 & D1).
  destruct (content_stored _ _ _ _ _ _ _ _ _ M _ b' (fun b0 H0 => content_unique _ _ _ _ _ _ _ _ _ _ _ _ _ T H0 L2) L2) as (d' & S2 & D2).
  assert (Ed : d' = d) by congruence. rewrite Ed in S2.
  destruct (md_content_names _ _ _ _ _ _ _ _ _ _ b M L1) as [G1 G1']. destruct (md_content_names _ _ _ _ _ _ _ _ _ _ b' M L2) as [G2 G2'].
  pose proof (tr_per_version _ _ _ _ _ _ _ _ _ _ T Hp d _ _ _ S1 S2 G1' G2') as Ej. apply (f_equal (@tl str)) in Ej. exact Ej.
Qed.
Print Assumptions C39_once_per_version_partial.

(** * C41 *)

(** The root sidecar is named after the digest algorithm of the inventory, has its digest, and
    is the only one. *)
Theorem C41_sidecar_partial : forall H h sd P w l,
  hash_ok H -> history H h sd P w l -> uniform P \/ collision_free H P l ->
  exists b i s a, look w (h ++ [inv_name]) = Some (EFile b) /\ parse_inventory w h = Ok (i, s) /\ i_alg i = Some a /\
    look w (h ++ [side_name a]) = Some (EFile (sidecar_text H a b)) /\
    forall a' e, look w (h ++ [side_name a']) = Some e -> a' = a.
Proof.
  intros H h sd P w l HH Hi Hun. destruct (history_tracked H h sd P w l HH Hi Hun) as (alg & spec & ivs & C & T). pose proof (tr_made _ _ _ _ _ _ _ _ _ _ T) as M.
  eexists _, _, _, _. split; [exact (files_there _ _ _ _ _ _ _ _ _ M _ _ (IO_inv _ _ _ _ _ _))|]. split; [exact (made_parse _ _ _ _ _ _ _ _ _ M)|].
  split; [exact (so_alg _ _ _ _ (sound_sorted _ _ _ _ (md_head _ _ _ _ _ _ _ _ _ M)))|]. split; [exact (files_there _ _ _ _ _ _ _ _ _ M _ _ (IO_side _ _ _ _ _ _))|].
  exact (made_one_sidecar _ _ _ _ _ _ _ _ _ M).
Qed.
Print Assumptions C41_sidecar_partial.

(** * C45 *)

(** No version is added exactly if this was asked for and the source directory has the paths
    and digests of the last version; then nothing changes. *)
Theorem C45_no_difference_partial : forall H h sd P w l c e sp path m abort F,
  hash_ok H -> history H h sd P w l -> uniform P \/ collision_free H P l ->
  update_call c e w sp path m h -> P c -> In (o_alg c) [`"sha512"; `"sha256"] ->
  sd = `"1.1" \/ List.length l = 1%nat -> (N.of_nat (List.length l) < 99999)%N ->
  uniform P \/ (forall y, h <> dest_of (e_cwd e) sp ++ y) ->
  files_at w (dest_of (e_cwd e) sp) F ->
  let x := add_version_with_content H c e (Some path) (Some sp) (Some m) abort in
  (result x w = Ok None <-> abort = true /\ same_listing H (o_alg c) F (last l [])) /\
  (result x w = Ok None -> after x w = w).
Proof.
  intros H h sd P w l c e sp path m abort F HH Hi Hun Uc Pc Ha Hsd Hn Hout Fa x. destruct (history_tracked H h sd P w l HH Hi Hun) as (alg & spec & ivs & C & T).
  destruct (update_step H h sd P c e w l alg spec ivs C sp path m abort F HH T Uc Pc Ha Hsd Hn Hout Fa Hun) as [(Q1 & Q2 & Q3 & Q4)|(Q1 & [i Q] & _)].
  - fold x in Q3, Q4. split; [split; auto|auto].
  - fold x in Q. split; [split; [congruence|intros X; now apply Q1 in X]|congruence].
Qed.
Print Assumptions C45_no_difference_partial.
Example C45_no_difference_ex : result (ex_update (`"sha512") (`"s3") true) ex_updated3 = Ok None /\ same_listing toy_hash (`"sha512") (files_in ex_updated3 [`"s3"]) (last ex_files []).
Proof. split; [vm_compute; reflexivity|]. intros es d. reflexivity. Qed.

(** * C46 *)

(** The inventories of the versions have specification versions that never decrease. *)
Theorem C46_never_decreases_partial : forall H h sd P w l,
  hash_ok H -> history H h sd P w l -> uniform P \/ collision_free H P l ->
  forall k k', (1 <= k)%nat -> (k <= k')%nat -> (k' <= List.length l)%nat ->
  exists i s i' s', parse_inventory w (h ++ [vn k]) = Ok (i, s) /\ parse_inventory w (h ++ [vn k']) = Ok (i', s') /\ no_later s s'.
Proof.
  intros H h sd P w l HH Hi Hun k k' K1 K2 K3. destruct (history_tracked H h sd P w l HH Hi Hun) as (alg & spec & ivs & C & T). pose proof (tr_made _ _ _ _ _ _ _ _ _ _ T) as M.
  eexists _, _, _, _. split; [apply (made_parse_version _ _ _ _ _ _ _ _ _ M); lia|]. split; [apply (made_parse_version _ _ _ _ _ _ _ _ _ M); lia|]. now apply (md_specs _ _ _ _ _ _ _ _ _ M).
Qed.
Print Assumptions C46_never_decreases_partial.

(** The object has one declaration; the inventory has its version if that is 1.1 or there is
    one version only. *)
Theorem C46_declared_partial : forall H h sd P w l,
  hash_ok H -> history H h sd P w l -> uniform P \/ collision_free H P l -> sd = `"1.1" \/ List.length l = 1%nat ->
  exists i, parse_inventory w h = Ok (i, sd) /\ look w (h ++ [decl_name sd]) = Some (EFile (decl_text sd)) /\
    forall s e, look w (h ++ [decl_name s]) = Some e -> s = sd.
Proof.
  intros H h sd P w l HH Hi Hun Hsd. destruct (history_tracked H h sd P w l HH Hi Hun) as (alg & spec & ivs & C & T). pose proof (tr_made _ _ _ _ _ _ _ _ _ _ T) as M.
  assert (Es : spec (List.length l) = sd).
  { pose proof (tracked_some _ _ _ _ _ _ _ _ _ _ T) as Hn. destruct (Nat.eq_dec (List.length l) 1) as [E|E]; [rewrite E; exact (tr_first _ _ _ _ _ _ _ _ _ _ T)|].
    destruct Hsd as [->|?]; [|lia]. apply (tr_later _ _ _ _ _ _ _ _ _ _ T). lia. }
  eexists. split; [rewrite (made_parse _ _ _ _ _ _ _ _ _ M), Es; reflexivity|]. split; [exact (files_there _ _ _ _ _ _ _ _ _ M _ _ (IO_decl _ _ _ _ _ _))|].
  exact (made_one_decl _ _ _ _ _ _ _ _ _ M).
Qed.
Print Assumptions C46_declared_partial.
