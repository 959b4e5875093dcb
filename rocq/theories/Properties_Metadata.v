(** C76: the metadata of each version. *)
From Coq Require Import Permutation Sorted.
From Verif Require Import Properties_Names Properties_InventoryValidator.
From Verif Require Import Base Unicode Regex Utf8 Json PyJson JsonTextModel JsonTextSpec JsonTextProofs JsonFileProofs Log DigestModel LayoutModel LayoutProofs
  ObjectUtilsModel ObjectUtilsProofs InventorySpec InventoryValidatorModel InventoryValidatorProofs InventoryRulesProofs
  InventoryModel InventoryOpsSpec InventoryOpsProofs NewVersionModel NewVersionProofs NewVersionOpsProofs VersionNumberProofs InventoryParseProofs ParseModel
  ContentPathProofs TextFile PathModel FsModel FsSpec FsProofs FswModel FswSpec FswProofs FswCopyProofs ValidatorSpec ValidatorBasicProofs ObjectModel ObjectSpec ObjectInvProofs ObjectRulesProofs
  ObjectParseProofs ObjectAddProofs ContentNameProofs ObjectGrowProofs ObjectStartProofs ObjectCopyProofs ObjectWriteProofs ObjectSourceProofs ObjectFactsProofs NamasteSpec ValidatorVersionProofs ObjectMadeProofs ObjectIntactProofs ObjectExtendProofs FsStepProofs NamasteModel NamasteProofs ObjectStoreProofs ObjectCreateProofs ValidatorModel ValidatorIntactProofs ObjectUpdateProofs ObjectNextProofs ObjectDigestProofs ObjectVersionProofs ObjectExtractProofs ObjectHistoryProofs ObjectTrackProofs ObjectExamples UpdateSpec ParseProofs OpenProofs ChangeProofs FrameProofs UpdateProofs ExtractSpec ExtractProofs.

From Verif Require Import Properties_Inventory Properties_Layout Properties_Object MetaSpec BuildProofs MetaProofs.
From Verif Require Properties_Validator.

Lemma described_history H h sd P id w l ms : described H h sd P id w l ms -> history H h sd P w l.
Proof.
  induction 1 as [h sd P id c e w sp op m F T Cc Pc Es Cd Fa|h sd P id c e w sp op ms n l T Bc Pc Es Cd Fa|h sd P id c e w l ms sp path m abort i F Hi IH Uc Pc Ha Hs Hn Hun Fa R|h sd P id h0 w w' l ms Hi IH T E].
  - eapply ObjectSpec.created; eauto.
  - eapply ObjectSpec.built; eauto.
  - eapply ObjectSpec.added; eauto.
  - eapply ObjectSpec.elsewhere; eauto.
Qed.

(** What the inventory says of all versions *)
Definition told (i : inventory) (id : str) (ms : list vmeta) : Prop := i_id i = Some id /\ forall k m, nth_error ms k = Some m -> says i (vn (S k)) = Some m.

Lemma described_told H h sd P id w l ms : hash_ok H -> described H h sd P id w l ms -> uniform P \/ collision_free H P l ->
  exists alg spec ivs C, tracked H h sd P w l alg spec ivs C /\ told (ivs (List.length l)) id ms /\ List.length ms = List.length l.
Proof.
  intros HH Hi. induction Hi as [h sd P id c e w sp op m F T Cc Pc Es Cd Fa|h sd P id c e w sp op ms n l T Bc Pc Es Cd Fa|h sd P id c e w l ms sp path m abort i F Hi IH Uc Pc Ha Hs Hn Hout Fa R|h sd P id h0 w w' l ms Hi IH T E]; intros Hun.
  - destruct Cc as [C1 C2 C3 C4 C5 C6 C7 C8 C9 C10].
    destruct (create_made H c e w sp op id m (dest_of (e_cwd e) sp) h HH C1 T C2 C3 C5 C6 C4 C7 eq_refl C8 C9 C10) as (F' & nv & i0 & K & Fa' & G & Kc & N1 & N2 & _ & Ec & Fu & R & M & Keep).
    exists (fun _ => o_alg c), (fun _ => o_spec c), (fun _ => nv_inv nv), (map snd K). pose proof (files_unique _ _ _ _ Fa' Fa) as EF.
    split; [eapply track_first; eauto; [apply Fa|]; intros r b Hb; apply EF in Hb; exact (files_names w _ F' T (sk_dir _ _ _ C8) Fa' r b Hb)|]. split; [|reflexivity].
    destruct (create_says _ _ _ _ _ _ _ _ _ C2 R) as [S1 S2]. split; [exact S1|]. intros [|[|k]] m' E; try discriminate E. cbn [nth_error] in E. injection E as <-. exact S2.
  - destruct (build_made_inv H h sd P c e w sp op id ms n HH T Bc Pc Es Cd l Fa) as ((i & alg & spec & ivs & C & R & Tr & Ei & w1 & R1) & _).
    assert (Ln : List.length l = n) by (apply F2_length in Fa; rewrite seq_length in Fa; auto).
    pose proof (bc_range _ _ _ _ _ _ _ _ _ Bc) as Hr.
    destruct (build_versions_says H c e id sp ms (Some h) n 0 None w1 (Some i)) as (i' & E & I1 & _ & _ & I4); auto; try (intros; discriminate); try (split; reflexivity); try lia.
    injection E as <-. exists alg, spec, ivs, C. split; [exact Tr|]. split; [|rewrite map_length, seq_length; symmetry; exact Ln]. subst i. split; [exact I1|]. intros k m Hm.
    rewrite nth_error_map in Hm. destruct (nth_error (seq 1 n) k) as [j|] eqn:Ej; [|discriminate]. cbn [option_map] in Hm. injection Hm as <-.
    assert (Hk : (k < n)%nat) by (rewrite <- (seq_length n 1); apply nth_error_Some; congruence). rewrite (nth_error_nth' _ 0%nat) in Ej by now rewrite seq_length. injection Ej as <-. rewrite seq_nth by exact Hk. apply I4. lia.
  - assert (Hun' : uniform P \/ collision_free H P l) by (destruct Hun as [|Hun]; [auto|right; eapply collision_free_app; eauto]).
    destruct (IH Hun') as (alg & spec & ivs & C & Tr & (T1 & T2) & Ln).
    destruct (update_step_inv H h sd P c e w l alg spec ivs C sp path m abort F HH Tr Uc Pc Ha Hs Hn Hout Fa Hun') as [(_ & _ & R' & _)|(_ & i' & alg' & spec' & ivs' & C' & R' & Tr' & Ei)]; [congruence|].
    rewrite R in R'. apply Ok_inv in R'. injection R' as <-. exists alg', spec', ivs', C'. split; [exact Tr'|]. rewrite !app_length. cbn [List.length]. split; [|lia].
    rewrite Nat.add_1_r, Ei. pose proof (tr_made _ _ _ _ _ _ _ _ _ _ Tr) as M. pose proof (tr_made _ _ _ _ _ _ _ _ _ _ Tr') as M'.
    destruct (update_says _ _ _ _ _ _ _ _ _ R) as (h1 & Ro & X). destruct Uc as [U1 U2 U3 [U4 U5] U6 U7].
    destruct (open_there (e_cwd e) path w U5) as [O1 O2]; [fold (dest_of (e_cwd e) path); rewrite <- U7; exact (hl_dir _ _ _ (md_holds _ _ _ _ _ _ _ _ _ M))|].
    fold (dest_of (e_cwd e) path) in O1. rewrite <- U7 in O1. destruct (open_obj_catch e path false w) as (Oa & Or & _). rewrite O2 in Oa. apply Or in O1. assert (h1 = h) by congruence. subst h1.
    destruct (X w (eq_sym Oa)) as (p & s & v & Ep & Ip & Ih & Iv & Iu). rewrite (made_parse _ _ _ _ _ _ _ _ _ M) in Ep. apply Ok_inv in Ep. apply pair_equal_spec in Ep as [<- _].
    pose proof (md_head _ _ _ _ _ _ _ _ _ M) as So. pose proof (md_head _ _ _ _ _ _ _ _ _ M') as So'. rewrite app_length in So'. cbn [List.length] in So'. rewrite Nat.add_1_r, Ei in So'.
    rewrite (so_head _ _ _ _ So') in Ih. injection Ih as <-. change (i_id (sort_inv ?j)) with (i_id j) in Ip, Iv. rewrite T1 in Ip, Iv. split; [exact Ip|].
    intros k m' Hm. destruct (Nat.lt_ge_cases k (List.length ms)) as [Lt|Ge].
    + rewrite nth_error_app1 in Hm by exact Lt. assert (Ne : vn (S k) <> vn (S (List.length l))) by (intros E; unfold vn in E; apply version_fmt_inj in E; lia).
      rewrite Iu by exact Ne. rewrite (says_sorted _ _ _ _ _ So). now apply T2.
    + rewrite nth_error_app2 in Hm by exact Ge. destruct (k - List.length ms)%nat as [|[|j]] eqn:Ek; try discriminate Hm. cbn [nth_error] in Hm. injection Hm as <-. assert (k = List.length l) by lia. subst k. exact Iv.
  - destruct (IH Hun) as (alg & spec & ivs & C & Tr & X). exists alg, spec, ivs, C. split; [|exact X]. destruct Tr. constructor; auto. eapply made_elsewhere; eauto.
Qed.

(** * C76 *)

(** A version extracted from an object comes with what was given when the version was made: its
    message, the name and the address of its author, the time that was given -- or else the
    current time -- and the identifier of the object. Neither the versions added since, nor
    writing the inventory and reading it again, nor another digest algorithm, change that. *)
Theorem C76_extracted_metadata : forall H h sd P id w l ms k m e path version d,
  hash_ok H -> described H h sd P id w l ms -> uniform P \/ collision_free H P l ->
  nth_error ms k = Some m -> version = vn (S k) \/ version = `"head" /\ S k = List.length ms ->
  Forall fname (e_cwd e) -> look w (e_cwd e) = Some EDir -> no_url path -> h = dest_of (e_cwd e) path ->
  dest_free w (dest_of (e_cwd e) d) ->
  result (extract e (Some path) version d) w = Ok m.
Proof.
  intros H h sd P id w l ms k m e path version d HH Hi Hun E Hv Fc Hc Hu Eh Df. destruct (described_told _ _ _ _ _ _ _ _ HH Hi Hun) as (alg & spec & ivs & C & T & (T1 & T2) & Ln).
  assert (Hk : (1 <= S k <= List.length l)%nat) by (assert (k < List.length ms)%nat by (apply nth_error_Some; congruence); lia).
  assert (Hv' : version = vn (S k) \/ version = `"head" /\ S k = List.length l) by (destruct Hv as [|[? ?]]; [auto|right; split; [auto|lia]]).
  pose proof (tr_made _ _ _ _ _ _ _ _ _ _ T) as M.
  destruct (extract_made H e w path h sd (List.length l) alg spec ivs C (S k) version d M Hk Hv' Fc Hc Hu Eh Df) as (L & m' & b0 & R & _ & _ & _ & _ & _ & _ & Eb & Em).
  rewrite R. f_equal. specialize (T2 k m E). rewrite <- (says_sorted _ _ _ _ _ (md_head _ _ _ _ _ _ _ _ _ M)) in T2. unfold says in T2. rewrite Eb in T2. cbn [option_map] in T2. injection T2 as <-. exact Em.
Qed.
Print Assumptions C76_extracted_metadata.

(** The same for a single file. *)
Theorem C76_file_metadata : forall H h sd P id w l ms k m e path version d p r,
  hash_ok H -> described H h sd P id w l ms -> uniform P \/ collision_free H P l ->
  nth_error ms k = Some m -> version = vn (S k) \/ version = `"head" /\ S k = List.length ms ->
  no_url path -> h = dest_of (e_cwd e) path ->
  result (extract_file e (Some path) version d p) w = Ok r -> r = m.
Proof.
  intros H h sd P id w l ms k m e path version d p r HH Hi Hun E Hv Hu Eh R. destruct (described_told _ _ _ _ _ _ _ _ HH Hi Hun) as (alg & spec & ivs & C & T & (T1 & T2) & Ln).
  assert (Hk : (1 <= S k <= List.length l)%nat) by (assert (k < List.length ms)%nat by (apply nth_error_Some; congruence); lia). pose proof (tr_made _ _ _ _ _ _ _ _ _ _ T) as M.
  destruct (open_there (e_cwd e) path w Hu) as [O1 O2]; [fold (dest_of (e_cwd e) path); rewrite <- Eh; exact (hl_dir _ _ _ (md_holds _ _ _ _ _ _ _ _ _ M))|].
  fold (dest_of (e_cwd e) path) in O1. rewrite <- Eh in O1. destruct (open_obj_catch e path false w) as (Oa & Or & _). rewrite O2 in Oa. apply Or in O1.
  unfold extract_file in R. apply bind_inv in R as (h1 & Ro & R). rewrite Oa in R. assert (h1 = h) by congruence. subst h1. rewrite result_read in R.
  assert (Es : extract_setup w h version = Ok (sort_inv (ivs (List.length l)), vn (S k))).
  { destruct Hv as [->|[-> Hv]]; [now apply (md_version _ _ _ _ _ _ _ _ _ _ M)|]. rewrite (md_head_version _ _ _ _ _ _ _ _ _ M). do 3 f_equal. lia. }
  rewrite Es in R. cbv beta iota in R. apply bind_inv in R as (dst & _ & R). rewrite result_read in R. match type of R with match ?x with _ => _ end = _ => destruct x as [f|] end; [|discriminate]. apply bind_inv in R as (u & _ & R).
  change (from_inventory empty_vmeta (sort_inv (ivs (List.length l))) (Some (vn (S k))) = Ok r) in R. rewrite from_says, (says_sorted _ _ _ _ _ (md_head _ _ _ _ _ _ _ _ _ M)), (T2 k m E) in R. apply Ok_inv in R. auto.
Qed.
Print Assumptions C76_file_metadata.

(** The object of the examples, made with a message and an author, but no time, then given a second
    version with another message, a time and no author, and another digest algorithm. *)
Definition ex_meta2 : vmeta := mk_vmeta None (Some (`"2021-02-03T04:05:06Z")) (Some (`"second")) None None.
Definition ex_second := add_version_with_content toy_hash (ex_c (`"sha512")) ex_env (Some (`"o")) (Some (`"s2")) (Some ex_meta2) false.
Definition ex_two : node := after ex_second ex_created.
Lemma ex_described : described toy_hash [`"o"] (`"1.1") ex_any (`"info:a") ex_two (firstn 1 ex_files ++ [files_in ex_created [`"s2"]])
  ([recorded (e_now ex_env) (Some (`"info:a")) ex_meta] ++ [recorded (e_now ex_env) (Some (`"info:a")) ex_meta2]).
Proof.
  assert (T : tree ex_created) by (apply tree_b_ok; vm_compute; reflexivity).
  assert (D : described toy_hash [`"o"] (`"1.1") ex_any (`"info:a") ex_created (firstn 1 ex_files) [recorded (e_now ex_env) (Some (`"info:a")) ex_meta]).
  { apply (d_created toy_hash [`"o"] (`"1.1") ex_any (`"info:a") (ex_c (`"sha256")) ex_env ex_sources (`"s1") (`"o") ex_meta); try reflexivity.
    - exact ex_tree.
    - exact ex_create_call.
    - exists (`"sha256"). split; [right; left; reflexivity|reflexivity].
    - discriminate.
    - apply files_b_ok; [exact ex_tree|vm_compute; reflexivity]. }
  assert (U : update_b (ex_c (`"sha512")) ex_env ex_created (`"s2") (`"o") ex_meta2 = true) by (vm_compute; reflexivity).
  pose proof (update_b_ok (ex_c (`"sha512")) ex_env ex_created (`"s2") (`"o") ex_meta2 T U) as Uc. change (dest_of (e_cwd ex_env) (`"o")) with [`"o"] in Uc.
  assert (R : exists i, result ex_second ex_created = Ok (Some i)) by (eexists; vm_compute; reflexivity). destruct R as [i R].
  refine (d_added toy_hash [`"o"] (`"1.1") ex_any (`"info:a") (ex_c (`"sha512")) ex_env ex_created (firstn 1 ex_files) _ (`"s2") (`"o") ex_meta2 false i (files_in ex_created [`"s2"]) D Uc _ _ _ _ _ _ R).
  - exists (`"sha512"). split; [left; reflexivity|reflexivity].
  - left. reflexivity.
  - left. reflexivity.
  - vm_compute. reflexivity.
  - right. intros y E. change (dest_of (e_cwd ex_env) (`"s2")) with [`"s2"] in E. discriminate.
  - apply files_b_ok; [exact T|vm_compute; reflexivity].
Qed.
Example C76_extracted_metadata_ex :
  result (extract ex_env (Some (`"o")) (`"v1") (`"new")) ex_two = Ok (mk_vmeta (Some (`"info:a")) (Some (e_now ex_env)) (vm_message ex_meta) (vm_name ex_meta) (vm_address ex_meta)) /\
  result (extract ex_env (Some (`"o")) (`"head") (`"new")) ex_two = Ok (mk_vmeta (Some (`"info:a")) (Some (`"2021-02-03T04:05:06Z")) (Some (`"second")) None None).
Proof.
  assert (CF : collision_free toy_hash ex_any (firstn 1 ex_files ++ [files_in ex_created [`"s2"]])).
  { assert (E : firstn 1 ex_files ++ [files_in ex_created [`"s2"]] = firstn 2 ex_files) by (vm_compute; reflexivity). rewrite E. apply (collision_free_app _ _ _ (skipn 2 ex_files)). rewrite firstn_skipn. exact ex_collision_free. }
  assert (Df : dest_free ex_two (dest_of (e_cwd ex_env) (`"new"))) by (left; split; vm_compute; reflexivity).
  assert (Fc : Forall fname (e_cwd ex_env)) by constructor. assert (Hc : look ex_two (e_cwd ex_env) = Some EDir) by (vm_compute; reflexivity). assert (Hu : no_url (`"o")) by (apply no_url_b_ok; reflexivity).
  split.
  - refine (eq_trans (C76_extracted_metadata _ _ _ _ _ _ _ _ 0 (recorded (e_now ex_env) (Some (`"info:a")) ex_meta) ex_env (`"o") (`"v1") (`"new") toy_hash_ok ex_described (or_intror CF) eq_refl (or_introl eq_refl) Fc Hc Hu eq_refl Df) _). vm_compute. reflexivity.
  - refine (eq_trans (C76_extracted_metadata _ _ _ _ _ _ _ _ 1 (recorded (e_now ex_env) (Some (`"info:a")) ex_meta2) ex_env (`"o") (`"head") (`"new") toy_hash_ok ex_described (or_intror CF) eq_refl (or_intror (conj eq_refl eq_refl)) Fc Hc Hu eq_refl Df) _). vm_compute. reflexivity.
Qed.
Example C76_file_metadata_ex : exists r, result (extract_file ex_env (Some (`"o")) (`"v1") (`"new") (`"a")) ex_two = Ok r.
Proof. eexists. vm_compute. reflexivity. Qed.
