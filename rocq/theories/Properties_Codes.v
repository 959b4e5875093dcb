(** C79: the codes that validation logs and their texts. *)
From Verif Require Import Base Unicode Json PyJson Log LogProofs FsModel FswModel NamasteModel DigestModel InventoryValidatorModel ValidatorModel.
From Verif Require LoggerModel ValidationCodes Properties_Logger.
Open Scope N_scope.

(** ** The texts *)

(** The number of %s in a text that has no other conversion than %s and %%. *)
Fixpoint places (s : str) : option nat :=
  match s with
  | [] => Some 0%nat
  | c :: r =>
      if c =? 37 then
        match r with
        | d :: r' => if d =? 115 then option_map S (places r') else if d =? 37 then places r' else None
        | [] => None
        end
      else places r
  end.
Definition text_ok (odd : bool) (v : LoggerModel.vcode) : bool :=
  match LoggerModel.vc_description v with
  | Some desc =>
      match dget (`"en") desc with
      | Some d => match places d with
                  | Some n => Nat.eqb n (match LoggerModel.vc_params v with Some l => List.length l | None => 0 end) || odd
                  | None => false
                  end
      | None => false
      end && Nat.eqb (List.length desc) 1
  | None => false
  end.
Lemma data_ok : forallb (fun kv => text_ok (str_eqb (fst kv) (`"E070b")) (snd kv)) ValidationCodes.validation_data = true.
Proof. vm_compute. reflexivity. Qed.

Lemma places_strong n : forall s, (List.length s <= n)%nat ->
  (forall k, places s = Some k -> Properties_Logger.plain_format s) /\
  (forall k args, places s = Some k -> List.length args = k -> exists t, LoggerModel.percent_format s args = Ok t).
Proof.
  induction n as [|n IH]; intros s Hs.
  - destruct s; [|cbn in Hs; lia]. split; [intros; constructor|]. intros k args [= <-] E. destruct args; [|discriminate]. eexists; reflexivity.
  - destruct s as [|c r]; [split; [intros; constructor|]; intros k args [= <-] E; destruct args; [|discriminate]; eexists; reflexivity|].
    cbn [List.length] in Hs. cbn [places LoggerModel.percent_format]. destruct (N.eqb_spec c 37) as [->|Hc].
    + destruct r as [|d r']; [split; intros; discriminate|]. cbn [List.length] in Hs. destruct (IH r' ltac:(lia)) as [I1 I2].
      destruct (N.eqb_spec d 115) as [->|Hd].
      * split.
        -- intros k H. destruct (places r') as [m|] eqn:E; [|discriminate]. apply Properties_Logger.pf_s. now apply (I1 m).
        -- intros k args H L. destruct (places r') as [m|] eqn:E; [|discriminate]. injection H as <-. destruct args as [|a args]; [discriminate|].
           injection L as L. destruct (I2 m args eq_refl L) as [t ->]. eexists; reflexivity.
      * destruct (N.eqb_spec d 37) as [->|Hd']; [|split; intros; discriminate]. split.
        -- intros k H. apply Properties_Logger.pf_pct. now apply (I1 k).
        -- intros k args H L. destruct (I2 k args H L) as [t ->]. eexists; reflexivity.
    + destruct (IH r ltac:(lia)) as [I1 I2]. split.
      * intros k H. apply Properties_Logger.pf_chr; [exact Hc|now apply (I1 k)].
      * intros k args H L. destruct (I2 k args H L) as [t ->]. eexists; reflexivity.
Qed.

(** The texts are as C33_log asks. Every text but that of E070b can be filled in with its
    parameters: a message is never the fallback text with a dump of the arguments. *)
Theorem C79_texts :
  Properties_Logger.plain_data ValidationCodes.validation_data /\
  forall g code v args text e, LoggerModel.lg_data g = ValidationCodes.validation_data ->
    dget code ValidationCodes.validation_data = Some v -> code <> `"E070b" ->
    exists d t, dget (`"en") match LoggerModel.vc_description v with Some x => x | None => [] end = Some d /\
      LoggerModel.message g code e args text = Ok (`"[" ++ code ++ `"] " ++ t) /\
      match LoggerModel.vc_params v with
      | None => t = d
      | Some l => LoggerModel.percent_format d (map (fun p => match dget p args with Some x => x | None => `"???" end) l) = Ok t
      end.
Proof.
  assert (D : forall code v, dget code ValidationCodes.validation_data = Some v ->
    exists d n, LoggerModel.vc_description v = Some [(`"en", d)] /\ places d = Some n /\
      (code <> `"E070b" -> n = match LoggerModel.vc_params v with Some l => List.length l | None => 0%nat end)).
  { intros code v E. apply dget_In in E. pose proof data_ok as H. rewrite forallb_forall in H. apply H in E. cbn [fst snd] in E. clear H.
    unfold text_ok in E. destruct (LoggerModel.vc_description v) as [desc|]; [|discriminate]. apply andb_true_iff in E as [E L].
    apply Nat.eqb_eq in L. destruct desc as [|[k x] [|? ?]]; try discriminate. cbn [dget] in E.
    destruct (str_eqb (`"en") k) eqn:Ek; [|discriminate]. apply str_eqb_eq in Ek. subst k.
    destruct (places x) as [n|] eqn:En; [|discriminate]. exists x, n. split; [reflexivity|]. split; [exact En|]. intros Hc.
    apply orb_true_iff in E as [E|E]; [now apply Nat.eqb_eq in E|]. cbn [fst] in E. apply str_eqb_eq in E. contradiction. }
  split.
  - intros code v desc lang d E Ed El. destruct (D code v E) as (x & n & Ex & En & _). rewrite Ed in Ex. injection Ex as ->.
    cbn [dget] in El. destruct (str_eqb lang _); [|discriminate El]. injection El as <-.
    now apply (proj1 (places_strong _ x (le_n _)) n).
  - intros g code v args text e Eg E Hc. destruct (D code v E) as (x & n & Ex & En & Ep). specialize (Ep Hc). exists x.
    unfold LoggerModel.message. rewrite Eg, E, Ex.
    assert (L : forall s, LoggerModel.lang_desc (LoggerModel.lg_lang g) s [(`"en", x)] = x).
    { intros s. unfold LoggerModel.lang_desc. cbn [dget]. destruct (str_eqb (LoggerModel.lg_lang g) (`"en")); reflexivity. }
    rewrite L. unfold LoggerModel.fill. destruct (LoggerModel.vc_params v) as [l|].
    + destruct (proj2 (places_strong _ x (le_n _)) n (map (fun p => match dget p args with Some y => y | None => `"???" end) l) En) as [t Et];
        [now rewrite map_length|]. rewrite Et. exists t. split; [reflexivity|]. split; reflexivity.
    + exists x. split; [reflexivity|]. split; reflexivity.
Qed.
Print Assumptions C79_texts.

(** The text of E070b takes one parameter and two are given. *)
Theorem C79_E070b_refuted : forall g args text, LoggerModel.lg_data g = ValidationCodes.validation_data ->
  LoggerModel.message g (`"E070b") true args text =
    Ok (`"[E070b] OCFL Storage Root %s has an ocfl_layout.json file that isn't a JSON object " ++ text).
Proof.
  intros g args text Eg. unfold LoggerModel.message. rewrite Eg.
  assert (E : dget (`"E070b") ValidationCodes.validation_data =
    Some (LoggerModel.mkVcode (Some [`"root"; `"message"]) (Some [(`"en", `"OCFL Storage Root %s has an ocfl_layout.json file that isn't a JSON object")])))
    by (vm_compute; reflexivity).
  rewrite E. cbn [LoggerModel.vc_description LoggerModel.vc_params].
  assert (L : forall s x, LoggerModel.lang_desc (LoggerModel.lg_lang g) s [(`"en", x)] = x).
  { intros s x. unfold LoggerModel.lang_desc. cbn [dget]. destruct (str_eqb (LoggerModel.lg_lang g) (`"en")); reflexivity. }
  rewrite L. unfold LoggerModel.fill. cbn [map].
  set (a := match dget (`"root") args with Some v => v | None => `"???" end). set (b := match dget (`"message") args with Some v => v | None => `"???" end).
  assert (F : LoggerModel.percent_format (`"OCFL Storage Root %s has an ocfl_layout.json file that isn't a JSON object") [a; b] = Raise TypeError) by reflexivity.
  rewrite F. reflexivity.
Qed.
Print Assumptions C79_E070b_refuted.

(** ** The codes *)

(** An error is logged with a code that starts with E, a warning with one that starts with
    W, and the code has a text in the file. *)
Definition documented (e : entry) : Prop :=
  match e with
  | LError c => hd 0 c = 69 /\ In c (keys ValidationCodes.validation_data)
  | LWarning c => hd 0 c = 87 /\ In c (keys ValidationCodes.validation_data)
  end.

Definition known (e : entry) : Prop := documented e \/ e = LError (`"E011") \/ e = LError (`"E092").
Definition knownb (e : entry) : bool :=
  match e with
  | LError c => ((hd 0 c =? 69) && str_in c (keys ValidationCodes.validation_data)) || str_eqb c (`"E011") || str_eqb c (`"E092")
  | LWarning c => (hd 0 c =? 87) && str_in c (keys ValidationCodes.validation_data)
  end.
Lemma knownb_ok e : knownb e = true -> known e.
Proof.
  unfold known. destruct e as [c|c]; cbn [knownb documented]; intros H.
  - apply orb_true_iff in H as [H|H]; [|apply str_eqb_eq in H; subst; auto]. apply orb_true_iff in H as [H|H]; [|apply str_eqb_eq in H; subst; auto].
    apply andb_true_iff in H as [H1 H2]. apply N.eqb_eq in H1. apply str_in_true in H2. auto.
  - apply andb_true_iff in H as [H1 H2]. apply N.eqb_eq in H1. apply str_in_true in H2. auto.
Qed.

Ltac code := apply knownb_ok; vm_compute; reflexivity.
Ltac go := repeat first [logs_step | solve [code] | solve [eauto 2 with codes]].

Create HintDb codes.
Lemma k_digest_regex lax alg : logs known (iv_digest_regex lax alg).
Proof. unfold iv_digest_regex. go. Qed.
#[local] Hint Resolve k_digest_regex : codes.
Lemma k_content_path cd p a b : logs known (check_content_path cd p a b).
Proof. unfold check_content_path. cbn zeta. go. Qed.
#[local] Hint Resolve k_content_path : codes.
Lemma k_manifest_file cd nd s f : logs known (manifest_file cd nd s f).
Proof. unfold manifest_file. go. Qed.
#[local] Hint Resolve k_manifest_file : codes.
Lemma k_manifest_digest lax alg cd s kv : logs known (manifest_digest lax alg cd s kv).
Proof. unfold manifest_digest. go. Qed.
#[local] Hint Resolve k_manifest_digest : codes.
Lemma k_conflicts c a b : known (LError c) -> logs known (check_conflicts c a b).
Proof. intros H. unfold check_conflicts. go. Qed.
Lemma k_manifest lax alg cd m : logs known (validate_manifest lax alg cd m).
Proof. unfold validate_manifest. go. apply k_conflicts. code. Qed.
#[local] Hint Resolve k_manifest : codes.
Lemma k_fixity_file m u f : logs known (fixity_file m u f).
Proof. unfold fixity_file. go. Qed.
#[local] Hint Resolve k_fixity_file : codes.
Lemma k_fixity_digest m r k a s kv : logs known (fixity_digest m r k a s kv).
Proof. unfold fixity_digest. go. Qed.
#[local] Hint Resolve k_fixity_digest : codes.
Lemma k_fixity_algorithm l m u kv : logs known (fixity_algorithm l m u kv).
Proof. unfold fixity_algorithm. cbn zeta. go. Qed.
#[local] Hint Resolve k_fixity_algorithm : codes.
Lemma k_fixity l s f m : logs known (validate_fixity l s f m).
Proof. unfold validate_fixity. destruct f; try (destruct (str_eqb s (`"1.0"))); go. Qed.
#[local] Hint Resolve k_fixity : codes.
Lemma k_version_loop w max vs : forall fuel n acc, logs known (version_loop fuel w max vs n acc).
Proof. induction fuel as [|fuel IH]; intros n acc; cbn [version_loop]; go; auto. Qed.
#[local] Hint Resolve k_version_loop : codes.
Lemma k_version_sequence vs : logs known (validate_version_sequence vs).
Proof. unfold validate_version_sequence. cbn zeta. go. Qed.
#[local] Hint Resolve k_version_sequence : codes.
Lemma k_logical_path p s : logs known (check_logical_path p s).
Proof. unfold check_logical_path. cbn zeta. go. Qed.
#[local] Hint Resolve k_logical_path : codes.
Lemma k_state_path s p : logs known (state_path s p).
Proof. unfold state_path. go. Qed.
#[local] Hint Resolve k_state_path : codes.
Lemma k_state_digest r a u s kv : logs known (state_digest r a u s kv).
Proof. unfold state_digest. go. Qed.
#[local] Hint Resolve k_state_digest : codes.
Lemma k_state_block lax alg st u : logs known (validate_state_block lax alg st u).
Proof. unfold validate_state_block. go. apply k_conflicts. code. Qed.
#[local] Hint Resolve k_state_block : codes.
Lemma k_created v : logs known (validate_created v).
Proof. unfold validate_created. go. Qed.
Lemma k_message v : logs known (validate_message v).
Proof. unfold validate_message. go. Qed.
Lemma k_user v : logs known (validate_user v).
Proof. unfold validate_user. go. Qed.
#[local] Hint Resolve k_created k_message k_user : codes.
Lemma k_version lax alg u vs d v : logs known (validate_version lax alg u vs d v).
Proof. unfold validate_version. go. Qed.
#[local] Hint Resolve k_version : codes.
Lemma k_versions lax alg u vs all : logs known (validate_versions lax alg u vs all).
Proof. unfold validate_versions. go. Qed.
#[local] Hint Resolve k_versions : codes.
Lemma k_id i : logs known (validate_id i).
Proof. unfold validate_id. go. Qed.
Lemma k_type f s i : logs known (validate_type f s i).
Proof. unfold validate_type. cbn zeta. go. Qed.
Lemma k_alg l i : logs known (validate_digest_algorithm l i).
Proof. unfold validate_digest_algorithm. cbn zeta. go. Qed.
Lemma k_cd i : logs known (validate_content_directory i).
Proof. unfold validate_content_directory. cbn zeta. go. Qed.
#[local] Hint Resolve k_id k_type k_alg k_cd : codes.
Lemma k_blocks lax id spec alg cd i : logs known (validate_blocks lax id spec alg cd i).
Proof. unfold validate_blocks. cbn zeta. go. Qed.
Lemma k_map_to_versions a b : logs known (check_content_paths_map_to_versions a b).
Proof. unfold check_content_paths_map_to_versions. go. Qed.
Lemma k_present a b : logs known (check_digests_present_and_used a b).
Proof. unfold check_digests_present_and_used. cbn zeta. go. Qed.
#[local] Hint Resolve k_blocks k_map_to_versions k_present : codes.
Lemma k_rest lax st c d i : logs known (validate_rest lax st c d i).
Proof. unfold validate_rest. go. Qed.
#[local] Hint Resolve k_rest : codes.
Lemma k_body lax s f i : logs known (validate_body lax s f i).
Proof. unfold validate_body. cbn zeta. go. Qed.
Lemma k_iv lax s f i : logs known (iv_validate lax s f i).
Proof.
  unfold iv_validate. pose proof (k_body lax s f i) as H. destruct (validate_body lax s f i) as [log [[st []]|e]]; try exact H.
  unfold logs. cbn [fst] in *. destruct (no_errors log); [|exact H]. apply Forall_app. split; [exact H|]. constructor; [code|constructor].
Qed.
#[local] Hint Resolve k_iv : codes.
Lemma k_compare a b v : logs known (compare_states_for_version a b v).
Proof. unfold compare_states_for_version. go. Qed.
Lemma k_metadata a b v : logs known (compare_metadata a b v).
Proof. unfold compare_metadata. go. Qed.
#[local] Hint Resolve k_compare k_metadata : codes.
Lemma k_prior_version a sa b sb u v : logs known (prior_version_check a sa b sb u v).
Proof. unfold prior_version_check. cbn zeta. go. Qed.
#[local] Hint Resolve k_prior_version : codes.
Lemma k_as_prior a sa b sb : logs known (validate_as_prior_version a sa b sb).
Proof.
  unfold validate_as_prior_version.
  assert (H : logs known (if negb (proper_subset (iv_all_versions sb) (iv_all_versions sa)) then werror (`"E066a")
         else wfold (prior_version_check a sa b sb) (iv_all_versions sb) tt)) by go.
  revert H. destruct (if negb _ then _ else _) as [log [x|e]]; auto.
Qed.
#[local] Hint Resolve k_as_prior : codes.

Lemma k_declaration w h s n : logs known (check_declaration w h s n).
Proof. unfold check_declaration. go. Qed.
#[local] Hint Resolve k_declaration : codes.
Lemma k_declarations c w h l : logs known (check_declarations c w h l).
Proof. unfold check_declarations. go. Qed.
Lemma k_inventory c w h f s : logs known (validate_inventory c w h f s).
Proof. unfold validate_inventory. go. Qed.
Lemma k_digest_match H c w h f g : logs known (validate_inventory_digest_match H c w h f g).
Proof. unfold validate_inventory_digest_match. go. Qed.
#[local] Hint Resolve k_declarations k_inventory k_digest_match : codes.
Lemma k_inventory_digest H c w h f a : logs known (validate_inventory_digest H c w h f a).
Proof. unfold validate_inventory_digest. cbn zeta. go. Qed.
Lemma k_extensions w h : logs known (validate_extensions_dir w h).
Proof. unfold validate_extensions_dir. go. Qed.
#[local] Hint Resolve k_inventory_digest k_extensions : codes.
Lemma k_root_entry w h a b c u e : logs known (check_root_entry w h a b c u e).
Proof. unfold check_root_entry. go. Qed.
#[local] Hint Resolve k_root_entry : codes.
Lemma k_object_root w h s a v x : logs known (validate_object_root w h s a v x).
Proof. unfold validate_object_root. cbn zeta. go. Qed.
Lemma k_check_id r i : logs known (check_id r i).
Proof. unfold check_id. go. Qed.
Lemma k_content_directory r v : logs known (check_content_directory r v).
Proof. unfold check_content_directory. go. Qed.
Lemma k_check_manifest a i p : logs known (check_manifest a i p).
Proof. unfold check_manifest. go. Qed.
#[local] Hint Resolve k_object_root k_check_id k_content_directory k_check_manifest : codes.
Lemma k_version_dir H c w h r l s v : logs known (validate_version_dir H c w h r l s v).
Proof. unfold validate_version_dir. cbn zeta. go. Qed.
#[local] Hint Resolve k_version_dir : codes.
Lemma k_version_inventories H c w h r v : logs known (validate_version_inventories H c w h r v).
Proof. unfold validate_version_inventories. cbn zeta. go. unfold unless_aborted. go. Qed.
Lemma k_walk w h p : logs known (walk_content w h p).
Proof. unfold walk_content. go. Qed.
#[local] Hint Resolve k_version_inventories k_walk : codes.
Lemma k_version_entry w h cd sc v s e : logs known (check_version_entry w h cd sc v s e).
Proof. unfold check_version_entry. cbn zeta. go. Qed.
#[local] Hint Resolve k_version_entry : codes.
Lemma k_version_content w h cd sc s v : logs known (check_version_content w h cd sc s v).
Proof.
  unfold check_version_content.
  assert (H : logs known (let! l := wlift (fs_ls w h v) in wfold (check_version_entry w h cd (dget v sc) v) (map fst l) s)) by go.
  unfold wcatch_missing. destruct (snd _) as [a|[]]; try exact H. unfold logs. cbn [fst]. apply Forall_app. split; [exact H|]. constructor; [code|constructor].
Qed.
Lemma k_root_fixity i s : logs known (root_fixity i s).
Proof. unfold root_fixity. go. Qed.
Lemma k_additional H w h f k a c : known (LError c) -> logs known (check_additional_digests H w h f k a c).
Proof. intros Hc. unfold check_additional_digests. go. Qed.
#[local] Hint Resolve k_version_content k_root_fixity : codes.
Lemma k_file H c w h a f p r d : logs known (check_file H c w h a f p r d).
Proof. unfold check_file. go; apply k_additional; code. Qed.
#[local] Hint Resolve k_file : codes.
Lemma k_content H c w h r v p : logs known (validate_content H c w h r v p).
Proof. unfold validate_content. go. Qed.
#[local] Hint Resolve k_content : codes.
Lemma k_parts H c w h n s l : logs known (validate_parts H c w h n s l).
Proof.
  unfold validate_parts. pose proof (k_inventory c w h INVENTORY_FILENAME s) as K.
  destruct (validate_inventory c w h INVENTORY_FILENAME s) as [log [[[i st]|]|e]]; try exact K. cbn zeta.
  apply logs_bind; [exact K|intros _ _]. go.
Qed.
Lemma k_opened H c w h n : logs known (validate_opened H c w h n).
Proof.
  unfold validate_opened. apply logs_bind; [apply logs_lift|]. intros l _. pose proof (k_declarations c w h l) as K.
  destruct (check_declarations c w h l) as [log [s|e]]; [|exact K]. unfold logs in *. cbn [fst] in K.
  destruct (negb (fs_exists w h INVENTORY_FILENAME)).
  - cbn [fst]. apply Forall_app. split; [exact K|]. constructor; [code|constructor].
  - pose proof (k_parts H c w h (n + num_errors log) s l) as K'. unfold logs in K'.
    destruct (validate_parts H c w h (n + num_errors log) s l) as [log' [x|e]]; cbn [fst] in *; now apply Forall_app.
Qed.

(** Whatever the tree and the options, also if validation ends with an exception: every entry
    of the log is documented, except for E011 and E092. *)
Theorem C79_codes : forall H c w cwd path n e,
  In e (fst (validate_object H c w cwd path n)) ->
  documented e \/ e = LError (`"E011") \/ e = LError (`"E092").
Proof.
  intros H c w cwd path n e He. assert (K : logs known (validate_object H c w cwd path n)).
  { unfold validate_object. destruct (result _ _) as [h|[]]; go; apply k_opened. }
  unfold logs in K. rewrite Forall_forall in K. exact (K e He).
Qed.
Print Assumptions C79_codes.

(** ** The two codes without a text *)

(** A manifest in which a digest has a number for its paths, and version names v01 to v09
    with one name more: both inventories are refused with a code that is not in the file, and
    the message is not about what is wrong. *)
Definition bad_manifest : json :=
  JObj [(`"id", JStr (`"info:a")); (`"type", JStr (`"https://ocfl.io/1.1/spec/#inventory")); (`"digestAlgorithm", JStr (`"sha256"));
        (`"manifest", JObj [(repeat 97 64, JInt 1)]); (`"versions", JObj []); (`"head", JStr (`"v1"))].
Definition bad_versions : json :=
  JObj [(`"id", JStr (`"info:a")); (`"type", JStr (`"https://ocfl.io/1.1/spec/#inventory")); (`"digestAlgorithm", JStr (`"sha256"));
        (`"manifest", JObj []); (`"head", JStr (`"v09"));
        (`"versions", JObj (map (fun n => (version_fmt (Some 2%nat) n, JObj [])) [1; 2; 3; 4; 5; 6; 7; 8; 9] ++ [(`"x", JNull)]))].
Theorem C79_refuted :
  (In (LError (`"E092")) (fst (iv_validate false (`"1.1") None bad_manifest)) /\ ~ documented (LError (`"E092"))) /\
  (In (LError (`"E011")) (fst (iv_validate false (`"1.1") None bad_versions)) /\ ~ documented (LError (`"E011"))) /\
  forall g code text args, LoggerModel.lg_data g = ValidationCodes.validation_data -> In code [`"E092"; `"E011"] ->
    LoggerModel.message g code true args text = Ok (`"Unknown error: " ++ code ++ `" - params (" ++ text ++ `")").
Proof.
  assert (D : forall c, str_in c (keys ValidationCodes.validation_data) = false -> ~ documented (LError c)).
  { intros c E [_ Hi]. apply str_in_true in Hi. congruence. }
  split; [|split].
  - split; [vm_compute; repeat (first [left; reflexivity|right])|apply D; vm_compute; reflexivity].
  - split; [vm_compute; repeat (first [left; reflexivity|right])|apply D; vm_compute; reflexivity].
  - intros g code text args Eg Hc. unfold LoggerModel.message. rewrite Eg.
    assert (E : dget code ValidationCodes.validation_data = None).
    { destruct Hc as [<-|[<-|[]]]; vm_compute; reflexivity. }
    rewrite E. reflexivity.
Qed.
Print Assumptions C79_refuted.

(** ** The report *)

Lemma sorted_unique (l : list str) : forall m,
  Sorted.StronglySorted (fun a b => str_leb a b = true) l -> Sorted.StronglySorted (fun a b => str_leb a b = true) m ->
  Permutation.Permutation l m -> l = m.
Proof.
  induction l as [|x l IH]; intros m Hl Hm P.
  - apply Permutation.Permutation_nil in P. now subst.
  - destruct m as [|y m]; [apply Permutation.Permutation_sym, Permutation.Permutation_nil in P; discriminate|].
    inversion Hl as [|? ? Hl1 Hl2]; inversion Hm as [|? ? Hm1 Hm2]; subst.
    assert (E : x = y).
    { rewrite Forall_forall in Hl2, Hm2.
      assert (Hx : In x (y :: m)) by (apply (Permutation.Permutation_in _ P); now left).
      assert (Hy : In y (x :: l)) by (apply (Permutation.Permutation_in _ (Permutation.Permutation_sym P)); now left).
      destruct Hx as [|Hx]; [auto|]. destruct Hy as [|Hy]; [auto|]. apply str_leb_antisym; auto. }
    subst y. f_equal. apply IH; auto. now apply Permutation.Permutation_cons_inv in P.
Qed.

Lemma lines_join (prefix : str) l : forall acc,
  removelast (fold_left (fun s m => s ++ prefix ++ m ++ [10]) l acc) =
  match l with [] => removelast acc | _ => acc ++ join [10] (map (fun m => prefix ++ m) l) end.
Proof.
  induction l as [|m l IH]; intros acc; cbn [fold_left]; [reflexivity|]. rewrite IH. destruct l as [|m' l].
  - cbn [map join]. rewrite !app_assoc. now rewrite removelast_last.
  - cbn [map join]. rewrite <- !app_assoc. reflexivity.
Qed.

(** status_str gives the kept messages, one on each line after the prefix, in order of their
    text; so it does not depend on the order in which they were logged. *)
Theorem C79_status : forall g prefix,
  (exists l, Permutation.Permutation (LoggerModel.lg_messages g) l /\
     Sorted.StronglySorted (fun a b => str_leb a b = true) l /\
     LoggerModel.status_str g prefix = join [10] (map (fun m => prefix ++ m) l)) /\
  forall g', Permutation.Permutation (LoggerModel.lg_messages g) (LoggerModel.lg_messages g') ->
    LoggerModel.status_str g' prefix = LoggerModel.status_str g prefix.
Proof.
  intros g prefix. split.
  - exists (sorted_strs (LoggerModel.lg_messages g)). split; [apply isort_perm|]. split.
    + apply isort_sorted; [exact str_leb_total|exact str_leb_trans].
    + unfold LoggerModel.status_str. rewrite lines_join. now destruct (sorted_strs _).
  - intros g' P. unfold LoggerModel.status_str. do 2 f_equal. apply sorted_unique.
    + apply isort_sorted; [exact str_leb_total|exact str_leb_trans].
    + apply isort_sorted; [exact str_leb_total|exact str_leb_trans].
    + unfold sorted_strs. rewrite <- !isort_perm. now apply Permutation.Permutation_sym.
Qed.
Print Assumptions C79_status.

(** Cases: a directory without anything gives two documented errors; a message is filled in;
    a report of two messages. *)
Example C79_ex :
  fst (validate_object (fun _ _ => []) (mkVconf true false (`"1.1") (fun _ => 0)) (Dir [(`"o", Dir [])]) [] (`"o") 0) =
    [LError (`"E003a"); LError (`"E063")] /\
  documented (LError (`"E003a")) /\ documented (LError (`"E063")) /\
  (exists v, dget (`"W011") ValidationCodes.validation_data = Some v /\ LoggerModel.vc_params v = Some [`"key"; `"version"; `"prior_head"; `"where"]) /\
  LoggerModel.status_str (LoggerModel.mkLogger true true (`"1.1") (`"en") [] [] [`"b"; `"a"] 0 2) (`"> ") = `"> a" ++ [10] ++ `"> b".
Proof.
  split; [vm_compute; reflexivity|].
  assert (D : forall c, knownb (LError c) = true -> str_eqb c (`"E011") = false -> str_eqb c (`"E092") = false -> documented (LError c)).
  { intros c H H1 H2. destruct (knownb_ok _ H) as [K|[K|K]]; [exact K| |]; injection K as ->; discriminate. }
  split; [apply D; vm_compute; reflexivity|]. split; [apply D; vm_compute; reflexivity|].
  split; [|vm_compute; reflexivity]. eexists. split; vm_compute; reflexivity.
Qed.
