(** C22-C28: the inventory validator. *)
From Coq Require Import Permutation.
From Verif Require Import Base Unicode Utf8 Json PyJson Log DigestModel DatetimeSpec InventorySpec InventoryValidatorModel
  DatetimeProofs InventoryValidatorProofs InventoryRulesProofs InventoryPriorProofs InventoryReadingProofs InventorySafeProofs.

(** The validator (without lax_digests) returns True for this document. *)
Definition valid (inv : json) (force : option str) (dsv : str) : Prop :=
  exists st, snd (iv_validate false dsv force inv) = Ok (st, true).

(** ** Example inventories *)

Definition dA : str := repeat 97%N 64.
Definition dB : str := repeat 98%N 64.
Definition strs (l : list str) : json := JArr (map JStr l).
Definition version_block (created : str) (state : dict json) : json :=
  JObj [(`"created", JStr created); (`"state", JObj state); (`"message", JStr (`"m"));
        (`"user", JObj [(`"name", JStr (`"A")); (`"address", JStr (`"mailto:a@example.org"))])].
Definition now_ : str := `"2024-02-29T12:30:00Z".
Definition inventory (type head : str) (manifest versions : dict json) (more : dict json) : json :=
  JObj ([(`"id", JStr (`"info:x")); (`"type", JStr type); (`"digestAlgorithm", JStr (`"sha256")); (`"head", JStr head);
         (`"manifest", JObj manifest); (`"versions", JObj versions)] ++ more).
Definition type11 : str := `"https://ocfl.io/1.1/spec/#inventory".
Definition ex_fixity : dict json := [(`"fixity", JObj [(`"md5", JObj [(repeat 99%N 32, strs [`"v1/content/a.txt"])])])].
Definition ex_inv : json :=
  inventory type11 (`"v2") [(dA, strs [`"v1/content/a.txt"]); (dB, strs [`"v2/content/d/b"; `"v2/content/d/c"])]
    [(`"v1", version_block now_ [(dA, strs [`"a.txt"])]);
     (`"v2", version_block now_ [(dA, strs [`"a.txt"; `"copy"]); (dB, strs [`"d/b"])])] ex_fixity.
Definition ex_prior : json :=
  inventory type11 (`"v1") [(dA, strs [`"v1/content/a.txt"])] [(`"v1", version_block now_ [(dA, strs [`"a.txt"])])] [].

Example ex_valid : json_wf ex_inv /\ valid ex_inv None (`"1.1") /\ valid ex_inv (Some (`"1.1")) (`"1.0").
Proof.
  split; [apply json_wfb_sound; vm_compute; reflexivity|]. split; eexists; vm_compute; reflexivity.
Qed.

(** ** C22: soundness *)

(** What True means, exactly. *)
Theorem C22_exact : forall dsv force inv, json_wf inv ->
  (valid inv force dsv <-> exists f, obeys as_coded inv f /\ forced force inv).
Proof.
  intros dsv force inv Hw. split.
  - intros [st H]. apply iv_validate_iff in H; auto. destruct H as (f & h & before & H1 & H2 & _). eauto.
  - intros (f & H1 & H2). assert (Hh : head_rule inv f) by apply H1. destruct Hh as (h & before & Hm & Hb).
    exists (accepted f h). apply iv_validate_iff; [auto|]. exists f, h, before. auto.
Qed.
Print Assumptions C22_exact.

(** The attributes read by the rest of the program are those of the inventory. *)
Theorem C22_attributes : forall dsv force inv st, json_wf inv ->
  snd (iv_validate false dsv force inv) = Ok (st, true) ->
  exists f, obeys as_coded inv f /\
    iv_id st = Some (f_id f) /\ iv_spec_version st = f_spec f /\ iv_digest_algorithm st = JStr (f_alg f) /\
    iv_content_directory st = f_cdir f /\ iv_all_versions st = f_versions f /\
    member inv (`"head") (JStr (iv_head st)) /\
    (forall p d, (exists mf, iv_manifest_files st = Some mf /\ In (p, d) mf) <->
       exists k x, In (k, x) (f_manifest f) /\ In p (strings x) /\ d = normalized_digest k (f_alg f)).
Proof.
  intros dsv force inv st Hw H. apply iv_validate_iff in H; auto. destruct H as (f & h & before & H1 & _ & _ & Hh & ->).
  exists f. split; [auto|]. do 5 (split; [reflexivity|]). split; [exact Hh|]. intros p d. cbn [iv_manifest_files accepted]. split.
  - intros (mf & E & Hi). injection E as <-. unfold entries_of in Hi. apply in_flat_map in Hi as [[k x] [Hk Hi]].
    apply in_map_iff in Hi as [q [Eq Hq]]. injection Eq as -> <-. exists k, x. auto.
  - intros (k & x & Hk & Hp & ->). eexists. split; [reflexivity|]. apply in_flat_map. exists (k, x). split; [auto|].
    apply in_map_iff. exists p. auto.
Qed.
Print Assumptions C22_attributes.

(** For ordinary text the rules of the specification hold, but for conflicts between
    paths (see C25). *)
Theorem C22_sound_partial : forall dsv force inv, json_wf inv -> valid inv force dsv ->
  (forall s, text_in s inv -> ascii s /\ ~ In newline s) ->
  (forall t, member inv (`"type") (JStr t) ->
     In t [`"https://ocfl.io/1.0/spec/#inventory"; `"https://ocfl.io/1.1/spec/#inventory"]) ->
  ~ member inv (`"contentDirectory") (JStr []) ->
  exists f, obeys next_directory_only inv f.
Proof.
  intros dsv force inv Hw H H1 H2 H3. apply C22_exact in H as (f & Hf & _); auto. exists f. now apply coded_next_directory.
Qed.
Print Assumptions C22_sound_partial.

(** With force_spec_version the type is checked in full. *)
Theorem C22_forced_type : forall dsv v inv, json_wf inv -> v <> [] -> valid inv (Some v) dsv ->
  member inv (`"type") (JStr (`"https://ocfl.io/" ++ v ++ `"/spec/#inventory")).
Proof.
  intros dsv v inv Hw Hv H. apply C22_exact in H as (f & _ & H); auto. destruct v; [congruence|exact H].
Qed.
Print Assumptions C22_forced_type.

(** Without it, any text may follow, and any character may stand for the dot. *)
Definition junk_type : json :=
  inventory (`"https://ocfl!io/1.1/spec/#inventory and more") (`"v1") [(dA, strs [`"v1/content/a.txt"])]
    [(`"v1", version_block now_ [(dA, strs [`"a.txt"])])] [].
Theorem C22_type_refuted : json_wf junk_type /\ valid junk_type None (`"1.1") /\ ~ exists f, obeys by_the_book junk_type f.
Proof.
  split; [apply json_wfb_sound; vm_compute; reflexivity|]. split; [eexists; vm_compute; reflexivity|].
  intros [f (_ & (t & Hm & Ht & Hs) & _)]. apply member_obj in Hm; [|apply distinct_strs_NoDup; vm_compute; reflexivity].
  apply Some_inv in Hm. injection Hm as ->. cbn [r_type by_the_book] in Ht.
  destruct Hs as [E|[E|[]]]; rewrite <- E in Ht; discriminate Ht.
Qed.
Print Assumptions C22_type_refuted.

(** ** C23: completeness *)

Theorem C23_accepts_partial : forall dsv inv f, json_wf inv -> obeys within_limits inv f -> valid inv None dsv.
Proof.
  intros dsv inv f Hw H. apply C22_exact; [auto|]. exists f. split; [now apply within_limits_coded|exact I].
Qed.
Print Assumptions C23_accepts_partial.

(** An inventory of one version; v, created and the rest of the content path can vary. *)
Definition one_version (v created rest : str) : json :=
  inventory type11 v [(dA, strs [v ++ `"/content/" ++ rest])] [(v, version_block created [(dA, strs [`"a.txt"])])] [].
Definition one_facts (v rest : str) : facts := {|
  f_id := `"info:x"; f_spec := `"1.1"; f_alg := `"sha256"; f_cdir := `"content"; f_cdir_set := false;
  f_versions := [v]; f_manifest := [(dA, strs [v ++ `"/content/" ++ rest])] |}.

Lemma not_above_self p : ~ above p p.
Proof. intros [r E]. apply (f_equal (@List.length N)) in E. rewrite app_length in E. simpl in E. lia. Qed.

Lemma plain_name (n : str) : n <> [] -> n <> `"." -> n <> `".." -> ~ In slash n -> plain_path n.
Proof. intros H1 H2 H3 H4. exists [n]. split; [now constructor|]. repeat constructor; auto. Qed.

Lemma dA_digest R : (forall a d, hex_digest a d -> r_digest R a d) -> r_digest R (`"sha256") dA.
Proof.
  intros H. apply H. exists 64%nat. split; [constructor|]. split; [reflexivity|]. apply Forall_forall. intros c Hc.
  apply repeat_spec in Hc. subst c. right. left. lia.
Qed.

Lemma one_version_reading R v created rest w :
  r_type R type11 (`"1.1") -> (forall a d, hex_digest a d -> r_digest R a d) -> r_content R rest ->
  (forall c p, ~ r_content_above R c p p) -> (forall p, ~ r_logical_above R p p) -> r_created R created -> r_versions R w 1 ->
  version_name w 1 v ->
  obeys R (one_version v created rest) (one_facts v rest).
Proof.
  intros HT HD Hr HA HL Hc Hw Hv. unfold one_version, inventory.
  assert (M : forall k x, In (k, x) ([(`"id", JStr (`"info:x")); (`"type", JStr type11); (`"digestAlgorithm", JStr (`"sha256")); (`"head", JStr v);
         (`"manifest", JObj [(dA, strs [v ++ `"/content/" ++ rest])]);
         (`"versions", JObj [(v, version_block created [(dA, strs [`"a.txt"])])])] ++ []) ->
     member (JObj ([(`"id", JStr (`"info:x")); (`"type", JStr type11); (`"digestAlgorithm", JStr (`"sha256")); (`"head", JStr v);
         (`"manifest", JObj [(dA, strs [v ++ `"/content/" ++ rest])]);
         (`"versions", JObj [(v, version_block created [(dA, strs [`"a.txt"])])])] ++ [])) k x) by (intros k x Hi; eexists; eauto).
  assert (Lk : forall k d, dmem k d = false -> lacks (JObj d) k) by (intros k d H; now apply lacks_obj).
  pose proof (dA_digest R HD) as Dg.
  split; [split; [apply M; simpl; tauto|discriminate]|].
  split; [exists type11; split; [apply M; simpl; tauto|split; [exact HT|right; now left]]|].
  split; [split; [apply M; simpl; tauto|right; now left]|].
  split; [split; [apply Lk; reflexivity|reflexivity]|].
  split.
  { split; [apply M; simpl; tauto|]. split.
    { intros d x [E|[]]. injection E as <- <-. split; [exact Dg|eexists; reflexivity]. }
    split; [right; intros d1 f1 d2 f2 [E1|[]] [E2|[]] _; congruence|].
    split.
    { intros p [<-|[]]. split; [discriminate|]. exists v, rest. split; [now left|]. split; [reflexivity|exact Hr]. }
    split; [repeat constructor; intros []|]. intros p q [<-|[]] [<-|[]]. apply HA. }
  split; [exists v, []; split; [apply M; simpl; tauto|reflexivity]|].
  split; [left; apply Lk; reflexivity|].
  exists [(v, version_block created [(dA, strs [`"a.txt"])])]. split.
  { split; [apply M; simpl; tauto|]. split; [|apply Permutation_refl]. exists w. split.
    - split; [discriminate|]. intros [|[|i]] s E; try discriminate. injection E as <-. exact Hv.
    - exact Hw. }
  split.
  { intros v' b [E|[]]. injection E as <- <-. exists [(dA, strs [`"a.txt"])]. unfold version_block.
    split; [exists created; split; [eexists; split; [reflexivity|now left]|exact Hc]|].
    split; [right; exists (`"m"); eexists; split; [reflexivity|simpl; tauto]|].
    split; [right; eexists; split; [eexists; split; [reflexivity|simpl; tauto]|]; split;
      [exists (`"A"); eexists; split; [reflexivity|now left]|right; exists (`"mailto:a@example.org"); eexists; split; [reflexivity|right; now left]]|].
    split; [eexists; split; [reflexivity|right; now left]|].
    split; [intros d x [E|[]]; injection E as <- <-; split; [exact Dg|eexists; reflexivity]|].
    split; [intros d x [E|[]]; injection E as <- <-; exists (v ++ `"/content/" ++ rest), []; now left|].
    split; [intros p [<-|[]]; apply plain_name; try discriminate; simpl; intuition discriminate|].
    split; [repeat constructor; intros []|]. intros p q [<-|[]] [<-|[]]. apply HL. }
  intros d p ps [E|[]]. injection E as <- _ _. exists v, (version_block created [(dA, strs [`"a.txt"])]), [(dA, strs [`"a.txt"])], (strs [`"a.txt"]).
  split; [now left|]. split; [eexists; split; [reflexivity|right; now left]|now left].
Qed.

Lemma one_version_obeys v created rest w :
  (exists leap early small, rfc3339 leap early small created) -> version_name w 1 v ->
  match w with None => True | Some w => (2 <= w)%nat end -> plain_path rest ->
  obeys by_the_book (one_version v created rest) (one_facts v rest).
Proof.
  intros Hc Hv Hw Hr. apply (one_version_reading by_the_book v created rest w); auto.
  - reflexivity.
  - intros a d H. now left.
  - intros c. apply not_above_self.
  - apply not_above_self.
  - cbn [r_versions by_the_book]. destruct w as [w|]; [|exact I]. split; [exact Hw|].
    replace (w - 1)%nat with (S (w - 2)) by lia. rewrite Nat2N.inj_succ, N.pow_succ_r'. pose proof (N.pow_nonzero 10 (N.of_nat (w - 2))). lia.
Qed.

Definition rejected (inv : json) : Prop := exists st, snd (iv_validate false (`"1.1") None inv) = Ok (st, false).

Lemma name_a : plain_path (`"a.txt").
Proof. apply plain_name; try discriminate. simpl. intuition discriminate. Qed.
Lemma v1_name : version_name None 1 (`"v1").
Proof.
  exists (`"1"). split; [reflexivity|]. split; [discriminate|]. split; [repeat constructor; discriminate|].
  split; [reflexivity|discriminate].
Qed.

Ltac digit := split; discriminate.
Ltac rfc_goals L :=
  match goal with
  | |- digits4 _ _ => split; [reflexivity|split; [repeat (apply Forall_cons; [digit|]); apply Forall_nil|reflexivity]]
  | |- digits2 _ _ => eexists _, _; split; [reflexivity|split; [digit|split; [digit|reflexivity]]]
  | |- exists n, month_length _ _ _ /\ _ =>
      exists L; split; [first [apply ML31; simpl; tauto | apply ML29; left; split; [reflexivity|discriminate]] | lia]
  | |- In _ _ => first [left; reflexivity | right; left; reflexivity]
  | |- rfc3339_zone _ => first [apply RZ_z; left; reflexivity | apply RZ_z; right; left; reflexivity]
  | |- _ = _ \/ exists ds, _ => left; reflexivity
  | |- _ <-> _ = _ => split; intros; (reflexivity || discriminate)
  | |- _ <-> _ \/ _ => split; [intros; first [discriminate | left; reflexivity] | intros [?|?]; (reflexivity || discriminate)]
  | _ => lia
  end.

(** A leap second, the year 0000, and small letters are allowed by RFC 3339. *)
Theorem C23_date_refuted : forall created,
  In created [`"2016-12-31T23:59:60Z"; `"0000-01-01T00:00:00Z"; `"2024-01-01t00:00:00z"] ->
  obeys by_the_book (one_version (`"v1") created (`"a.txt")) (one_facts (`"v1") (`"a.txt")) /\
  rejected (one_version (`"v1") created (`"a.txt")).
Proof.
  intros c Hc. split.
  - apply (one_version_obeys _ _ _ None); [|apply v1_name|exact I|apply name_a].
    destruct Hc as [<-|[<-|[<-|[]]]].
    + exists true, false, false.
      apply (RFC true false false 2016 12 31 (`"2016") (`"12") (`"31") (`"T") 23 59 60 (`"23") (`"59") (`"60") [] (`"Z")); rfc_goals 31%Z.
    + exists false, true, false.
      apply (RFC false true false 0 1 1 (`"0000") (`"01") (`"01") (`"T") 0 0 0 (`"00") (`"00") (`"00") [] (`"Z")); rfc_goals 31%Z.
    + exists false, false, true.
      apply (RFC false false true 2024 1 1 (`"2024") (`"01") (`"01") (`"t") 0 0 0 (`"00") (`"00") (`"00") [] (`"z")); rfc_goals 31%Z.
  - destruct Hc as [<-|[<-|[<-|[]]]]; eexists; vm_compute; reflexivity.
Qed.
Print Assumptions C23_date_refuted.

Lemma now_rfc : rfc3339 false false false now_.
Proof.
  apply (RFC false false false 2024 2 29 (`"2024") (`"02") (`"29") (`"T") 12 30 0 (`"12") (`"30") (`"00") [] (`"Z")); rfc_goals 29%Z.
Qed.

(** Padded version names of eleven digits. *)
Theorem C23_width_refuted :
  obeys by_the_book (one_version (`"v00000000001") now_ (`"a.txt")) (one_facts (`"v00000000001") (`"a.txt")) /\
  rejected (one_version (`"v00000000001") now_ (`"a.txt")).
Proof.
  split; [|eexists; vm_compute; reflexivity].
  apply (one_version_obeys _ _ _ (Some 11%nat)); [exists false, false, false; apply now_rfc| |lia|apply name_a].
  exists (`"00000000001"). split; [reflexivity|]. split; [discriminate|]. split; [repeat constructor; discriminate|].
  split; [reflexivity|]. split; reflexivity.
Qed.
Print Assumptions C23_width_refuted.

(** A content file whose name starts with a newline. *)
Theorem C23_newline_refuted :
  obeys by_the_book (one_version (`"v1") now_ (newline :: `"a.txt")) (one_facts (`"v1") (newline :: `"a.txt")) /\
  rejected (one_version (`"v1") now_ (newline :: `"a.txt")).
Proof.
  split; [|eexists; vm_compute; reflexivity].
  apply (one_version_obeys _ _ _ None); [exists false, false, false; apply now_rfc|apply v1_name|exact I|].
  apply plain_name; try discriminate. simpl. intuition discriminate.
Qed.
Print Assumptions C23_newline_refuted.

(** The hypotheses of C23_accepts_partial can be met. *)
Example C23_ex : exists f, obeys within_limits (one_version (`"v0001") now_ (`"a.txt")) f.
Proof.
  exists (one_facts (`"v0001") (`"a.txt")). apply (one_version_reading within_limits _ _ _ (Some 4%nat)).
  - reflexivity.
  - intros a d H. now left.
  - split; [apply name_a|]. exists (`"a.txt"). split; [split; [simpl; intuition discriminate|now left]|apply name_a].
  - intros c. apply not_above_self.
  - apply not_above_self.
  - apply now_rfc.
  - split; [lia|reflexivity].
  - exists (`"0001"). split; [reflexivity|]. split; [discriminate|]. split; [repeat constructor; discriminate|].
    split; [reflexivity|]. split; reflexivity.
Qed.

(** ** C24: the version sequence *)

Theorem C24_exact_partial : forall d all, NoDup (keys d) ->
  (clean (validate_version_sequence (JObj d)) all <->
   exists w, version_sequence w all /\ Permutation (keys d) all /\
     match w with
     | None => (N.of_nat (List.length all) <= 999999)%N
     | Some w => (2 <= w <= 10)%nat /\ (N.of_nat (List.length all) < 10 ^ N.of_nat (w - 1))%N
     end).
Proof.
  intros d all Hn. rewrite clean_version_sequence by (intros d' E; injection E as <-; auto). split.
  - intros (d' & w & E & H1 & H2 & H3). injection E as <-. exists w. auto.
  - intros (w & H1 & H2 & H3). exists d, w. auto.
Qed.
Print Assumptions C24_exact_partial.

Definition three_padded : dict json := [(`"v003", JNull); (`"v001", JNull); (`"v002", JNull)].
Example C24_ex : NoDup (keys three_padded) /\ clean (validate_version_sequence (JObj three_padded)) [`"v001"; `"v002"; `"v003"] /\
  ~ clean (validate_version_sequence (JObj [(`"v1", JNull); (`"v3", JNull)])) [`"v1"].
Proof.
  split; [apply distinct_strs_NoDup; vm_compute; reflexivity|]. split; [split; vm_compute; reflexivity|].
  intros [_ H]. vm_compute in H. discriminate.
Qed.

(** Eleven digits are not recognised although the specification sets no limit. *)
Theorem C24_width_refuted : exists d all w,
  NoDup (keys d) /\ version_sequence (Some w) all /\ Permutation (keys d) all /\
  (N.of_nat (List.length all) < 10 ^ N.of_nat (w - 1))%N /\ ~ clean (validate_version_sequence (JObj d)) all.
Proof.
  exists [(`"v00000000001", JNull)], [`"v00000000001"], 11%nat.
  split; [repeat constructor; intros []|]. split.
  { split; [discriminate|]. intros [|[|i]] s E; try discriminate. injection E as <-.
    exists (`"00000000001"). split; [reflexivity|]. split; [discriminate|]. split; [repeat constructor; discriminate|].
    split; [reflexivity|]. split; reflexivity. }
  split; [apply Permutation_refl|]. split; [reflexivity|]. intros [_ H]. vm_compute in H. discriminate.
Qed.
Print Assumptions C24_width_refuted.

(** ** C25: no path is a directory of another *)

Theorem C25_next_directory_partial : forall dsv force inv, json_wf inv -> valid inv force dsv ->
  (forall man p q e, member inv (`"manifest") (JObj man) -> In p (listed man) -> In q (listed man) ->
     ~ In slash e -> ~ In newline q -> q <> p ++ slash :: e) /\
  (forall v st p q e, state_of inv v st -> In p (listed st) -> In q (listed st) -> ~ In slash e -> q <> p ++ slash :: e).
Proof.
  intros dsv force inv Hw H. apply C22_exact in H as (f & Hob & _); auto. split.
  - intros man p q e Hm Hp Hq He Hn E.
    assert (Hman : manifest_rule as_coded inv f) by apply Hob. destruct Hman as (Hm' & _ & _ & M4 & _ & M6).
    pose proof (member_fun _ _ _ _ Hw Hm Hm') as Em. injection Em as ->.
    destruct (M4 q Hq) as [Hc (v & rest & Hv & Eq & (l & Hl & _) & _)].
    assert (Hr : ~ In newline rest) by (intros Hi; apply Hn; rewrite Eq; apply in_or_app; right; right; apply in_or_app; right; now right).
    apply (M6 p q Hp Hq). assert (Vd : exists w, version_sequence w (f_versions f)).
    { destruct Hob as (_ & _ & _ & _ & _ & _ & _ & vs & (_ & (w & Hw' & _) & _) & _). eauto. }
    destruct Vd as [w Vd]. destruct (version_sequence_digits w _ v Vd Hv) as (ds & -> & _ & Hds).
    exists (`"v" ++ ds), rest, l, e. split; [now apply digits_no_slash|]. split; [auto|]. split; [auto|]. split; [auto|].
    rewrite (first_line_id rest l Hr Hl). congruence.
  - intros v st p q e (vs & b & Hvs & Hvb & Hst) Hp Hq He E.
    destruct Hob as (_ & _ & _ & _ & _ & _ & _ & vs' & (Hvs' & _) & Hb & _).
    pose proof (member_fun _ _ _ _ Hw Hvs Hvs') as Em. injection Em as <-.
    destruct (Hb _ _ Hvb) as [st' (_ & _ & _ & Hst' & S1 & S2 & S3 & S4 & S5)].
    assert (Hbw : json_wf b). { pose proof (member_wf _ _ _ Hw Hvs) as Hvw. apply json_wf_obj in Hvw as [_ Hvw]. rewrite Forall_forall in Hvw. apply (Hvw (v, b) Hvb). }
    pose proof (member_fun _ _ _ _ Hbw Hst Hst') as Em. injection Em as ->.
    apply (S5 p q Hp Hq). exists e. auto.
Qed.
Print Assumptions C25_next_directory_partial.

(** Two levels down the conflict is missed, for content paths and for logical paths. *)
Definition deep_conflict : json :=
  inventory type11 (`"v1") [(dA, strs [`"v1/content/a"]); (dB, strs [`"v1/content/a/b/c"])]
    [(`"v1", version_block now_ [(dA, strs [`"a"]); (dB, strs [`"a/b/c"])])] [].
Theorem C25_deep_refuted : json_wf deep_conflict /\ valid deep_conflict None (`"1.1") /\
  (exists man p q, member deep_conflict (`"manifest") (JObj man) /\ In p (listed man) /\ In q (listed man) /\ above p q) /\
  (exists st p q, state_of deep_conflict (`"v1") st /\ In p (listed st) /\ In q (listed st) /\ above p q).
Proof.
  split; [apply json_wfb_sound; vm_compute; reflexivity|]. split; [eexists; vm_compute; reflexivity|]. split.
  - exists [(dA, strs [`"v1/content/a"]); (dB, strs [`"v1/content/a/b/c"])], (`"v1/content/a"), (`"v1/content/a/b/c").
    split; [eexists; split; [reflexivity|simpl; tauto]|]. split; [now left|]. split; [right; now left|]. exists (`"b/c"). reflexivity.
  - exists [(dA, strs [`"a"]); (dB, strs [`"a/b/c"])], (`"a"), (`"a/b/c"). split.
    { eexists _, _. split; [eexists; split; [reflexivity|do 5 right; left; reflexivity]|]. split; [left; reflexivity|].
      eexists; split; [reflexivity|right; now left]. }
    split; [now left|]. split; [right; now left|]. exists (`"b/c"). reflexivity.
Qed.
Print Assumptions C25_deep_refuted.

(** ** C26: content paths stay inside the object *)

Theorem C26_inside_partial : forall dsv force inv st man p, json_wf inv ->
  snd (iv_validate false dsv force inv) = Ok (st, true) ->
  member inv (`"manifest") (JObj man) -> In p (listed man) -> ~ In newline p ->
  exists v rest, In v (iv_all_versions st) /\ p = v ++ slash :: iv_content_directory st ++ slash :: rest /\ plain_path rest /\
    ~ In slash v /\ v <> [] /\ ~ In slash (iv_content_directory st) /\ plain (iv_content_directory st).
Proof.
  intros dsv force inv st man p Hw H Hm Hp Hn. apply iv_validate_iff in H; auto.
  destruct H as (f & h & before & Hob & _ & _ & _ & ->). cbn [iv_all_versions iv_content_directory accepted].
  assert (Hman : manifest_rule as_coded inv f) by apply Hob. destruct Hman as (Hm' & _ & _ & M4 & _ & _).
  pose proof (member_fun _ _ _ _ Hw Hm Hm') as Em. injection Em as ->.
  destruct (M4 p Hp) as [Hc (v & rest & Hv & Eq & (l & Hl & Hpl) & _)].
  assert (Hr : ~ In newline rest) by (intros Hi; apply Hn; rewrite Eq; apply in_or_app; right; right; apply in_or_app; right; now right).
  rewrite (first_line_id rest l Hr Hl) in Hpl.
  assert (Vd : exists w, version_sequence w (f_versions f)).
  { destruct Hob as (_ & _ & _ & _ & _ & _ & _ & vs & (_ & (w & Hw' & _) & _) & _). eauto. }
  destruct Vd as [w Vd]. destruct (version_sequence_digits w _ v Vd Hv) as (ds & -> & _ & Hds).
  exists (`"v" ++ ds), rest. split; [auto|]. split; [auto|]. split; [auto|]. split; [now apply digits_no_slash|]. split; [discriminate|].
  assert (Hcd : content_directory_rule as_coded inv f) by apply Hob. unfold content_directory_rule in Hcd.
  destruct (f_cdir_set f); destruct Hcd as [_ Hcd].
  - destruct Hcd as (H1 & H2 & H3). split; [auto|]. repeat split; auto.
  - rewrite Hcd. split; [simpl; intuition discriminate|]. repeat split; discriminate.
Qed.
Print Assumptions C26_inside_partial.

(** A newline hides what follows. *)
Definition escape : str := `"v1/content/x" ++ newline :: `"/../../../../etc/passwd".
Definition escaping : json :=
  inventory type11 (`"v1") [(dA, strs [escape])] [(`"v1", version_block now_ [(dA, strs [`"a"])])] [].
Theorem C26_newline_refuted : json_wf escaping /\ valid escaping None (`"1.1") /\
  exists man, member escaping (`"manifest") (JObj man) /\ In escape (listed man) /\
    exists es, elements escape es /\ In (`"..") es.
Proof.
  split; [apply json_wfb_sound; vm_compute; reflexivity|]. split; [eexists; vm_compute; reflexivity|].
  exists [(dA, strs [escape])]. split; [eexists; split; [reflexivity|simpl; tauto]|]. split; [now left|].
  exists (split_on 47 escape). split; [now apply elements_split|]. vm_compute. tauto.
Qed.
Print Assumptions C26_newline_refuted.

(** ** C27: exceptions *)

Theorem C27_no_exception_partial : forall dsv force inv, json_wf inv -> well_shaped inv ->
  exists st b, snd (iv_validate false dsv force inv) = Ok (st, b).
Proof. intros dsv force inv Hw Hs. destruct (well_shaped_safe dsv force inv Hw Hs) as [[st b] H]. eauto. Qed.
Print Assumptions C27_no_exception_partial.

Theorem C27_false_is_logged : forall lax dsv force inv st,
  snd (iv_validate lax dsv force inv) = Ok (st, false) -> (num_errors (fst (iv_validate lax dsv force inv)) >= 1)%nat.
Proof. apply iv_validate_false. Qed.
Print Assumptions C27_false_is_logged.

(** A document of the right shape that is wrong in many ways. *)
Example C27_ex : exists inv, json_wf inv /\ well_shaped inv /\ rejected inv.
Proof.
  exists (JObj [(`"id", JInt 3); (`"digestAlgorithm", JNull); (`"manifest", JNull);
    (`"versions", JObj [(`"v1", JObj [(`"state", JArr [])])])]).
  split; [apply json_wfb_sound; vm_compute; reflexivity|]. split; [|eexists; vm_compute; reflexivity].
  split; [eauto|]. split; [exists JNull; eexists; split; [reflexivity|simpl; tauto]|].
  split; [intros man [d [E Hi]]; injection E as <-; simpl in Hi; intuition discriminate|]. split.
  - intros vs v b [d [E Hi]] Hv. injection E as <-. destruct Hi as [Hi|[Hi|[Hi|[Hi|[]]]]]; try discriminate.
    injection Hi as <-. destruct Hv as [Hv|[]]. injection Hv as <- <-. split; [eauto|].
    intros st [d [E Hi]]. injection E as <-. destruct Hi as [Hi|[]]. discriminate.
  - intros fx alg block [d [E Hi]]. injection E as <-. simpl in Hi. intuition discriminate.
Qed.

Definition raises (inv : json) (e : exn) : Prop := snd (iv_validate false (`"1.1") None inv) = Raise e.

(** No manifest; a version block that is a string; a path that is not a string. *)
Theorem C27_raises_refuted :
  raises (JObj [(`"id", JStr (`"info:x")); (`"type", JStr type11); (`"digestAlgorithm", JStr (`"sha256")); (`"head", JStr (`"v1"));
    (`"versions", JObj [(`"v1", version_block now_ [(dA, strs [`"a"])])])]) TypeError /\
  raises (inventory type11 (`"v1") [] [(`"v1", JStr (`"created"))] []) TypeError /\
  raises (inventory type11 (`"v1") [] [(`"v1", JInt 1)] []) TypeError /\
  raises (inventory type11 (`"v1") [(dA, JArr [JInt 1])] [] []) AttributeError.
Proof. repeat split; vm_compute; reflexivity. Qed.
Print Assumptions C27_raises_refuted.

(** ** C28: prior versions *)

Theorem C28_exact : forall root prior fr fp hr hp sr sp dsr dsp cr cp,
  json_wf root -> json_wf prior ->
  snd (iv_validate false dsr cr root) = Ok (sr, true) -> snd (iv_validate false dsp cp prior) = Ok (sp, true) ->
  sr = accepted fr hr -> obeys as_coded root fr -> sp = accepted fp hp -> obeys as_coded prior fp ->
  (snd (validate_as_prior_version root sr prior sp) = Ok true <->
   earlier_part prior root fp fr /\
   (f_alg fp = f_alg fr -> forall v d, In v (f_versions fp) -> (has_digest prior v d <-> has_digest root v d))).
Proof. intros root prior fr fp hr hp sr sp dsr dsp cr cp Hr Hp _ _ -> Hor -> Hop. now apply prior_version_iff. Qed.
Print Assumptions C28_exact.

(** In terms of the documents only. *)
Theorem C28_sound : forall root prior sr sp dsr dsp cr cp, json_wf root -> json_wf prior ->
  snd (iv_validate false dsr cr root) = Ok (sr, true) -> snd (iv_validate false dsp cp prior) = Ok (sp, true) ->
  snd (validate_as_prior_version root sr prior sp) = Ok true ->
  incl (iv_all_versions sp) (iv_all_versions sr) /\
  (exists v, In v (iv_all_versions sr) /\ ~ In v (iv_all_versions sp)) /\
  forall v, In v (iv_all_versions sp) ->
    (forall p, has_path prior v p <-> has_path root v p) /\
    (forall p c, content_file prior v p c -> content_file root v p c).
Proof.
  intros root prior sr sp dsr dsp cr cp Hr Hp H1 H2 H. apply iv_validate_iff in H1, H2; auto.
  destruct H1 as (fr & hr & br & Hor & _ & _ & _ & ->), H2 as (fp & hp & bp & Hop & _ & _ & _ & ->).
  apply prior_version_iff in H as [H _]; auto.
Qed.
Print Assumptions C28_sound.

Lemma safe_metadata root prior fr fp v : json_wf root -> json_wf prior -> obeys as_coded root fr -> obeys as_coded prior fp ->
  incl (f_versions fp) (f_versions fr) -> In v (f_versions fp) -> safe (compare_metadata root prior v).
Proof.
  intros Hr Hp Hor Hop Hi Hv. destruct (clean_metadata root prior fr fp Hr Hp Hor Hop v tt (Hi v Hv) Hv) as [H _]. now exists tt.
Qed.

Lemma safe_prior_version root prior fr fp hr hp u v : json_wf root -> json_wf prior -> obeys as_coded root fr -> obeys as_coded prior fp ->
  incl (f_versions fp) (f_versions fr) -> In v (f_versions fp) ->
  safe (prior_version_check root (accepted fr hr) prior (accepted fp hp) u v).
Proof.
  intros Hr Hp Hor Hop Ps Hv. unfold prior_version_check. apply safe_bind.
    - apply safe_if; [|apply safe_ret]. unfold compare_states_for_version.
      destruct (obeys_state root fr v Hor (Ps _ Hv)) as [st [Est _]], (obeys_state prior fp v Hop Hv) as [st' [Est' _]].
      apply safe_bind; [eapply safe_lift, version_state_ok; eauto|]. intros a _.
      apply safe_bind; [eapply safe_lift, version_state_ok; eauto|]. intros b _.
      apply safe_wfold_any. intros [] d _. apply safe_if; [apply safe_error|]. apply safe_if; [apply safe_error|apply safe_ret].
    - intros [] _. apply safe_bind; [|intros [] _; now apply (safe_metadata root prior fr fp)].
      destruct (path_map_ok root fr v Hr Hor (Ps _ Hv)) as (mr & Er & _).
      destruct (path_map_ok prior fp v Hp Hop Hv) as (mp & Ep & _). rewrite Er, Ep.
      apply safe_bind; [eapply safe_lift; reflexivity|]. intros a Ha. apply Ok_inv in Ha. subst a.
      apply safe_bind; [eapply safe_lift; reflexivity|]. intros a Ha. apply Ok_inv in Ha. subst a. cbn zeta.
      destruct (subset (keys mp) (keys mr)) eqn:S1; cbn [negb orb].
      + apply safe_if; [apply safe_bind; [apply safe_ret|intros; apply safe_if; [apply safe_error|apply safe_ret]]|].
        apply safe_wfold_any. intros [] [k x] Hi. cbn [fst snd]. apply subset_iff in S1.
        assert (Hk : In k (keys mr)) by (apply S1, in_map_iff; exists (k, x); auto).
        destruct (dget k mr) eqn:E; [|apply dget_None in E; tauto]. apply safe_if; [apply safe_ret|apply safe_error].
      + apply safe_bind; [apply safe_error|]. intros. apply safe_if; [apply safe_error|apply safe_ret].
Qed.

(** On accepted inventories there are no exceptions. *)
Theorem C28_no_exception : forall root prior sr sp dsr dsp cr cp, json_wf root -> json_wf prior ->
  snd (iv_validate false dsr cr root) = Ok (sr, true) -> snd (iv_validate false dsp cp prior) = Ok (sp, true) ->
  exists b, snd (validate_as_prior_version root sr prior sp) = Ok b.
Proof.
  intros root prior sr sp dsr dsp cr cp Hr Hp H1 H2. apply iv_validate_iff in H1, H2; auto.
  destruct H1 as (fr & hr & br & Hor & _ & _ & _ & ->), H2 as (fp & hp & bp & Hop & _ & _ & _ & ->).
  unfold validate_as_prior_version. cbn [iv_all_versions accepted].
  destruct (proper_subset (f_versions fp) (f_versions fr)) eqn:Ps; cbn [negb]; [|eexists; reflexivity].
  apply proper_subset_iff in Ps as [Ps _].
  assert (S : safe (wfold (prior_version_check root (accepted fr hr) prior (accepted fp hp)) (f_versions fp) tt)).
  { apply safe_wfold_any. intros u v Hv. now apply safe_prior_version. }
  destruct S as [[] S]. destruct (wfold _ _ _) as [log [x|e]]; [|discriminate]. eexists. reflexivity.
Qed.
Print Assumptions C28_no_exception.

Example C28_ex : exists sr sp,
  json_wf ex_inv /\ json_wf ex_prior /\
  snd (iv_validate false (`"1.1") None ex_inv) = Ok (sr, true) /\ snd (iv_validate false (`"1.1") None ex_prior) = Ok (sp, true) /\
  snd (validate_as_prior_version ex_inv sr ex_prior sp) = Ok true /\
  snd (validate_as_prior_version ex_prior sp ex_inv sr) = Ok false.
Proof.
  eexists _, _. split; [apply json_wfb_sound; vm_compute; reflexivity|]. split; [apply json_wfb_sound; vm_compute; reflexivity|].
  split; [vm_compute; reflexivity|]. split; [vm_compute; reflexivity|]. split; vm_compute; reflexivity.
Qed.
