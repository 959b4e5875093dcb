(** C33, the part about the log: what is counted does not depend on what is kept. *)
From Verif Require Import Base Unicode LoggerModel.
Open Scope N_scope.

(** Only %s and %% in a text: every message of validation-errors.json is like this. *)
Inductive plain_format : str -> Prop :=
| pf_nil : plain_format []
| pf_chr c s : c <> 37 -> plain_format s -> plain_format (c :: s)
| pf_s s : plain_format s -> plain_format (37 :: 115 :: s)
| pf_pct s : plain_format s -> plain_format (37 :: 37 :: s).
Definition plain_data (data : dict vcode) : Prop :=
  forall code v desc lang d, dget code data = Some v -> vc_description v = Some desc -> dget lang desc = Some d -> plain_format d.

Lemma percent_format_ok s : plain_format s -> forall args, match percent_format s args with Ok _ => True | Raise e => e = TypeError end.
Proof.
  induction 1 as [|c s Hc Hs IH|s Hs IH|s Hs IH]; intros args; cbn [percent_format].
  - now destruct args.
  - destruct (N.eqb_spec c 37); [contradiction|]. specialize (IH args). destruct (percent_format s args); auto.
  - cbn [N.eqb Pos.eqb]. destruct args as [|a args]; [reflexivity|]. specialize (IH args). destruct (percent_format s args); auto.
  - cbn [N.eqb Pos.eqb]. specialize (IH args). destruct (percent_format s args); auto.
Qed.

(** The text that a template and its arguments give: every %s is replaced by the next
    argument, %% is a percent sign, all arguments are used. *)
Inductive filled : str -> list str -> str -> Prop :=
| fl_nil : filled [] [] []
| fl_chr c s l t : c <> 37 -> filled s l t -> filled (c :: s) l (c :: t)
| fl_s s a l t : filled s l t -> filled (37 :: 115 :: s) (a :: l) (a ++ t)
| fl_pct s l t : filled s l t -> filled (37 :: 37 :: s) l (37 :: t).
Lemma percent_format_filled n : forall s, (length s <= n)%nat -> forall l t, percent_format s l = Ok t -> filled s l t.
Proof.
  induction n as [|n IH]; intros [|c s] L l t E; cbn [length] in L; try lia.
  - cbn in E. destruct l; [|discriminate]. apply Ok_inv in E. subst t. constructor.
  - cbn in E. destruct l; [|discriminate]. apply Ok_inv in E. subst t. constructor.
  - cbn [percent_format] in E. destruct (N.eqb_spec c 37) as [->|Hc].
    + destruct s as [|d s]; [discriminate|]. cbn [length] in L.
      destruct (N.eqb_spec d 115) as [->|Hd].
      * destruct l as [|a l]; [discriminate|]. destruct (percent_format s l) as [u|] eqn:F; [|discriminate].
        apply Ok_inv in E. subst t. apply fl_s, IH; [lia|exact F].
      * destruct (N.eqb_spec d 37) as [->|Hp]; [|discriminate]. destruct (percent_format s l) as [u|] eqn:F; [|discriminate].
        apply Ok_inv in E. subst t. apply fl_pct, IH; [lia|exact F].
    + destruct (percent_format s l) as [u|] eqn:F; [|discriminate]. apply Ok_inv in E. subst t.
      constructor; [exact Hc|]. apply IH; [lia|exact F].
Qed.
Theorem C33_text : forall s l t, percent_format s l = Ok t <-> filled s l t.
Proof.
  intros s l t. split; [apply (percent_format_filled (length s)); lia|].
  induction 1 as [|c s l t Hc Hf IH|s a l t Hf IH|s l t Hf IH]; cbn [percent_format]; [reflexivity| | |].
  - destruct (N.eqb_spec c 37); [contradiction|]. now rewrite IH.
  - cbn [N.eqb Pos.eqb]. now rewrite IH.
  - cbn [N.eqb Pos.eqb]. now rewrite IH.
Qed.
Print Assumptions C33_text.
Example C33_text_ex : filled (`"%s is 5%% of %s") [`"a"; `"b"] (`"a is 5% of b").
Proof. now apply C33_text. Qed.

Lemma plain_no_percent s : Forall (fun c => c <> 37) s -> plain_format s.
Proof. induction 1; constructor; auto. Qed.

Lemma log_ok g c : plain_data (lg_data g) -> exists g', log_call g c = Ok g' /\ lg_data g' = lg_data g /\ lg_warnings g' = lg_warnings g /\
  lg_errors g' = lg_errors g /\ lg_lang g' = lg_lang g /\
  lg_num_errors g' = lg_num_errors g + (if c_error c then 1 else 0) /\
  lg_num_warnings g' = lg_num_warnings g + (if c_error c then 0 else 1) /\
  keys (lg_codes g') = keys (dset (c_code c) [] (lg_codes g)) /\
  List.length (lg_messages g') = (List.length (lg_messages g) + if (if c_error c then lg_errors g else lg_warnings g) then 1 else 0)%nat.
Proof.
  intros H. destruct c as [code e args text]. unfold log_call, log. cbn [c_code c_error c_args c_text].
  assert (Hm : exists m, message g code e args text = Ok m).
  { unfold message. destruct (dget code (lg_data g)) as [v|] eqn:Ev; [|eauto]. destruct (vc_description v) as [desc|] eqn:Ed; [|eauto].
    unfold fill. destruct (vc_params v) as [l|]; [|eexists; reflexivity]. cbn [ebind].
    set (d := lang_desc (lg_lang g) (if e then `"error" else `"warning") desc).
    assert (Hd : plain_format d).
    { unfold d, lang_desc. destruct (dget (lg_lang g) desc) eqn:E1; [eapply H; eauto|]. destruct (dget (`"en") desc) eqn:E2; [eapply H; eauto|].
      destruct (sorted_strs (keys desc)) as [|k r].
      - apply plain_no_percent. destruct e; repeat constructor; discriminate.
      - destruct (dget k desc) eqn:E3; [eapply H; eauto|constructor]. }
    pose proof (percent_format_ok d Hd (map (fun p => match dget p args with Some v0 => v0 | None => `"???" end) l)) as Hf.
    destruct (percent_format d _) as [x|x]; [eexists; reflexivity|]. subst x. eexists; reflexivity. }
  destruct Hm as [m ->]. cbn [ebind]. eexists. split; [reflexivity|]. cbn. repeat split.
  - destruct e; lia.
  - destruct e; lia.
  - exact (eq_trans (keys_dset code _ _) (eq_sym (keys_dset code _ _))).
  - destruct e; cbn; [destruct (lg_errors g)|destruct (lg_warnings g)]; cbn; rewrite ?app_length; cbn; lia.
Qed.

(** The numbers of errors and warnings are those of the calls, whatever is kept and in
    whatever language; the codes recorded are the same; the messages kept are those asked
    for. *)
Theorem C33_log : forall calls g,
  plain_data (lg_data g) ->
  let errors := List.length (filter c_error calls) in
  let warnings := (List.length calls - errors)%nat in
  exists g', efold log_call calls g = Ok g' /\
    lg_num_errors g' = lg_num_errors g + N.of_nat errors /\
    lg_num_warnings g' = lg_num_warnings g + N.of_nat warnings /\
    (forall code, In code (keys (lg_codes g')) <-> In code (keys (lg_codes g)) \/ In code (map c_code calls)) /\
    List.length (lg_messages g') = (List.length (lg_messages g) + (if lg_errors g then errors else 0) + (if lg_warnings g then warnings else 0))%nat.
Proof.
  induction calls as [|c r IH]; intros g H; cbn [efold].
  - exists g. cbn. repeat split; try lia; [|tauto|]; try (destruct (lg_errors g), (lg_warnings g); lia). tauto.
  - destruct (log_ok g c H) as (g1 & E & D & W & R & L & NE & NW & K & M). rewrite E. cbn [ebind].
    destruct (IH g1) as (g' & E' & NE' & NW' & K' & M'); [now rewrite D|]. exists g'. split; [exact E'|].
    assert (Hle : (List.length (filter c_error r) <= List.length r)%nat) by (clear; induction r as [|x r IH]; cbn; [lia|destruct (c_error x); cbn; lia]).
    rewrite NE', NW', NE, NW, M', M, W, R. cbn [filter List.length].
    split; [destruct (c_error c); cbn [List.length]; lia|]. split; [destruct (c_error c); cbn [List.length]; lia|]. split.
    + intros code. rewrite K', K, In_keys_dset. cbn [map In]. intuition (subst; auto).
    + destruct (c_error c); cbn [List.length]; destruct (lg_errors g), (lg_warnings g); lia.
Qed.
Print Assumptions C33_log.

(** Two runs with the same calls but other options. *)
Corollary C33_log_options : forall calls g1 g2 g1' g2',
  plain_data (lg_data g1) -> plain_data (lg_data g2) ->
  lg_num_errors g1 = lg_num_errors g2 -> lg_num_warnings g1 = lg_num_warnings g2 ->
  efold log_call calls g1 = Ok g1' -> efold log_call calls g2 = Ok g2' ->
  lg_num_errors g1' = lg_num_errors g2' /\ lg_num_warnings g1' = lg_num_warnings g2' /\ lg_num_errors g1 <= lg_num_errors g1'.
Proof.
  intros calls g1 g2 g1' g2' H1 H2 E W R1 R2.
  destruct (C33_log calls g1 H1) as (x & X & XE & XW & _). destruct (C33_log calls g2 H2) as (y & Y & YE & YW & _).
  rewrite R1 in X. rewrite R2 in Y. apply Ok_inv in X, Y. subst x y. rewrite XE, XW, YE, YW, E, W. repeat split; lia.
Qed.
Print Assumptions C33_log_options.
Example C33_log_ex :
  let data := [(`"E001a", mkVcode (Some [`"file"]) (Some [(`"en", `"unexpected file: %s")]));
               (`"W002", mkVcode None (Some [(`"en", `"extra directory")]))] in
  let g := mkLogger false true (`"1.1") (`"fr") data [] [] 0 0 in
  plain_data data /\
  exists g', efold log_call [mkCall (`"E001a") true [(`"file", `"x")] []; mkCall (`"W002") false [] []] g = Ok g' /\
    lg_messages g' = [`"[E001a] unexpected file: x (see https://ocfl.io/1.1/spec/#E001)"] /\ lg_num_errors g' = 1 /\ lg_num_warnings g' = 1.
Proof.
  split; [|eexists; split; [reflexivity|repeat split]].
  intros code v desc lang d Hc Hd Hl. apply dget_In in Hc. cbn in Hc.
  destruct Hc as [[= <- <-]|[[= <- <-]|[]]]; injection Hd as <-; apply dget_In in Hl; destruct Hl as [[= <- <-]|[]];
    repeat (first [apply pf_nil|apply pf_s|apply pf_chr; [discriminate|]]).
Qed.
