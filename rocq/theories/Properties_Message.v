(** C94: the text of the messages of a validation log. *)
From Verif Require Import Base Unicode LoggerModel Properties_Logger.
From Coq Require Import Permutation Sorting.Sorted.
Open Scope N_scope.

(** * Specification *)

Definition severity_of (is_error : bool) : str := if is_error then `"error" else `"warning".

(** The description that is used: in the language asked for, else in English, else in the
    language that is first in the alphabet. *)
Inductive chosen (lang severity : str) (desc : dict str) : str -> Prop :=
| ch_lang d : dget lang desc = Some d -> chosen lang severity desc d
| ch_en d : dget lang desc = None -> dget (`"en") desc = Some d -> chosen lang severity desc d
| ch_first k d : dget lang desc = None -> dget (`"en") desc = None -> dget k desc = Some d ->
    (forall k', In k' (keys desc) -> str_leb k k' = true) -> chosen lang severity desc d
| ch_none : desc = [] -> chosen lang severity desc (`"Unknown " ++ severity ++ `" without a description").

(** The value of a parameter: ??? if it is not given. *)
Definition param_value (args : dict str) (p v : str) : Prop :=
  dget p args = Some v \/ dget p args = None /\ v = `"???".

(** The description with the parameters filled in. If their number is wrong, all arguments
    are shown behind it. *)
Inductive with_params (args : dict str) (args_text d : str) : option (list str) -> str -> Prop :=
| wp_none : with_params args args_text d None d
| wp_some ps vs t : Forall2 (param_value args) ps vs -> filled d vs t -> with_params args args_text d (Some ps) t
| wp_wrong ps vs : Forall2 (param_value args) ps vs -> (forall t, ~ filled d vs t) ->
    with_params args args_text d (Some ps) (d ++ `" " ++ args_text).

Inductive described (data : dict vcode) (lang : str) (c : call) : str -> Prop :=
| de_known v desc d t : dget (c_code c) data = Some v -> vc_description v = Some desc ->
    chosen lang (severity_of (c_error c)) desc d -> with_params (c_args c) (c_text c) d (vc_params v) t ->
    described data lang c (`"[" ++ c_code c ++ `"] " ++ t)
| de_unknown : (forall v, dget (c_code c) data = Some v -> vc_description v = None) ->
    described data lang c (`"Unknown " ++ severity_of (c_error c) ++ `": " ++ c_code c ++ `" - params (" ++ c_text c ++ `")").

(** The code of the specification that a code begins with: E or W and three digits, less
    than 200. *)
Definition in_spec (code s : str) : Prop :=
  exists c a b d r x y z, code = c :: a :: b :: d :: r /\ s = [c; a; b; d] /\ (c = 69 \/ c = 87) /\
    digit_value a = Some x /\ digit_value b = Some y /\ digit_value d = Some z /\ x * 100 + y * 10 + z < 200.
Inductive linked (spec code : str) : str -> Prop :=
| li_some s : in_spec code s -> linked spec code (`" (see https://ocfl.io/" ++ spec ++ `"/spec/#" ++ s ++ `")")
| li_none : (forall s, ~ in_spec code s) -> linked spec code [].

(** * The description *)

Theorem C94_language : forall lang severity desc d, lang_desc lang severity desc = d <-> chosen lang severity desc d.
Proof.
  intros lang severity desc d. unfold lang_desc.
  assert (Hin : forall k, In k (sorted_strs (keys desc)) <-> In k (keys desc)).
  { intros k. pose proof (isort_perm str_leb (keys desc)) as P. split; apply Permutation_in; [now apply Permutation_sym|exact P]. }
  pose proof (isort_sorted str_leb str_leb_total str_leb_trans (keys desc)) as Hs. fold (sorted_strs (keys desc)) in Hs.
  destruct (dget lang desc) as [x|] eqn:E1.
  { split; [intros <-; now apply ch_lang|].
    intros [y E|y E _|k y E _ _ _|E]; rewrite ?E1 in E; try discriminate; [now injection E|]. subst desc. discriminate. }
  destruct (dget (`"en") desc) as [x|] eqn:E2.
  { split; [intros <-; now apply ch_en|].
    intros [y E|y _ E|k y _ E _ _|E]; rewrite ?E1, ?E2 in E; try discriminate; [now injection E|]. subst desc. discriminate. }
  destruct (sorted_strs (keys desc)) as [|k l] eqn:Ek.
  - assert (desc = []) as ->.
    { destruct desc as [|[k v] r]; [reflexivity|]. exfalso. apply (Hin k). now left. }
    split; [intros <-; now apply ch_none|]. intros [y E|y _ E|k y _ _ E _|_]; try discriminate. reflexivity.
  - assert (Hk : In k (keys desc)) by (apply Hin; now left).
    assert (Hm : forall k', In k' (keys desc) -> str_leb k k' = true).
    { intros k' H. apply Hin in H. apply StronglySorted_inv in Hs as [_ F]. destruct H as [<-|H].
      - now destruct (str_leb_total k k).
      - rewrite Forall_forall in F. now apply F. }
    destruct (dget k desc) as [x|] eqn:E3.
    2:{ exfalso. revert Hk E3. clear. induction desc as [|[a b] r IH]; cbn; [easy|].
        intros [->|H]; destruct (str_eqb k _) eqn:E; try discriminate; [|auto]. rewrite str_eqb_refl in E. discriminate. }
    split; [intros <-; now apply (ch_first _ _ _ k)|].
    intros [y E|y _ E|k2 y _ _ E M|E]; rewrite ?E1, ?E2 in E; try discriminate; [|now subst desc].
    assert (k = k2) as <-.
    { apply str_leb_antisym; [|now apply M]. apply Hm. apply dget_In in E. apply in_map_iff. now exists (k2, y). }
    rewrite E3 in E. now injection E.
Qed.
Print Assumptions C94_language.

(** * The message *)

Definition value_of (args : dict str) (p : str) : str := match dget p args with Some v => v | None => `"???" end.
Lemma values_of args ps : Forall2 (param_value args) ps (map (value_of args) ps).
Proof.
  induction ps as [|p ps IH]; constructor; [|exact IH]. unfold param_value, value_of. destruct (dget p args); auto.
Qed.
Lemma values_only args ps vs : Forall2 (param_value args) ps vs -> vs = map (value_of args) ps.
Proof.
  induction 1 as [|p v ps vs Hp _ IH]; [reflexivity|]. cbn [map]. rewrite <- IH. f_equal.
  unfold value_of. destruct Hp as [->|[-> ->]]; reflexivity.
Qed.
Lemma fill_with ps args tx d t : plain_format d -> (fill ps args tx d = Ok t <-> with_params args tx d ps t).
Proof.
  intros Hd. destruct ps as [ps|]; cbn [fill].
  2:{ split; [intros E; apply Ok_inv in E; subst t; constructor|]. intros W. now inversion W. }
  change (map (fun p => match dget p args with Some v => v | None => `"???" end) ps) with (map (value_of args) ps).
  pose proof (percent_format_ok d Hd (map (value_of args) ps)) as K.
  destruct (percent_format d (map (value_of args) ps)) as [u|x] eqn:F.
  - split.
    + intros E. apply Ok_inv in E. subst u. apply (wp_some _ _ _ ps _ t (values_of args ps)). now apply C33_text.
    + intros W. inversion W as [|ps' vs t' V L|ps' vs V L]; subst; apply values_only in V; subst vs.
      * apply C33_text in L. rewrite F in L. exact L.
      * exfalso. apply (L u). now apply C33_text.
  - subst x. split.
    + intros E. apply Ok_inv in E. subst t. apply (wp_wrong _ _ _ ps _ (values_of args ps)).
      intros t L. apply C33_text in L. rewrite F in L. discriminate.
    + intros W. inversion W as [|ps' vs t' V L|ps' vs V L]; subst; apply values_only in V; subst vs; [|reflexivity].
      apply C33_text in L. rewrite F in L. discriminate.
Qed.
Lemma no_percent_plain severity : severity = `"error" \/ severity = `"warning" ->
  plain_format (`"Unknown " ++ severity ++ `" without a description").
Proof. intros [-> | ->]; apply plain_no_percent; repeat constructor; discriminate. Qed.
Lemma severity_two b : severity_of b = `"error" \/ severity_of b = `"warning".
Proof. destruct b; auto. Qed.
Lemma chosen_plain data code v desc lang b d : plain_data data -> dget code data = Some v -> vc_description v = Some desc ->
  chosen lang (severity_of b) desc d -> plain_format d.
Proof.
  intros P E D [x X|x _ X|k x _ _ X _|_].
  - exact (P _ _ _ _ _ E D X).
  - exact (P _ _ _ _ _ E D X).
  - exact (P _ _ _ _ _ E D X).
  - apply no_percent_plain, severity_two.
Qed.

Theorem C94_message : forall g c m, plain_data (lg_data g) ->
  (message g (c_code c) (c_error c) (c_args c) (c_text c) = Ok m <-> described (lg_data g) (lg_lang g) c m).
Proof.
  intros g c m P. unfold message. cbv zeta. fold (severity_of (c_error c)).
  destruct (dget (c_code c) (lg_data g)) as [v|] eqn:E.
  2:{ split.
      - intros X. apply Ok_inv in X. subst m. apply de_unknown. intros v X. rewrite E in X. discriminate.
      - intros W. inversion W as [v desc d t X|]; [rewrite E in X; discriminate|reflexivity]. }
  destruct (vc_description v) as [desc|] eqn:D.
  2:{ split.
      - intros X. apply Ok_inv in X. subst m. apply de_unknown. intros v' X. rewrite E in X. injection X as <-. exact D.
      - intros W. inversion W as [v' desc d t X Y|]; [|reflexivity]. rewrite E in X. injection X as <-. rewrite D in Y. discriminate. }
  pose proof (proj1 (C94_language (lg_lang g) (severity_of (c_error c)) desc _) eq_refl) as Ch.
  pose proof (chosen_plain _ _ _ _ _ _ _ P E D Ch) as Pd.
  split.
  - destruct (fill _ _ _ _) as [t|x] eqn:F; cbn [ebind]; [|discriminate]. intros X. apply Ok_inv in X. subst m.
    apply (fill_with _ _ _ _ _ Pd) in F. exact (de_known _ _ _ _ _ _ _ E D Ch F).
  - intros W. inversion W as [v' desc' d t X Y Z T|U].
    + rewrite E in X. injection X as <-. rewrite D in Y. injection Y as <-. apply C94_language in Z. subst d.
      apply (fill_with _ _ _ _ _ Pd) in T. rewrite T. reflexivity.
    + rewrite (U v E) in D. discriminate.
Qed.
Print Assumptions C94_message.

Theorem C94_link : forall spec code l, spec_link spec code = l <-> linked spec code l.
Proof.
  assert (Fwd : forall spec code, linked spec code (spec_link spec code)).
  { intros spec code. unfold spec_link.
    destruct code as [|c [|a [|b [|d r]]]]; try (apply li_none; intros s (c' & a' & b' & d' & r' & x & y & z & X & _); discriminate).
    destruct (N.eqb c 69 || N.eqb c 87)%bool eqn:Ec.
    2:{ apply li_none. intros s (c' & a' & b' & d' & r' & x & y & z & X & _ & Hc & _). injection X as <- <- <- <- <-.
        apply orb_false_elim in Ec as [E1 E2]. apply N.eqb_neq in E1, E2. tauto. }
    assert (Hc : c = 69 \/ c = 87) by (apply orb_true_iff in Ec as [X|X]; apply N.eqb_eq in X; auto).
    destruct (digit_value a) as [x|] eqn:Ea;
      [|apply li_none; intros s (c' & a' & b' & d' & r' & x & y & z & X & _ & _ & A & B & D & _); injection X as <- <- <- <- <-; congruence].
    destruct (digit_value b) as [y|] eqn:Eb;
      [|apply li_none; intros s (c' & a' & b' & d' & r' & x' & y & z & X & _ & _ & A & B & D & _); injection X as <- <- <- <- <-; congruence].
    destruct (digit_value d) as [z|] eqn:Ed;
      [|apply li_none; intros s (c' & a' & b' & d' & r' & x' & y' & z & X & _ & _ & A & B & D & _); injection X as <- <- <- <- <-; congruence].
    destruct (N.ltb_spec (x * 100 + y * 10 + z) 200) as [L|L].
    - apply li_some. exists c, a, b, d, r, x, y, z. repeat (split; [first [reflexivity|assumption]|]). exact L.
    - apply li_none. intros s (c' & a' & b' & d' & r' & x' & y' & z' & X & _ & _ & A & B & D & M). injection X as <- <- <- <- <-.
      rewrite Ea in A. rewrite Eb in B. rewrite Ed in D. injection A as <-. injection B as <-. injection D as <-. lia. }
  intros spec code l. split; [intros <-; apply Fwd|].
  intros W. destruct (Fwd spec code) as [s Hs|Hs]; destruct W as [s' Hs'|Hs']; try (exfalso; eapply Hs; eassumption); try (exfalso; eapply Hs'; eassumption); [|reflexivity].
  destruct Hs as (c & a & b & d & r & x & y & z & -> & -> & _). destruct Hs' as (c' & a' & b' & d' & r' & x' & y' & z' & X & -> & _).
  now injection X as <- <- <- <- <-.
Qed.
Print Assumptions C94_link.

(** One call: the text with its link is the last one for its code, and is added to the
    messages if messages of this severity are kept. *)
Theorem C94_logged : forall g c g', plain_data (lg_data g) -> log_call g c = Ok g' ->
  exists m l, described (lg_data g) (lg_lang g) c m /\ linked (lg_spec g) (c_code c) l /\
    dget (c_code c) (lg_codes g') = Some (m ++ l) /\
    (forall k, k <> c_code c -> dget k (lg_codes g') = dget k (lg_codes g)) /\
    lg_messages g' = lg_messages g ++ (if (if c_error c then lg_errors g else lg_warnings g) then [m ++ l] else []).
Proof.
  intros g c g' P E. unfold log_call, log in E.
  destruct (message g (c_code c) (c_error c) (c_args c) (c_text c)) as [m|x] eqn:M; cbn [ebind] in E; [|discriminate].
  apply Ok_inv in E. subst g'. exists m, (spec_link (lg_spec g) (c_code c)). cbn [lg_codes lg_messages].
  split; [now apply (C94_message g c m P)|]. split; [now apply C94_link|].
  split; [apply dget_dset_same|]. split; [intros k Hk; now apply dget_dset_other|].
  destruct (c_error c), (lg_errors g), (lg_warnings g); cbn; now rewrite ?app_nil_r.
Qed.
Print Assumptions C94_logged.

(** * The summary: the messages in alphabetical order, one in each line *)

Lemma lines_join prefix ms : forall s, ms <> [] -> removelast (fold_left (fun s m => s ++ prefix ++ m ++ [10]) ms s) = s ++ join [10] (map (fun m => prefix ++ m) ms).
Proof.
  induction ms as [|m ms IH]; intros s H; [easy|]. destruct ms as [|m2 ms].
  - cbn [fold_left map join]. rewrite !app_assoc. apply removelast_last.
  - cbn [fold_left] in *. rewrite IH by discriminate. cbn [map join]. now rewrite <- !app_assoc.
Qed.
Theorem C94_status : forall g prefix, exists ms, Permutation (lg_messages g) ms /\ StronglySorted (fun a b => str_leb a b = true) ms /\
  status_str g prefix = join [10] (map (fun m => prefix ++ m) ms).
Proof.
  intros g prefix. exists (sorted_strs (lg_messages g)). split; [apply isort_perm|].
  split; [apply (isort_sorted str_leb str_leb_total str_leb_trans)|]. unfold status_str.
  destruct (sorted_strs (lg_messages g)) as [|m l]; [reflexivity|]. now rewrite lines_join.
Qed.
Print Assumptions C94_status.

Definition ex_data : dict vcode :=
  [(`"E001a", mkVcode (Some [`"file"; `"where"]) (Some [(`"fr", `"fichier %s"); (`"de", `"Datei %s in %s")]));
   (`"W002", mkVcode None (Some []))].
Example C94_ex :
  let g := mkLogger true true (`"1.1") (`"it") ex_data [] [] 0 0 in
  plain_data ex_data /\
  exists g', efold log_call [mkCall (`"W002") false [] []; mkCall (`"E001a") true [(`"file", `"x")] []; mkCall (`"E999") true [] (`"{}")] g = Ok g' /\
    status_str g' (`"  ") = `"  Unknown error: E999 - params ({})" ++ [10] ++
      `"  [E001a] Datei x in ??? (see https://ocfl.io/1.1/spec/#E001)" ++ [10] ++
      `"  [W002] Unknown warning without a description (see https://ocfl.io/1.1/spec/#W002)".
Proof.
  split; [|eexists; split; [reflexivity|reflexivity]].
  intros code v desc lang d Hc Hd Hl. apply dget_In in Hc. cbn in Hc.
  destruct Hc as [[= <- <-]|[[= <- <-]|[]]]; injection Hd as <-; apply dget_In in Hl; cbn in Hl;
    repeat (destruct Hl as [Hl|Hl]; [injection Hl as <- <-; repeat (first [apply pf_nil|apply pf_s|apply pf_chr; [discriminate|]])|]); destruct Hl.
Qed.
