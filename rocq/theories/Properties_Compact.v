(** C93: compactify_spec_examples.py. *)
From Verif Require Import Base Unicode Regex Json JsonTextModel ObjectUtilsModel CompactModel.
Open Scope N_scope.

(** * What is meant

    [replaced P s t]: t is s with every text a for which P a b, taken from left to right and
    never overlapping, replaced by b, and nothing else changed. *)
Inductive replaced (P : str -> str -> Prop) : str -> str -> Prop :=
| rp_end : replaced P [] []
| rp_here a b s t : P a b -> replaced P s t -> replaced P (a ++ s) (b ++ t)
| rp_not x s t : (forall a b r, x :: s = a ++ r -> ~ P a b) -> replaced P s t -> replaced P (x :: s) (x :: t).

(** sha512-spec-ex is written as sha512 *)
Definition plain_name (a b : str) : Prop := a = `"sha512-spec-ex" /\ b = `"sha512".
(** a digest of 128 characters in quotation marks is written with its first six characters, three
    dots and its last three *)
Definition digest_character (c : N) : Prop := is_digit c = true \/ 97 <= c <= 102.
Definition shorter_digest (a b : str) : Prop := exists first middle last,
  a = [34] ++ first ++ middle ++ last ++ [34] /\ b = [34] ++ first ++ `"..." ++ last ++ [34] /\
  List.length first = 6%nat /\ List.length middle = 119%nat /\ List.length last = 3%nat /\ Forall digest_character (first ++ middle ++ last).
(** a text without its white space *)
Definition no_space (s : str) : str := filter (fun c => negb (is_space c)) s.

(** There is only one such text. *)
Section Fun.
  Variable P : str -> str -> Prop.
  Hypothesis fits : forall a b a' b' r r', P a b -> P a' b' -> a ++ r = a' ++ r' -> a = a' /\ b = b'.
  Hypothesis nonempty : forall b, ~ P [] b.
  Lemma replaced_fun s t t' : replaced P s t -> replaced P s t' -> t = t'.
  Proof using fits nonempty.
    intro R. revert t'. induction R as [|a b s t Pa R IH|x s t Nx R IH]; intros t' R'.
    - inversion R' as [|a b s t Pa R E|]; subst; [reflexivity|]. apply app_eq_nil in E as [-> _]. now destruct (nonempty b).
    - inversion R' as [E1 E2|a' b' s' u Pa' R2 E|x s' u Nx R2 E].
      + apply app_eq_nil in E1 as [-> _] || (symmetry in E1; apply app_eq_nil in E1 as [-> _]). now destruct (nonempty b).
      + destruct (fits _ _ _ _ _ _ Pa' Pa E) as [-> ->]. apply app_inv_head in E. subst s'. now rewrite (IH u R2).
      + now destruct (Nx a b s (eq_sym (eq_sym E))).
    - inversion R' as [|a' b' s' u Pa' R2 E|x' s' u Nx' R2]; subst.
      + now destruct (Nx a' b' s' (eq_sym E)).
      + now rewrite (IH u R2).
  Qed.
End Fun.

(** * re.sub *)
Section Sub.
  Variables (r : re) (repl : caps -> str).
  Hypothesis some : forall x rest c, Den r x rest [] c -> x <> [].
  Lemma sub_replaced (P : str -> str -> Prop) s : (forall x rest c, Den r x rest [] c -> P x (repl c)) -> (forall x b rest, P x b -> exists c, Den r x rest [] c) ->
    replaced P s (re_sub r repl s).
  Proof using some.
    intros Hs Hc. unfold re_sub. assert (L : (List.length s < S (List.length s))%nat) by lia. revert L. generalize (S (List.length s)) as f. intro f. revert s.
    induction f as [|f IH]; intros s L; [lia|]. cbn [re_sub_in]. destruct (rmatch r s [] _) as [[rest c]|] eqn:E.
    - apply rmatch_sound in E as (x & rest' & c' & -> & D & [= -> ->]). apply rp_here; [eapply Hs; eauto|]. apply IH. pose proof (some _ _ _ D) as Nx.
      rewrite app_length in L. destruct x; [congruence|]. cbn in L. lia.
    - destruct s as [|x s]; [constructor|]. apply rp_not; [|apply IH; cbn in L; lia]. intros a b t Es Pa. destruct (Hc a b t Pa) as [c D].
      rewrite Es in E. revert E. eapply rmatch_complete; [exact D|discriminate].
  Qed.
  Lemma sub_spaces s : (forall x rest c, Den r x rest [] c -> no_space (repl c) = no_space x) -> no_space (re_sub r repl s) = no_space s.
  Proof using some.
    intro Hs. unfold re_sub. assert (L : (List.length s < S (List.length s))%nat) by lia. revert L. generalize (S (List.length s)) as f. intro f. revert s.
    induction f as [|f IH]; intros s L; [lia|]. cbn [re_sub_in]. destruct (rmatch r s [] _) as [[rest c]|] eqn:E.
    - apply rmatch_sound in E as (x & rest' & c' & -> & D & [= -> ->]). pose proof (some _ _ _ D) as Nx. unfold no_space in *. rewrite !filter_app. f_equal; [eapply Hs; eauto|]. apply IH.
      rewrite app_length in L. destruct x; [congruence|]. cbn in L. lia.
    - destruct s as [|x s]; [reflexivity|]. unfold no_space in *. cbn [filter]. rewrite IH by (cbn in L; lia). reflexivity.
  Qed.
End Sub.

(** * The patterns *)
Lemma no_space_app a b : no_space (a ++ b) = no_space a ++ no_space b.
Proof. apply filter_app. Qed.
Lemma no_space_spaces s : Forall (fun a => is_space a = true) s -> no_space s = [].
Proof. intro F. induction F as [|x s Hx F IH]; [reflexivity|]. unfold no_space in *. cbn [filter]. now rewrite Hx. Qed.
Lemma Den_char k x rest c c' : Den (rchar k) x rest c c' <-> x = [k] /\ c' = c.
Proof.
  unfold rchar. rewrite Den_chr. split; [intros (a & -> & E & ->); apply N.eqb_eq in E; now subst a|intros [-> ->]; exists k; now rewrite N.eqb_refl].
Qed.
Lemma group_here n x c : group_or_nil n ((n, x) :: c) = x.
Proof. unfold group_or_nil. cbn [group]. now rewrite Nat.eqb_refl. Qed.
Lemma group_next n k x c : n <> k -> group_or_nil n ((k, x) :: c) = group_or_nil n c.
Proof. intro Hn. unfold group_or_nil. cbn [group]. apply Nat.eqb_neq in Hn. now rewrite Hn. Qed.
Lemma hexish c : is_hexish c = true <-> digest_character c.
Proof.
  unfold is_hexish, digest_character. rewrite orb_true_iff, andb_true_iff, !N.leb_le. reflexivity.
Qed.
Lemma hexish_all s : Forall (fun a => is_hexish a = true) s <-> Forall digest_character s.
Proof. split; intro F; (eapply Forall_impl; [|exact F]); intro a; apply hexish. Qed.

Lemma den_digest x rest c' : Den re_long_digest x rest [] c' <-> exists f m l, x = [34] ++ f ++ m ++ l ++ [34] /\
  c' = [(3%nat, l); (2%nat, m); (1%nat, f)] /\ List.length f = 6%nat /\ List.length m = 119%nat /\ List.length l = 3%nat /\ Forall digest_character (f ++ m ++ l).
Proof.
  unfold re_long_digest. split.
  - intro D. apply Den_seq in D as (q1 & y1 & c1 & -> & D1 & D). apply Den_char in D1 as [-> ->].
    apply Den_seq in D as (f & y2 & c2 & -> & D2 & D). apply Den_grp in D2 as (c2' & -> & D2). apply Den_rep_chr in D2 as (L2 & F2 & ->).
    apply Den_seq in D as (m & y3 & c3 & -> & D3 & D). apply Den_grp in D3 as (c3' & -> & D3). apply Den_rep_chr in D3 as (L3 & F3 & ->).
    apply Den_seq in D as (l & y4 & c4 & -> & D4 & D). apply Den_grp in D4 as (c4' & -> & D4). apply Den_rep_chr in D4 as (L4 & F4 & ->).
    apply Den_char in D as [-> ->]. exists f, m, l. repeat (split; [first [assumption|reflexivity]|]).
    rewrite !Forall_app, <- !hexish_all. tauto.
  - intros (f & m & l & -> & -> & L2 & L3 & L4 & F). rewrite !Forall_app, <- !hexish_all in F. destruct F as (F2 & F3 & F4).
    apply Den_seq. exists [34], (f ++ m ++ l ++ [34]), []. split; [reflexivity|]. split; [now apply Den_char|].
    apply Den_seq. exists f, (m ++ l ++ [34]), [(1%nat, f)]. split; [reflexivity|]. split; [apply Den_grp; eexists; split; [reflexivity|now apply Den_rep_chr]|].
    apply Den_seq. exists m, (l ++ [34]), [(2%nat, m); (1%nat, f)]. split; [reflexivity|]. split; [apply Den_grp; eexists; split; [reflexivity|now apply Den_rep_chr]|].
    apply Den_seq. exists l, [34], [(3%nat, l); (2%nat, m); (1%nat, f)]. split; [reflexivity|]. split; [apply Den_grp; eexists; split; [reflexivity|now apply Den_rep_chr]|now apply Den_char].
Qed.
Lemma den_open x rest c' : Den re_open x rest [] c' -> x <> [] /\ no_space x = [91; 34].
Proof.
  unfold re_open. intro D. apply Den_seq in D as (a & y1 & c1 & -> & D1 & D). apply Den_plus_chr in D1 as (Na & Fa & ->).
  apply Den_seq in D as (b & y2 & c2 & -> & D2 & D). apply Den_char in D2 as [-> ->].
  apply Den_seq in D as (d & y3 & c3 & -> & D3 & D). apply Den_plus_chr in D3 as (Nd & Fd & ->). apply Den_char in D as [-> ->].
  split; [destruct a; [congruence|discriminate]|]. rewrite !no_space_app, (no_space_spaces a Fa), (no_space_spaces d Fd). reflexivity.
Qed.
Lemma den_close x rest c' : Den re_close x rest [] c' -> x <> [] /\ no_space ([34; 32; 93] ++ group_or_nil 1 c' ++ [125] ++ group_or_nil 2 c') = no_space x.
Proof.
  unfold re_close. intro D. apply Den_seq in D as (a & y1 & c1 & -> & D1 & D). apply Den_char in D1 as [-> ->].
  apply Den_seq in D as (b & y2 & c2 & -> & D2 & D). apply Den_plus_chr in D2 as (Nb & Fb & ->).
  apply Den_seq in D as (d & y3 & c3 & -> & D3 & D). apply Den_char in D3 as [-> ->].
  apply Den_seq in D as (g & y4 & c4 & -> & D4 & D). apply Den_grp in D4 as (c4' & -> & D4). apply Den_plus_chr in D4 as (Ng & Fg & ->).
  apply Den_seq in D as (h & y5 & c5 & -> & D5 & D). apply Den_char in D5 as [-> ->].
  split; [discriminate|]. unfold ropt in D. apply Den_alt in D as [D|D].
  - apply Den_grp in D as (c6 & -> & D). apply Den_char in D as [-> ->]. rewrite (group_next 1 2), !group_here by discriminate. rewrite !no_space_app, (no_space_spaces b Fb), (no_space_spaces g Fg). reflexivity.
  - apply Den_emp in D as [-> ->]. rewrite group_here, (group_next 2 1) by discriminate. change (group_or_nil 2 []) with (@nil N). rewrite !no_space_app, (no_space_spaces b Fb), (no_space_spaces g Fg). reflexivity.
Qed.
Lemma den_end x rest c' : Den re_end x rest [] c' -> x <> [] /\ no_space x = [93; 44].
Proof.
  unfold re_end. intro D. apply Den_seq in D as (a & y1 & c1 & -> & D1 & D). apply Den_plus_chr in D1 as (Na & Fa & ->).
  apply Den_seq in D as (b & y2 & c2 & -> & D2 & D). apply Den_char in D2 as [-> ->]. apply Den_char in D as [-> ->].
  split; [destruct a; [congruence|discriminate]|]. rewrite !no_space_app, (no_space_spaces a Fa). reflexivity.
Qed.
Lemma den_entry x rest c' : Den re_entry x rest [] c' -> x <> [] /\ no_space (group_or_nil 1 c' ++ [32]) = no_space x.
Proof.
  unfold re_entry. intro D. apply Den_seq in D as (a & y1 & c1 & -> & D1 & D). apply Den_grp in D1 as (c1' & -> & D1). apply Den_plus_chr in D as (Ny & Fy & ->).
  split; [destruct a; [destruct y1; [congruence|discriminate]|discriminate]|]. rewrite group_here, !no_space_app, (no_space_spaces y1 Fy). reflexivity.
Qed.

(** * C93 *)

(** sha512-spec-ex and long digests are replaced as described; of the rest nothing but white space
    is changed, and one line end is added. *)
Theorem C93_partial : forall t, exists t1 t2, replaced plain_name t t1 /\ replaced shorter_digest t1 t2 /\
  no_space (compactify t) = no_space t2.
Proof.
  intro t. unfold compactify. set (t1 := re_sub (rlit _) _ t). set (t2 := re_sub re_long_digest _ t1). exists t1, t2. split; [|split].
  - unfold t1. apply sub_replaced.
    + intros x rest c D. apply Den_lit in D as [-> _]. discriminate.
    + intros x rest c D. apply Den_lit in D as [-> _]. now split.
    + intros x b rest [-> _]. exists []. now apply Den_lit.
  - unfold t2. apply sub_replaced.
    + intros x rest c D. apply den_digest in D as (f & m & l & -> & _). discriminate.
    + intros x rest c D. apply den_digest in D as (f & m & l & -> & -> & K). exists f, m, l. split; [reflexivity|]. split; [|exact K].
      rewrite (group_next 1 3), (group_next 1 2), !group_here by discriminate. reflexivity.
    + intros x b rest (f & m & l & -> & _ & K). eexists. apply den_digest. exists f, m, l. split; [reflexivity|]. split; [reflexivity|exact K].
  - clearbody t2. rewrite no_space_app. change (no_space [10]) with (@nil N). rewrite app_nil_r.
    rewrite sub_spaces; [| |]; [|intros x rest c D; now apply den_entry in D|intros x rest c D; now apply den_entry in D].
    rewrite sub_spaces; [| |]; [|intros x rest c D; now apply den_end in D|intros x rest c D; apply den_end in D as [_ ->]; reflexivity].
    rewrite sub_spaces; [| |]; [|intros x rest c D; now apply den_close in D|intros x rest c D; now apply den_close in D].
    rewrite sub_spaces; [| |]; [|intros x rest c D; now apply den_open in D|intros x rest c D; apply den_open in D as [_ ->]; reflexivity].
    reflexivity.
Qed.
Print Assumptions C93_partial.

(** The texts of the theorem are determined by the text read. *)
Lemma plain_name_fun s t t' : replaced plain_name s t -> replaced plain_name s t' -> t = t'.
Proof.
  apply replaced_fun.
  - intros a b a' b' r r' [-> ->] [-> ->] _. now split.
  - intros b [E _]. discriminate E.
Qed.
Lemma split_same {A} (a b c d : list A) : List.length a = List.length c -> a ++ b = c ++ d -> a = c /\ b = d.
Proof.
  revert c. induction a as [|x a IH]; intros [|y c] L E; try discriminate L; [now split|]. cbn in L, E. injection E as -> E. injection L as L. destruct (IH c L E) as [-> ->]. now split.
Qed.
Lemma shorter_digest_fun s t t' : replaced shorter_digest s t -> replaced shorter_digest s t' -> t = t'.
Proof.
  apply replaced_fun.
  - intros a b a' b' r r' (f & m & l & -> & -> & L1 & L2 & L3 & _) (f' & m' & l' & -> & -> & L1' & L2' & L3' & _) E. cbn [app] in E. injection E as E. rewrite <- !app_assoc in E.
    apply split_same in E as [-> E]; [|congruence]. apply split_same in E as [-> E]; [|congruence]. apply split_same in E as [-> _]; [|congruence]. now split.
  - intros b (f & m & l & E & _). discriminate E.
Qed.
Theorem C93_determined : forall t t1 t2 t1' t2', replaced plain_name t t1 -> replaced shorter_digest t1 t2 -> replaced plain_name t t1' -> replaced shorter_digest t1' t2' -> t1 = t1' /\ t2 = t2'.
Proof. intros t t1 t2 t1' t2' R1 R2 R1' R2'. rewrite (plain_name_fun _ _ _ R1' R1) in *. split; [reflexivity|]. eapply shorter_digest_fun; eauto. Qed.
Print Assumptions C93_determined.

(** A text without white space is written with these replacements and nothing else, and two texts
    that differ in white space only are written with a difference in white space only. *)
Theorem C93_rest : forall t t1 t2, replaced plain_name t t1 -> replaced shorter_digest t1 t2 -> no_space (compactify t) = no_space t2.
Proof. intros t t1 t2 R1 R2. destruct (C93_partial t) as (u1 & u2 & U1 & U2 & E). destruct (C93_determined _ _ _ _ _ R1 R2 U1 U2) as [_ ->]. exact E. Qed.
Print Assumptions C93_rest.

(** ** Findings *)
Definition ex_digest (c d : N) : str := [34] ++ repeat c 122 ++ [d; c; c] ++ repeat c 3 ++ [34].

(** The description in lines 4-6 says that the last six characters of a digest are kept. Only three
    are: digests that differ in the sixth character from the end are written as the same text. *)
Theorem C93_last_refuted : ex_digest 97 98 <> ex_digest 97 99 /\ compactify (ex_digest 97 98) = compactify (ex_digest 97 99) /\
  compactify (ex_digest 97 98) = [34] ++ `"aaaaaa...aaa" ++ [34; 10].
Proof. split; [intro E; apply (f_equal (fun l => nth 123 l 0)) in E; discriminate E|]. split; vm_compute; reflexivity. Qed.

(** White space in the strings of an inventory is changed as well: a message that ends with a
    bracket in white space is another message afterwards. *)
Definition ex_message (m : str) : str := `"{" ++ [34] ++ `"m" ++ [34] ++ `": " ++ [34] ++ m ++ [34] ++ `"}".
Theorem C93_strings_refuted : json_loads (ex_message (`"see  [  ")) = Ok (JObj [(`"m", JStr (`"see  [  "))]) /\
  json_loads (compactify (ex_message (`"see  [  "))) = Ok (JObj [(`"m", JStr (`"see [ "))]).
Proof. split; vm_compute; reflexivity. Qed.

(** Of an array with three entries only the first two are put on one line. *)
Definition quoted (s : str) : str := [34] ++ s ++ [34].
Theorem C93_entries_refuted :
  compactify (`"x: [" ++ [10; 32] ++ quoted (`"a") ++ [44; 10; 32] ++ quoted (`"b") ++ [44; 10; 32] ++ quoted (`"c") ++ [10] ++ `"],") =
  `"x: [ " ++ quoted (`"a") ++ `", " ++ quoted (`"b") ++ [44; 10; 32] ++ quoted (`"c") ++ `" ]," ++ [10].
Proof. vm_compute. reflexivity. Qed.

(** A case of all of it: a manifest with one digest, before and after. *)
Example C93_ex :
  compactify (`"{ " ++ quoted (`"digestAlgorithm") ++ `": " ++ quoted (`"sha512-spec-ex") ++ [44; 10] ++ ex_digest 97 98 ++ `": [" ++ [10; 32; 32] ++ quoted (`"v1/content/a") ++ [10; 32] ++ `"]" ++ [10] ++ `"}") =
  `"{ " ++ quoted (`"digestAlgorithm") ++ `": " ++ quoted (`"sha512") ++ [44; 10] ++ quoted (`"aaaaaa...aaa") ++ `": [ " ++ quoted (`"v1/content/a") ++ `" ]" ++ [10] ++ `"}" ++ [10].
Proof. vm_compute. reflexivity. Qed.
