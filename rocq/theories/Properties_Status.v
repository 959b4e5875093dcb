(** C100 the table of codes that extract_codes.py makes *)
From Verif Require Import Base StatusModel.
From Coq Require Import Lia Permutation.

(** * What the table is to say *)

Definition suffix_of (x : impl_line) : str := match i_suffix x with Some s => s | None => [] end.
(** a line about this code and suffix *)
Definition about (name suffix : str) (x : impl_line) : Prop := i_code x = name /\ suffix_of x = suffix.
(** the last line that has something to say *)
Inductive last_said {A B} (says : A -> B -> Prop) : list A -> B -> Prop :=
| LastSaid : forall before x after b, says x b -> (forall y, In y after -> forall b', ~ says y b') -> last_said says (before ++ x :: after) b.

Lemma last_said_snoc {A B} (says : A -> B -> Prop) l x b : says x b -> last_said says (l ++ [x]) b.
Proof. intros E. constructor; [exact E|]. intros y []. Qed.
Lemma last_said_more {A B} (says : A -> B -> Prop) l x b : (forall b', ~ says x b') -> last_said says l b -> last_said says (l ++ [x]) b.
Proof.
  intros N L. destruct L as [l1 y l2 b E F]. rewrite <- app_assoc. cbn [app]. constructor; [exact E|].
  intros z Hz. apply in_app_or in Hz as [Hz|[<-|[]]]; auto.
Qed.

(** * The codes *)

Definition spec_says (name : str) (x : spec_line) (b : str) : Prop := x = (name, b).
Definition impl_says (name suffix : str) (x : impl_line) (b : str) : Prop := about name suffix x /\ i_text x = Some b.

(** what is known of the description of a code of the specification *)
Definition spec_ok (specs : list spec_line) (name : str) (d : option str) : Prop :=
  match d with Some t => last_said (spec_says name) specs t | None => forall t, ~ In (name, t) specs end.
Definition cell_ok (impls : list impl_line) (name suffix : str) (x : option cell) : Prop :=
  match x with
  | None => forall y, In y impls -> ~ about name suffix y
  | Some x => (exists y, In y impls /\ about name suffix y) /\ NoDup (c_links x) /\
      (forall l, In l (c_links x) <-> exists y, In y impls /\ about name suffix y /\ i_link y = Some l) /\
      match c_desc x with Some t => last_said (impl_says name suffix) impls t | None => forall y, In y impls -> about name suffix y -> i_text y = None end
  end.
Definition code_ok (specs : list spec_line) (impls : list impl_line) (name : str) (c : option code) : Prop :=
  match c with
  | None => (forall t, ~ In (name, t) specs) /\ forall y, In y impls -> i_code y <> name
  | Some c => k_name c = name /\ ((exists t, In (name, t) specs) \/ exists y, In y impls /\ i_code y = name) /\ spec_ok specs name (k_desc c) /\ forall suffix, cell_ok impls name suffix (dget suffix (k_suffixes c))
  end.

Lemma specs_ok specs : forall name,
  match dget name (fold_left (fun d x => add_spec (fst x) (snd x) d) specs []) with
  | None => forall t, ~ In (name, t) specs
  | Some c => k_name c = name /\ (exists t, k_desc c = Some t /\ last_said (spec_says name) specs t) /\ k_suffixes c = []
  end.
Proof.
  induction specs as [|[n t] specs IH] using rev_ind; intros name; [cbn; auto|].
  rewrite fold_left_app. cbn [fold_left fst snd]. unfold add_spec at 1. destruct (str_eqb_spec name n) as [<-|Hn].
  - rewrite dget_dset_same. split; [reflexivity|]. split; [|reflexivity]. exists t. split; [reflexivity|]. apply last_said_snoc. reflexivity.
  - rewrite dget_dset_other by auto. specialize (IH name). destruct (dget name _) as [c|].
    + destruct IH as (E1 & (t' & E2 & E3) & E4). split; [exact E1|]. split; [|exact E4]. exists t'. split; [exact E2|]. apply last_said_more; [|exact E3].
      intros b' E. unfold spec_says in E. congruence.
    + intros t' Hin. apply in_app_or in Hin as [Hin|[E|[]]]; [now apply IH in Hin|congruence].
Qed.

Lemma set_add_in x l y : In y (set_add x l) <-> y = x \/ In y l.
Proof.
  unfold set_add. destruct (str_in x l) eqn:E.
  - apply str_in_true in E. split; [auto|intros [->|K]; auto].
  - rewrite in_app_iff. cbn. intuition congruence.
Qed.
Lemma set_add_nodup x l : NoDup l -> NoDup (set_add x l).
Proof.
  intros N. unfold set_add. destruct (str_in x l) eqn:E; [exact N|]. apply NoDup_rev in N. rewrite <- (rev_involutive (l ++ [x])). apply NoDup_rev.
  rewrite rev_app_distr. cbn. constructor; [|exact N]. rewrite <- in_rev. intros K. apply str_in_true in K. congruence.
Qed.

(** For each code: it is in the table exactly if some line is about it, with the last description
    of the specification if there is one; and for each suffix the links given, each once, and
    the last text given. *)
Theorem C100_codes : forall specs impls name, code_ok specs impls name (dget name (all_codes specs impls)).
Proof.
  intros specs impls. unfold all_codes. induction impls as [|x impls IH] using rev_ind; intros name.
  - cbn [fold_left]. pose proof (specs_ok specs name) as K. destruct (dget name _) as [c|]; cbn [code_ok].
    + destruct K as (E1 & (t & E2 & E3) & E4). rewrite E2, E4. split; [exact E1|]. split; [left; exists t; destruct E3 as [b0 x a t E _]; unfold spec_says in E; subst x; apply in_or_app; right; now left|]. cbn. auto.
    + split; [exact K|]. intros y [].
  - rewrite fold_left_app. cbn [fold_left]. set (d := fold_left _ impls _) in *. unfold add_impl.
    destruct (str_eqb_spec name (i_code x)) as [->|Hn].
    + rewrite dget_dset_same. specialize (IH (i_code x)). set (c := match dget (i_code x) d with Some c => c | None => mk_code (i_code x) None [] end).
      assert (K : k_name c = i_code x /\ spec_ok specs (i_code x) (k_desc c) /\ forall suffix, cell_ok impls (i_code x) suffix (dget suffix (k_suffixes c))).
      { unfold c. destruct (dget (i_code x) d) as [c0|]; [cbn in IH; tauto|]. cbn in IH |- *. destruct IH as [I1 I2]. split; [reflexivity|]. split; [exact I1|].
        intros suffix y Hy [E _]. now apply (I2 y Hy). }
      clearbody c. clear IH. destruct K as (K1 & K2 & K3). cbn [code_ok add_suffix k_name k_desc k_suffixes]. fold (suffix_of x). split; [exact K1|].
      split; [right; exists x; split; [apply in_or_app; right; now left|reflexivity]|]. split; [exact K2|].
      intros suffix. specialize (K3 suffix). destruct (str_eqb_spec suffix (suffix_of x)) as [->|Hs].
      * rewrite dget_dset_same. set (o := match dget (suffix_of x) (k_suffixes c) with Some x0 => x0 | None => mk_cell [] None end).
        assert (Ax : about (i_code x) (suffix_of x) x) by (split; reflexivity).
        assert (L : NoDup (c_links o) /\ (forall l, In l (c_links o) <-> exists y, In y impls /\ about (i_code x) (suffix_of x) y /\ i_link y = Some l) /\
          match c_desc o with Some t => last_said (impl_says (i_code x) (suffix_of x)) impls t | None => forall y, In y impls -> about (i_code x) (suffix_of x) y -> i_text y = None end).
        { unfold o. destruct (dget (suffix_of x) (k_suffixes c)) as [x0|]; cbn [cell_ok] in K3; [destruct K3 as (_ & A & B & C); auto|]. cbn. split; [constructor|]. split.
          - intros l. split; [intros []|]. intros (y & Hy & Hy2 & _). now apply (K3 y Hy).
          - intros y Hy Hy2. exfalso. now apply (K3 y Hy). }
        clearbody o. clear K3. destruct L as (L1 & L2 & L3). cbn [cell_ok c_links c_desc]. split; [exists x; split; [apply in_or_app; right; left; reflexivity|exact Ax]|]. split; [|split].
        -- destruct (i_link x); [now apply set_add_nodup|exact L1].
        -- intros l. assert (M : (exists y, In y (impls ++ [x]) /\ about (i_code x) (suffix_of x) y /\ i_link y = Some l) <->
             i_link x = Some l \/ exists y, In y impls /\ about (i_code x) (suffix_of x) y /\ i_link y = Some l).
           { split.
             - intros (y & Hy & A & B). apply in_app_or in Hy as [Hy|[<-|[]]]; eauto.
             - intros [B|(y & Hy & A & B)]; [exists x|exists y]; (split; [apply in_or_app; cbn; auto|auto]). }
           rewrite M, <- L2. destruct (i_link x) as [l'|]; [rewrite set_add_in|]; intuition congruence.
        -- destruct (i_text x) as [t|] eqn:Et; [apply last_said_snoc; split; auto|]. destruct (c_desc o) as [t|].
           ++ apply last_said_more; [|exact L3]. intros b' [_ E]. congruence.
           ++ intros y Hy A. apply in_app_or in Hy as [Hy|[<-|[]]]; auto.
      * rewrite dget_dset_other by auto. assert (N : ~ about (i_code x) suffix x) by (intros [_ E]; congruence). destruct (dget suffix (k_suffixes c)) as [x0|]; cbn [cell_ok] in K3 |- *.
        -- destruct K3 as ((y & Hy & Ay) & A & B & C). split; [exists y; split; [apply in_or_app; auto|exact Ay]|]. split; [exact A|]. split.
           ++ intros l. rewrite B. split; intros (z & Hz & Az & E); exists z; [split; [apply in_or_app; auto|auto]|]. apply in_app_or in Hz as [Hz|[<-|[]]]; [auto|contradiction].
           ++ destruct (c_desc x0) as [t|]; [apply last_said_more; [intros b' [E _]; contradiction|exact C]|]. intros z Hz Az. apply in_app_or in Hz as [Hz|[<-|[]]]; [auto|contradiction].
        -- intros z Hz Az. apply in_app_or in Hz as [Hz|[<-|[]]]; [now apply (K3 z Hz)|contradiction].
    + rewrite dget_dset_other by auto. specialize (IH name). assert (N : forall suffix, ~ about name suffix x) by (intros suffix [E _]; congruence). destruct (dget name d) as [c|]; cbn [code_ok] in IH |- *.
      * destruct IH as (K1 & K0 & K2 & K3). split; [exact K1|]. split; [destruct K0 as [K0|(y & Hy & Ey)]; [now left|right; exists y; split; [apply in_or_app; now left|exact Ey]]|]. split; [exact K2|]. intros suffix. specialize (K3 suffix). specialize (N suffix). destruct (dget suffix (k_suffixes c)) as [x0|]; cbn [cell_ok] in K3 |- *.
        -- destruct K3 as ((y & Hy & Ay) & A & B & C). split; [exists y; split; [apply in_or_app; auto|exact Ay]|]. split; [exact A|]. split.
           ++ intros l. rewrite B. split; intros (z & Hz & Az & E); exists z; [split; [apply in_or_app; auto|auto]|]. apply in_app_or in Hz as [Hz|[<-|[]]]; [auto|contradiction].
           ++ destruct (c_desc x0) as [t|]; [apply last_said_more; [intros b' [E _]; contradiction|exact C]|]. intros z Hz Az. apply in_app_or in Hz as [Hz|[<-|[]]]; [auto|contradiction].
        -- intros z Hz Az. apply in_app_or in Hz as [Hz|[<-|[]]]; [now apply (K3 z Hz)|contradiction].
      * destruct IH as [K1 K2]. split; [exact K1|]. intros z Hz E. apply in_app_or in Hz as [Hz|[<-|[]]]; [now apply (K2 z Hz)|congruence].
Qed.
Print Assumptions C100_codes.

(** * The text for a suffix *)

(** It says that it is not implemented if no link has been given, and else has the links, each
    once, in the order of their characters. *)
Theorem C100_text : forall specs impls name c suffix, dget name (all_codes specs impls) = Some c ->
  match desc_links c suffix with
  | Raise x => x = KeyError /\ forall y, In y impls -> ~ about name suffix y
  | Ok t => exists desc links,
      t = desc ++ `" \[" ++ links ++ `"\]" /\
      ((forall y, In y impls -> about name suffix y -> i_link y = None) /\ links = `"_Not implemented_" \/
       exists l, l <> [] /\ links = join (`" ") l /\ NoDup l /\ (forall a, In a l <-> exists y, In y impls /\ about name suffix y /\ i_link y = Some a) /\
                 Sorted.StronglySorted (fun a b => str_leb a b = true) l) /\
      (last_said (impl_says name suffix) impls desc /\ desc <> [] \/
       ((forall y, In y impls -> about name suffix y -> i_text y = None) \/ last_said (impl_says name suffix) impls []) /\ desc = `"**Missing description**")
  end.
Proof.
  intros specs impls name c suffix E. pose proof (C100_codes specs impls name) as K. rewrite E in K. destruct K as (_ & _ & _ & K). specialize (K suffix).
  unfold desc_links. destruct (dget suffix (k_suffixes c)) as [x|]; cbn [cell_ok] in K; [|auto]. destruct K as (_ & K1 & K2 & K3).
  eexists _, _. split; [reflexivity|]. split.
  - destruct (c_links x) as [|a l] eqn:El.
    + left. split; [|reflexivity]. intros y Hy A. destruct (i_link y) as [l|] eqn:Ey; [|reflexivity]. exfalso. apply (proj2 (K2 l)). eauto.
    + right. exists (sorted_strs (a :: l)). pose proof (isort_perm str_leb (a :: l)) as P. change (isort str_leb (a :: l)) with (sorted_strs (a :: l)) in P.
      split; [intros N; rewrite N in P; now apply Permutation_length in P|]. split; [reflexivity|]. split; [eapply Permutation_NoDup; [exact P|exact K1]|].
      split; [|exact (isort_sorted str_leb str_leb_total str_leb_trans (a :: l))]. intros b. rewrite <- K2. split; apply Permutation_in; [now apply Permutation_sym|exact P].
  - destruct (c_desc x) as [[|a t]|]; [right|left|right]; auto. split; [exact K3|discriminate].
Qed.
Print Assumptions C100_text.

(** * The table *)

(** the lines of a code: one for it, and one for each suffix that is not empty, in order *)
Definition rows_of (c : code) (t : str) : Prop :=
  exists status suffixes rows,
    (k_suffixes c = [] /\ status = `"_Not implemented_" \/
     desc_links c [] = Ok status \/
     k_suffixes c <> [] /\ desc_links c [] = Raise KeyError /\ status = `"_See multiple cases identified with suffixes below_") /\
    NoDup suffixes /\ Sorted.StronglySorted (fun a b => str_leb a b = true) suffixes /\
    (forall x, In x suffixes <-> x <> [] /\ exists y, dget x (k_suffixes c) = Some y) /\
    Forall2 (fun x r => exists u, desc_links c x = Ok u /\ r = `"| | " ++ k_name c ++ x ++ `" | " ++ u ++ `" |" ++ [10%N]) suffixes rows /\
    t = `"| " ++ match k_desc c with
                  | Some d => `"[" ++ k_name c ++ `"](https://ocfl.io/1.1/spec#" ++ k_name c ++ `") | " ++ d
                  | None => k_name c ++ `" | **Not in specification**"
                  end ++ `" | " ++ status ++ `" |" ++ [10%N] ++ concat rows.

Lemma sorted_filter (p : str -> bool) l : Sorted.StronglySorted (fun a b => str_leb a b = true) l ->
  Sorted.StronglySorted (fun a b => str_leb a b = true) (filter p l).
Proof.
  induction 1 as [|a l _ IH F]; [constructor|]. cbn [filter]. destruct (p a); [|exact IH]. constructor; [exact IH|].
  rewrite Forall_forall in F |- *. intros b Hb. apply F. now apply filter_In in Hb as [Hb _].
Qed.
Lemma sorted_keys {A} (d : dict A) : NoDup (keys d) ->
  NoDup (sorted_strs (keys d)) /\ Sorted.StronglySorted (fun a b => str_leb a b = true) (sorted_strs (keys d)) /\
  forall k, In k (sorted_strs (keys d)) <-> exists v, dget k d = Some v.
Proof.
  intros N. split; [now apply isort_NoDup|]. split; [exact (isort_sorted str_leb str_leb_total str_leb_trans (keys d))|].
  intros k. unfold sorted_strs. rewrite In_isort. destruct (dget k d) as [v|] eqn:E.
  - split; [eauto|]. intros _. now apply dget_In_key in E.
  - apply dget_None in E. split; [contradiction|intros [v K]; discriminate].
Qed.

Lemma code_str_rows c : NoDup (keys (k_suffixes c)) -> exists t, code_str c = Ok t /\ rows_of c t.
Proof.
  intros N. destruct (sorted_keys _ N) as (S1 & S2 & S3). set (ks := sorted_strs (keys (k_suffixes c))) in *.
  assert (D : forall x, In x ks -> exists u, desc_links c x = Ok u) by (intros x Hx; apply S3 in Hx as [y Hy]; unfold desc_links; rewrite Hy; eauto).
  assert (F : forall l s, (forall x, In x l -> In x ks) -> exists rows,
    Forall2 (fun x r => exists u, desc_links c x = Ok u /\ r = `"| | " ++ k_name c ++ x ++ `" | " ++ u ++ `" |" ++ [10%N]) (filter (fun x => negb (str_eqb x [])) l) rows /\
    efold (fun s suffix => match suffix with [] => Ok s | _ => let* t := desc_links c suffix in Ok (s ++ `"| | " ++ k_name c ++ suffix ++ `" | " ++ t ++ `" |" ++ [10%N]) end) l s = Ok (s ++ concat rows)).
  { induction l as [|x l IH]; intros s Hl; [exists []; split; [constructor|]; cbn; now rewrite app_nil_r|]. cbn [efold filter]. destruct x as [|a x].
    - cbn [str_eqb negb]. apply IH. intros y Hy. apply Hl. now right.
    - destruct (D (a :: x)) as [u Eu]; [apply Hl; now left|]. rewrite Eu. cbn [ebind str_eqb negb].
      match goal with |- context [efold _ l (s ++ ?r)] => destruct (IH (s ++ r)) as (rows & F1 & F2); [intros y Hy; apply Hl; now right|]; exists (r :: rows) end.
      split; [constructor; eauto|]. cbn [concat]. rewrite F2. now rewrite <- (app_assoc s). }
  unfold code_str. fold ks.
  assert (St : exists status, match k_suffixes c with [] => Ok (`"_Not implemented_") | _ => if dmem [] (k_suffixes c) then desc_links c [] else Ok (`"_See multiple cases identified with suffixes below_") end = Ok status /\
    (k_suffixes c = [] /\ status = `"_Not implemented_" \/ desc_links c [] = Ok status \/
     k_suffixes c <> [] /\ desc_links c [] = Raise KeyError /\ status = `"_See multiple cases identified with suffixes below_")).
  { destruct (k_suffixes c) as [|p q] eqn:Ek; [eexists; split; [reflexivity|]; auto|]. rewrite <- Ek. unfold dmem, desc_links. destruct (dget [] (k_suffixes c)) as [y|] eqn:Ey; eexists; (split; [reflexivity|]); auto.
    right. right. split; [congruence|auto]. }
  destruct St as (status & -> & St). destruct (k_desc c) as [dd|] eqn:Ed; cbn [ebind];
    (match goal with |- context [efold _ ks ?s] => destruct (F ks s (fun x Hx => Hx)) as (rows & F1 & F2) end; rewrite F2; eexists; split; [reflexivity|];
     exists status, (filter (fun x => negb (str_eqb x [])) ks), rows; split; [exact St|]; split; [now apply NoDup_filter|]; split; [now apply sorted_filter|];
     split; [intros x; rewrite filter_In, S3; destruct (str_eqb_spec x []) as [->|Hx]; cbn; intuition congruence|]; split; [exact F1|]; rewrite Ed; unfold SPEC_URL; rewrite <- ?app_assoc; reflexivity).
Qed.

Lemma all_nodup specs impls : NoDup (keys (all_codes specs impls)) /\ forall name c, dget name (all_codes specs impls) = Some c -> NoDup (keys (k_suffixes c)).
Proof.
  unfold all_codes. induction impls as [|x impls [I1 I2]] using rev_ind.
  - cbn [fold_left]. split.
    + induction specs as [|x specs IH] using rev_ind; [constructor|]. rewrite fold_left_app. now apply NoDup_dset.
    + intros name c E. pose proof (specs_ok specs name) as K. rewrite E in K. destruct K as (_ & _ & ->). constructor.
  - rewrite fold_left_app. cbn [fold_left]. unfold add_impl. split; [now apply NoDup_dset|]. intros name c E. destruct (str_eqb_spec name (i_code x)) as [->|Hn].
    + rewrite dget_dset_same in E. injection E as <-. cbn [add_suffix k_suffixes]. apply NoDup_dset. destruct (dget (i_code x) _) as [c0|] eqn:E0; [now apply I2 in E0|constructor].
    + rewrite dget_dset_other in E by auto. eauto.
Qed.

(** Each table has the lines of the codes that begin as asked for, each code once, in order. *)
Theorem C100_table : forall specs impls exclude, exists names texts,
  NoDup names /\ Sorted.StronglySorted (fun a b => str_leb a b = true) names /\
  (forall name, In name names <-> (exists r, name = exclude ++ r) /\ ((exists t, In (name, t) specs) \/ exists y, In y impls /\ i_code y = name)) /\
  Forall2 (fun name t => exists c, dget name (all_codes specs impls) = Some c /\ rows_of c t) names texts /\
  codes_str exclude (all_codes specs impls) = Ok (concat texts).
Proof.
  intros specs impls exclude. destruct (all_nodup specs impls) as [N1 N2]. destruct (sorted_keys _ N1) as (S1 & S2 & S3). unfold codes_str. set (d := all_codes specs impls) in *. set (ks := sorted_strs (keys d)) in *.
  assert (F : forall l s, (forall x, In x l -> In x ks) -> exists texts,
    Forall2 (fun name t => exists c, dget name d = Some c /\ rows_of c t) (filter (startswith exclude) l) texts /\
    efold (fun s name => if startswith exclude name then match dget name d with Some c => let* t := code_str c in Ok (s ++ t) | None => Raise KeyError end else Ok s) l s = Ok (s ++ concat texts)).
  { induction l as [|x l IH]; intros s Hl; [exists []; split; [constructor|]; cbn; now rewrite app_nil_r|]. cbn [efold filter]. destruct (startswith exclude x).
    - destruct (proj1 (S3 x) (Hl x (or_introl eq_refl))) as [c Ec]. rewrite Ec. destruct (code_str_rows c (N2 x c Ec)) as (t & Et & Rt). rewrite Et. cbn [ebind].
      destruct (IH (s ++ t)) as (texts & F1 & F2); [intros y Hy; apply Hl; now right|]. exists (t :: texts). split; [constructor; eauto|]. cbn [concat]. rewrite F2. now rewrite <- (app_assoc s).
    - apply IH. intros y Hy. apply Hl. now right. }
  destruct (F ks [] (fun x Hx => Hx)) as (texts & F1 & F2). exists (filter (startswith exclude) ks), texts. split; [now apply NoDup_filter|]. split; [now apply sorted_filter|]. split; [|auto].
  intros name. rewrite filter_In, S3, startswith_spec. pose proof (C100_codes specs impls name) as K. fold d in K. destruct (dget name d) as [c|]; cbn [code_ok] in K.
  - split; [intros [_ B]; split; [exact B|]|intros [B _]; split; [eauto|exact B]]. exact (proj1 (proj2 K)).
  - destruct K as [K1 K2]. split; [intros [[v Hv] _]; discriminate|]. intros [_ [[t Ht]|(y & Hy & E)]]; exfalso; [now apply (K1 t)|now apply (K2 y Hy)].
Qed.
Print Assumptions C100_table.

(** * The links *)

(** No link is to the file: there is no slash after the name of the directory. *)
Theorem C100_link_refuted : forall file n, startswith (`"/") file = false ->
  file_line (`"ocfl") file n <> `"ocfl" ++ `"/" ++ file ++ `"#L" ++ str_of_N n.
Proof.
  intros file n Hf E. unfold file_line in E. apply app_inv_head in E. destruct file as [|a f]; [discriminate|]. cbn in E. injection E as -> _. discriminate.
Qed.
Print Assumptions C100_link_refuted.

(** ** A case *)
Definition ex_specs : list spec_line := [(`"E001", `"old"); (`"E002", `"two"); (`"E001", `"one")].
Definition ex_impls : list impl_line :=
  [mk_impl (`"E001") (Some (`"a")) None (Some (`"text")); mk_impl (`"E001") (Some (`"a")) (Some (`"L2")) None; mk_impl (`"E001") (Some (`"a")) (Some (`"L1")) None;
   mk_impl (`"E001") (Some (`"a")) (Some (`"L2")) None; mk_impl (`"E009") None None (Some (`"nine"))].
Example C100_ex : codes_str (`"E") (all_codes ex_specs ex_impls) = Ok (
  `"| [E001](https://ocfl.io/1.1/spec#E001) | one | _See multiple cases identified with suffixes below_ |" ++ [10%N] ++
  `"| | E001a | text \[L1 L2\] |" ++ [10%N] ++
  `"| [E002](https://ocfl.io/1.1/spec#E002) | two | _Not implemented_ |" ++ [10%N] ++
  `"| E009 | **Not in specification** | nine \[_Not implemented_\] |" ++ [10%N]).
Proof. vm_compute. reflexivity. Qed.
