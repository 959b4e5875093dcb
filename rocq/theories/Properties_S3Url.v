(** C98: the parameters at the end of S3 URLs. *)
From Verif Require Import Base Utf8 Json PathModel DigestModel LayoutModel S3UrlModel.
From Verif Require Import JsonGrammarSpec Properties_JsonRead Properties_LayoutExact.
From Coq Require Import NArith Lia.
Open Scope N_scope.

(** ** What a field says *)

(** A hexadecimal digit, with small letters or capitals *)
Definition any_hex (d x : N) : Prop := hex_digit 97 d x \/ hex_digit 65 d x.
(** The bytes that an ASCII text stands for: a plus sign is a space, a percent sign and two
    hexadecimal digits are a byte, all else is itself. *)
Inductive field_bytes : str -> list N -> Prop :=
| fb_end : field_bytes [] []
| fb_plus s b : field_bytes s b -> field_bytes (43 :: s) (32 :: b)
| fb_escape h l x y s b : any_hex h x -> any_hex l y -> field_bytes s b -> field_bytes (37 :: x :: y :: s) (h * 16 + l :: b)
| fb_percent s b : (forall h l x y s', any_hex h x -> any_hex l y -> s <> x :: y :: s') -> field_bytes s b -> field_bytes (37 :: s) (37 :: b)
| fb_other c s b : c < 128 -> c <> 37 -> c <> 43 -> field_bytes s b -> field_bytes (c :: s) (c :: b).

(** ** Proofs *)
Definition plus (c : N) : N := if c =? 43 then 32 else c.
Lemma hexval_spec x d : hex_value x = Some d <-> any_hex d x.
Proof.
  unfold hex_value, any_hex, hex_digit, is_ascii_digit.
  destruct ((48 <=? x) && (x <=? 57)) eqn:E1; rewrite ?andb_true_iff, ?andb_false_iff, ?N.leb_le, ?N.leb_gt in E1.
  { split; [intros [= <-]; lia|intros H; f_equal; lia]. }
  destruct ((97 <=? x) && (x <=? 102)) eqn:E2; rewrite ?andb_true_iff, ?andb_false_iff, ?N.leb_le, ?N.leb_gt in E2.
  { split; [intros [= <-]; lia|intros H; f_equal; lia]. }
  destruct ((65 <=? x) && (x <=? 70)) eqn:E3; rewrite ?andb_true_iff, ?andb_false_iff, ?N.leb_le, ?N.leb_gt in E3.
  { split; [intros [= <-]; lia|intros H; f_equal; lia]. }
  split; [discriminate|]. lia.
Qed.
Lemma any_hex_facts d x : any_hex d x -> plus x = x /\ x < 128 /\ x <> 43.
Proof.
  intros H. assert (K : x < 128 /\ x <> 43) by (unfold any_hex, hex_digit in H; lia). split; [|exact K].
  unfold plus. destruct (N.eqb_spec x 43); [lia|reflexivity].
Qed.
Lemma plus_hex c d : hex_value (plus c) = Some d -> plus c = c.
Proof. unfold plus. destruct (N.eqb_spec c 43); [discriminate|reflexivity]. Qed.

Lemma field_bytes_ok s b : field_bytes s b -> unquote_to_bytes (map plus s) = b /\ Forall (fun c => c < 128) (map plus s).
Proof.
  induction 1 as [|s b H [I1 I2]|h l x y s b Hx Hy H [I1 I2]|s b Hn H [I1 I2]|c s b H1 H2 H3 H [I1 I2]]; cbn [map].
  - split; [reflexivity|constructor].
  - split; [change (plus 43) with 32; cbn; now rewrite I1|constructor; [reflexivity|auto]].
  - destruct (any_hex_facts _ _ Hx) as (Ex & Lx & _), (any_hex_facts _ _ Hy) as (Ey & Ly & _). change (plus 37) with 37. rewrite Ex, Ey.
    apply hexval_spec in Hx, Hy. cbn [unquote_to_bytes]. change (37 =? percent) with true. cbv iota. rewrite Hx, Hy, I1. split; [reflexivity|].
    repeat constructor; auto.
  - change (plus 37) with 37. split; [|constructor; [lia|auto]]. rewrite <- I1. cbn [unquote_to_bytes]. change (37 =? percent) with true. cbv iota.
    destruct s as [|x [|y s]]; [reflexivity|reflexivity|]. cbn [map]. destruct (hex_value (plus x)) as [h|] eqn:Ex; [|reflexivity].
    destruct (hex_value (plus y)) as [l|] eqn:Ey; [|reflexivity]. exfalso. pose proof (plus_hex _ _ Ex) as Px. pose proof (plus_hex _ _ Ey) as Py. rewrite Px in Ex. rewrite Py in Ey.
    apply hexval_spec in Ex, Ey. now apply (Hn h l x y s).
  - assert (Ec : plus c = c) by (unfold plus; destruct (N.eqb_spec c 43); [lia|reflexivity]). rewrite Ec. split; [|constructor; auto].
    cbn [unquote_to_bytes]. destruct (N.eqb_spec c percent) as [->|_]; [now destruct H2|]. now rewrite I1.
Qed.

Lemma runs_ascii bad s : Forall (fun c => c < 128) s -> forall run, unquote_runs bad run s = decode_replace bad (unquote_to_bytes (run ++ s)).
Proof.
  induction 1 as [|c s Hc Hs IH]; intros run; cbn [unquote_runs]; [now rewrite app_nil_r|].
  destruct (N.ltb_spec c 128); [|lia]. now rewrite IH, <- app_assoc.
Qed.
Lemma ascii_bytes s : Forall (fun c => c < 128) s -> text_bytes s s.
Proof. induction 1 as [|c s Hc Hs IH]; [constructor|]. change (c :: s) with ([c] ++ s) at 2. constructor; [now constructor|exact IH]. Qed.
Lemma unquote_none s : ~ In percent s -> unquote_to_bytes s = s.
Proof. induction s as [|c s IH]; intros H; [reflexivity|]. cbn [unquote_to_bytes]. destruct (N.eqb_spec c percent) as [->|_]; [destruct H; now left|]. rewrite IH; [reflexivity|]. intros K. apply H. now right. Qed.

(** Every field is decoded to the text whose UTF-8 bytes it stands for. *)
Theorem C98_decodes : forall bad s b t, field_bytes s b -> text_bytes t b -> unquote_field bad s = t.
Proof.
  intros bad s b t Hf Ht. apply field_bytes_ok in Hf as [Hb Ha]. destruct (C96_utf8 t b) as [_ [_ D]]. specialize (D Ht).
  unfold unquote_field. change (map (fun c => if c =? 43 then 32 else c) s) with (map plus s). unfold unquote.
  destruct (char_in_spec percent (map plus s)) as [_|Hn].
  - rewrite runs_ascii by exact Ha. cbn [app]. unfold decode_replace. now rewrite Hb, D.
  - rewrite (unquote_none _ Hn) in Hb. subst b. destruct (C96_utf8 (map plus s) (map plus s)) as [_ [_ D']]. specialize (D' (ascii_bytes _ Ha)). congruence.
Qed.
Print Assumptions C98_decodes.

Lemma split_once_some c s a b : split_once c s = Some (a, b) <-> s = a ++ c :: b /\ ~ In c a.
Proof.
  revert a b; induction s as [|x s IH]; intros a b; cbn [split_once].
  - split; [discriminate|]. intros [E _]. destruct a; discriminate.
  - destruct (N.eqb_spec x c) as [->|Hn].
    + split; [intros [= <- <-]; split; [reflexivity|intros []]|]. intros [E Hi]. destruct a as [|y a]; cbn in E.
      * injection E as ->. reflexivity.
      * destruct Hi. left. congruence.
    + destruct (split_once c s) as [[a0 b0]|] eqn:Es; cbn [option_map fst snd].
      * split.
        -- intros [= <- <-]. destruct (proj1 (IH a0 b0) eq_refl) as [-> Hi]. split; [reflexivity|]. intros [K|K]; auto.
        -- intros [E Hi]. destruct a as [|y a]; cbn in E; injection E as E1 E2; [congruence|]. subst y.
           assert (K : Some (a0, b0) = Some (a, b)) by (apply IH; split; [exact E2|intros K; apply Hi; now right]). injection K as -> ->. reflexivity.
      * split; [discriminate|]. intros [E Hi]. destruct a as [|y a]; cbn in E; injection E as E1 E2; [congruence|].
        assert (K : None = Some (a, b)) by (apply IH; split; [exact E2|intros K; apply Hi; now right]). discriminate.
Qed.
Lemma split_once_none c s : ~ In c s -> split_once c s = None.
Proof.
  intros H. destruct (split_once c s) as [[a b]|] eqn:E; [|reflexivity]. apply split_once_some in E as [-> _]. destruct H. apply in_app_iff. right. now left.
Qed.

Lemma first_values_gen l : forall (d : dict str) k,
  dget k (fold_left (fun d kv => if dmem (fst kv) d then d else dset (fst kv) (snd kv) d) l d) = match dget k d with Some v => Some v | None => dget k l end.
Proof.
  induction l as [|[k0 v0] l IH]; intros d k; cbn [fold_left fst snd]; [destruct (dget k d); reflexivity|]. rewrite IH.
  destruct (dmem k0 d) eqn:Em.
  - destruct (dget k d) as [v|] eqn:Ed; [reflexivity|]. cbn [dget]. destruct (str_eqb_spec k k0) as [->|]; [|reflexivity].
    exfalso. apply dmem_true in Em. apply dget_None in Ed. contradiction.
  - cbn [dget]. destruct (str_eqb_spec k k0) as [->|Hn]; [|now rewrite dget_dset_other by auto]. rewrite dget_dset_same.
    apply dmem_false in Em. apply dget_None in Em. now rewrite Em.
Qed.
Lemma first_values_get l k : dget k (first_values l) = dget k l.
Proof. unfold first_values. now rewrite first_values_gen. Qed.
Lemma dget_app (a b : dict str) k : dget k (a ++ b) = match dget k a with Some v => Some v | None => dget k b end.
Proof. induction a as [|[x y] a IH]; cbn [app dget]; [reflexivity|]. destruct (str_eqb k x); auto. Qed.

(** ** C98 *)

(** Without a question mark there are no parameters, and else the path ends before the
    first one. *)
Theorem C98_path : forall bad p q, ~ In 63 p ->
  s3_urlparse bad p = (p, []) /\ fst (s3_urlparse bad (p ++ 63 :: q)) = p.
Proof.
  intros bad p q Hp. unfold s3_urlparse. rewrite split_once_none by exact Hp. split; [reflexivity|].
  assert (E : split_once 63 (p ++ 63 :: q) = Some (p, q)) by (apply split_once_some; auto). now rewrite E.
Qed.
Print Assumptions C98_path.

(** A parameter has the value of the first field name=value with its name and a value. *)
Theorem C98_parameter : forall bad p fields k v,
  ~ In 63 p -> fields <> [] -> Forall (fun f => ~ In 38 f) fields ->
  (dget k (snd (s3_urlparse bad (p ++ 63 :: join [38] fields))) = Some v <->
   exists before n x rest, fields = before ++ (n ++ 61 :: x) :: rest /\ ~ In 61 n /\ x <> [] /\
     unquote_field bad n = k /\ unquote_field bad x = v /\
     forall n' x', In (n' ++ 61 :: x') before -> ~ In 61 n' -> x' <> [] -> unquote_field bad n' <> k).
Proof.
  intros bad p fields k v Hp Hne Hf. unfold s3_urlparse.
  assert (E : split_once 63 (p ++ 63 :: join [38] fields) = Some (p, join [38] fields)) by (apply split_once_some; auto). rewrite E. cbn [snd].
  rewrite first_values_get. unfold parse_qsl. rewrite split_join; [|exact Hne|rewrite Forall_forall in Hf; exact Hf]. clear E Hf Hne Hp.
  assert (P : forall f n x, split_once 61 f = Some (n, x) -> x <> [] -> parse_field bad f = [(unquote_field bad n, unquote_field bad x)]).
  { intros f n x Ef Hx. unfold parse_field. rewrite Ef. now destruct x. }
  induction fields as [|f fields IH]; cbn [flat_map].
  - split; [discriminate|]. intros (a & n & x & r & Ea & _). destruct a; discriminate.
  - rewrite dget_app. split.
    + intros H. destruct (dget k (parse_field bad f)) as [v'|] eqn:Ef.
      * injection H as ->. unfold parse_field in Ef. destruct (split_once 61 f) as [[n x]|] eqn:Es; [|discriminate]. destruct x as [|c x]; [discriminate|].
        cbn [dget] in Ef. destruct (str_eqb_spec k (unquote_field bad n)) as [->|]; [|discriminate]. injection Ef as <-.
        apply split_once_some in Es as [-> Hn]. exists [], n, (c :: x), fields. repeat split; auto. discriminate.
      * apply IH in H as (a & n & x & r & -> & Hn & Hx & Hk & Hv & Hb). exists (f :: a), n, x, r. repeat split; auto.
        intros n' x' [Hi|Hi] Hn' Hx'; [|eauto]. intros K. subst f.
        rewrite (P _ n' x') in Ef; [|apply split_once_some; auto|exact Hx']. cbn [dget] in Ef. rewrite K, str_eqb_refl in Ef. discriminate.
    + intros (a & n & x & r & Ea & Hn & Hx & Hk & Hv & Hb). destruct a as [|f0 a]; cbn [app] in Ea; injection Ea as -> ->.
      * rewrite (P _ n x); [|apply split_once_some; auto|exact Hx]. cbn [dget]. rewrite Hk, str_eqb_refl. now rewrite Hv.
      * assert (En : dget k (parse_field bad f0) = None).
        { unfold parse_field. destruct (split_once 61 f0) as [[n' x']|] eqn:Es; [|reflexivity]. destruct x' as [|c x']; [reflexivity|]. cbn [dget].
          destruct (str_eqb_spec k (unquote_field bad n')) as [K|]; [|reflexivity]. exfalso. apply split_once_some in Es as [-> Hn'].
          apply (Hb n' (c :: x')); auto; [now left|discriminate]. }
        rewrite En. apply IH. exists a, n, x, r. repeat split; auto. intros n' x' Hi. apply Hb. now right.
Qed.
Print Assumptions C98_parameter.

(** Parameters that are written into a URL as forms are, each byte quoted as in C06, are read
    again, in their order. *)
Lemma escaped_any b t : escaped 65 b t -> exists h l x y, b = h * 16 + l /\ any_hex h x /\ any_hex l y /\ t = [37; x; y].
Proof. intros (h & l & x & y & E & Hh & Hl & Et). exists h, l, x, y. unfold any_hex. auto. Qed.
Lemma quoted_field b q : quoted b q -> field_bytes q b.
Proof.
  induction 1 as [|b bs t Hu H IH|bs t H IH|b bs e t Hu Hn He H IH].
  - constructor.
  - unfold unquoted, letter_or_digit in Hu. apply fb_other; auto; lia.
  - now apply fb_plus.
  - apply escaped_any in He as (h & l & x & y & -> & Hh & Hl & ->). cbn [app]. now apply fb_escape.
Qed.
Lemma quoted_chars b q : quoted b q -> ~ In 38 q /\ ~ In 61 q.
Proof.
  induction 1 as [|b bs t Hu H IH|bs t H IH|b bs e t Hu Hn He H IH].
  - split; intros [].
  - unfold unquoted, letter_or_digit in Hu. split; intros [K|K]; try (now apply IH); lia.
  - split; intros [K|K]; try (now apply IH); discriminate.
  - destruct He as (h & l & x & y & -> & Hh & Hl & ->). unfold hex_digit in *.
    split; (intros K; apply in_app_iff in K as [K|K]; [|now apply IH]); cbn [In] in K; lia.
Qed.
Definition form_field (kv : str * str) (f : str) : Prop :=
  exists bk bv qk qv, text_bytes (fst kv) bk /\ text_bytes (snd kv) bv /\ quoted bk qk /\ quoted bv qv /\ f = qk ++ 61 :: qv.

Lemma first_values_id (l : list (str * str)) : forall d : dict str, NoDup (map fst (d ++ l)) ->
  fold_left (fun d kv => if dmem (fst kv) d then d else dset (fst kv) (snd kv) d) l d = d ++ l.
Proof.
  induction l as [|[k v] l IH]; intros d Hd; cbn [fold_left fst snd]; [now rewrite app_nil_r|].
  assert (Hk : ~ In k (keys d)).
  { intros K. rewrite map_app in Hd. cbn [map fst] in Hd. apply NoDup_remove_2 in Hd. apply Hd. apply in_app_iff. now left. }
  apply dmem_false in Hk. rewrite Hk. apply dmem_false in Hk.
  assert (E : dset k v d = d ++ [(k, v)]).
  { clear -Hk. induction d as [|[k0 v0] d IH]; [reflexivity|]. cbn [dset]. destruct (str_eqb_spec k k0) as [->|]; [destruct Hk; now left|].
    rewrite IH; [reflexivity|]. intros K. apply Hk. now right. }
  rewrite E, IH; rewrite <- app_assoc; [reflexivity|exact Hd].
Qed.

Theorem C98_round_trip : forall bad p params fields,
  ~ In 63 p -> params <> [] -> NoDup (map fst params) -> Forall (fun kv => snd kv <> []) params -> Forall2 form_field params fields ->
  s3_urlparse bad (p ++ 63 :: join [38] fields) = (p, params).
Proof.
  intros bad p params fields Hp Hne Hd Hv Hf. unfold s3_urlparse.
  assert (E : split_once 63 (p ++ 63 :: join [38] fields) = Some (p, join [38] fields)) by (apply split_once_some; auto). rewrite E. f_equal.
  unfold parse_qsl. rewrite split_join.
  - assert (P : flat_map (parse_field bad) fields = params).
    { clear -Hf Hv. induction Hf as [|[k v] f params fields H Hf IH]; [reflexivity|]. inversion Hv as [|? ? Hx Hv']; subst. cbn [flat_map].
      rewrite (IH Hv'). destruct H as (bk & bv & qk & qv & Tk & Tv & Qk & Qv & ->). cbn [fst snd] in *. unfold parse_field.
      rewrite (proj2 (split_once_some 61 (qk ++ 61 :: qv) qk qv)) by (split; [reflexivity|apply (quoted_chars _ _ Qk)]).
      destruct qv as [|c qv].
      - exfalso. apply quoted_field in Qv. inversion Qv; subst. inversion Tv as [|? bs ? b' Hc]; subst; [now apply Hx|].
        match goal with K : _ ++ _ = [] |- _ => apply app_eq_nil in K as [-> _] end. inversion Hc.
      - rewrite (C98_decodes bad qk bk k) by auto using quoted_field. rewrite (C98_decodes bad (c :: qv) bv v) by auto using quoted_field. reflexivity. }
    rewrite P. unfold first_values. now apply (first_values_id params []).
  - intros ->. inversion Hf; subst. now apply Hne.
  - intros f Hi. assert (G : Forall (fun f => ~ In 38 f) fields).
    { clear -Hf. induction Hf as [|kv f params fields H Hf IH]; constructor; [|exact IH].
      destruct H as (bk & bv & qk & qv & _ & _ & Qk & Qv & ->). intros K. apply in_app_iff in K as [K|[K|K]]; [exact (proj1 (quoted_chars _ _ Qk) K)|discriminate|exact (proj1 (quoted_chars _ _ Qv) K)]. }
    rewrite Forall_forall in G. now apply G.
Qed.
Print Assumptions C98_round_trip.

(** The first value of a name counts, empty values and names without a value are left out. *)
Example C98_ex : forall bad, s3_urlparse bad (`"b/p?endpoint_url=http%3A%2f%2fx%3A9&e&f=&d=a+b&d=c&%zz=1=2?") =
  (`"b/p", [(`"endpoint_url", `"http://x:9"); (`"d", `"a b"); (`"%zz", `"1=2?")]).
Proof. intros bad. vm_compute. reflexivity. Qed.
Example C98_ex2 : form_field (`"k y", [233]) (`"k+y=%C3%A9").
Proof.
  exists (`"k y"), [195; 169], (`"k+y"), (`"%C3%A9").
  split; [apply utf8_text; reflexivity|]. split; [apply utf8_text; reflexivity|].
  split; [|split; [|reflexivity]]; (apply quoted_spec; [|vm_compute; reflexivity]); intros x Hx; vm_compute in Hx; repeat destruct Hx as [<-|Hx]; try lia; destruct Hx.
Qed.
