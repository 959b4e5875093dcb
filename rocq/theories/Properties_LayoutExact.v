(** Properties C05 and C06: which name exactly the layouts give to an identifier,
    character by character. *)
From Verif Require Import Base Unicode Regex Utf8 Json PathModel DigestModel LayoutModel LayoutSpec LayoutProofs.
From Verif Require Import JsonGrammarSpec Properties_JsonRead.
From Coq Require Import ZArith NArith Lia.
Open Scope N_scope.

(** ** The names, said without the code *)

(** The letters A to Z and a to z and the digits 0 to 9 *)
Definition letter_or_digit (c : N) : Prop := 65 <= c <= 90 \/ 97 <= c <= 122 \/ 48 <= c <= 57.
(** A hexadecimal digit; its letters start at [a], 97 for small ones and 65 for capitals *)
Definition hex_digit (a d x : N) : Prop := (d < 10 /\ x = 48 + d) \/ (10 <= d < 16 /\ x = a + (d - 10)).
(** A byte written as a percent sign and two hexadecimal digits *)
Definition escaped (a b : N) (t : str) : Prop :=
  exists h l x y, b = h * 16 + l /\ hex_digit a h x /\ hex_digit a l y /\ t = [37; x; y].

(** Extension 0003: letters, digits, - and _ stand for themselves, every other
    character for its UTF-8 bytes, each escaped with small letters. *)
Definition kept (c : N) : Prop := letter_or_digit c \/ c = 45 \/ c = 95.
Inductive encoded : str -> str -> Prop :=
| enc_end : encoded [] []
| enc_kept c s t : kept c -> encoded s t -> encoded (c :: s) (c :: t)
| enc_escaped c bs es s t : ~ kept c -> char_bytes c bs -> Forall2 (escaped 97) bs es -> encoded s t ->
    encoded (c :: s) (concat es ++ t).

(** Flat quoted: in the UTF-8 bytes, letters, digits and _ . - ~ stand for themselves,
    a space is a plus sign and every other byte is escaped with capitals. *)
Definition unquoted (b : N) : Prop := letter_or_digit b \/ b = 95 \/ b = 46 \/ b = 45 \/ b = 126.
Inductive quoted : list N -> str -> Prop :=
| q_end : quoted [] []
| q_same b bs t : unquoted b -> quoted bs t -> quoted (b :: bs) (b :: t)
| q_space bs t : quoted bs t -> quoted (32 :: bs) (43 :: t)
| q_escaped b bs e t : ~ unquoted b -> b <> 32 -> escaped 65 b e -> quoted bs t -> quoted (b :: bs) (e ++ t).

(** ** Proofs *)
Lemma alnum_spec c : is_ascii_alnum c = true <-> letter_or_digit c.
Proof.
  unfold is_ascii_alnum, is_ascii_digit, letter_or_digit.
  rewrite !orb_true_iff, !andb_true_iff, !N.leb_le. tauto.
Qed.
Lemma kept_spec c : encap_safe c = true <-> kept c.
Proof. unfold encap_safe, kept. rewrite !orb_true_iff, !N.eqb_eq, alnum_spec. tauto. Qed.
Lemma unquoted_spec c : quote_safe c = true <-> unquoted c.
Proof. unfold quote_safe, unquoted. rewrite !orb_true_iff, !N.eqb_eq, alnum_spec. tauto. Qed.

Lemma hex_lower_spec b : b < 256 -> escaped 97 b (percent :: hex_lower b).
Proof.
  intros Hb. exists (b / 16), (b mod 16), (hex_lower_digit (b / 16)), (hex_lower_digit (b mod 16)).
  assert (b / 16 < 16) by (apply N.div_lt_upper_bound; lia).
  assert (b mod 16 < 16) by (apply N.mod_lt; lia).
  assert (b = 16 * (b / 16) + b mod 16) by (apply N.div_mod; lia).
  unfold hex_digit, hex_lower_digit.
  split; [lia|]. split; [|split]; [| |reflexivity].
  - destruct (N.ltb_spec (b / 16) 10); lia.
  - destruct (N.ltb_spec (b mod 16) 10); lia.
Qed.
Lemma hex_upper_spec b : b < 256 -> escaped 65 b (percent :: hex_upper b).
Proof.
  intros Hb. exists (b / 16), (b mod 16), (hex_upper_digit (b / 16)), (hex_upper_digit (b mod 16)).
  assert (b / 16 < 16) by (apply N.div_lt_upper_bound; lia).
  assert (b mod 16 < 16) by (apply N.mod_lt; lia).
  assert (b = 16 * (b / 16) + b mod 16) by (apply N.div_mod; lia).
  unfold hex_digit, hex_upper_digit.
  split; [lia|]. split; [|split]; [| |reflexivity].
  - destruct (N.ltb_spec (b / 16) 10); lia.
  - destruct (N.ltb_spec (b mod 16) 10); lia.
Qed.
Lemma escaped_one a b t t' : escaped a b t -> escaped a b t' -> t = t'.
Proof.
  intros (h & l & x & y & E & Hh & Hl & ->) (h' & l' & x' & y' & E' & Hh' & Hl' & ->).
  unfold hex_digit in *. assert (h = h') by lia. subst h'. assert (l = l') by lia. subst l'.
  assert (x = x') by lia. assert (y = y') by lia. now subst.
Qed.

Lemma utf8_text s b : utf8_encode s = Ok b -> text_bytes s b.
Proof. apply C96_utf8. Qed.
Lemma text_bytes_one c bs : text_bytes [c] bs <-> char_bytes c bs.
Proof.
  split; intro Hb.
  - inversion Hb as [|? b0 ? r Hc Hr]; subst. inversion Hr; subst. now rewrite app_nil_r.
  - rewrite <- (app_nil_r bs). constructor; [auto|constructor].
Qed.
Lemma char_bytes_small c bs x : char_bytes c bs -> In x bs -> x < 256.
Proof. intros Hc. apply char_bytes_utf8 in Hc. exact (utf8_char_byte c bs x Hc). Qed.
Lemma escapes_lower bs : (forall x, In x bs -> x < 256) -> Forall2 (escaped 97) bs (map (fun b => percent :: hex_lower b) bs).
Proof. induction bs as [|b bs IH]; intros Hs; cbn [map]; constructor; [apply hex_lower_spec, Hs; now left|apply IH; intros; apply Hs; now right]. Qed.
Lemma escapes_one a bs : forall es es', Forall2 (escaped a) bs es -> Forall2 (escaped a) bs es' -> es = es'.
Proof.
  induction bs as [|b bs IH]; intros es es' H1 H2; inversion H1; inversion H2; subst; [reflexivity|].
  f_equal; [eapply escaped_one; eauto|apply IH; auto].
Qed.

Lemma encoded_spec s : forall e, encap_encode s = Ok e <-> encoded s e.
Proof.
  induction s as [|c s IH]; intros e.
  - split; [intros [= <-]; constructor|]. intro He. inversion He; reflexivity.
  - cbn [encap_encode]. split.
    + intro He. apply ebind_ok in He as [e0 [He0 He]]. apply ebind_ok in He as [d [Hd [= <-]]].
      apply IH in Hd. destruct (encap_safe c) eqn:Es.
      * injection He0 as <-. cbn [app]. apply enc_kept; [now apply kept_spec|exact Hd].
      * unfold percent_encode in He0. apply ebind_ok in He0 as [bs [Hb [= <-]]].
        apply utf8_text, text_bytes_one in Hb. apply enc_escaped with (bs := bs); auto.
        -- intro K. apply kept_spec in K. congruence.
        -- apply escapes_lower. intros x. now apply char_bytes_small with (c := c).
    + intro He. inversion He as [|? ? t K Ht|? bs es ? t K Hb Hes Ht]; subst.
      * apply kept_spec in K. rewrite K. apply IH in Ht. cbn. now rewrite Ht.
      * assert (Es : encap_safe c = false) by (destruct (encap_safe c) eqn:Es; [exfalso; now apply K, kept_spec|reflexivity]).
        rewrite Es. apply IH in Ht. unfold percent_encode.
        pose proof Hb as Hb2. apply text_bytes_one, text_bytes_utf8 in Hb2. rewrite Hb2. cbn [ebind]. rewrite Ht. cbn [ebind].
        do 2 f_equal. f_equal. apply escapes_one with (a := 97) (bs := bs); auto. apply escapes_lower. intros x. now apply char_bytes_small with (c := c).
Qed.

Lemma quoted_spec bs : (forall x, In x bs -> x < 256) -> forall t, concat (map quote_byte bs) = t <-> quoted bs t.
Proof.
  induction bs as [|b bs IH]; intros Hs t.
  - cbn. split; [intros <-; constructor|]. intro Hq. inversion Hq; reflexivity.
  - assert (Hs' : forall x, In x bs -> x < 256) by (intros; apply Hs; now right).
    assert (Hb : b < 256) by (apply Hs; now left). specialize (IH Hs'). cbn [map concat]. unfold quote_byte at 1. split.
    + intros <-. destruct (quote_safe b) eqn:Eq; [apply q_same; [now apply unquoted_spec|now apply IH]|].
      destruct (N.eqb_spec b 32) as [->|Hn]; [apply q_space; now apply IH|].
      apply q_escaped; auto; [intro K; apply unquoted_spec in K; congruence|now apply hex_upper_spec|now apply IH].
    + intro Hq. inversion Hq as [|? ? t' K Ht|? t' Ht|? ? e t' K Hn He Ht]; subst.
      * apply unquoted_spec in K. rewrite K. apply IH in Ht. now rewrite Ht.
      * apply IH in Ht. now rewrite Ht.
      * destruct (quote_safe b) eqn:Eq; [exfalso; now apply K, unquoted_spec|].
        destruct (N.eqb_spec b 32) as [->|_]; [congruence|]. apply IH in Ht. rewrite Ht.
        f_equal. eapply escaped_one; eauto. now apply hex_upper_spec.
Qed.
Lemma text_bytes_small s b : text_bytes s b -> forall x, In x b -> x < 256.
Proof.
  induction 1 as [|c bs s b Hc H IH]; [intros x []|]. intros x Hx. apply in_app_iff in Hx as [Hx|Hx]; [|auto].
  eapply char_bytes_small; eauto.
Qed.

(** ** C05 *)
Theorem C05_exact : forall H enc a ts nt n id p,
  hash_ok H -> config_0003_ok a ts nt n -> id <> [] ->
  identifier_to_path H enc (L0003 a ts nt) id = Ok p ->
  exists b tuples e name,
    text_bytes id b /\ encoded id e /\
    ((length e <= 100)%nat /\ name = e \/ (100 < length e)%nat /\ name = firstn 100 e ++ [45] ++ H a b) /\
    path_of (tuples ++ [name]) p /\
    length tuples = Z.to_nat nt /\
    (forall t, In t tuples -> length t = Z.to_nat ts) /\
    concat tuples = firstn (Z.to_nat nt * Z.to_nat ts) (H a b).
Proof.
  intros H enc a ts nt n id p Hok Hc Hid Hp.
  destruct (id_to_path_shape H id a ts nt n p Hok Hc Hid Hp)
    as [b [tuples [name [Hb [Ep [Hl [He [Hcc [Hpl [Hg _]]]]]]]]]].
  unfold get_encapsulation_directory in Hg. apply ebind_ok in Hg as [e [Hee Hg]].
  exists b, tuples, e, name. split; [now apply utf8_text|]. split; [now apply encoded_spec|].
  split; [|now repeat split].
  destruct (Nat.ltb_spec 100 (length e)); injection Hg as <-; [right|left]; auto.
Qed.
Print Assumptions C05_exact.

(** The encoding of an identifier is one text, and there is one whenever the
    identifier has UTF-8 bytes. *)
Theorem C05_encoded : forall id,
  (forall e e', encoded id e -> encoded id e' -> e = e') /\ (forall b, text_bytes id b -> exists e, encoded id e).
Proof.
  intros id. split.
  - intros e e' H1 H2. apply encoded_spec in H1, H2. congruence.
  - intros b. revert b. induction id as [|c id IH]; intros b Hb; [exists []; constructor|].
    inversion Hb as [|? bs ? r Hc Hr]; subst. destruct (IH _ Hr) as [e He].
    destruct (encap_safe c) eqn:Es.
    + exists (c :: e). apply enc_kept; [now apply kept_spec|auto].
    + eexists. apply enc_escaped with (bs := bs); eauto.
      * intro K. apply kept_spec in K. congruence.
      * apply escapes_lower. intros x. now apply char_bytes_small with (c := c).
Qed.
Print Assumptions C05_encoded.

(** ** C06 *)
Theorem C06_exact : forall id p,
  flat_quoted_path id = Ok p <-> id <> [] /\ exists b, text_bytes id b /\ quoted b p.
Proof.
  intros id p. unfold flat_quoted_path. destruct id as [|c id].
  - split; [discriminate|]. intros [K _]. congruence.
  - unfold quote_plus. split.
    + intro Hp. split; [discriminate|]. apply ebind_ok in Hp as [b [Hb Hq]]. injection Hq as Hq.
      apply utf8_text in Hb. exists b. split; auto. apply quoted_spec in Hq; auto. eapply text_bytes_small; eauto.
    + intros [_ [b [Hb Hq]]]. pose proof Hb as Hb2. apply text_bytes_utf8 in Hb2. rewrite Hb2. cbn [ebind].
      f_equal. apply quoted_spec; auto. eapply text_bytes_small; eauto.
Qed.
Print Assumptions C06_exact.

(** An identifier with kept, escaped and non-ASCII characters in both layouts *)
Example C05_exact_ex : encoded (`"a-B_9 ." ++ [233]) (`"a-B_9%20%2e%c3%a9").
Proof. apply encoded_spec. vm_compute. reflexivity. Qed.
Example C05_exact_ex2 : ~ encoded (`".") (`"%2E") /\ ~ encoded (`".") (`".").
Proof. split; intro K; apply encoded_spec in K; vm_compute in K; discriminate. Qed.
Example C06_exact_ex : quoted (`"a b/.~" ++ [195; 169]) (`"a+b%2F.~%C3%A9") /\ ~ quoted (`"/") (`"%2f").
Proof.
  split; [|intro K]; apply quoted_spec in K || apply quoted_spec; try (intros x Hx; cbn in Hx; intuition lia).
  - vm_compute. reflexivity.
  - vm_compute in K. discriminate.
Qed.
