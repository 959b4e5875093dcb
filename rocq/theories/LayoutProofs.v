(** Proofs about LayoutModel. *)
From Verif Require Import Base Unicode Regex Utf8 Json PathModel DigestModel LayoutModel LayoutSpec.

(** * Digests *)

Lemma read_blocks_ok bufsize : (0 < bufsize)%nat -> forall fuel rest d,
  (length rest < fuel)%nat -> read_blocks bufsize fuel rest d = Ok (d ++ rest).
Proof.
  intros Hb. induction fuel as [|fuel IH]; intros rest d Hl; [lia|].
  simpl. destruct (firstn bufsize rest) as [|x b] eqn:E.
  - destruct rest as [|y rest]; [now rewrite app_nil_r|].
    destruct bufsize; [lia|]. discriminate.
  - rewrite IH.
    + rewrite <- E, <- app_assoc, firstn_skipn. reflexivity.
    + rewrite skipn_length. assert (rest <> []) by (intros ->; now rewrite firstn_nil in E).
      assert (0 < length rest)%nat by (destruct rest; [congruence|simpl; lia]). lia.
Qed.

Lemma BUFSIZE_pos : (0 < BUFSIZE)%nat.
Proof. unfold BUFSIZE. lia. Qed.

Lemma file_digest_blocks_ok H n alg c : (0 < n)%nat -> file_digest_blocks H n alg c = Ok (H alg c).
Proof. intros Hn. unfold file_digest_blocks. rewrite read_blocks_ok; auto. Qed.

Lemma lower_hex_char c : is_lower_hex c = true -> lower_char c = c.
Proof.
  unfold is_lower_hex, is_ascii_digit, lower_char.
  destruct (N.leb_spec 65 c), (N.leb_spec c 90); simpl; auto.
  destruct (N.leb_spec 48 c), (N.leb_spec c 57), (N.leb_spec 97 c), (N.leb_spec c 102); simpl; lia || discriminate.
Qed.

Lemma lower_id s : Forall (fun c => is_lower_hex c = true) s -> lower s = s.
Proof.
  induction 1 as [|c s Hc _ IH]; simpl; [reflexivity|]. now rewrite lower_hex_char, IH.
Qed.

Lemma string_digest_ok H txt t d : string_digest H txt t = Ok d ->
  exists b n, utf8_encode txt = Ok b /\ d = H t b /\ hash_len t = Some n.
Proof.
  unfold string_digest. intros Hd. apply ebind_ok in Hd as [b [Hb Hd]].
  exists b. unfold hash_len.
  destruct (str_eqb_spec t (`"sha512")) as [->|]; [inversion Hd; eauto|].
  destruct (str_eqb_spec t (`"sha256")) as [->|]; [inversion Hd; eauto|].
  destruct (str_eqb_spec t (`"sha1")) as [->|]; [inversion Hd; eauto|].
  destruct (str_eqb_spec t (`"md5")) as [->|]; [inversion Hd; eauto|].
  discriminate.
Qed.

Lemma string_digest_any H t txt d txt' b : string_digest H txt t = Ok d ->
  utf8_encode txt' = Ok b -> string_digest H txt' t = Ok (H t b).
Proof.
  unfold string_digest. intros Hd Hb. apply ebind_ok in Hd as [b0 [Hb0 Hd]]. rewrite Hb. simpl.
  destruct (str_eqb_spec t (`"sha512")) as [->|]; [reflexivity|].
  destruct (str_eqb_spec t (`"sha256")) as [->|]; [reflexivity|].
  destruct (str_eqb_spec t (`"sha1")) as [->|]; [reflexivity|].
  destruct (str_eqb_spec t (`"md5")) as [->|]; [reflexivity|].
  discriminate.
Qed.

(** * Percent encoding *)

Lemma hex_value_lower n : (n < 16)%N -> hex_value (hex_lower_digit n) = Some n.
Proof.
  intros Hn. unfold hex_value, hex_lower_digit, is_ascii_digit.
  destruct (N.ltb_spec n 10).
  - destruct (N.leb_spec 48 (48 + n)), (N.leb_spec (48 + n) 57); simpl; try lia. f_equal; lia.
  - destruct (N.leb_spec 48 (87 + n)), (N.leb_spec (87 + n) 57); simpl; try lia.
    destruct (N.leb_spec 97 (87 + n)), (N.leb_spec (87 + n) 102); simpl; try lia. f_equal; lia.
Qed.

Lemma hex_value_upper n : (n < 16)%N -> hex_value (hex_upper_digit n) = Some n.
Proof.
  intros Hn. unfold hex_value, hex_upper_digit, is_ascii_digit.
  destruct (N.ltb_spec n 10).
  - destruct (N.leb_spec 48 (48 + n)), (N.leb_spec (48 + n) 57); simpl; try lia. f_equal; lia.
  - destruct (N.leb_spec 48 (55 + n)), (N.leb_spec (55 + n) 57); simpl; try lia.
    destruct (N.leb_spec 97 (55 + n)), (N.leb_spec (55 + n) 102); simpl; try lia.
    destruct (N.leb_spec 65 (55 + n)), (N.leb_spec (55 + n) 70); simpl; try lia. f_equal; lia.
Qed.

Lemma unquote_hex_lower b r : (b < 256)%N ->
  unquote_to_bytes (percent :: hex_lower b ++ r) = b :: unquote_to_bytes r.
Proof.
  intros Hb. unfold hex_lower. cbn [app unquote_to_bytes]. rewrite N.eqb_refl.
  rewrite !hex_value_lower by lia. f_equal. lia.
Qed.

Lemma unquote_hex_upper b r : (b < 256)%N ->
  unquote_to_bytes (percent :: hex_upper b ++ r) = b :: unquote_to_bytes r.
Proof.
  intros Hb. unfold hex_upper. cbn [app unquote_to_bytes]. rewrite N.eqb_refl.
  rewrite !hex_value_upper by lia. f_equal. lia.
Qed.

Lemma unquote_plain c r : c <> percent -> unquote_to_bytes (c :: r) = c :: unquote_to_bytes r.
Proof. intros H. simpl. destruct (N.eqb_spec c percent); [congruence|reflexivity]. Qed.

Lemma unquote_concat_lower bs r : Forall (fun b => b < 256)%N bs ->
  unquote_to_bytes (concat (map (fun b => percent :: hex_lower b) bs) ++ r) = bs ++ unquote_to_bytes r.
Proof.
  induction 1 as [|b bs Hb _ IH]; [reflexivity|].
  cbn [map concat]. rewrite <- app_assoc. change ((percent :: hex_lower b) ++ ?x) with (percent :: hex_lower b ++ x).
  rewrite unquote_hex_lower by auto. now rewrite IH.
Qed.

Lemma alnum_ascii c : is_ascii_alnum c = true -> (48 <= c < 128)%N.
Proof.
  unfold is_ascii_alnum, is_ascii_digit. intros H.
  destruct (N.leb_spec 48 c), (N.leb_spec c 57), (N.leb_spec 65 c), (N.leb_spec c 90),
    (N.leb_spec 97 c), (N.leb_spec c 122); simpl in H; try discriminate; lia.
Qed.

Lemma encap_safe_ascii c : encap_safe c = true -> (c < 128)%N /\ c <> percent /\ c <> slash /\ c <> 46%N.
Proof.
  unfold encap_safe. intros H. apply orb_true_iff in H as [H|H].
  - apply orb_true_iff in H as [H|H].
    + apply alnum_ascii in H as Ha. unfold percent, slash. repeat split; try lia.
    + apply N.eqb_eq in H. unfold percent, slash. lia.
  - apply N.eqb_eq in H. unfold percent, slash. lia.
Qed.

Lemma encap_encode_utf8 s d : encap_encode s = Ok d ->
  exists b, utf8_encode s = Ok b /\ unquote_to_bytes d = b.
Proof.
  revert d; induction s as [|c s IH]; intros d H; cbn [encap_encode] in H.
  - inversion H; subst. exists []. auto.
  - apply ebind_ok in H as [e [He H]]. apply ebind_ok in H as [d' [Hd [= <-]]].
    apply IH in Hd as [b [Hb Hu]]. destruct (encap_safe c) eqn:Es.
    + inversion He; subst e. apply encap_safe_ascii in Es as [H1 [H2 _]].
      exists (c :: b). split.
      * simpl. unfold utf8_char. destruct (N.ltb_spec c 128); [|lia]. rewrite Hb. reflexivity.
      * simpl app. rewrite unquote_plain by auto. now rewrite Hu.
    + unfold percent_encode in He. apply ebind_ok in He as [cb [Hcb [= <-]]].
      exists (cb ++ b). split.
      * change (c :: s) with ([c] ++ s). now apply utf8_encode_app.
      * rewrite unquote_concat_lower by (eapply utf8_encode_bytes; eauto). now rewrite Hu.
Qed.

Lemma encap_encode_total s b : utf8_encode s = Ok b -> exists d, encap_encode s = Ok d.
Proof.
  revert b; induction s as [|c s IH]; intros b H; [exists []; reflexivity|].
  simpl in H. destruct (utf8_char c) as [bc|] eqn:Ec; [|discriminate].
  apply ebind_ok in H as [br [Hr _]]. apply IH in Hr as [d Hd].
  cbn [encap_encode]. rewrite Hd. destruct (encap_safe c); [simpl; eauto|].
  unfold percent_encode. simpl. rewrite Ec. simpl. eauto.
Qed.

Definition encap_char (c : N) : Prop := encap_safe c = true \/ c = percent.

Lemma hex_lower_digit_safe n : (n < 16)%N -> encap_safe (hex_lower_digit n) = true.
Proof.
  intros Hn. unfold encap_safe, is_ascii_alnum, is_ascii_digit, hex_lower_digit.
  destruct (N.ltb_spec n 10).
  - destruct (N.leb_spec 48 (48 + n)), (N.leb_spec (48 + n) 57); simpl; auto; lia.
  - destruct (N.leb_spec 97 (87 + n)), (N.leb_spec (87 + n) 122); lia.
Qed.

Lemma encap_encode_chars s d : encap_encode s = Ok d -> Forall encap_char d.
Proof.
  revert d; induction s as [|c s IH]; intros d H; cbn [encap_encode] in H.
  - inversion H; constructor.
  - apply ebind_ok in H as [e [He H]]. apply ebind_ok in H as [d' [Hd [= <-]]].
    apply Forall_app; split; [|now apply IH]. destruct (encap_safe c) eqn:Es.
    + inversion He; subst. repeat constructor; auto.
    + unfold percent_encode in He. apply ebind_ok in He as [cb [Hcb [= <-]]].
      apply utf8_encode_bytes in Hcb. induction Hcb as [|b bs Hb _ IHb]; [constructor|].
      simpl. constructor; [right; reflexivity|].
      constructor; [left; apply hex_lower_digit_safe; lia|].
      constructor; [left; apply hex_lower_digit_safe; lia|]. auto.
Qed.

Lemma encap_encode_nonnil s d : s <> [] -> encap_encode s = Ok d -> d <> [].
Proof.
  destruct s as [|c s]; [congruence|]. intros _ H. cbn [encap_encode] in H.
  apply ebind_ok in H as [e [He H]]. apply ebind_ok in H as [d' [Hd [= <-]]].
  destruct (encap_safe c); [inversion He; discriminate|].
  unfold percent_encode in He. apply ebind_ok in He as [cb [Hcb [= <-]]].
  simpl in Hcb. destruct (utf8_char c) as [bc|] eqn:Ec; [|discriminate].
  simpl in Hcb. inversion Hcb; subst. rewrite app_nil_r. apply utf8_char_length in Ec.
  destruct bc; [simpl in Ec; lia|discriminate].
Qed.

Lemma encap_char_noslash d : Forall encap_char d -> ~ In slash d.
Proof.
  intros H Hi. rewrite Forall_forall in H. apply H in Hi as [Hi|Hi].
  - apply encap_safe_ascii in Hi. tauto.
  - discriminate.
Qed.

Lemma encap_char_nodot d : Forall encap_char d -> ~ In 46%N d.
Proof.
  intros H Hi. rewrite Forall_forall in H. apply H in Hi as [Hi|Hi].
  - apply encap_safe_ascii in Hi. tauto.
  - discriminate.
Qed.

Lemma lower_hex_encap c : is_lower_hex c = true -> encap_char c.
Proof.
  intros H. left. unfold encap_safe, is_ascii_alnum. unfold is_lower_hex in H.
  apply orb_true_iff in H as [H|H]; [rewrite H; reflexivity|].
  apply andb_true_iff in H as [H1 H2]. apply N.leb_le in H1, H2.
  destruct (N.leb_spec 97 c), (N.leb_spec c 122); lia.
Qed.

Lemma get_encap_facts s digest e :
  Forall (fun c => is_lower_hex c = true) digest ->
  s <> [] -> get_encapsulation_directory s digest = Ok e ->
  e <> [] /\ Forall encap_char e /\ (length e <= 100 + 1 + length digest)%nat.
Proof.
  intros Hd Hs H. unfold get_encapsulation_directory in H. apply ebind_ok in H as [d [Hd' H]].
  pose proof (encap_encode_chars _ _ Hd') as Hc. pose proof (encap_encode_nonnil _ _ Hs Hd') as Hn.
  destruct (Nat.ltb_spec 100 (length d)) as [Hl|Hl]; apply Ok_inv in H; subst e.
  - repeat split.
    + destruct d; [simpl in Hl; lia|discriminate].
    + apply Forall_app; split.
      * rewrite <- (firstn_skipn 100 d) in Hc. apply Forall_app in Hc; tauto.
      * simpl. constructor; [left; reflexivity|].
        eapply Forall_impl; [|eauto]. apply lower_hex_encap.
    + rewrite !app_length, firstn_length. change (length (`"-")) with 1%nat. lia.
  - repeat split; auto. lia.
Qed.

(** Equal encapsulation directories come from equal identifiers, or both encoded
    forms are over 100 characters and the digests are equal. *)
Lemma skip_trunc (x d : str) : (100 < length x)%nat -> skipn 101 (firstn 100 x ++ `"-" ++ d) = d.
Proof.
  intros Hl. rewrite skipn_app, skipn_all2 by (rewrite firstn_length; lia).
  rewrite firstn_length, Nat.min_l by lia. reflexivity.
Qed.

Lemma length_trunc (x d : str) : (100 < length x)%nat ->
  length (firstn 100 x ++ `"-" ++ d) = (101 + length d)%nat.
Proof.
  intros Hl. rewrite !app_length, firstn_length, Nat.min_l by lia. reflexivity.
Qed.

Lemma get_encap_inj s1 s2 d1 d2 e :
  get_encapsulation_directory s1 d1 = Ok e -> get_encapsulation_directory s2 d2 = Ok e ->
  s1 = s2 \/ (d1 = d2 /\ (100 < length e)%nat).
Proof.
  unfold get_encapsulation_directory. intros H1 H2.
  apply ebind_ok in H1 as [x1 [Hx1 H1]]. apply ebind_ok in H2 as [x2 [Hx2 H2]].
  apply encap_encode_utf8 in Hx1 as [b1 [Hb1 Hu1]]. apply encap_encode_utf8 in Hx2 as [b2 [Hb2 Hu2]].
  destruct (Nat.ltb_spec 100 (length x1)) as [L1|L1], (Nat.ltb_spec 100 (length x2)) as [L2|L2];
    apply Ok_inv in H1; apply Ok_inv in H2.
  - right. split.
    + rewrite <- (skip_trunc x1 d1), <- (skip_trunc x2 d2) by auto. congruence.
    + rewrite <- H1, length_trunc by auto. lia.
  - exfalso. pose proof (length_trunc x1 d1 L1). rewrite H1, <- H2 in H. lia.
  - exfalso. pose proof (length_trunc x2 d2 L2). rewrite H2, <- H1 in H. lia.
  - left. subst. eapply utf8_encode_inj; eauto.
Qed.

(** * Tuples of the digest *)

Lemma digest_tuples_length d ts nt : length (digest_tuples d ts nt) = nt.
Proof. unfold digest_tuples. now rewrite map_length, seq_length. Qed.

Lemma digest_tuples_each d ts nt t : (ts * nt <= length d)%nat ->
  In t (digest_tuples d ts nt) -> length t = ts.
Proof.
  intros Hl Hi. unfold digest_tuples in Hi. apply in_map_iff in Hi as [i [<- Hi]].
  apply in_seq in Hi. rewrite firstn_length, skipn_length.
  assert (i * ts + ts <= length d)%nat by nia. lia.
Qed.

Lemma firstn_skipn_add {A} (l : list A) a b :
  firstn (a + b) l = firstn a l ++ firstn b (skipn a l).
Proof.
  revert l; induction a as [|a IH]; intros l; [reflexivity|].
  destruct l; simpl; [now rewrite firstn_nil|]. now rewrite IH.
Qed.

Lemma digest_tuples_concat d ts nt : concat (digest_tuples d ts nt) = firstn (nt * ts) d.
Proof.
  unfold digest_tuples. induction nt as [|nt IH]; [reflexivity|].
  rewrite seq_S, map_app, concat_app, IH. simpl. rewrite app_nil_r.
  rewrite (Nat.add_comm ts), firstn_skipn_add. reflexivity.
Qed.

Lemma In_firstn {A} (x : A) n l : In x (firstn n l) -> In x l.
Proof. intros H. rewrite <- (firstn_skipn n l). apply in_app_iff; auto. Qed.
Lemma In_skipn {A} (x : A) n l : In x (skipn n l) -> In x l.
Proof. intros H. rewrite <- (firstn_skipn n l). apply in_app_iff; auto. Qed.

Lemma digest_tuples_chars d ts nt t c :
  In t (digest_tuples d ts nt) -> In c t -> In c d.
Proof.
  intros Hi Hc. unfold digest_tuples in Hi. apply in_map_iff in Hi as [i [<- Hi]].
  eapply In_skipn, In_firstn; eauto.
Qed.

Lemma lower_hex_noslash d : Forall (fun c => is_lower_hex c = true) d -> ~ In slash d.
Proof.
  intros H. apply encap_char_noslash. eapply Forall_impl; [|eauto]. apply lower_hex_encap.
Qed.

Lemma fold_path_join l : Forall plain_component l -> fold_left path_join l [] = join [slash] l.
Proof.
  intros H. destruct l as [|a l]; [reflexivity|]. cbn [fold_left]. rewrite path_join_nil.
  apply (path_join_list_plain (a :: l)). auto.
Qed.

Lemma id_to_path_shape H id a ts nt n p :
  hash_ok H -> config_0003_ok a ts nt n -> id <> [] ->
  id_to_path H id a (Z.to_nat ts) (Z.to_nat nt) = Ok p ->
  exists b tuples encap,
    utf8_encode id = Ok b /\
    p = join [slash] (tuples ++ [encap]) /\
    length tuples = Z.to_nat nt /\
    (forall t, In t tuples -> length t = Z.to_nat ts) /\
    concat tuples = firstn (Z.to_nat nt * Z.to_nat ts) (H a b) /\
    Forall plain_component tuples /\
    get_encapsulation_directory id (H a b) = Ok encap /\
    encap <> [] /\ Forall encap_char encap /\ (length encap <= 101 + n)%nat.
Proof.
  intros Hok [Hlen [Hin [Hts [Hnt [Hz Hprod]]]]] Hid Hp. unfold id_to_path in Hp.
  apply ebind_ok in Hp as [d0 [Hd0 Hp]]. apply ebind_ok in Hp as [encap [He Hp]].
  apply string_digest_ok in Hd0 as [b [n' [Hb [-> Hn']]]].
  destruct (Hok a n b Hlen) as [Hl Hhex]. rewrite lower_id in * by auto.
  exists b, (digest_tuples (H a b) (Z.to_nat ts) (Z.to_nat nt)), encap.
  apply get_encap_facts in He as Hef; auto. destruct Hef as [Hne [Hch Hle]].
  assert (Hpl : Forall plain_component (digest_tuples (H a b) (Z.to_nat ts) (Z.to_nat nt))).
  { apply Forall_forall. intros t Ht. split.
    - apply digest_tuples_each in Ht as Hlt; [|nia].
      destruct (Z.eq_dec ts 0) as [E|E].
      + assert (nt = 0)%Z by tauto. subst nt. simpl in Ht. contradiction.
      + destruct t; [simpl in Hlt; lia|discriminate].
    - intros Hs. apply (lower_hex_noslash (H a b)); auto. eapply digest_tuples_chars; eauto. }
  split; auto. split.
  { inversion Hp; subst. rewrite fold_path_join by auto. apply path_join_join; auto.
    split; auto. now apply encap_char_noslash. }
  split; [apply digest_tuples_length|]. split.
  { intros t Ht. eapply digest_tuples_each; [|eauto]. nia. }
  split; [apply digest_tuples_concat|]. repeat split; auto. lia.
Qed.

Lemma id_to_path_total H id a ts nt b :
  In a [`"sha512"; `"sha256"; `"sha1"; `"md5"] -> utf8_encode id = Ok b ->
  exists p, id_to_path H id a ts nt = Ok p.
Proof.
  intros Hin Hb. unfold id_to_path.
  assert (Hs : string_digest H id a = Ok (H a b)).
  { unfold string_digest. rewrite Hb.
    destruct Hin as [<-|[<-|[<-|[<-|[]]]]]; reflexivity. }
  rewrite Hs. cbn [ebind]. unfold get_encapsulation_directory.
  destruct (encap_encode_total id b Hb) as [d ->]. cbn [ebind].
  destruct (100 <? length d)%nat; cbn [ebind]; eauto.
Qed.

Lemma shape_noslash tuples encap e :
  Forall plain_component tuples -> Forall encap_char encap -> encap <> [] ->
  In e (tuples ++ [encap]) -> ~ In slash e.
Proof.
  intros Ht He Hn Hi. apply in_app_iff in Hi as [Hi|[<-|[]]].
  - rewrite Forall_forall in Ht. now apply Ht in Hi as [_ Hi].
  - now apply encap_char_noslash.
Qed.

(** * quote_plus *)

Lemma quote_safe_facts c : quote_safe c = true -> (c < 128)%N /\ c <> percent /\ c <> 43%N /\ c <> slash.
Proof.
  unfold quote_safe. rewrite !orb_true_iff, !N.eqb_eq. unfold percent, slash.
  intros [[[[H|H]|H]|H]|H]; try lia. apply alnum_ascii in H. lia.
Qed.

Definition plus_to_space (c : N) : N := if (c =? 43)%N then 32%N else c.

Lemma hex_upper_digit_facts n : (n < 16)%N ->
  hex_upper_digit n <> 43%N /\ hex_upper_digit n <> slash.
Proof.
  intros Hn. unfold hex_upper_digit, slash. destruct (N.ltb_spec n 10); lia.
Qed.

Lemma plus_to_space_id c : c <> 43%N -> plus_to_space c = c.
Proof. unfold plus_to_space. destruct (N.eqb_spec c 43); congruence. Qed.

Lemma quote_byte_unquote b r : (b < 256)%N ->
  unquote_to_bytes (map plus_to_space (quote_byte b) ++ r) = b :: unquote_to_bytes r.
Proof.
  intros Hb. unfold quote_byte. destruct (quote_safe b) eqn:Es.
  - apply quote_safe_facts in Es as [H1 [H2 [H3 H4]]].
    cbn [map app]. rewrite plus_to_space_id by auto. now apply unquote_plain.
  - destruct (N.eqb_spec b 32) as [->|Hn].
    + reflexivity.
    + unfold hex_upper. cbn [map]. destruct (hex_upper_digit_facts (b / 16)) as [D1 _]; [lia|].
      destruct (hex_upper_digit_facts (b mod 16)) as [D2 _]; [lia|].
      rewrite (plus_to_space_id (hex_upper_digit (b / 16))), (plus_to_space_id (hex_upper_digit (b mod 16))) by auto.
      apply (unquote_hex_upper b r Hb).
Qed.

Lemma quote_plus_unquote s q : quote_plus s = Ok q -> unquote_plus q = Some s.
Proof.
  unfold quote_plus, unquote_plus. intros H. apply ebind_ok in H as [b [Hb [= <-]]].
  rewrite <- (utf8_roundtrip s b Hb). f_equal. fold plus_to_space.
  change (map (fun c : N => if (c =? 43)%N then 32%N else c)) with (map plus_to_space).
  apply utf8_encode_bytes in Hb. induction Hb as [|x bs Hx _ IH]; [reflexivity|].
  cbn [map concat]. rewrite map_app, quote_byte_unquote by auto. now rewrite IH.
Qed.

Lemma quote_plus_noslash s q : quote_plus s = Ok q -> ~ In slash q.
Proof.
  unfold quote_plus. intros H. apply ebind_ok in H as [b [Hb [= <-]]].
  apply utf8_encode_bytes in Hb. induction Hb as [|x bs Hx _ IH]; [simpl; tauto|].
  cbn [map concat]. rewrite in_app_iff. intros [Hi|Hi]; [|tauto].
  unfold quote_byte in Hi. destruct (quote_safe x) eqn:Es.
  - destruct Hi as [Hi|[]]. subst. now apply quote_safe_facts in Es.
  - destruct (N.eqb_spec x 32); simpl in Hi.
    + destruct Hi as [Hi|[]]. discriminate.
    + unfold percent in Hi. destruct (hex_upper_digit_facts (x / 16)) as [_ D1]; [lia|].
      destruct (hex_upper_digit_facts (x mod 16)) as [_ D2]; [lia|].
      destruct Hi as [Hi|[Hi|[Hi|[]]]]; first [discriminate|congruence].
Qed.

Lemma quote_plus_nonnil s q : s <> [] -> quote_plus s = Ok q -> q <> [].
Proof.
  intros Hs H E. subst q. apply quote_plus_unquote in H.
  change (Some (@nil N) = Some s) in H. congruence.
Qed.

Lemma quote_plus_total s b : utf8_encode s = Ok b -> exists q, quote_plus s = Ok q.
Proof. intros H. unfold quote_plus. rewrite H. simpl. eauto. Qed.

Lemma quote_plus_inj s1 s2 q : quote_plus s1 = Ok q -> quote_plus s2 = Ok q -> s1 = s2.
Proof. intros H1 H2. apply quote_plus_unquote in H1, H2. congruence. Qed.

(** * Tuple tree *)

Section Tuples.
  Variable n : nat.
  Hypothesis Hn : (0 < n)%nat.

  Lemma tuple_segments_short fuel s : (length s <= n)%nat -> tuple_segments fuel n s = [s].
  Proof.
    intros H. destruct fuel; [reflexivity|]. simpl. destruct (Nat.ltb_spec n (length s)); [lia|reflexivity].
  Qed.

  Lemma tuple_segments_long fuel s : (n < length s)%nat -> (length s <= S fuel)%nat ->
    tuple_segments (S fuel) n s = firstn n s :: tuple_segments fuel n (skipn n s).
  Proof. intros H _. simpl. destruct (Nat.ltb_spec n (length s)); [reflexivity|lia]. Qed.

  Lemma tuple_segments_fuel fuel fuel' s : (length s <= fuel)%nat -> (length s <= fuel')%nat ->
    tuple_segments fuel n s = tuple_segments fuel' n s.
  Proof.
    revert fuel' s; induction fuel as [|fuel IH]; intros fuel' s H1 H2.
    - destruct s; [|simpl in H1; lia]. rewrite !tuple_segments_short; simpl; auto; lia.
    - destruct fuel' as [|fuel'].
      { destruct s; [|simpl in H2; lia]. rewrite !tuple_segments_short; simpl; auto; lia. }
      destruct (Nat.lt_ge_cases n (length s)).
      + rewrite !tuple_segments_long by auto. f_equal. apply IH; rewrite skipn_length; lia.
      + now rewrite !tuple_segments_short by auto.
  Qed.

  Definition segs (s : str) : list str := tuple_segments (length s) n s.

  Lemma segs_short s : (length s <= n)%nat -> segs s = [s].
  Proof. apply tuple_segments_short. Qed.

  Lemma segs_long s : (n < length s)%nat -> segs s = firstn n s :: segs (skipn n s).
  Proof.
    intros H. unfold segs. destruct (length s) as [|k] eqn:E; [lia|].
    rewrite tuple_segments_long by lia. f_equal. apply tuple_segments_fuel; rewrite skipn_length; lia.
  Qed.

  Lemma segs_ind (P : str -> Prop) :
    (forall s, (length s <= n)%nat -> P s) ->
    (forall s, (n < length s)%nat -> P (skipn n s) -> P s) -> forall s, P s.
  Proof.
    intros H1 H2 s. remember (length s) as k eqn:E. revert s E.
    induction k as [k IH] using lt_wf_ind. intros s ->.
    destruct (Nat.lt_ge_cases n (length s)); [|auto]. apply H2; auto.
    eapply IH; [|reflexivity]. rewrite skipn_length. lia.
  Qed.

  Lemma segs_concat s : concat (segs s) = s.
  Proof.
    induction s as [s Hs|s Hs IH] using segs_ind.
    - rewrite segs_short by auto. simpl. apply app_nil_r.
    - rewrite segs_long by auto. simpl. now rewrite IH, firstn_skipn.
  Qed.

  (** All segments but the last have exactly n characters, the last one 1..n. *)
  Lemma segs_shape s : s <> [] ->
    exists init last, segs s = init ++ [last] /\ Forall (fun t => length t = n) init /\
      (1 <= length last <= n)%nat.
  Proof.
    pattern s; apply segs_ind; clear s; [intros s Hs Hne|intros s Hs IH Hne].
    - exists [], s. rewrite segs_short by auto. repeat split; auto.
      destruct s; [congruence|simpl; lia].
    - destruct IH as [init [last [E [Hf Hl]]]].
      { intros E. apply (f_equal (@length N)) in E. rewrite skipn_length in E. simpl in E. lia. }
      exists (firstn n s :: init), last. rewrite segs_long, E by auto. repeat split; auto; try lia.
      constructor; auto. rewrite firstn_length. lia.
  Qed.

  Lemma segs_plain s : s <> [] -> ~ In slash s -> Forall plain_component (segs s).
  Proof.
    intros Hne Hs. destruct (segs_shape s Hne) as [init [last [E [Hf Hl]]]].
    apply Forall_forall. intros t Ht. split.
    - rewrite E in Ht. apply in_app_iff in Ht as [Ht|[<-|[]]].
      + rewrite Forall_forall in Hf. apply Hf in Ht. destruct t; [simpl in Ht; lia|discriminate].
      + destruct last; [simpl in Hl; lia|discriminate].
    - intros Hi. apply Hs. rewrite <- (segs_concat s). apply in_concat. eauto.
  Qed.
End Tuples.

Lemma tuple_tree_path_shape enc n id p : (0 < n)%nat ->
  enc id <> [] -> ~ In slash (enc id) ->
  tuple_tree_path enc n id = Ok p -> p = join [slash] (segs n (enc id) ++ [enc id]).
Proof.
  intros Hn Hne Hs H. unfold tuple_tree_path in H. destruct id as [|c id]; [discriminate|].
  inversion H; subst. fold (segs n (enc (c :: id))). apply path_join_list_plain.
  apply Forall_app; split; [now apply segs_plain|]. repeat constructor; auto.
Qed.

(** * UUID quadtree *)

Lemma Den_quad k s rest c c' :
  Den (re_quad k) s rest c c' <->
  length s = 4%nat /\ Forall (fun a => is_uuid_char a = true) s /\ c' = (k, s) :: c.
Proof.
  unfold re_quad. rewrite Den_grp. split.
  - intros [c1 [-> H]]. apply Den_rep_chr in H as [H1 [H2 ->]]. auto.
  - intros [H1 [H2 ->]]. eexists; split; [reflexivity|]. apply Den_rep_chr; auto.
Qed.

Definition quad (s : str) : Prop := length s = 4%nat /\ Forall (fun a => is_uuid_char a = true) s.

Definition uuid_text (q : list str) : str :=
  match q with
  | [a; b; c; d; e; f; g; h] =>
      a ++ b ++ `"-" ++ c ++ `"-" ++ d ++ `"-" ++ e ++ `"-" ++ f ++ g ++ h
  | _ => []
  end.

Lemma re_uuid_some s m : re_match re_uuid s = Some m ->
  exists a b c d e f g h nl, s = uuid_text [a; b; c; d; e; f; g; h] ++ nl /\ (nl = [] \/ nl = [10%N]) /\
    Forall quad [a; b; c; d; e; f; g; h] /\
    m = [(8, h); (7, g); (6, f); (5, e); (4, d); (3, c); (2, b); (1, a)]%nat.
Proof.
  intros H. apply re_match_sound in H as [x [rest [-> HD]]]. unfold re_uuid in HD.
  repeat match goal with
  | H : Den (RSeq _ _) _ _ _ _ |- _ =>
      let x := fresh "x" in let y := fresh "y" in let k := fresh "k" in
      let E := fresh "E" in let H1 := fresh "H" in let H2 := fresh "H" in
      apply Den_seq in H as [x [y [k [E [H1 H2]]]]]; subst
  | H : Den (re_quad _) _ _ _ _ |- _ =>
      let H1 := fresh "L" in let H2 := fresh "F" in apply Den_quad in H as [H1 [H2 ->]]
  | H : Den (rlit _) _ _ _ _ |- _ => apply Den_lit in H as [-> ->]
  | H : Den RDollar _ _ _ _ |- _ => let D := fresh "D" in apply Den_dol in H as [-> [-> D]]
  end.
  do 8 eexists. exists rest. split; [|split; [eassumption|split]].
  - unfold uuid_text. rewrite app_nil_r. rewrite <- !app_assoc. reflexivity.
  - unfold quad. repeat constructor; assumption.
  - reflexivity.
Qed.

Lemma Den_seq_intro a b x y rest c c1 c2 :
  Den a x (y ++ rest) c c1 -> Den b y rest c1 c2 -> Den (RSeq a b) (x ++ y) rest c c2.
Proof. intros. econstructor; eauto. Qed.

Lemma Den_quad_intro k s rest c : quad s -> Den (re_quad k) s rest c ((k, s) :: c).
Proof. intros [H1 H2]. apply Den_quad. auto. Qed.

Lemma Den_lit_intro l rest c : Den (rlit l) l rest c c.
Proof. now apply Den_lit. Qed.

Lemma re_uuid_none s : re_match re_uuid s = None ->
  ~ exists a b c d e f g h nl, s = uuid_text [a; b; c; d; e; f; g; h] ++ nl /\ (nl = [] \/ nl = [10%N]) /\
    Forall quad [a; b; c; d; e; f; g; h].
Proof.
  intros H [a [b [c [d [e [f [g [h [nl [-> [Hnl Hf]]]]]]]]]]]. revert H.
  repeat match goal with H : Forall quad (_ :: _) |- _ =>
    let H1 := fresh "Q" in let H2 := fresh "R" in inversion H as [|? ? H1 H2]; subst; clear H end.
  eapply re_match_complete
    with (c' := [(8, h); (7, g); (6, f); (5, e); (4, d); (3, c); (2, b); (1, a)]%nat); [reflexivity|].
  unfold re_uuid, uuid_text. rewrite <- (app_nil_r h) at 1.
  repeat match goal with
  | |- Den (rlit _) _ _ _ _ => apply Den_lit_intro
  | |- Den (re_quad _) _ _ _ _ => apply Den_quad_intro; assumption
  | |- Den (RSeq _ _) _ _ _ _ => eapply Den_seq_intro
  | |- Den RDollar _ _ _ _ => apply Den_dol; auto
  end.
Qed.
