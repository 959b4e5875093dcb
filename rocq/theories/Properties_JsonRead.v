(** C96: what is read from a JSON file is what the text says. *)
From Coq Require Import Lia.
From Verif Require Import Base Utf8 Json JsonTextModel JsonTextSpec JsonTextProofs JsonFileProofs TextFile JsonGrammarSpec JsonGrammarProofs JsonGrammarProofs2.
Open Scope N_scope.

(** Every text of the grammar is read, as the value it stands for, and no other text is. *)
Theorem C96_reads : forall s j, json_loads s = Ok j <-> document s j.
Proof. intros s j. split; [apply loads_sound|apply loads_complete]. Qed.
Print Assumptions C96_reads.

(** A text stands for one value. *)
Theorem C96_one_value : forall s j j', document s j -> document s j' -> j = j'.
Proof. intros s j j' D D'. apply C96_reads in D, D'. congruence. Qed.
Print Assumptions C96_one_value.

(** Everything else is refused with an exception. *)
Theorem C96_refused : forall s, (forall j, ~ document s j) -> json_loads s = Raise JSONDecodeError \/ json_loads s = Raise ValueError.
Proof.
  intros s N. pose proof (json_loads_cases s) as H. destruct (json_loads s) as [j|e] eqn:E; [|destruct H as [->| ->]; auto]. exfalso. apply C96_reads in E. now apply (N j).
Qed.
Print Assumptions C96_refused.

(** Which bytes are a text in UTF-8 *)
Lemma decode_sound f : forall b s, utf8_decode_fuel f b = Some s -> text_bytes s b.
Proof.
  induction f as [|f IH]; intros b s E; [discriminate|]. cbn [utf8_decode_fuel] in E. destruct b as [|b0 r]; [injection E as <-; constructor|].
  assert (G : forall c bs r', char_bytes c bs -> option_map (cons c) (utf8_decode_fuel f r') = Some s -> text_bytes s (bs ++ r')).
  { intros c bs r' Hc E'. destruct (utf8_decode_fuel f r') as [t|] eqn:Et; [|discriminate]. injection E' as <-. constructor; auto. }
  destruct (N.ltb_spec b0 128); [apply (G b0 [b0] r); [now constructor|exact E]|].
  destruct ((194 <=? b0) && (b0 <? 224)) eqn:E2.
  { apply andb_true_iff in E2 as [A1 A2]. apply N.leb_le in A1. apply N.ltb_lt in A2. destruct r as [|b1 r']; [discriminate|]. unfold is_cont in E. destruct ((128 <=? b1) && (b1 <? 192)) eqn:C1; [|discriminate].
    apply andb_true_iff in C1 as [C1 C2]. apply N.leb_le in C1. apply N.ltb_lt in C2. replace (b0 :: b1 :: r') with ([192 + (b0 - 192); 128 + (b1 - 128)] ++ r') by (cbn; repeat f_equal; lia).
    eapply G; [|exact E]. constructor; lia. }
  clear E2. destruct ((224 <=? b0) && (b0 <? 240)) eqn:E3.
  { apply andb_true_iff in E3 as [A1 A2]. apply N.leb_le in A1. apply N.ltb_lt in A2. destruct r as [|b1 [|b2 r']]; try discriminate. cbv zeta in E. unfold is_cont in E.
    destruct ((128 <=? b1) && (b1 <? 192)) eqn:C1; [|discriminate]. destruct ((128 <=? b2) && (b2 <? 192)) eqn:C2; [|discriminate]. cbn [andb] in E.
    apply andb_true_iff in C1 as [C1 C1']. apply andb_true_iff in C2 as [C2 C2']. apply N.leb_le in C1, C2. apply N.ltb_lt in C1', C2'.
    set (c := (b0 - 224) * 4096 + (b1 - 128) * 64 + (b2 - 128)) in *. destruct (N.leb_spec 2048 c); [|discriminate]. cbn [andb] in E. destruct ((55296 <=? c) && (c <=? 57343)) eqn:Su; [discriminate|]. cbn [negb] in E.
    replace (b0 :: b1 :: b2 :: r') with ([224 + (b0 - 224); 128 + (b1 - 128); 128 + (b2 - 128)] ++ r') by (cbn; repeat f_equal; lia).
    eapply G; [|exact E]. unfold c. constructor; try lia. fold c. intros [X Y]. apply N.leb_le in X, Y. now rewrite X, Y in Su. }
  clear E3. destruct ((240 <=? b0) && (b0 <? 245)) eqn:E4; [|discriminate].
  apply andb_true_iff in E4 as [A1 A2]. apply N.leb_le in A1. apply N.ltb_lt in A2. destruct r as [|b1 [|b2 [|b3 r']]]; try discriminate. cbv zeta in E. unfold is_cont in E.
  destruct ((128 <=? b1) && (b1 <? 192)) eqn:C1; [|discriminate]. destruct ((128 <=? b2) && (b2 <? 192)) eqn:C2; [|discriminate]. destruct ((128 <=? b3) && (b3 <? 192)) eqn:C3; [|discriminate]. cbn [andb] in E.
  apply andb_true_iff in C1 as [C1 C1']. apply andb_true_iff in C2 as [C2 C2']. apply andb_true_iff in C3 as [C3 C3']. apply N.leb_le in C1, C2, C3. apply N.ltb_lt in C1', C2', C3'.
  set (c := (b0 - 240) * 262144 + (b1 - 128) * 4096 + (b2 - 128) * 64 + (b3 - 128)) in *. destruct (N.leb_spec 65536 c); [|discriminate]. destruct (N.ltb_spec c 1114112); [|discriminate]. cbn [andb] in E.
  replace (b0 :: b1 :: b2 :: b3 :: r') with ([240 + (b0 - 240); 128 + (b1 - 128); 128 + (b2 - 128); 128 + (b3 - 128)] ++ r') by (cbn; repeat f_equal; lia).
  eapply G; [|exact E]. unfold c. constructor; lia.
Qed.
Lemma char_bytes_utf8 c bs : char_bytes c bs -> utf8_char c = Some bs.
Proof.
  assert (D : forall a m r, r < m -> (a * m + r) / m = a /\ (a * m + r) mod m = r).
  { intros a m r Hr. split; [symmetry; apply (N.div_unique _ m a r); lia|symmetry; apply (N.mod_unique _ m a r); lia]. }
  destruct 1 as [c H|x y Hy H|x y z Hy Hz H Hs|x y z w Hy Hz Hw H]; unfold utf8_char.
  - apply N.ltb_lt in H. now rewrite H.
  - destruct (N.ltb_spec (x * 64 + y) 128); [lia|]. destruct (N.ltb_spec (x * 64 + y) 2048); [|lia]. destruct (D x 64 y Hy) as [-> ->]. reflexivity.
  - set (c := x * 4096 + y * 64 + z) in *. destruct (N.ltb_spec c 128); [lia|]. destruct (N.ltb_spec c 2048); [lia|]. destruct (N.ltb_spec c 65536); [|lia].
    destruct ((55296 <=? c) && (c <=? 57343)) eqn:E; [apply andb_true_iff in E as [E1 E2]; apply N.leb_le in E1, E2; lia|].
    assert (E1 : c / 4096 = x) by (replace c with (x * 4096 + (y * 64 + z)) by (unfold c; lia); apply D; lia).
    assert (E2 : c / 64 = x * 64 + y) by (replace c with ((x * 64 + y) * 64 + z) by (unfold c; lia); now apply D). assert (E3 : c mod 64 = z) by (replace c with ((x * 64 + y) * 64 + z) by (unfold c; lia); now apply D).
    rewrite E1, E2, E3. destruct (D x 64 y Hy) as [_ ->]. reflexivity.
  - set (c := x * 262144 + y * 4096 + z * 64 + w) in *. destruct (N.ltb_spec c 128); [lia|]. destruct (N.ltb_spec c 2048); [lia|]. destruct (N.ltb_spec c 65536); [lia|]. destruct (N.ltb_spec c 1114112); [|lia].
    assert (E1 : c / 262144 = x) by (replace c with (x * 262144 + (y * 4096 + z * 64 + w)) by (unfold c; lia); apply D; lia).
    assert (E2 : c / 4096 = x * 64 + y) by (replace c with ((x * 64 + y) * 4096 + (z * 64 + w)) by (unfold c; lia); apply D; lia).
    assert (E3 : c / 64 = (x * 64 + y) * 64 + z) by (replace c with (((x * 64 + y) * 64 + z) * 64 + w) by (unfold c; lia); now apply D).
    assert (E4 : c mod 64 = w) by (replace c with (((x * 64 + y) * 64 + z) * 64 + w) by (unfold c; lia); now apply D).
    rewrite E1, E2, E3, E4. destruct (D x 64 y Hy) as [_ ->]. destruct (D (x * 64 + y) 64 z Hz) as [_ ->]. reflexivity.
Qed.
Lemma text_bytes_utf8 s b : text_bytes s b -> utf8_encode s = Ok b.
Proof. induction 1 as [|c bs s b Hc H IH]; [reflexivity|]. cbn [utf8_encode]. now rewrite (char_bytes_utf8 _ _ Hc), IH. Qed.
Theorem C96_utf8 : forall s b, (utf8_encode s = Ok b <-> text_bytes s b) /\ (utf8_decode b = Some s <-> text_bytes s b).
Proof.
  intros s b. assert (K : utf8_decode b = Some s -> text_bytes s b) by apply decode_sound. split; split; auto using text_bytes_utf8.
  - intro E. apply K. now apply utf8_roundtrip.
  - intro T. apply utf8_roundtrip. now apply text_bytes_utf8.
Qed.
Print Assumptions C96_utf8.

(** Files, read in text mode *)
Lemma newlines_ends s t : line_ends s t <-> newlines s = t.
Proof.
  split.
  - induction 1 as [|s t H IH|s t Hs H IH|c s t Hc H IH]; [reflexivity|cbn; now rewrite IH| |].
    + cbn [newlines]. change (13 =? 13) with true. cbv iota. destruct s as [|c s]; [cbn in IH; now subst t|]. destruct (N.eqb_spec c 10) as [->|]; [exfalso; now apply (Hs s)|]. now rewrite IH.
    + cbn [newlines]. destruct (N.eqb_spec c 13); [contradiction|]. now rewrite IH.
  - enough (G : forall n s, (List.length s <= n)%nat -> line_ends s (newlines s)) by (intros <-; apply (G _ s (le_n _))). clear s t. intro n. induction n as [|n IH]; intros s Hl.
    + destruct s; [constructor|cbn in Hl; lia].
    + destruct s as [|c s]; [constructor|]. cbn [List.length] in Hl. cbn [newlines]. destruct (N.eqb_spec c 13) as [->|Hc]; [|apply le_other; [exact Hc|apply IH; lia]].
      destruct s as [|d s]; [apply le_cr; [discriminate|constructor]|]. destruct (N.eqb_spec d 10) as [->|Hd]; [apply le_crlf, IH; cbn in Hl; lia|]. apply le_cr; [intros s' X; congruence|apply IH; cbn in *; lia].
Qed.
Theorem C96_file : forall b j, json_load b = Ok j <-> exists s t, text_bytes s b /\ line_ends s t /\ document t j.
Proof.
  intros b j. unfold json_load, read_text. split.
  - intro E. destruct (utf8_decode b) as [s|] eqn:U; [|discriminate E]. cbn [ebind] in E. exists s, (newlines s). split; [now apply C96_utf8|]. split; [now apply newlines_ends|now apply C96_reads].
  - intros (s & t & T & L & D). apply C96_utf8 in T. apply newlines_ends in L. subst t. rewrite T. cbn [ebind]. now apply C96_reads.
Qed.
Print Assumptions C96_file.

(** The files of this library are JSON texts for the data. *)
Theorem C96_written : forall j b, writable j -> json_file j = Ok b -> exists s t j', text_bytes s b /\ line_ends s t /\ document t j' /\ same_json j' j.
Proof.
  intros j b Hw E. destruct (json_file_ok j Hw) as [H1 H2]. assert (b = json_dumps j) by congruence. subst b.
  apply C96_file in H2 as (s & t & R & L & D). exists s, t, (sort_json j). split; [exact R|]. split; [exact L|]. split; [exact D|]. apply same_sort. now apply writable_wf.
Qed.
Print Assumptions C96_written.

(** Equal keys, escapes, a surrogate pair, all kinds of white space and numbers; and texts
    that are refused. *)
Definition ex_text : str := `" {""a"" : [1, -0.5e+3,
 -12 ,null] , ""b"":{}, ""a"": ""\ud83d\ude00\/x"" } ".
Example C96_ex : document ex_text (JObj [(`"a", JStr [128512; 47; 120]); (`"b", JObj [])]) /\
  forall j, ~ document (`"[1,]") j /\ ~ document (`"01") j /\ ~ document (`"{} x") j /\ ~ document (`"{""a"" 1}") j /\ ~ document (`"[1.]") j /\ ~ document [34; 9; 34] j /\ ~ document (`"'a'") j.
Proof.
  split; [apply C96_reads; vm_compute; reflexivity|]. intro j. repeat split; intro D; apply C96_reads in D; vm_compute in D; discriminate D.
Qed.
Example C96_file_ex : json_load [239; 187; 191; 123; 125] = Raise JSONDecodeError /\ (exists s t, text_bytes s [91; 34; 195; 169; 34; 93; 13; 10] /\ line_ends s t /\ document t (JArr [JStr [233]])) /\
  (forall s, ~ text_bytes s [192; 128]) /\ (forall s, ~ text_bytes s [237; 160; 128]).
Proof.
  split; [vm_compute; reflexivity|]. split; [apply C96_file; vm_compute; reflexivity|]. split; intros s T; apply C96_utf8 in T; vm_compute in T; discriminate T.
Qed.
