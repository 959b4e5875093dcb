(** UTF-8 encoding of Python strings: models str.encode("utf8") and
    bytes.decode("utf-8") (strict). No function of /repo is modelled here. *)
From Verif Require Import Base.
Open Scope N_scope.

(** A byte sequence: a list of numbers below 256. *)
Definition bytes := list N.

Definition utf8_char (c : N) : option bytes :=
  if c <? 128 then Some [c]
  else if c <? 2048 then Some [192 + c / 64; 128 + c mod 64]
  else if c <? 65536 then
    if (55296 <=? c) && (c <=? 57343) then None (* surrogate: UnicodeEncodeError *)
    else Some [224 + c / 4096; 128 + c / 64 mod 64; 128 + c mod 64]
  else if c <? 1114112 then
    Some [240 + c / 262144; 128 + c / 4096 mod 64; 128 + c / 64 mod 64; 128 + c mod 64]
  else None.

(** str.encode("utf8"); a lone surrogate raises UnicodeEncodeError, a ValueError. *)
Fixpoint utf8_encode (s : str) : exc bytes :=
  match s with
  | [] => Ok []
  | c :: r =>
      match utf8_char c with
      | None => Raise ValueError
      | Some b => let* br := utf8_encode r in Ok (b ++ br)
      end
  end.

Definition is_cont (b : N) : bool := (128 <=? b) && (b <? 192).

(** bytes.decode("utf-8"), strict: rejects overlong forms, surrogates, values
    above 0x10FFFF and truncated sequences. *)
Fixpoint utf8_decode_fuel (fuel : nat) (b : bytes) : option str :=
  match fuel with
  | O => None
  | S f =>
    match b with
    | [] => Some []
    | b0 :: r =>
      if b0 <? 128 then option_map (cons b0) (utf8_decode_fuel f r)
      else if (194 <=? b0) && (b0 <? 224) then
        match r with
        | b1 :: r' => if is_cont b1
                      then option_map (cons ((b0 - 192) * 64 + (b1 - 128))) (utf8_decode_fuel f r')
                      else None
        | _ => None
        end
      else if (224 <=? b0) && (b0 <? 240) then
        match r with
        | b1 :: b2 :: r' =>
            let c := (b0 - 224) * 4096 + (b1 - 128) * 64 + (b2 - 128) in
            if is_cont b1 && is_cont b2 && (2048 <=? c) && negb ((55296 <=? c) && (c <=? 57343))
            then option_map (cons c) (utf8_decode_fuel f r') else None
        | _ => None
        end
      else if (240 <=? b0) && (b0 <? 245) then
        match r with
        | b1 :: b2 :: b3 :: r' =>
            let c := (b0 - 240) * 262144 + (b1 - 128) * 4096 + (b2 - 128) * 64 + (b3 - 128) in
            if is_cont b1 && is_cont b2 && is_cont b3 && (65536 <=? c) && (c <? 1114112)
            then option_map (cons c) (utf8_decode_fuel f r') else None
        | _ => None
        end
      else None
    end
  end.
Definition utf8_decode (b : bytes) : option str := utf8_decode_fuel (S (List.length b)) b.

(** * Facts *)

Ltac Nbool := repeat match goal with
  | H : context [N.leb ?a ?b] |- _ => destruct (N.leb_spec a b); simpl in H
  | H : context [N.ltb ?a ?b] |- _ => destruct (N.ltb_spec a b); simpl in H
  | |- context [N.leb ?a ?b] => destruct (N.leb_spec a b); simpl
  | |- context [N.ltb ?a ?b] => destruct (N.ltb_spec a b); simpl
  end.

Lemma mod64 c : c mod 64 < 64. Proof. apply N.mod_lt; discriminate. Qed.

Lemma cont_ok x : x < 64 -> is_cont (128 + x) = true.
Proof. intros. unfold is_cont. apply andb_true_iff; split; [apply N.leb_le|apply N.ltb_lt]; lia. Qed.

Lemma split2 c : c = c / 64 * 64 + c mod 64.
Proof. pose proof (N.div_mod' c 64). lia. Qed.

Lemma split3 c : c = c / 4096 * 4096 + (c / 64 mod 64) * 64 + c mod 64.
Proof.
  pose proof (N.div_mod' c 64). pose proof (N.div_mod' (c / 64) 64).
  rewrite N.div_div in H0 by discriminate. change (64 * 64) with 4096 in H0. lia.
Qed.

Lemma split4 c : c = c / 262144 * 262144 + (c / 4096 mod 64) * 4096 + (c / 64 mod 64) * 64 + c mod 64.
Proof.
  pose proof (split3 c). pose proof (N.div_mod' (c / 4096) 64).
  rewrite N.div_div in H0 by discriminate. change (4096 * 64) with 262144 in H0. lia.
Qed.

Lemma Some_inv {A} (a b : A) : Some a = Some b -> b = a.
Proof. congruence. Qed.

Lemma utf8_char_decode c b r f : utf8_char c = Some b ->
  utf8_decode_fuel (S f) (b ++ r) = option_map (cons c) (utf8_decode_fuel f r).
Proof.
  unfold utf8_char. intros H.
  destruct (N.ltb_spec c 128) as [H1|H1].
  { apply Some_inv in H; subst b. simpl. destruct (N.ltb_spec c 128); [reflexivity|lia]. }
  destruct (N.ltb_spec c 2048) as [H2|H2].
  { apply Some_inv in H; subst b. cbn [app utf8_decode_fuel].
    assert (Hd : 2 <= c / 64) by (apply N.div_le_lower_bound; lia).
    assert (Hd2 : c / 64 < 32) by (apply N.div_lt_upper_bound; lia).
    destruct (N.ltb_spec (192 + c / 64) 128); [lia|].
    destruct (N.leb_spec 194 (192 + c / 64)); [|lia].
    destruct (N.ltb_spec (192 + c / 64) 224); [|lia]. cbn [andb].
    rewrite cont_ok by apply mod64.
    replace (192 + c / 64 - 192) with (c / 64) by (clear; generalize (c/64); lia).
    replace (128 + c mod 64 - 128) with (c mod 64) by (clear; generalize (c mod 64); lia).
    now rewrite <- split2. }
  destruct (N.ltb_spec c 65536) as [H3|H3].
  { destruct ((55296 <=? c) && (c <=? 57343)) eqn:Es; [discriminate|].
    apply Some_inv in H; subst b. cbn [app utf8_decode_fuel].
    assert (Hd2 : c / 4096 < 16) by (apply N.div_lt_upper_bound; lia).
    destruct (N.ltb_spec (224 + c / 4096) 128); [lia|].
    destruct (N.ltb_spec (224 + c / 4096) 224); [lia|]. rewrite andb_false_r.
    destruct (N.leb_spec 224 (224 + c / 4096)); [|lia].
    destruct (N.ltb_spec (224 + c / 4096) 240); [|lia]. cbn [andb].
    rewrite !cont_ok by apply mod64. cbv zeta.
    replace (224 + c / 4096 - 224) with (c / 4096) by (clear; generalize (c/4096); lia).
    replace (128 + c mod 64 - 128) with (c mod 64) by (clear; generalize (c mod 64); lia).
    replace (128 + c / 64 mod 64 - 128) with (c / 64 mod 64) by (clear; generalize (c / 64 mod 64); lia).
    rewrite <- split3. destruct (N.leb_spec 2048 c); [|lia]. now rewrite Es. }
  destruct (N.ltb_spec c 1114112) as [H4|H4]; [|discriminate].
  apply Some_inv in H; subst b. cbn [app utf8_decode_fuel].
  assert (Hd2 : c / 262144 < 5) by (apply N.div_lt_upper_bound; lia).
  destruct (N.ltb_spec (240 + c / 262144) 128); [lia|].
  destruct (N.ltb_spec (240 + c / 262144) 224); [lia|]. rewrite andb_false_r.
  destruct (N.ltb_spec (240 + c / 262144) 240); [lia|]. rewrite andb_false_r.
  destruct (N.leb_spec 240 (240 + c / 262144)); [|lia].
  destruct (N.ltb_spec (240 + c / 262144) 245); [|lia]. cbn [andb].
  rewrite !cont_ok by apply mod64. cbv zeta.
  replace (240 + c / 262144 - 240) with (c / 262144) by (clear; generalize (c/262144); lia).
  replace (128 + c mod 64 - 128) with (c mod 64) by (clear; generalize (c mod 64); lia).
  replace (128 + c / 64 mod 64 - 128) with (c / 64 mod 64) by (clear; generalize (c / 64 mod 64); lia).
  replace (128 + c / 4096 mod 64 - 128) with (c / 4096 mod 64) by (clear; generalize (c / 4096 mod 64); lia).
  rewrite <- split4. destruct (N.leb_spec 65536 c); [|lia].
  destruct (N.ltb_spec c 1114112); [reflexivity|lia].
Qed.

Lemma utf8_char_length c b : utf8_char c = Some b -> (1 <= List.length b)%nat.
Proof.
  unfold utf8_char. destruct (c <? 128); [intros [= <-]; simpl; lia|].
  destruct (c <? 2048); [intros [= <-]; simpl; lia|].
  destruct (c <? 65536).
  - destruct (_ && _); [discriminate|]. intros [= <-]; simpl; lia.
  - destruct (c <? 1114112); [intros [= <-]; simpl; lia|discriminate].
Qed.

Lemma utf8_roundtrip s b : utf8_encode s = Ok b -> utf8_decode b = Some s.
Proof.
  unfold utf8_decode. intros H.
  assert (G : forall s b f, utf8_encode s = Ok b -> (List.length b < f)%nat ->
    utf8_decode_fuel f b = Some s).
  { clear. induction s as [|c s IH]; simpl; intros b f H Hf.
    - inversion H; subst. destruct f; [lia|reflexivity].
    - destruct (utf8_char c) as [bc|] eqn:Ec; [|discriminate].
      apply ebind_ok in H as [br [Hr [= <-]]].
      destruct f as [|f]; [lia|]. erewrite utf8_char_decode by eauto.
      rewrite IH with (b := br); auto.
      apply utf8_char_length in Ec. rewrite app_length in Hf. lia. }
  eapply G; eauto.
Qed.

Lemma utf8_encode_inj s1 s2 b : utf8_encode s1 = Ok b -> utf8_encode s2 = Ok b -> s1 = s2.
Proof. intros H1 H2. apply utf8_roundtrip in H1, H2. congruence. Qed.

Lemma utf8_char_byte c b x : utf8_char c = Some b -> In x b -> x < 256.
Proof.
  unfold utf8_char. destruct (N.ltb_spec c 128).
  { intros HH; apply Some_inv in HH; subst b; intros [<-|[]]. lia. }
  destruct (N.ltb_spec c 2048).
  { intros HH; apply Some_inv in HH; subst b; intros Hi. assert (c / 64 < 32) by (apply N.div_lt_upper_bound; lia).
    pose proof (mod64 c). cbn [In] in Hi. destruct Hi as [<-|[<-|[]]];
    lia. }
  destruct (N.ltb_spec c 65536).
  { destruct (_ && _); [discriminate|].
    intros HH; apply Some_inv in HH; subst b; intros Hi. assert (c / 4096 < 16) by (apply N.div_lt_upper_bound; lia).
    pose proof (mod64 c). pose proof (mod64 (c/64)). cbn [In] in Hi. destruct Hi as [<-|[<-|[<-|[]]]];
    lia. }
  destruct (N.ltb_spec c 1114112); [|discriminate].
  intros HH; apply Some_inv in HH; subst b; intros Hi. assert (c / 262144 < 5) by (apply N.div_lt_upper_bound; lia).
  pose proof (mod64 c). pose proof (mod64 (c/64)). pose proof (mod64 (c/4096)).
  cbn [In] in Hi. destruct Hi as [<-|[<-|[<-|[<-|[]]]]];
  lia.
Qed.

Lemma utf8_encode_bytes s b : utf8_encode s = Ok b -> Forall (fun x => x < 256) b.
Proof.
  revert b; induction s as [|c s IH]; simpl; intros b H.
  - inversion H; constructor.
  - destruct (utf8_char c) as [bc|] eqn:Ec; [|discriminate].
    apply ebind_ok in H as [br [Hr [= <-]]]. apply Forall_app; split; auto.
    apply Forall_forall. intros x Hx. eapply utf8_char_byte; eauto.
Qed.

(** Bytes at or above 128 only come from non-ASCII characters. *)
Lemma utf8_char_ascii c b x : utf8_char c = Some b -> In x b -> x < 128 -> b = [c] /\ x = c.
Proof.
  unfold utf8_char. destruct (N.ltb_spec c 128).
  { intros HH; apply Some_inv in HH; subst b; intros [<-|[]]. auto. }
  destruct (N.ltb_spec c 2048).
  { intros HH; apply Some_inv in HH; subst b; intros Hi. cbn [In] in Hi. destruct Hi as [<-|[<-|[]]];
    intros; exfalso; lia. }
  destruct (N.ltb_spec c 65536).
  { destruct (_ && _); [discriminate|].
    intros HH; apply Some_inv in HH; subst b; intros Hi. cbn [In] in Hi. destruct Hi as [<-|[<-|[<-|[]]]];
    intros; exfalso; lia. }
  destruct (N.ltb_spec c 1114112); [|discriminate].
  intros HH; apply Some_inv in HH; subst b; intros Hi. cbn [In] in Hi. destruct Hi as [<-|[<-|[<-|[<-|[]]]]];
  intros; exfalso; lia.
Qed.

Lemma utf8_encode_app a b ba bb :
  utf8_encode a = Ok ba -> utf8_encode b = Ok bb -> utf8_encode (a ++ b) = Ok (ba ++ bb).
Proof.
  revert ba; induction a as [|c a IH]; simpl; intros ba Ha Hb.
  - inversion Ha; subst. auto.
  - destruct (utf8_char c); [|discriminate]. apply ebind_ok in Ha as [br [Hr [= <-]]].
    rewrite (IH br) by auto. simpl. now rewrite app_assoc.
Qed.

Lemma utf8_encode_ascii s : Forall (fun c => c < 128) s -> utf8_encode s = Ok s.
Proof.
  induction 1 as [|c s Hc _ IH]; [reflexivity|]. simpl. unfold utf8_char.
  destruct (N.ltb_spec c 128); [|lia]. rewrite IH. reflexivity.
Qed.
