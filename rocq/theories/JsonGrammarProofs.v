(** The reader of JSON follows the grammar: soundness. *)
From Coq Require Import Lia.
From Verif Require Import Base Json JsonTextModel JsonGrammarSpec.
Open Scope N_scope.

Lemma skip_split s : exists w, s = w ++ skip_ws s /\ blank w.
Proof.
  induction s as [|c s (w & E & B)]; [exists []; split; [reflexivity|constructor]|]. cbn [skip_ws]. destruct (is_ws c) eqn:W.
  - exists (c :: w). split; [cbn; congruence|]. constructor; [|exact B]. unfold is_ws in W. rewrite !orb_true_iff, !N.eqb_eq in W. tauto.
  - exists []. split; [reflexivity|constructor].
Qed.
Lemma eat_inv c s r : eat c s = Some r -> s = c :: r.
Proof. destruct s as [|x s]; [discriminate|]. cbn. destruct (N.eqb_spec x c); [intros [= ->]; congruence|discriminate]. Qed.
Lemma hexval_digit c x : hexval c = Some x <-> hex_digit c x.
Proof.
  unfold hexval, hex_digit. destruct (N.leb_spec 48 c), (N.leb_spec c 57), (N.leb_spec 97 c), (N.leb_spec c 102), (N.leb_spec 65 c), (N.leb_spec c 70); cbn [andb];
    (split; [intros [= <-]; lia|intro Q; first [exfalso; lia|f_equal; lia]]).
Qed.
Lemma hex4_iff s n r : hex4 s = Some (n, r) <-> exists h, s = h ++ r /\ four_hex h n.
Proof.
  split.
  - destruct s as [|a [|b [|c [|d s]]]]; try discriminate. cbn. destruct (hexval a) as [x|] eqn:A; [|discriminate]. destruct (hexval b) as [y|] eqn:B; [|discriminate].
    destruct (hexval c) as [z|] eqn:C; [|discriminate]. destruct (hexval d) as [w|] eqn:D; [|discriminate]. intros [= <- <-]. apply hexval_digit in A, B, C, D.
    exists [a; b; c; d]. split; [reflexivity|]. exists a, b, c, d, x, y, z, w. auto 10.
  - intros (h & -> & (a & b & c & d & x & y & z & w & -> & A & B & C & D & ->)). apply hexval_digit in A, B, C, D. cbn. now rewrite A, B, C, D.
Qed.
Lemma is_high_iff n : is_high n = true <-> high n.
Proof. unfold is_high, high. rewrite andb_true_iff, !N.leb_le. tauto. Qed.
Lemma is_low_iff n : is_low n = true <-> low n.
Proof. unfold is_low, low. rewrite andb_true_iff, !N.leb_le. tauto. Qed.
Lemma scan_string_sound f : forall s v q, scan_string f s = Some (v, q) -> exists b, s = b ++ 34 :: q /\ string_body b v.
Proof.
  induction f as [|f IH]; intros s v q E; [discriminate|]. destruct s as [|c s]; [discriminate|]. cbn [scan_string] in E. destruct (N.eqb_spec c 34) as [->|N34].
  { injection E as <- <-. exists []. split; [reflexivity|constructor]. }
  destruct (N.eqb_spec c 92) as [->|N92].
  - destruct (scan_escape s) as [[x r']|] eqn:Se; [|discriminate]. destruct (scan_string f r') as [[t q']|] eqn:R; [|discriminate]. injection E as <- <-.
    destruct (IH _ _ _ R) as (b & -> & B). unfold scan_escape in Se. destruct s as [|e s]; [discriminate|]. destruct (N.eqb_spec e 117) as [->|N117].
    + unfold scan_unicode in Se. destruct (hex4 s) as [[n r]|] eqn:H4; [|discriminate]. apply hex4_iff in H4 as (h & -> & Hh). destruct (is_high n) eqn:Hi.
      * apply is_high_iff in Hi. destruct (eat 92 r) as [r1|] eqn:E1; [apply eat_inv in E1; subst r; destruct (eat 117 r1) as [r2|] eqn:E2|].
        -- apply eat_inv in E2. subst r1. destruct (hex4 r2) as [[n' r3]|] eqn:H5; [|discriminate]. apply hex4_iff in H5 as (h' & -> & Hh'). destruct (is_low n') eqn:Lo.
           ++ apply is_low_iff in Lo. injection Se as <- ->. exists (92 :: 117 :: h ++ 92 :: 117 :: h' ++ b). split; [cbn; rewrite <- !app_assoc; cbn; now rewrite <- app_assoc|]. now apply b_pair.
           ++ injection Se as <- E3. exists (92 :: 117 :: h ++ b). split; [cbn; rewrite <- app_assoc; now rewrite E3|]. apply b_unicode; auto. intros _ (h2 & n2 & q2 & -> & Hh2 & L2).
              cbn in E3. injection E3 as E3. rewrite <- app_assoc in E3.
              assert (X : hex4 (h' ++ r3) = Some (n', r3)) by (apply hex4_iff; eauto). rewrite E3 in X. assert (Y : hex4 (h2 ++ q2 ++ 34 :: q') = Some (n2, q2 ++ 34 :: q')) by (apply hex4_iff; eauto).
              rewrite X in Y. injection Y as -> _. apply is_low_iff in L2. congruence.
        -- injection Se as <- E3. exists (92 :: 117 :: h ++ b). split; [cbn; rewrite <- app_assoc; now rewrite E3|]. apply b_unicode; auto. intros _ (h2 & n2 & q2 & -> & _).
           cbn in E3. injection E3 as E3. subst r1. discriminate E2.
        -- injection Se as <- E3. exists (92 :: 117 :: h ++ b). split; [cbn; rewrite <- app_assoc; now rewrite E3|]. apply b_unicode; auto. intros _ (h2 & n2 & q2 & -> & _).
           cbn in E3. subst r. discriminate E1.
      * injection Se as <- ->. exists (92 :: 117 :: h ++ b). split; [cbn; now rewrite <- app_assoc|]. apply b_unicode; auto. intro Hn. apply is_high_iff in Hn. congruence.
    + exists (92 :: e :: b). assert (K : In (e, x) [(34, 34); (92, 92); (47, 47); (98, 8); (102, 12); (110, 10); (114, 13); (116, 9)] /\ s = b ++ 34 :: q').
      { repeat match type of Se with (if ?a =? ?k then _ else _) = _ => destruct (N.eqb_spec a k) as [->|]; [injection Se as <- ->; split; [cbn; tauto|reflexivity]|] end. discriminate Se. }
      destruct K as [K ->]. split; [reflexivity|]. now apply b_escape.
  - destruct (N.ltb_spec c 32); [discriminate|]. destruct (scan_string f s) as [[t q']|] eqn:R; [|discriminate]. injection E as <- <-. destruct (IH _ _ _ R) as (b & -> & B).
    exists (c :: b). split; [reflexivity|]. now constructor.
Qed.

(** ** Numbers *)
Lemma digit_iff c : is_ascii_digit c = true <-> 48 <= c <= 57.
Proof. unfold is_ascii_digit. rewrite andb_true_iff, !N.leb_le. tauto. Qed.
Lemma take_split s : forall d q, take_digits s = (d, q) -> s = d ++ q /\ all_digits d /\ match q with c :: _ => ~ (48 <= c <= 57) | [] => True end.
Proof.
  induction s as [|c s IH]; intros d q E; cbn [take_digits] in E.
  - injection E as <- <-. repeat constructor.
  - destruct (is_ascii_digit c) eqn:D.
    + destruct (take_digits s) as [d' q'] eqn:T. injection E as <- <-. destruct (IH _ _ eq_refl) as (-> & A & Q). split; [reflexivity|]. split; [constructor; [now apply digit_iff|exact A]|exact Q].
    + injection E as <- <-. split; [reflexivity|]. split; [constructor|]. rewrite <- digit_iff. congruence.
Qed.
Lemma scan_int_sound s t r : scan_int s = Some (t, r) -> s = t ++ r /\ exists sg ip, t = sg ++ ip /\ (sg = [] \/ sg = [45]) /\ whole ip.
Proof.
  unfold scan_int. intro E.
  assert (G : exists sg q, s = sg ++ q /\ (sg = [] \/ sg = [45]) /\
    match q with c :: q' => if c =? 48 then Some (sg ++ [48], q') else if (49 <=? c) && (c <=? 57) then let '(d, q'') := take_digits q in Some (sg ++ d, q'') else None | [] => None end = Some (t, r)).
  { destruct (eat 45 s) as [q|] eqn:Ee; [apply eat_inv in Ee; exists [45], q; auto|exists [], s; auto]. }
  clear E. destruct G as (sg & q & -> & Hs & E). destruct q as [|c q]; [discriminate|]. destruct (N.eqb_spec c 48) as [->|N48].
  - injection E as <- <-. split; [now rewrite <- app_assoc|]. exists sg, [48]. split; [reflexivity|]. split; [exact Hs|now left].
  - destruct (N.leb_spec 49 c); [|discriminate]. destruct (N.leb_spec c 57); [|discriminate]. cbn [andb] in E. destruct (take_digits (c :: q)) as [d q''] eqn:T. injection E as <- <-.
    destruct (take_split _ _ _ T) as (E & A & _). split; [now rewrite <- app_assoc, <- E|]. exists sg, d. split; [reflexivity|]. split; [exact Hs|].
    cbn [take_digits] in T. assert (Dc : is_ascii_digit c = true) by (apply digit_iff; lia). rewrite Dc in T. destruct (take_digits q) as [d1 q1]. injection T as <- <-. right. exists c, d1. inversion A; subst. auto.
Qed.
Lemma scan_frac_sound s t r : scan_frac s = (t, r) -> s = t ++ r /\ (t = [] \/ fraction t).
Proof.
  unfold scan_frac. destruct (eat 46 s) as [q|] eqn:E; [|intros [= <- <-]; auto]. apply eat_inv in E. subst s. destruct (take_digits q) as [d q'] eqn:T. destruct (take_split _ _ _ T) as (-> & A & _).
  destruct d as [|c d]; intros [= <- <-]; [auto|]. split; [reflexivity|]. right. exists (c :: d). split; [reflexivity|]. split; [discriminate|exact A].
Qed.
Lemma scan_exp_sound s t r : scan_exp s = (t, r) -> s = t ++ r /\ (t = [] \/ exponent t).
Proof.
  unfold scan_exp. destruct s as [|e s]; [intros [= <- <-]; auto|]. destruct ((e =? 101) || (e =? 69)) eqn:E; [|intros [= <- <-]; auto]. rewrite orb_true_iff, !N.eqb_eq in E.
  assert (G : exists sg q, (match s with c :: q => if (c =? 43) || (c =? 45) then ([c], q) else ([], s) | [] => ([], s) end) = (sg, q) /\ s = sg ++ q /\ (sg = [] \/ sg = [43] \/ sg = [45])).
  { destruct s as [|c q]; [exists [], []; auto|]. destruct (N.eqb_spec c 43) as [->|]; [exists [43], q; auto|]. destruct (N.eqb_spec c 45) as [->|]; [exists [45], q; auto|]. exists [], (c :: q). auto. }
  destruct G as (sg & q & -> & -> & Hs). destruct (take_digits q) as [d q'] eqn:T. destruct (take_split _ _ _ T) as (-> & A & _).
  destruct d as [|c d]; intros [= <- <-]; [auto|]. split; [cbn; now rewrite <- !app_assoc|]. right. exists e, sg, (c :: d). repeat split; auto. discriminate.
Qed.
Lemma decimal_val s : digits_val s = decimal s.
Proof.
  enough (G : forall a, fold_left (fun a c => a * 10 + (c - 48)) s a = a * 10 ^ N.of_nat (List.length s) + decimal s) by (unfold digits_val; rewrite G; lia).
  induction s as [|c s IH]; intro a; cbn [fold_left decimal List.length]; [cbn; lia|]. rewrite IH, Nat2N.inj_succ, N.pow_succ_r'. lia.
Qed.
Lemma whole_head s : whole s -> exists c r, s = c :: r /\ 48 <= c <= 57.
Proof. intros [->|(c & r & -> & H & _)]; [exists 48, []|exists c, r]; split; auto; lia. Qed.
Lemma scan_number_sound s j r : scan_number s = Ok (j, r) -> exists t, s = t ++ r /\ value_text t j.
Proof.
  unfold scan_number. destruct (scan_int s) as [[t q]|] eqn:E; [|discriminate]. apply scan_int_sound in E as (-> & sg & ip & -> & Hs & Hw).
  destruct (scan_frac q) as [fr r1] eqn:Ef. apply scan_frac_sound in Ef as (-> & Hf). destruct (scan_exp r1) as [ex r2] eqn:Ee. apply scan_exp_sound in Ee as (-> & He). intro E.
  assert (R : fr <> [] \/ ex <> [] -> Ok (JFloat ((sg ++ ip) ++ fr ++ ex), r2) = Ok (j, r) -> exists t, (sg ++ ip) ++ fr ++ ex ++ r2 = t ++ r /\ value_text t j).
  { intros Hn [= <- <-]. exists ((sg ++ ip) ++ fr ++ ex). split; [now rewrite <- !app_assoc|]. apply v_real. exists sg, ip, fr, ex. split; [now rewrite <- app_assoc|]. split; [exact Hs|]. split; [exact Hw|].
    destruct Hf as [->|Hf]; [right; split; [reflexivity|]; destruct He as [->|He]; [destruct Hn; contradiction|exact He]|left; auto]. }
  destruct fr as [|x fr]; [destruct ex as [|y ex]|].
  - cbn [app]. destruct (too_long (sg ++ ip)) eqn:TL; [discriminate|]. injection E as <- <-. exists (sg ++ ip). split; [reflexivity|]. apply v_int. exists ip. split; [exact Hw|].
    unfold too_long in TL. apply N.ltb_ge in TL. destruct (whole_head ip Hw) as (c & q & -> & Hc).
    destruct Hs as [->| ->]; cbn [app] in *; unfold drop_sign, int_value in *; cbn [eat] in *.
    + destruct (N.eqb_spec c 45); [lia|]. split; [exact TL|]. left. now rewrite decimal_val.
    + change (45 =? 45) with true in *. cbv iota in *. split; [exact TL|]. right. now rewrite decimal_val.
  - cbn [app] in *. apply R; [right; discriminate|exact E].
  - apply R; [left; discriminate|exact E].
Qed.
Lemma prefix_split p s r : strip_prefix p s = Some r -> s = p ++ r.
Proof.
  unfold strip_prefix. destruct (startswith p s) eqn:E; [|discriminate]. intros [= <-]. revert s E. induction p as [|c p IH]; intros s E; [reflexivity|].
  destruct s as [|x s]; [discriminate E|]. cbn [startswith] in E. apply andb_true_iff in E as [E1 E2]. apply N.eqb_eq in E1. subst x. cbn. f_equal. now apply IH.
Qed.
Lemma scan_constant_sound s j r : scan_constant constants s = Some (j, r) -> exists t, s = t ++ r /\ value_text t j.
Proof.
  unfold constants. cbn [scan_constant]. intro E.
  repeat match type of E with match strip_prefix ?p s with _ => _ end = _ => destruct (strip_prefix p s) as [q|] eqn:P; [apply prefix_split in P; injection E as <- <-; exists p; split; [exact P|]|clear P] end; try discriminate E; first [solve [constructor]|apply v_python; cbn; tauto].
Qed.

(** ** Objects *)
Lemma put_dset k v d : put_member k v d (dset k v d).
Proof.
  induction d as [|[k' v'] d IH]; cbn [dset]; [apply (put_new k v []); intros []|]. destruct (str_eqb_spec k k') as [->|Nk].
  - apply (put_old k' v [] v' d). intros [].
  - inversion IH as [d0 Hn|a u b Hn E1 E2].
    + apply (put_new k v ((k', v') :: d)). intros [X|X]; [cbn in X; congruence|now apply Hn].
    + apply (put_old k v ((k', v') :: a) u b). intros [X|X]; [cbn in X; congruence|now apply Hn].
Qed.

(** ** Values *)
Theorem scan_sound f :
  (forall s j r, scan_value f s = Ok (j, r) -> exists t, s = t ++ r /\ value_text t j) /\
  (forall s l q, scan_elements f s = Ok (l, q) -> exists t, s = t ++ 93 :: q /\ elements_text t l) /\
  (forall s d d' q, scan_members f s d = Ok (d', q) -> exists t l, s = t ++ 125 :: q /\ members_text t l /\ gathered d l d').
Proof.
  induction f as [|f (IHv & IHe & IHm)]; [split; [|split]; intros; discriminate|]. split; [|split].
  - intros s j r E. destruct s as [|c s]; [discriminate E|]. cbn [scan_value] in E. destruct (N.eqb_spec c 34) as [->|N34]; [|destruct (N.eqb_spec c 123) as [->|N123]; [|destruct (N.eqb_spec c 91) as [->|N91]]].
    + destruct (scan_string _ s) as [[t q]|] eqn:Es; [|discriminate E]. apply Ok_inv in E. injection E as <- <-. apply scan_string_sound in Es as (b & -> & B).
      exists (34 :: b ++ [34]). split; [cbn; now rewrite <- app_assoc|now constructor].
    + destruct (skip_split s) as (w & Ew & Bw). destruct (eat 125 (skip_ws s)) as [q|] eqn:Ee.
      * apply eat_inv in Ee. apply Ok_inv in E. injection E as <- <-. exists (123 :: w ++ [125]). split; [cbn; rewrite <- app_assoc; cbn; congruence|now constructor].
      * destruct (scan_members f (skip_ws s) []) as [[d q]|] eqn:Em; [|discriminate E]. cbn [ebind] in E. apply Ok_inv in E. injection E as <- <-. destruct (IHm _ _ _ _ Em) as (t & l & Et & M & G).
        exists (123 :: w ++ t ++ [125]). split; [cbn; rewrite <- !app_assoc; cbn; congruence|]. now apply v_object with l.
    + destruct (skip_split s) as (w & Ew & Bw). destruct (eat 93 (skip_ws s)) as [q|] eqn:Ee.
      * apply eat_inv in Ee. apply Ok_inv in E. injection E as <- <-. exists (91 :: w ++ [93]). split; [cbn; rewrite <- app_assoc; cbn; congruence|now constructor].
      * destruct (scan_elements f (skip_ws s)) as [[l q]|] eqn:Em; [|discriminate E]. cbn [ebind] in E. apply Ok_inv in E. injection E as <- <-. destruct (IHe _ _ _ Em) as (t & Et & M).
        exists (91 :: w ++ t ++ [93]). split; [cbn; rewrite <- !app_assoc; cbn; congruence|]. now apply v_array.
    + destruct (scan_constant constants (c :: s)) as [[v q]|] eqn:Ec; [apply Ok_inv in E; injection E as <- <-; now apply scan_constant_sound in Ec|now apply scan_number_sound].
  - intros s l q E. cbn [scan_elements] in E. destruct (scan_value f s) as [[v r]|] eqn:Ev; [|discriminate E]. cbn [ebind] in E. destruct (IHv _ _ _ Ev) as (t & -> & V). destruct (skip_split r) as (w & Ew & Bw).
    destruct (eat 93 (skip_ws r)) as [q1|] eqn:E1.
    + apply eat_inv in E1. apply Ok_inv in E. injection E as <- <-. exists (t ++ w). split; [rewrite <- app_assoc; congruence|now constructor].
    + destruct (eat 44 (skip_ws r)) as [q2|] eqn:E2; [|discriminate E]. apply eat_inv in E2. destruct (skip_split q2) as (w' & Ew' & Bw'). destruct (scan_elements f (skip_ws q2)) as [[l' q']|] eqn:El; [|discriminate E].
      cbn [ebind] in E. apply Ok_inv in E. injection E as <- <-. destruct (IHe _ _ _ El) as (ts & Ets & M). exists (t ++ w ++ 44 :: w' ++ ts). split; [|now constructor].
      rewrite Ew, E2, Ew', Ets. now repeat (rewrite <- ?app_assoc; cbn [app]).
  - intros s d d' q E. cbn [scan_members] in E. destruct (eat 34 s) as [r|] eqn:E0; [|discriminate E]. apply eat_inv in E0. subst s.
    destruct (scan_string _ r) as [[k r1]|] eqn:Es; [|discriminate E]. apply scan_string_sound in Es as (b & -> & B). destruct (skip_split r1) as (w & Ew & Bw).
    destruct (eat 58 (skip_ws r1)) as [r2|] eqn:E1; [|discriminate E]. apply eat_inv in E1. destruct (skip_split r2) as (w' & Ew' & Bw').
    destruct (scan_value f (skip_ws r2)) as [[v r3]|] eqn:Ev; [|discriminate E]. cbn [ebind] in E. destruct (IHv _ _ _ Ev) as (t & Et & V). destruct (skip_split r3) as (u & Eu & Bu).
    destruct (eat 125 (skip_ws r3)) as [q1|] eqn:E2.
    + apply eat_inv in E2. apply Ok_inv in E. injection E as <- <-. exists (34 :: b ++ 34 :: w ++ 58 :: w' ++ t ++ u), [(k, v)].
      split; [|split; [now constructor|apply g_put with (dset k v d); [apply put_dset|constructor]]]. rewrite Ew, E1, Ew', Et, Eu, E2. now repeat (rewrite <- ?app_assoc; cbn [app]).
    + destruct (eat 44 (skip_ws r3)) as [q2|] eqn:E3; [|discriminate E]. apply eat_inv in E3. destruct (skip_split q2) as (u' & Eu' & Bu'). destruct (IHm _ _ _ _ E) as (ts & l & Ets & M & G).
      exists (34 :: b ++ 34 :: w ++ 58 :: w' ++ t ++ u ++ 44 :: u' ++ ts), ((k, v) :: l).
      split; [|split; [now constructor|apply g_put with (dset k v d); [apply put_dset|exact G]]]. rewrite Ew, E1, Ew', Et, Eu, E3, Eu', Ets. now repeat (rewrite <- ?app_assoc; cbn [app]).
Qed.
Theorem loads_sound s j : json_loads s = Ok j -> document s j.
Proof.
  unfold json_loads. destruct (eat 65279 s); [discriminate|]. destruct (skip_split s) as (w & Ew & Bw). destruct (scan_value _ (skip_ws s)) as [[v r]|] eqn:E; [|discriminate]. cbn [ebind].
  destruct (skip_split r) as (w' & Ew' & Bw'). destruct (skip_ws r); [|discriminate]. intros [= <-]. destruct (proj1 (scan_sound _) _ _ _ E) as (t & Et & V).
  exists w, t, w'. split; [rewrite app_nil_r in Ew'; congruence|auto].
Qed.
