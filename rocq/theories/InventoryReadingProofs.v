(** How the readings of the inventory rules are related. *)
From Coq Require Import Permutation.
From Verif Require Import Base Unicode Utf8 Json DatetimeSpec InventorySpec ObjectUtilsProofs DatetimeProofs InventoryValidatorProofs
  InventoryRulesProofs.

Lemma text_in_member j k v s : member j k v -> text_in s v -> text_in s j.
Proof. intros [d [-> Hi]] H. eapply TI_val; eauto. Qed.
Lemma text_in_strings j s : In s (strings j) -> text_in s j.
Proof.
  destruct j as [| | | | |l|]; try (intros []; fail). simpl. intros H. apply in_flat_map in H as [x [Hx H]].
  destruct x as [| | | |t| |]; try (destruct H; fail). destruct H as [->|[]]. eapply TI_arr; [exact Hx|constructor].
Qed.
Lemma text_in_listed d s : In s (listed d) -> text_in s (JObj d).
Proof.
  intros H. apply in_flat_map in H as [[k v] [Hi H]]. eapply TI_val; [exact Hi|]. now apply text_in_strings.
Qed.

Section Mono.
  Variables (R R' : reading) (inv : json) (f : facts).
  Hypothesis Ht : forall t v, member inv (`"type") (JStr t) -> In v [`"1.0"; `"1.1"] -> r_type R t v -> r_type R' t v.
  Hypothesis Hd : forall a d, text_in d inv -> r_digest R a d -> r_digest R' a d.
  Hypothesis Hc : forall p v cd rest, text_in p inv -> p = v ++ slash :: cd ++ slash :: rest -> r_content R rest -> r_content R' rest.
  Hypothesis Hca : forall cd p q, text_in p inv -> text_in q inv -> r_content_above R' cd p q -> r_content_above R cd p q.
  Hypothesis Hla : forall p q, text_in p inv -> text_in q inv -> r_logical_above R' p q -> r_logical_above R p q.
  Hypothesis Hcr : forall c, text_in c inv -> r_created R c -> r_created R' c.
  Hypothesis Hcd : forall c, member inv (`"contentDirectory") (JStr c) -> r_content_directory R c -> r_content_directory R' c.
  Hypothesis Hvs : forall w n, r_versions R w n -> r_versions R' w n.

  Lemma obeys_mono : obeys R inv f -> obeys R' inv f.
  Proof using All.
    intros (Hi & (t & T1 & T2 & T3) & Ha & HC & (M1 & M2 & M3 & M4 & M5 & M6) & Hh & Hf & vs & (V1 & (w & V2 & V3) & V4) & Hb & Hu).
    assert (Tm : forall s, text_in s (JObj (f_manifest f)) -> text_in s inv) by (intros s; now apply text_in_member with (k := `"manifest")).
    split; [auto|]. split; [exists t; auto|]. split; [auto|]. split.
    { unfold content_directory_rule in *. destruct (f_cdir_set f); [|auto]. destruct HC as [C1 C2]. split; auto. }
    split.
    { split; [auto|]. split.
      { intros d x Hi'. destruct (M2 _ _ Hi') as [K1 K2]. split; [|auto]. apply Hd; [|auto]. apply Tm. eapply TI_key; eauto. }
      split; [auto|]. split.
      { intros p Hp. pose proof Hp as Hp'. apply M4 in Hp as [K1 (v & rest & K2 & K3 & K4)]. split; [auto|]. exists v, rest. split; [auto|]. split; [auto|].
        apply (Hc p v (f_cdir f)); auto. apply Tm. now apply text_in_listed. }
      split; [auto|]. intros p q Hp Hq Hab. apply (M6 p q Hp Hq). apply Hca; auto; apply Tm; now apply text_in_listed. }
    split; [auto|]. split.
    { destruct Hf as [Hf|[fx [F1 F2]]]; [now left|right]. exists fx. split; [auto|]. intros alg x Hx.
      destruct (F2 _ _ Hx) as [G1 [block [-> [G2 G3]]]]. split; [auto|]. exists block. split; [auto|]. split; [|auto].
      intros d y Hy. destruct (G2 _ _ Hy) as [K1 K2]. split; [|auto]. apply Hd; [|auto].
      eapply text_in_member; [exact F1|]. eapply TI_val; [exact Hx|]. eapply TI_key; eauto. }
    exists vs. split; [split; [auto|split; [exists w; auto|auto]]|]. split; [|auto].
    intros v b Hv. destruct (Hb _ _ Hv) as [st (B1 & B2 & B3 & B4 & S1 & S2 & S3 & S4 & S5)].
    assert (Tb : forall s, text_in s b -> text_in s inv).
    { intros s Hs. eapply text_in_member; [exact V1|]. eapply TI_val; eauto. }
    assert (Ts : forall s, text_in s (JObj st) -> text_in s inv).
    { intros s Hs. apply Tb. eapply text_in_member; eauto. }
    exists st. split.
    { destruct B1 as [c [C1 C2]]. exists c. split; [auto|]. apply Hcr; [|auto]. apply Tb. eapply text_in_member; [exact C1|constructor]. }
    split; [auto|]. split; [auto|]. split; [auto|]. split.
    { intros d x Hx. destruct (S1 _ _ Hx) as [K1 K2]. split; [|auto]. apply Hd; [|auto]. apply Ts. eapply TI_key; eauto. }
    split; [auto|]. split; [auto|]. split; [auto|]. intros p q Hp Hq Hab. apply (S5 p q Hp Hq). apply Hla; auto; apply Ts; now apply text_in_listed.
  Qed.
End Mono.

(** ** Paths *)

Lemma coded_content_above cd p q : r_content_above as_coded cd p q -> above p q.
Proof.
  intros (v & rest & l & e & _ & -> & Hl & _ & E). apply first_line_inv in Hl as [t [-> _]].
  exists (e ++ t). change (slash :: e ++ t) with ((slash :: e) ++ t). rewrite app_assoc, <- E.
  repeat (first [rewrite <- app_assoc | progress cbn [app]]); reflexivity.
Qed.
Lemma coded_logical_above p q : r_logical_above as_coded p q -> above p q.
Proof. intros [e [_ ->]]. now exists e. Qed.

Lemma plain_path_no_end p r : plain_path p -> p <> r ++ [slash].
Proof.
  intros H ->. apply plain_path_ends, orb_false_iff in H as [_ H]. apply not_true_false in H. apply H, endswith_spec.
  now exists r.
Qed.

Lemma first_line_id s l : ~ In newline s -> first_line s l -> l = s.
Proof. intros Hn [_ [E|[r ->]]]; [auto|]. exfalso. apply Hn, in_or_app. right. now left. Qed.

(** ** Dates *)

Lemma dig_ascii c : ascii_digit c -> dig (Z.of_N (c - 48)) c.
Proof. intros H. exists (c - 48)%N. split; [|auto]. apply digit_value_ascii. now apply ascii_digit_spec. Qed.
Lemma dig_ascii_inv x c : (c < 128)%N -> dig x c -> ascii_digit c /\ x = Z.of_N (c - 48).
Proof.
  intros Hc [v [H ->]]. unfold digit_value in H.
  destruct (find (fun z => (z <=? c)%N && (c <? z + 10)%N) nd_zeros) as [z|] eqn:E; [|discriminate].
  apply find_some in E as [Hz E]. apply andb_true_iff in E as [E1 E2]. apply N.leb_le in E1. apply N.ltb_lt in E2.
  assert (z = 48%N) as ->.
  { unfold nd_zeros in Hz. repeat (destruct Hz as [Hz|Hz]; [lia|]). destruct Hz. }
  apply Some_inv in H. subst v. split; [unfold ascii_digit; lia|auto].
Qed.

Lemma digits2_num2 n s : digits2 n s -> num2 n s.
Proof.
  intros (a & b & -> & Ha & Hb & ->). exists a, b, (Z.of_N (a - 48)), (Z.of_N (b - 48)).
  repeat split; try (now apply dig_ascii). cbn [value]. lia.
Qed.
Lemma digits4_num4 n s : digits4 n s -> num4 n s.
Proof.
  intros (Hl & Hf & ->). destruct s as [|a [|b [|c [|d [|e s]]]]]; try discriminate.
  inversion Hf as [|? ? Ha H1]; subst. inversion H1 as [|? ? Hb H2]; subst. inversion H2 as [|? ? Hc H3]; subst.
  inversion H3 as [|? ? Hd H4]; subst.
  exists a, b, c, d, (Z.of_N (a - 48)), (Z.of_N (b - 48)), (Z.of_N (c - 48)), (Z.of_N (d - 48)).
  repeat split; try (now apply dig_ascii). cbn [value]. lia.
Qed.
Definition ascii (s : str) : Prop := Forall (fun c => (c < 128)%N) s.
Lemma num2_digits2 n s : ascii s -> num2 n s -> digits2 n s.
Proof.
  intros Hs (a & b & x & y & -> & Ha & Hb & ->). inversion Hs as [|? ? A1 H1]; subst. inversion H1 as [|? ? A2 H2]; subst.
  apply dig_ascii_inv in Ha as [Ha ->]; auto. apply dig_ascii_inv in Hb as [Hb ->]; auto.
  exists a, b. repeat split; try apply Ha; try apply Hb. cbn [value]. unfold ascii_digit in *. lia.
Qed.
Lemma num4_digits4 n s : ascii s -> num4 n s -> digits4 n s.
Proof.
  intros Hs (a & b & c & d & w & x & y & z & -> & Ha & Hb & Hc & Hd & ->).
  inversion Hs as [|? ? A1 H1]; subst. inversion H1 as [|? ? A2 H2]; subst. inversion H2 as [|? ? A3 H3]; subst.
  inversion H3 as [|? ? A4 _]; subst.
  apply dig_ascii_inv in Ha as [Ha ->]; auto. apply dig_ascii_inv in Hb as [Hb ->]; auto.
  apply dig_ascii_inv in Hc as [Hc ->]; auto. apply dig_ascii_inv in Hd as [Hd ->]; auto.
  split; [reflexivity|]. split; [repeat (apply Forall_cons; [assumption|]); apply Forall_nil|]. cbn [value]. unfold ascii_digit in *. lia.
Qed.
Lemma digits2_range n s : digits2 n s -> (0 <= n <= 99)%Z.
Proof. intros (a & b & -> & Ha & Hb & ->). unfold ascii_digit in *. cbn [value]. lia. Qed.
Lemma digits4_range n s : digits4 n s -> (0 <= n <= 9999)%Z.
Proof.
  intros (Hl & Hf & ->). destruct s as [|a [|b [|c [|d [|e s]]]]]; try discriminate.
  inversion Hf as [|? ? Ha H1]; subst. inversion H1 as [|? ? Hb H2]; subst. inversion H2 as [|? ? Hc H3]; subst.
  inversion H3 as [|? ? Hd H4]; subst. unfold ascii_digit in *. cbn [value]. lia.
Qed.

Lemma rfc3339_coded c : rfc3339 false false false c -> r_created as_coded c.
Proof.
  intros [y m d sy sm sd t hh mi ss sh smi s2 frac tz Hy Hm Hd Hday Ht Hh Hmi Hss L1 L2 L3 Hfr Htz Hleap Hearly Hsmall].
  assert (Hno : y <> 0%Z) by (intros E; apply Hearly in E; discriminate).
  assert (Hss60 : ss <> 60%Z) by (intros E; apply Hleap in E; discriminate).
  assert (Ht' : t = `"T").
  { destruct Ht as [<-|[<-|[]]]; [reflexivity|]. exfalso. assert (false = true) by (apply Hsmall; now left). discriminate. }
  assert (Hz' : tz <> `"z") by (intros E; assert (false = true) by (apply Hsmall; now right); discriminate).
  subst t. cbn [r_created as_coded].
  assert (Hoff : exists off, tz_text off tz /\ tz <> []).
  { destruct Htz as [z Hz|sg zh zm a b Hsg Ha Hb R1 R2].
    - destruct Hz as [<-|[<-|[]]]; [|congruence]. exists 0%Z. split; [constructor|discriminate].
    - apply digits2_num2 in Ha, Hb. destruct Hsg as [<-|[<-|[]]]; eexists; (split; [constructor; eauto|discriminate]). }
  destruct Hoff as [off [Hoff Htz0]].
  exists (y, m, d), (sy ++ `"-" ++ sm ++ `"-" ++ sd), hh, mi, ss, sh, smi, s2, frac, off, tz, [].
  pose proof (digits4_range _ _ Hy). pose proof (digits2_range _ _ Hh). pose proof (digits2_range _ _ Hmi). pose proof (digits2_range _ _ Hss).
  split; [repeat (first [rewrite <- app_assoc | progress cbn [app]]); rewrite ?app_nil_r; reflexivity|].
  split; [exists sy, sm, sd; repeat split; [now apply digits4_num4|now apply digits2_num2|now apply digits2_num2]|].
  split; [split; [lia|auto]|]. split; [now apply digits2_num2|]. split; [now apply digits2_num2|]. split; [now apply digits2_num2|].
  split; [unfold valid_time; lia|]. split.
  { destruct Hfr as [->|[ds [F1 [F2 ->]]]]; [now left|right]. exists ds. split; [|auto]. split; [auto|].
    intros x Hx. rewrite Forall_forall in F2. eexists. apply dig_ascii. now apply F2. }
  split; [auto|]. split; [auto|]. now left.
Qed.

Lemma ascii_app a b : ascii (a ++ b) <-> ascii a /\ ascii b.
Proof. apply Forall_app. Qed.

Lemma coded_rfc3339 c : ascii c -> ~ In newline c -> r_created as_coded c -> rfc3339 false false false c.
Proof.
  intros Ha Hn. cbn [r_created as_coded].
  intros ([[y m] d] & sx & hh & mi & ss & sh & smi & s2 & frac & off & tz & nl & E & Hdt & [Hy Hday] & Hh & Hmi & Hss & [T1 [T2 T3]] & Hfr & Htz & Htz0 & Hnl).
  assert (nl = []) as ->.
  { destruct Hnl as [->| ->]; [reflexivity|]. exfalso. apply Hn. rewrite E.
    repeat (apply in_or_app; right). now left. }
  destruct Hdt as (sy & sm & sd & Hsy & Hsm & Hsd & ->).
  rewrite E in Ha. rewrite !ascii_app in Ha.
  destruct Ha as ((Asy & _ & Asm & _ & Asd) & _ & Ash & _ & Asmi & _ & As2 & Afr & Atz & _).
  assert (E' : c = sy ++ `"-" ++ sm ++ `"-" ++ sd ++ `"T" ++ sh ++ `":" ++ smi ++ `":" ++ s2 ++ frac ++ tz).
  { rewrite E, app_nil_r. repeat (first [rewrite <- app_assoc | progress cbn [app]]); reflexivity. }
  rewrite E'. clear E E'.
  apply (RFC false false false y m d sy sm sd (`"T") hh mi ss sh smi s2 frac tz).
  - now apply num4_digits4.
  - now apply num2_digits2.
  - now apply num2_digits2.
  - exact Hday.
  - now left.
  - now apply num2_digits2.
  - now apply num2_digits2.
  - now apply num2_digits2.
  - lia.
  - lia.
  - lia.
  - destruct Hfr as [->|[ds [[F1 F2] ->]]]; [now left|right]. exists ds. split; [auto|]. split; [|auto].
    apply Forall_forall. intros x Hx. destruct (F2 x Hx) as [z Hz]. rewrite ascii_app in Afr. destruct Afr as [_ Afr].
    unfold ascii in Afr. rewrite Forall_forall in Afr. now apply dig_ascii_inv in Hz as [Hz _]; [|apply Afr].
  - destruct Htz as [| |zh zm a b Na Nb R1 R2|zh zm a b Na Nb R1 R2]; [congruence|constructor; now left| |].
    + rewrite !ascii_app in Atz. destruct Atz as (_ & A1 & _ & A2). apply (RZ_num (`"+") zh zm); auto; [now left|now apply num2_digits2|now apply num2_digits2].
    + rewrite !ascii_app in Atz. destruct Atz as (_ & A1 & _ & A2). apply (RZ_num (`"-") zh zm); auto; [right; now left|now apply num2_digits2|now apply num2_digits2].
  - split; [discriminate|lia].
  - split; [discriminate|lia].
  - split; [discriminate|]. intros [E|E]; [discriminate|]. subst tz. inversion Htz.
Qed.

(** ** The readings *)

Theorem within_limits_coded inv f : obeys within_limits inv f -> obeys as_coded inv f.
Proof.
  apply obeys_mono; cbn [r_type r_digest r_content r_content_above r_logical_above r_created r_content_directory r_versions
    within_limits by_the_book].
  - intros t v _ _ ->. exists 46%N, []. split; [discriminate|]. rewrite app_nil_r. reflexivity.
  - intros a d _ H. exists d. auto.
  - intros p v cd rest _ _ [H1 [l [H2 H3]]]. split; [eauto|]. intros r. now apply plain_path_no_end.
  - intros cd p q _ _. apply coded_content_above.
  - intros p q _ _. apply coded_logical_above.
  - intros c _. apply rfc3339_coded.
  - intros c _ (H1 & H2 & H3 & H4). repeat split; auto.
  - auto.
Qed.

Theorem coded_next_directory inv f :
  (forall s, text_in s inv -> ascii s /\ ~ In newline s) ->
  (forall t, member inv (`"type") (JStr t) -> In t [`"https://ocfl.io/1.0/spec/#inventory"; `"https://ocfl.io/1.1/spec/#inventory"]) ->
  ~ member inv (`"contentDirectory") (JStr []) ->
  obeys as_coded inv f -> obeys next_directory_only inv f.
Proof.
  intros Htx Hty Hcd Hob.
  revert Hob. apply obeys_mono; cbn [r_type r_digest r_content r_content_above r_logical_above r_created r_content_directory r_versions
    next_directory_only by_the_book].
  - intros t v Hm Hv [c [r [_ E]]]. apply Hty in Hm.
    destruct Hv as [<-|[<-|[]]]; destruct Hm as [<-|[<-|[]]]; try reflexivity; exfalso; discriminate E.
  - intros a d Hd [e [[->| ->] H]]; [exact H|]. exfalso. destruct (Htx _ Hd) as [_ Hn]. apply Hn, in_or_app. right. now left.
  - intros p v cd rest Hp -> [[l [H1 H2]] _]. destruct (Htx _ Hp) as [_ Hn].
    assert (Hr : ~ In newline rest).
    { intros Hi. apply Hn, in_or_app. right. right. apply in_or_app. right. now right. }
    now rewrite <- (first_line_id rest l Hr H1).
  - auto.
  - auto.
  - intros c Hc H. destruct (Htx _ Hc) as [H1 H2]. exists false, false, false. now apply coded_rfc3339.
  - intros c Hm (H1 & H2 & H3). repeat split; auto. intros ->. auto.
  - intros [w|] n H; [|exact I]. destruct H as [[H1 _] H2]. auto.
Qed.
