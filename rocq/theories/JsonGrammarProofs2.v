(** The reader of JSON follows the grammar: completeness. *)
From Coq Require Import Lia.
From Verif Require Import Base Json JsonTextModel JsonTextSpec JsonTextProofs JsonGrammarSpec JsonGrammarProofs.
Open Scope N_scope.

(** ** Strings *)
Lemma hex4_app h n r : four_hex h n -> hex4 (h ++ r) = Some (n, r).
Proof. intro H. apply hex4_iff. eauto. Qed.
Lemma scan_string_complete b s : string_body b s -> forall f r, (List.length b < f)%nat -> scan_string f (b ++ 34 :: r) = Some (s, r).
Proof.
  induction 1 as [|c b s N34 N92 L H IH|e c b s Hin H IH|h n b s Hh Hn H IH|h n h' n' b s Hh Hh' Hi Lo H IH]; intros f r Hf; (destruct f as [|f]; [cbn in Hf; lia|]); cbn [List.length] in Hf.
  - reflexivity.
  - cbn [app scan_string]. destruct (N.eqb_spec c 34); [contradiction|]. destruct (N.eqb_spec c 92); [contradiction|]. destruct (N.ltb_spec c 32); [lia|]. rewrite IH; [reflexivity|lia].
  - cbn [app scan_string]. change (92 =? 34) with false. change (92 =? 92) with true. cbv iota.
    assert (E : scan_escape (e :: b ++ 34 :: r) = Some (c, b ++ 34 :: r)) by (repeat (destruct Hin as [Hin|Hin]; [injection Hin as <- <-; reflexivity|]); destruct Hin).
    rewrite E, IH; [reflexivity|lia].
  - cbn [app scan_string]. change (92 =? 34) with false. change (92 =? 92) with true. cbv iota. rewrite <- app_assoc.
    assert (E : scan_escape (117 :: h ++ b ++ 34 :: r) = Some (n, b ++ 34 :: r)).
    { unfold scan_escape. change (117 =? 117) with true. cbv iota. unfold scan_unicode. rewrite (hex4_app _ _ _ Hh). destruct (is_high n) eqn:E; [|reflexivity]. apply is_high_iff in E. specialize (Hn E).
      inversion H as [|c b' s' N34 N92 L H'|e c b' s' Hin H'|h2 n2 b' s' Hh2 Hn2 H'|h2 n2 h3 n3 b' s' Hh2 Hh3 Hi2 Lo2 H']; subst; cbn [app eat].
      - reflexivity.
      - destruct (N.eqb_spec c 92); [contradiction|reflexivity].
      - change (92 =? 92) with true. cbv iota. repeat (destruct Hin as [Hin|Hin]; [injection Hin as <- <-; reflexivity|]). destruct Hin.
      - change (92 =? 92) with true. cbv iota. cbn [eat]. change (117 =? 117) with true. cbv iota. rewrite <- (app_assoc h2), (hex4_app _ _ _ Hh2). destruct (is_low n2) eqn:E2; [|reflexivity]. apply is_low_iff in E2. exfalso. apply Hn. exists h2, n2, b'. auto.
      - change (92 =? 92) with true. cbv iota. cbn [eat]. change (117 =? 117) with true. cbv iota. rewrite <- (app_assoc h2), (hex4_app _ _ _ Hh2). destruct (is_low n2) eqn:E2; [|reflexivity]. apply is_low_iff in E2. unfold high, low in *. lia. }
    rewrite E, IH; [reflexivity|]. rewrite app_length in Hf. lia.
  - cbn [app scan_string]. change (92 =? 34) with false. change (92 =? 92) with true. cbv iota. rewrite <- app_assoc. cbn [app]. rewrite <- app_assoc.
    assert (E : scan_escape (117 :: h ++ 92 :: 117 :: h' ++ b ++ 34 :: r) = Some (65536 + (n - 55296) * 1024 + (n' - 56320), b ++ 34 :: r)).
    { unfold scan_escape. change (117 =? 117) with true. cbv iota. unfold scan_unicode. rewrite (hex4_app _ _ _ Hh). apply is_high_iff in Hi. rewrite Hi. cbn [eat]. change (92 =? 92) with true. cbv iota. cbn [eat]. change (117 =? 117) with true. cbv iota.
      rewrite (hex4_app _ _ _ Hh'). apply is_low_iff in Lo. now rewrite Lo. }
    rewrite E, IH; [reflexivity|]. rewrite app_length in Hf. cbn [List.length] in Hf. rewrite app_length in Hf. lia.
Qed.

(** ** Numbers *)
Definition stops (r : str) : Prop := match r with [] => True | c :: _ => ~ (48 <= c <= 57) /\ c <> 46 /\ c <> 101 /\ c <> 69 end.
Lemma not_digit c : ~ (48 <= c <= 57) -> is_ascii_digit c = false.
Proof. intro H. destruct (is_ascii_digit c) eqn:E; [|reflexivity]. apply digit_iff in E. contradiction. Qed.
Lemma stops_no_digit r : stops r -> no_digit r.
Proof. destruct r as [|c r]; cbn; [auto|]. intros (H & _). now apply not_digit. Qed.
Lemma stops_exp ex r : ex = [] \/ exponent ex -> stops r -> scan_exp (ex ++ r) = (ex, r).
Proof.
  intros [->|(e & sg & d & -> & He & Hs & Hd & Ha)] Hr.
  - destruct r as [|c r]; [reflexivity|]. cbn. destruct Hr as (_ & _ & H1 & H2). destruct (N.eqb_spec c 101), (N.eqb_spec c 69); try contradiction. reflexivity.
  - cbn [app]. unfold scan_exp. assert (E : (e =? 101) || (e =? 69) = true) by (rewrite orb_true_iff, !N.eqb_eq; tauto). rewrite E. rewrite <- app_assoc.
    assert (T : take_digits (d ++ r) = (d, r)) by (apply take_digits_app; [now apply digit_Forall|now apply stops_no_digit]).
    destruct d as [|c d]; [contradiction|]. assert (Hc : 48 <= c <= 57) by now inversion Ha.
    destruct Hs as [->|[->| ->]]; cbn [app] in *.
    + destruct (N.eqb_spec c 43); [lia|]. destruct (N.eqb_spec c 45); [lia|]. cbn [orb]. now rewrite T.
    + change ((43 =? 43) || (43 =? 45)) with true. cbv iota. now rewrite T.
    + change ((45 =? 43) || (45 =? 45)) with true. cbv iota. now rewrite T.
Qed.
Lemma number_complete sg ip fr ex r : (sg = [] \/ sg = [45]) -> whole ip -> fr = [] \/ fraction fr -> ex = [] \/ exponent ex -> stops r ->
  scan_number (sg ++ ip ++ fr ++ ex ++ r) = match fr, ex with [], [] => if too_long (sg ++ ip) then Raise ValueError else Ok (JInt (int_value (sg ++ ip)), r) | _, _ => Ok (JFloat ((sg ++ ip) ++ fr ++ ex), r) end.
Proof.
  intros Hs Hw Hf He Hr.
  assert (D1 : no_digit (ex ++ r)) by (destruct He as [->|(e & s & d & -> & [->| ->] & _)]; [now apply stops_no_digit|reflexivity|reflexivity]).
  assert (D2 : no_digit (fr ++ ex ++ r)) by (destruct Hf as [->|(d & -> & _)]; [exact D1|reflexivity]).
  unfold scan_number. rewrite (scan_int_ok sg ip (fr ++ ex ++ r) Hs Hw D2). rewrite (scan_frac_ok fr (ex ++ r)).
  - rewrite (stops_exp ex r He Hr). reflexivity.
  - destruct Hf as [->|(d & -> & Hn & Ha)]; [now left|right; exists d; split; [reflexivity|split; assumption]].
  - exact D1.
  - intros ->. destruct He as [->|(e & s & d & -> & [->| ->] & _)]; [|reflexivity|reflexivity]. destruct r as [|c r]; [reflexivity|]. cbn. destruct Hr as (_ & Hr & _). destruct (N.eqb_spec c 46); [contradiction|reflexivity].
Qed.
Lemma int_complete t z f r : int_text t z -> stops r -> scan_value (S f) (t ++ r) = Ok (JInt z, r).
Proof.
  intros (s & Hw & Hl & Ht) Hr. destruct (whole_head s Hw) as (c & q & Es & Hc).
  assert (G : forall sg, (sg = [] \/ sg = [45]) -> scan_value (S f) ((sg ++ s) ++ r) = if too_long (sg ++ s) then Raise ValueError else Ok (JInt (int_value (sg ++ s)), r)).
  { intros sg Hs. rewrite <- app_assoc, (scan_value_number f sg s r Hs Hw). exact (number_complete sg s [] [] r Hs Hw (or_introl eq_refl) (or_introl eq_refl) Hr). }
  destruct Ht as [[-> ->]|[-> ->]].
  - rewrite (G [] (or_introl eq_refl) : scan_value (S f) (s ++ r) = _). cbn [app]. unfold too_long, drop_sign, int_value. subst s. cbn [eat]. destruct (N.eqb_spec c 45); [lia|]. rewrite decimal_val. apply N.ltb_ge in Hl. now rewrite Hl.
  - rewrite (G [45] (or_intror eq_refl) : scan_value (S f) ((45 :: s) ++ r) = _). cbn [app]. unfold too_long, drop_sign, int_value. cbn [eat]. change (45 =? 45) with true. cbv iota. rewrite decimal_val. apply N.ltb_ge in Hl. now rewrite Hl.
Qed.
Lemma real_complete t f r : real_text t -> stops r -> scan_value (S f) (t ++ r) = Ok (JFloat t, r).
Proof.
  intros (sg & s & fr & ex & -> & Hs & Hw & Hn) Hr. rewrite <- !app_assoc, (scan_value_number f sg s (fr ++ ex ++ r) Hs Hw).
  rewrite number_complete; auto; [|destruct Hn as [[Hf _]|[-> _]]; auto|destruct Hn as [[_ He]|[_ He]]; auto]. rewrite <- !app_assoc.
  destruct Hn as [[(d & -> & _) _]|[-> (e & sg' & d & -> & _)]]; reflexivity.
Qed.

(** ** White space *)
Lemma skip_blank w t : blank w -> skip_ws (w ++ t) = skip_ws t.
Proof. induction 1 as [|c w Hc Hw IH]; [reflexivity|]. cbn [app skip_ws]. assert (E : is_ws c = true) by (unfold is_ws; rewrite !orb_true_iff, !N.eqb_eq; tauto). now rewrite E. Qed.
Definition starts_value (t : str) : Prop := exists c q, t = c :: q /\ is_ws c = false /\ c <> 93 /\ c <> 125 /\ c <> 44.
Lemma digit_start c q : 48 <= c <= 57 -> starts_value (c :: q).
Proof. intro H. exists c, q. split; [reflexivity|]. split; [|lia]. unfold is_ws. destruct (N.eqb_spec c 32), (N.eqb_spec c 9), (N.eqb_spec c 10), (N.eqb_spec c 13); first [lia|reflexivity]. Qed.
Lemma value_start t j : value_text t j -> starts_value t.
Proof.
  assert (M : forall q, starts_value (45 :: q)) by (intro q; exists 45, q; repeat split; discriminate).
  destruct 1 as [| | |t H|t z H|t H|b s H|w H|w t l H H'|w H|w t l d H H' G]; try (do 2 eexists; split; [reflexivity|]; split; [reflexivity|]; repeat split; discriminate).
  - destruct H as [<-|[<-|[<-|[]]]]; do 2 eexists; (split; [reflexivity|]); (split; [reflexivity|]); repeat split; discriminate.
  - destruct H as (s & Hw & _ & [[-> _]|[-> _]]); [|apply M]. destruct (whole_head s Hw) as (c & q & -> & Hc). now apply digit_start.
  - destruct H as (sg & s & fr & ex & -> & [->| ->] & Hw & _); [|apply M]. destruct (whole_head s Hw) as (c & q & -> & Hc). cbn [app]. now apply digit_start.
Qed.
Lemma start_skip t r : starts_value t -> skip_ws (t ++ r) = t ++ r.
Proof. intros (c & q & -> & H & _). cbn [app skip_ws]. now rewrite H. Qed.
Lemma start_eat t r x : starts_value t -> x = 93 \/ x = 125 \/ x = 44 -> eat x (t ++ r) = None.
Proof. intros (c & q & -> & _ & H1 & H2 & H3) Hx. cbn [app eat]. destruct (N.eqb_spec c x); [intuition congruence|reflexivity]. Qed.
Lemma stops_blank w c q : blank w -> c = 44 \/ c = 93 \/ c = 125 -> stops (w ++ c :: q).
Proof. intros Hw Hc. destruct Hw as [|x w Hx Hw]; cbn [app stops]; [destruct Hc as [->|[->| ->]]|destruct Hx as [->|[->|[->| ->]]]]; repeat split; try discriminate; lia. Qed.
Lemma elements_start t l : elements_text t l -> starts_value t.
Proof. destruct 1 as [t j w V|t j w w' ts l V]; destruct (value_start _ _ V) as (c & q & -> & K); exists c; eexists; (split; [reflexivity|exact K]). Qed.
Lemma put_is_dset k v d d' : put_member k v d d' -> d' = dset k v d.
Proof.
  destruct 1 as [d H|a u b H].
  - induction d as [|[k' v'] d IH]; [reflexivity|]. cbn [dset app]. destruct (str_eqb_spec k k') as [->|]; [exfalso; apply H; now left|]. rewrite <- IH; [reflexivity|]. intro X. apply H. now right.
  - induction a as [|[k' v'] a IH]; cbn [dset app]; [destruct (str_eqb_spec k k); [reflexivity|contradiction]|]. destruct (str_eqb_spec k k') as [->|]; [exfalso; apply H; now left|]. rewrite <- IH; [reflexivity|]. intro X. apply H. now right.
Qed.

Scheme value_text_min := Minimality for value_text Sort Prop
  with elements_text_min := Minimality for elements_text Sort Prop
  with members_text_min := Minimality for members_text Sort Prop.
Combined Scheme texts_min from value_text_min, elements_text_min, members_text_min.
Theorem scan_complete :
  (forall t j, value_text t j -> forall f r, (2 * List.length t <= f)%nat -> stops r -> scan_value f (t ++ r) = Ok (j, r)) /\
  (forall t l, elements_text t l -> forall f q, (2 * List.length t + 1 <= f)%nat -> scan_elements f (t ++ 93 :: q) = Ok (l, q)) /\
  (forall t l, members_text t l -> forall f q d d', (2 * List.length t + 1 <= f)%nat -> gathered d l d' -> scan_members f (t ++ 125 :: q) d = Ok (d', q)).
Proof.
  apply texts_min.
  - intros f r Hf Hr. destruct f; [cbn in Hf; lia|]. reflexivity.
  - intros f r Hf Hr. destruct f; [cbn in Hf; lia|]. reflexivity.
  - intros f r Hf Hr. destruct f; [cbn in Hf; lia|]. reflexivity.
  - intros t Ht f r Hf Hr. destruct Ht as [<-|[<-|[<-|[]]]]; (destruct f; [cbn in Hf; lia|]; reflexivity).
  - intros t z Ht f r Hf Hr. destruct f as [|f]; [|now apply int_complete]. exfalso. destruct (value_start t (JInt z) (v_int _ _ Ht)) as (c & q & -> & _). cbn in Hf. lia.
  - intros t Ht f r Hf Hr. destruct f as [|f]; [|now apply real_complete]. exfalso. destruct (value_start t (JFloat t) (v_real _ Ht)) as (c & q & -> & _). cbn in Hf. lia.
  - intros b s H f r Hf Hr. destruct f as [|f]; [cbn in Hf; lia|]. cbn [app scan_value]. change (34 =? 34) with true. cbv iota. rewrite <- app_assoc. cbn [app].
    rewrite (scan_string_complete b s H); [reflexivity|]. rewrite app_length. cbn. lia.
  - intros w H f r Hf Hr. destruct f as [|f]; [cbn in Hf; lia|]. cbn [app scan_value]. change (91 =? 34) with false. change (91 =? 123) with false. change (91 =? 91) with true. cbv iota. rewrite <- app_assoc, (skip_blank w _ H). reflexivity.
  - intros w t l H Ht IH f r Hf Hr. destruct f as [|f]; [cbn in Hf; lia|]. cbn [app scan_value]. change (91 =? 34) with false. change (91 =? 123) with false. change (91 =? 91) with true. cbv iota.
    pose proof (elements_start _ _ Ht) as St. rewrite <- !app_assoc, (skip_blank w _ H), (start_skip _ _ St), (start_eat _ _ 93 St) by auto. cbn [app]. rewrite IH; [reflexivity|]. cbn [List.length] in Hf. rewrite !app_length in Hf. cbn in Hf. lia.
  - intros w H f r Hf Hr. destruct f as [|f]; [cbn in Hf; lia|]. cbn [app scan_value]. change (123 =? 34) with false. change (123 =? 123) with true. cbv iota. rewrite <- app_assoc, (skip_blank w _ H). reflexivity.
  - intros w t l d H Ht IH G f r Hf Hr. destruct f as [|f]; [cbn in Hf; lia|]. cbn [app scan_value]. change (123 =? 34) with false. change (123 =? 123) with true. cbv iota.
    assert (St : starts_value t) by (destruct Ht; do 2 eexists; (split; [reflexivity|]); (split; [reflexivity|]); repeat split; discriminate).
    rewrite <- !app_assoc, (skip_blank w _ H), (start_skip _ _ St), (start_eat _ _ 125 St) by auto. cbn [app]. assert (Hl : (2 * List.length t + 1 <= f)%nat) by (cbn [List.length] in Hf; rewrite !app_length in Hf; cbn in Hf; lia). rewrite (IH _ _ _ _ Hl G). reflexivity.
  - intros t j w V IH Hw f q Hf. destruct f as [|f]; [lia|]. rewrite app_length in Hf. cbn [scan_elements]. rewrite <- app_assoc, IH; [|lia|apply stops_blank; auto]. cbn [ebind]. rewrite (skip_blank w _ Hw). reflexivity.
  - intros t j w w' ts l V IHv Hw Hw' E IHe f q Hf. destruct f as [|f]; [lia|]. rewrite !app_length in Hf. cbn [List.length] in Hf. rewrite app_length in Hf. cbn [scan_elements].
    rewrite <- !app_assoc. cbn [app]. rewrite <- app_assoc. rewrite IHv; [|lia|apply stops_blank; auto]. cbn [ebind]. rewrite (skip_blank w _ Hw). cbn [skip_ws eat]. change (is_ws 44) with false. cbv iota. cbn [eat].
    change (44 =? 93) with false. change (44 =? 44) with true. cbv iota. rewrite (skip_blank w' _ Hw'), (start_skip _ _ (elements_start _ _ E)). rewrite IHe; [reflexivity|]. destruct (value_start _ _ V) as (c & q' & -> & _). cbn [List.length] in Hf. lia.
  - intros b k w w' t j u B Hw Hw' V IH Hu f q d d' Hf G. destruct f as [|f]; [lia|]. cbn [List.length] in Hf. rewrite !app_length in Hf. cbn [List.length] in Hf. rewrite !app_length in Hf. cbn [List.length] in Hf. rewrite !app_length in Hf.
    inversion G as [|k0 v0 d0 d1 l0 d2 P G']; subst. inversion G'; subst. apply put_is_dset in P. subst d'.
    cbn [app scan_members eat]. change (34 =? 34) with true. cbv iota. repeat (rewrite <- ?app_assoc; cbn [app]). rewrite (scan_string_complete b k B) by (rewrite app_length; cbn; lia).
    rewrite (skip_blank w _ Hw). cbn [skip_ws]. change (is_ws 58) with false. cbv iota. cbn [eat]. change (58 =? 58) with true. cbv iota.
    rewrite (skip_blank w' _ Hw'), (start_skip _ _ (value_start _ _ V)), IH; [|lia|apply stops_blank; auto]. cbn [ebind]. rewrite (skip_blank u _ Hu). reflexivity.
  - intros b k w w' t j u u' ts l B Hw Hw' V IH Hu Hu' M IHm f q d d' Hf G. destruct f as [|f]; [lia|]. cbn [List.length] in Hf. rewrite !app_length in Hf. cbn [List.length] in Hf. rewrite !app_length in Hf. cbn [List.length] in Hf. rewrite !app_length in Hf. cbn [List.length] in Hf. rewrite !app_length in Hf.
    inversion G as [|k0 v0 d0 d1 l0 d2 P G']; subst. apply put_is_dset in P. subst d1.
    cbn [app scan_members eat]. change (34 =? 34) with true. cbv iota. repeat (rewrite <- ?app_assoc; cbn [app]). rewrite (scan_string_complete b k B) by (rewrite app_length; cbn; lia).
    rewrite (skip_blank w _ Hw). cbn [skip_ws]. change (is_ws 58) with false. cbv iota. cbn [eat]. change (58 =? 58) with true. cbv iota.
    rewrite (skip_blank w' _ Hw'), (start_skip _ _ (value_start _ _ V)), IH; [|lia|apply stops_blank; auto]. cbn [ebind]. rewrite (skip_blank u _ Hu). cbn [skip_ws]. change (is_ws 44) with false. cbv iota. cbn [eat].
    change (44 =? 125) with false. change (44 =? 44) with true. cbv iota. rewrite (skip_blank u' _ Hu').
    assert (St : starts_value ts) by (destruct M; do 2 eexists; (split; [reflexivity|]); (split; [reflexivity|]); repeat split; discriminate). rewrite (start_skip _ _ St). apply IHm; [lia|exact G'].
Qed.
Theorem loads_complete s j : document s j -> json_loads s = Ok j.
Proof.
  intros (w & t & w' & -> & Hw & V & Hw'). unfold json_loads. pose proof (value_start _ _ V) as St.
  assert (E : eat 65279 (w ++ t ++ w') = None).
  { destruct Hw as [|x w Hx Hw]; cbn [app eat]; [|destruct Hx as [->|[->|[->| ->]]]; reflexivity].
    destruct (eat 65279 (t ++ w')) as [q|] eqn:E; [exfalso|reflexivity]. apply eat_inv in E.
    destruct V as [| | |t H|t z H|t H|b s H|w0 H|w0 t l H H'|w0 H|w0 t l d H H' G]; try discriminate E.
    - destruct H as [<-|[<-|[<-|[]]]]; discriminate E.
    - destruct H as (s & Hs & _ & [[-> _]|[-> _]]); [|discriminate E]. destruct (whole_head s Hs) as (c & r & -> & Hc). injection E as -> _. lia.
    - destruct H as (sg & s & fr & ex & -> & [->| ->] & Hs & _); [|discriminate E]. destruct (whole_head s Hs) as (c & r & -> & Hc). injection E as -> _. lia. }
  rewrite E, (skip_blank w _ Hw), (start_skip _ _ St). rewrite (proj1 scan_complete t j V).
  - cbn [ebind]. rewrite <- (app_nil_r w'), (skip_blank w' _ Hw'). reflexivity.
  - rewrite app_length. lia.
  - destruct Hw' as [|x w' Hx Hw']; cbn [stops]; [exact I|]. destruct Hx as [->|[->|[->| ->]]]; repeat split; try discriminate; lia.
Qed.
