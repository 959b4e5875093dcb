(** Proofs about the content paths chosen for source files (C57). *)
From Verif Require Import Base Unicode Regex Utf8 Json PathModel DigestModel LayoutModel LayoutProofs ObjectUtilsModel ObjectUtilsProofs
  InventorySpec InventoryValidatorModel InventoryValidatorProofs InventoryModel NewVersionModel InventoryOpsSpec InventoryOpsProofs
  NewVersionProofs NewVersionOpsProofs.

(** ** Plain paths *)

Lemma plain_path_split p : plain_path p <-> Forall plain (split_on 47 p).
Proof.
  unfold plain_path. split.
  - intros [es [H1 H2]]. apply elements_split in H1. now subst.
  - intros H. exists (split_on 47 p). split; [now apply elements_split|auto].
Qed.

Lemma split_snoc c s t : ~ In c t -> exists l e, split_on c s = l ++ [e] /\ split_on c (s ++ t) = l ++ [e ++ t].
Proof.
  intros Ht. induction s as [|x s IH]; cbn [split_on app].
  - exists [], []. rewrite split_on_single by auto. auto.
  - destruct IH as (l & e & E1 & E2). rewrite E1, E2. destruct (N.eqb x c).
    + exists ([] :: l), e. auto.
    + destruct l as [|y l]; cbn [app]; [exists [], (x :: e)|exists ((x :: y) :: l), e]; auto.
Qed.

Lemma plain_path_suffix p t : ~ In slash t -> (3 <= List.length t)%nat -> plain_path p -> plain_path (p ++ t).
Proof.
  intros Ht Hl. rewrite !plain_path_split. destruct (split_snoc 47 p t Ht) as (l & e & -> & ->). rewrite !Forall_app.
  intros [H1 _]. split; [auto|]. constructor; [|constructor].
  assert (G : (3 <= List.length (e ++ t))%nat) by (rewrite app_length; lia).
  repeat split; intros E; rewrite E in G; cbn in G; lia.
Qed.

Lemma plain_path_cons e p : ~ In slash e -> plain e -> plain_path p -> plain_path (e ++ slash :: p).
Proof. intros H1 H2 [es [H3 H4]]. exists (e :: es). split; [now constructor|now constructor]. Qed.

Lemma plain_path_head p : plain_path p -> startswith [47%N] p = false /\ p <> [].
Proof.
  rewrite plain_path_split. intros H. destruct p as [|c p].
  - exfalso. cbn in H. apply Forall_inv in H. now apply (proj1 H).
  - split; [|discriminate]. cbn [startswith]. destruct (N.eqb_spec 47 c) as [<-|E]; [|reflexivity]. exfalso.
    cbn in H. apply Forall_inv in H. now apply (proj1 H).
Qed.

(** ** urllib.parse.quote *)

Definition enc (b : N) : str := if uri_safe b then [b] else percent :: hex_upper b.
Lemma urlquote_enc s : urlquote s = let* bs := utf8_encode s in Ok (flat_map enc bs).
Proof. reflexivity. Qed.

Lemma uri_safe_facts b : uri_safe b = true -> (b < 128)%N /\ b <> percent.
Proof.
  unfold uri_safe. rewrite orb_true_iff, N.eqb_eq. intros [H| ->]; [|unfold percent; lia]. apply quote_safe_facts in H. tauto.
Qed.

Lemma unquote_enc b r : (b < 256)%N -> unquote_to_bytes (enc b ++ r) = b :: unquote_to_bytes r.
Proof.
  intros Hb. unfold enc. destruct (uri_safe b) eqn:E.
  - cbn [app]. apply unquote_plain. now apply uri_safe_facts.
  - change ((percent :: hex_upper b) ++ r) with (percent :: hex_upper b ++ r). now apply unquote_hex_upper.
Qed.
Lemma unquote_quoted bs r : Forall (fun b => b < 256)%N bs -> unquote_to_bytes (flat_map enc bs ++ r) = bs ++ unquote_to_bytes r.
Proof.
  induction 1 as [|b bs Hb _ IH]; [reflexivity|]. cbn [flat_map app]. rewrite <- app_assoc, unquote_enc by auto. now rewrite IH.
Qed.

Lemma enc_noslash b : (b < 256)%N -> b <> 47%N -> ~ In 47%N (enc b).
Proof.
  intros Hb Hne Hi. unfold enc in Hi. destruct (uri_safe b).
  - destruct Hi as [Hi|[]]. congruence.
  - destruct Hi as [Hi|[Hi|[Hi|[]]]]; [unfold percent in Hi; lia| |].
    + destruct (hex_upper_digit_facts (b / 16)) as [_ D]; [apply N.div_lt_upper_bound; lia|]. unfold PathModel.slash in D. congruence.
    + destruct (hex_upper_digit_facts (b mod 16)) as [_ D]; [apply N.mod_lt; lia|]. unfold PathModel.slash in D. congruence.
Qed.

(** Bytes below 128 of the encoding are characters of the text. *)
Lemma utf8_encode_cons c s b : utf8_encode (c :: s) = Ok b -> exists b1 b2, utf8_char c = Some b1 /\ utf8_encode s = Ok b2 /\ b = b1 ++ b2.
Proof.
  cbn [utf8_encode]. destruct (utf8_char c) as [b1|]; [|discriminate]. intros H. apply ebind_ok in H as [b2 [H1 H2]].
  apply Ok_inv in H2. eauto.
Qed.

Lemma utf8_char_low c b x : utf8_char c = Some b -> In x b -> (x < 128)%N -> x = c.
Proof.
  unfold utf8_char. destruct (N.ltb_spec c 128).
  { intros E. apply Some_inv in E. subst b. intros [<-|[]]; auto. }
  destruct (N.ltb_spec c 2048).
  { intros E. apply Some_inv in E. subst b. intros [<-|[<-|[]]] Hl; exfalso; lia. }
  destruct (N.ltb_spec c 65536).
  { destruct ((55296 <=? c)%N && (c <=? 57343)%N); [discriminate|]. intros E. apply Some_inv in E. subst b. intros [<-|[<-|[<-|[]]]] Hl; exfalso; lia. }
  destruct (N.ltb_spec c 1114112); [|discriminate].
  intros E. apply Some_inv in E. subst b. intros [<-|[<-|[<-|[<-|[]]]]] Hl; exfalso; lia.
Qed.
Lemma utf8_encode_low s b x : utf8_encode s = Ok b -> In x b -> (x < 128)%N -> In x s.
Proof.
  revert b. induction s as [|c s IH]; intros b E Hi Hl.
  - cbn in E. apply Ok_inv in E. subst b. destruct Hi.
  - apply utf8_encode_cons in E as (b1 & b2 & E1 & E2 & ->). apply in_app_or in Hi as [Hi|Hi].
    + left. symmetry. eapply utf8_char_low; eauto.
    + right. eauto.
Qed.
Lemma utf8_encode_split a b e : utf8_encode (a ++ b) = Ok e -> exists x y, utf8_encode a = Ok x /\ utf8_encode b = Ok y /\ e = x ++ y.
Proof.
  revert e. induction a as [|c a IH]; intros e E; cbn [app] in E.
  - exists [], e. auto.
  - apply utf8_encode_cons in E as (b1 & b2 & E1 & E2 & ->). destruct (IH _ E2) as (x & y & H1 & H2 & ->).
    exists (b1 ++ x), y. split; [cbn [utf8_encode]; now rewrite E1, H1|]. split; [auto|]. now rewrite app_assoc.
Qed.

Lemma urlquote_split a b q : urlquote (a ++ b) = Ok q -> exists x y, urlquote a = Ok x /\ urlquote b = Ok y /\ q = x ++ y.
Proof.
  rewrite !urlquote_enc. intros E. apply ebind_ok in E as [bs [E1 E2]]. apply Ok_inv in E2. subst q.
  apply utf8_encode_split in E1 as (x & y & H1 & H2 & ->). rewrite H1, H2. cbn [ebind]. exists (flat_map enc x), (flat_map enc y).
  split; [auto|]. split; [auto|]. apply flat_map_app.
Qed.

Lemma urlquote_decodes s q : urlquote s = Ok q -> exists bs, utf8_encode s = Ok bs /\ unquote_to_bytes q = bs.
Proof.
  rewrite urlquote_enc. intros E. apply ebind_ok in E as [bs [E1 E2]]. apply Ok_inv in E2. subst q. exists bs. split; [auto|].
  rewrite <- (app_nil_r (flat_map enc bs)), unquote_quoted by (eapply utf8_encode_bytes; eauto). cbn. apply app_nil_r.
Qed.

Lemma urlquote_noslash e x : urlquote e = Ok x -> ~ In slash e -> ~ In slash x.
Proof.
  rewrite urlquote_enc. intros E He Hi. apply ebind_ok in E as [bs [E1 E2]]. apply Ok_inv in E2. subst x. unfold slash in *.
  apply in_flat_map in Hi as [b [Hb Hi]]. assert (Hlt : (b < 256)%N) by (pose proof (utf8_encode_bytes _ _ E1) as F; rewrite Forall_forall in F; auto).
  destruct (N.eq_dec b 47) as [->|Hne]; [|now apply enc_noslash in Hi]. apply He. eapply utf8_encode_low; eauto.
Qed.

Lemma urlquote_plain e x : urlquote e = Ok x -> plain e -> plain x.
Proof.
  intros E (H1 & H2 & H3). destruct (urlquote_decodes e x E) as (bs & Eb & Ed).
  assert (G : forall y, x = y -> utf8_encode y = Ok y -> unquote_to_bytes y = y -> e = y).
  { intros y -> Ey Dy. rewrite Dy in Ed. subst bs. eapply utf8_encode_inj; eauto. }
  repeat split; intros Ex; [apply H1|apply H2|apply H3]; apply (G _ Ex); reflexivity.
Qed.

Lemma urlquote_elements s es : elements s es -> forall q, urlquote s = Ok q ->
  exists qs, elements q qs /\ Forall2 (fun e x => urlquote e = Ok x) es qs.
Proof.
  induction 1 as [e He|e p es He Hp IH]; intros q E.
  - exists [q]. split; [constructor; eapply urlquote_noslash; eauto|auto].
  - change (e ++ slash :: p) with (e ++ [slash] ++ p) in E. apply urlquote_split in E as (x & y & E1 & E2 & ->).
    apply urlquote_split in E2 as (z & y' & E2 & E3 & ->). assert (z = [slash]) by (vm_compute in E2; apply Ok_inv in E2; subst z; reflexivity). subst z.
    destruct (IH y' E3) as (qs & H1 & H2). exists (x :: qs). split; [|auto]. change ([slash] ++ y') with (slash :: y').
    constructor; [eapply urlquote_noslash; eauto|auto].
Qed.

Lemma urlquote_plain_path s q : plain_path s -> urlquote s = Ok q -> plain_path q.
Proof.
  intros [es [H1 H2]] E. destruct (urlquote_elements s es H1 q E) as (qs & H3 & H4). exists qs. split; [auto|].
  clear -H2 H4. induction H4 as [|e x es qs H F IH]; constructor; inversion H2; subst; auto. eapply urlquote_plain; eauto.
Qed.

(** A leading dot written as %2E *)
Lemma plain_path_2e r : plain_path (46%N :: r) -> plain_path (`"%2E" ++ r).
Proof.
  rewrite !plain_path_split. intros H.
  assert (E : exists e l, split_on 47 (46%N :: r) = (46%N :: e) :: l /\ split_on 47 (`"%2E" ++ r) = (37 :: 50 :: 69 :: e)%N :: l).
  { change (`"%2E" ++ r) with (37 :: 50 :: 69 :: r)%N. cbn [split_on]. change (46 =? 47)%N with false. change (37 =? 47)%N with false.
    change (50 =? 47)%N with false. change (69 =? 47)%N with false. cbv iota.
    destruct (split_on 47 r) as [|e l] eqn:Es; [now apply split_on_nonnil in Es|]. exists e, l. auto. }
  destruct E as (e & l & E1 & E2). rewrite E1 in H. rewrite E2. inversion H; subst. constructor; [|auto]. repeat split; discriminate.
Qed.

(** ** Content paths *)

(** [f] is what is made of the source path [s]. *)
Definition source_name (H : hashfn) (norm : option str) (s f : str) : Prop :=
  match norm with
  | None => f = s
  | Some n =>
      exists bs, utf8_encode s = Ok bs /\
        ((n = `"uri" /\ unquote_to_bytes f = bs /\ hd_error f <> Some 46%N) \/ (n = `"md5" /\ f = firstn 16 (H (`"md5") bs)))
  end.

Lemma source_name_uri_inj H s1 s2 f : source_name H (Some (`"uri")) s1 f -> source_name H (Some (`"uri")) s2 f -> s1 = s2.
Proof.
  intros [b1 [E1 [(_ & D1 & _)|(F & _)]]] [b2 [E2 [(_ & D2 & _)|(G & _)]]]; try discriminate.
  eapply utf8_encode_inj; eauto. congruence.
Qed.

Lemma normalize_filepath_ok H norm s f : hash_ok H -> plain_path s -> normalize_filepath H norm s = Ok f ->
  source_name H norm s f /\ plain_path f.
Proof.
  intros HH Hp E. unfold normalize_filepath in E. destruct norm as [n|]; [|apply Ok_inv in E; subst; cbn; auto].
  destruct (str_eqb_spec n (`"uri")) as [->|Hn].
  - apply ebind_ok in E as [q [Eq E]]. pose proof (urlquote_plain_path s q Hp Eq) as Hq. destruct (urlquote_decodes s q Eq) as (bs & Eb & Ed).
    destruct q as [|c r]; [discriminate|]. apply Ok_inv in E. destruct (N.eqb_spec c 46) as [->|Hc]; subst f.
    + split; [|now apply plain_path_2e]. exists bs. split; [auto|]. left. split; [auto|]. split; [|discriminate].
      rewrite <- Ed. reflexivity.
    + split; [|auto]. exists bs. split; [auto|]. left. split; [auto|]. split; [auto|]. cbn. congruence.
  - destruct (str_eqb_spec n (`"md5")) as [->|Hm]; [|discriminate]. apply ebind_ok in E as [bs [Eb E]]. apply Ok_inv in E.
    split; [exists bs; split; [auto|]; right; auto|].
    destruct (HH (`"md5") 32%nat bs eq_refl) as [Hl Hf]. exists [f]. assert (Hx : Forall (fun c => is_lower_hex c = true) f).
    { subst f. rewrite Forall_forall in *. intros c Hc. apply Hf. rewrite <- (firstn_skipn 16). apply in_or_app. now left. }
    split.
    + constructor. intros Hi. rewrite Forall_forall in Hx. apply Hx in Hi. discriminate.
    + assert (Len : List.length f = 16%nat) by (subst f; rewrite firstn_length, Hl; reflexivity).
      constructor; [|constructor]. repeat split; intros F; rewrite F in Len; discriminate.
Qed.

Lemma normalize_filepath_total H norm s : plain_path s -> In norm [None; Some (`"uri"); Some (`"md5")] -> (exists bs, utf8_encode s = Ok bs) ->
  exists f, normalize_filepath H norm s = Ok f.
Proof.
  intros Hp Hn [bs Hb]. unfold normalize_filepath. destruct norm as [n|]; [|eauto]. destruct (str_eqb_spec n (`"uri")) as [->|H1].
  - assert (Eq : urlquote s = Ok (flat_map enc bs)) by (rewrite urlquote_enc, Hb; reflexivity). rewrite Eq. cbn [ebind].
    pose proof (urlquote_plain_path _ _ Hp Eq) as Hq. apply plain_path_head in Hq as [_ Hq]. destruct (flat_map enc bs) as [|c r]; [congruence|]. eauto.
  - destruct (str_eqb_spec n (`"md5")) as [->|H2]; [rewrite Hb; cbn [ebind]; eauto|]. destruct Hn as [F|[F|[F|[]]]]; congruence.
Qed.

(** A name for a directory *)
Definition plain_name (e : str) : Prop := plain e /\ ~ In slash e.

Lemma join_three h cd f : plain_name h -> plain_name cd -> plain_path f -> path_join_list [h; cd; f] = h ++ slash :: cd ++ slash :: f.
Proof.
  intros [[H1 _] H2] [[C1 _] C2] Hf. apply plain_path_head in Hf as [F1 F2].
  assert (G : forall e : str, e <> [] -> ~ In slash e -> last_opt e <> Some PathModel.slash).
  { intros e Hne Hs E. apply last_opt_some in E as [r ->]. apply Hs, in_or_app. right. now left. }
  assert (Hst : startswith [PathModel.slash] cd = false).
  { destruct cd as [|c cd]; [congruence|]. cbn [startswith]. destruct (N.eqb_spec PathModel.slash c) as [<-|]; [|reflexivity]. exfalso. apply C2. now left. }
  cbn [path_join_list fold_left]. rewrite (path_join_simple h cd) by auto. rewrite path_join_simple; auto.
  - now rewrite <- app_assoc.
  - destruct h; discriminate.
  - intros E. apply last_opt_some in E as [r E]. apply (G cd C1 C2). apply last_opt_some. 
    destruct cd as [|z cd _] using rev_ind; [congruence|]. exists cd. f_equal. change PathModel.slash with slash in *.
    assert (Ez : (h ++ slash :: cd) ++ [z] = r ++ [slash]) by (rewrite <- app_assoc; exact E). apply app_inj_tail in Ez as [_ ->]. reflexivity.
Qed.

Theorem map_filepath_correct H nv s c h : hash_ok H -> i_head (nv_inv nv) = Some h -> plain_name h ->
  plain_name (content_directory_to_use (nv_inv nv)) -> plain_path s -> map_filepath H nv s = Ok c ->
  (forall d, ~ stored (nv_inv nv) d c) /\
  exists f t, c = h ++ slash :: content_directory_to_use (nv_inv nv) ++ slash :: f ++ t /\
    source_name H (nv_norm nv) s f /\ plain_path f /\ plain_path (f ++ t) /\
    (t = [] \/ exists k, (2 <= k)%N /\ t = `"__" ++ str_of_N k).
Proof.
  intros HH Hh Hn Hc Hp E. split.
  { intros d Hd. apply map_filepath_unused in E. apply E, stored_any. eauto. }
  unfold map_filepath in E. apply ebind_ok in E as [f [Ef E]]. unfold head_of in E. rewrite Hh in E. cbn [ebind] in E.
  destruct (normalize_filepath_ok H _ s f HH Hp Ef) as [Hs Hf]. rewrite join_three in E by auto. exists f.
  set (v := h ++ slash :: content_directory_to_use (nv_inv nv) ++ slash :: f) in *.
  assert (Nil : v = h ++ slash :: content_directory_to_use (nv_inv nv) ++ slash :: f ++ []) by (now rewrite app_nil_r).
  destruct (str_in v (content_paths (nv_inv nv))).
  - apply make_unused_filepath_spec in E as (_ & k & Hk & -> & _). unfold candidate. destruct (N.eqb_spec k 1) as [->|Hk1].
    + exists []. split; [exact Nil|]. rewrite !app_nil_r. auto 6.
    + exists (`"__" ++ str_of_N k). split; [unfold v; repeat (rewrite <- ?app_assoc; cbn [app]); reflexivity|]. split; [auto|]. split; [auto|].
      split; [|right; exists k; split; [lia|auto]]. apply plain_path_suffix; auto.
      * intros Hi. apply in_app_or in Hi as [Hi|Hi]; [destruct Hi as [Hi|[Hi|[]]]; discriminate|].
        pose proof (str_of_N_digits k) as F. rewrite Forall_forall in F. apply F in Hi. discriminate.
      * rewrite app_length. change (List.length (`"__")) with 2%nat. pose proof (str_of_N_nonnil k). destruct (str_of_N k); [congruence|]. cbn. lia.
  - apply Ok_inv in E. subst c. exists []. split; [exact Nil|]. rewrite !app_nil_r. auto 6.
Qed.

Lemma map_filepath_total H nv s h : i_head (nv_inv nv) = Some h -> plain_path s -> In (nv_norm nv) [None; Some (`"uri"); Some (`"md5")] ->
  (exists bs, utf8_encode s = Ok bs) -> exists c, map_filepath H nv s = Ok c.
Proof.
  intros Hh Hp Hn Hb. destruct (normalize_filepath_total H (nv_norm nv) s Hp Hn Hb) as [f Ef]. unfold map_filepath. rewrite Ef. cbn [ebind].
  unfold head_of. rewrite Hh. cbn [ebind]. destruct (str_in _ _); [apply make_unused_filepath_total|eauto].
Qed.
