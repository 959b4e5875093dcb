(** The content paths that are chosen for the files of one source directory (C34-C36, C51). *)
From Coq Require Import Permutation Sorted.
From Verif Require Import Base Unicode Regex Utf8 Json PyJson JsonTextModel JsonTextSpec JsonTextProofs JsonFileProofs Log DigestModel LayoutModel LayoutProofs
  ObjectUtilsModel ObjectUtilsProofs InventorySpec InventoryValidatorModel InventoryValidatorProofs InventoryRulesProofs
  InventoryModel InventoryOpsSpec InventoryOpsProofs NewVersionModel NewVersionProofs NewVersionOpsProofs VersionNumberProofs InventoryParseProofs ParseModel
  ContentPathProofs TextFile PathModel FsModel FsSpec FsProofs ValidatorBasicProofs ObjectModel ObjectInvProofs ObjectRulesProofs ObjectParseProofs ObjectAddProofs.

(** One list of names begins with the other. *)
Definition begins (a b : list str) : Prop := exists x, b = a ++ x.

Lemma begins_join a b : Forall fname a -> Forall fname b -> a <> [] -> b <> [] ->
  (join [PathModel.slash] a = join [PathModel.slash] b \/ above (join [PathModel.slash] a) (join [PathModel.slash] b)) -> begins a b.
Proof.
  intros Fa Fb Na Nb [E|[r E]].
  - apply names_join_inj in E; auto. exists []. now rewrite app_nil_r.
  - exists (split_on PathModel.slash r). rewrite <- (names_split b) by auto. rewrite E. change InventorySpec.slash with PathModel.slash.
    clear -Fa Na. induction a as [|x a IH]; [congruence|]. inversion Fa as [|x' a' Fx Fa']; subst. destruct a as [|y a].
    + cbn [join app]. apply split_on_app, Fx.
    + rewrite join_cons by discriminate. rewrite <- !app_assoc. cbn [app]. rewrite split_on_app by apply Fx. rewrite IH by (auto; discriminate). reflexivity.
Qed.
Lemma begins_not_above a b : Forall fname a -> Forall fname b -> a <> [] -> b <> [] -> ~ begins a b ->
  ~ above (join [PathModel.slash] a) (join [PathModel.slash] b) /\ join [PathModel.slash] a <> join [PathModel.slash] b.
Proof. intros H1 H2 H3 H4 H5. split; intros H; apply H5, begins_join; auto. Qed.

(** How the names below the content directory belong to the names of the source path *)
Definition decodes (e q : str) : Prop := exists bs, utf8_encode e = Ok bs /\ unquote_to_bytes q = bs.
Definition content_of (norm : option str) (es r : list str) : Prop :=
  match norm with
  | None => r = es
  | Some x => if str_eqb x (`"uri") then Forall2 decodes es r else exists q, r = [q]
  end.

Lemma decodes_inj e e' q : decodes e q -> decodes e' q -> e = e'.
Proof. intros (b & H1 & H2) (b' & H3 & H4). eapply utf8_encode_inj; eauto. congruence. Qed.
Lemma decodes_list es r : Forall2 decodes es r -> forall es', Forall2 decodes es' r -> es' = es.
Proof.
  induction 1 as [|e y es r H1 _ IH]; intros es' F2; inversion F2; subst; [auto|]. f_equal; [eapply decodes_inj; eauto|auto].
Qed.
Lemma decodes_begins es r : Forall2 decodes es r -> forall es' x, Forall2 decodes es' (r ++ x) -> begins es es'.
Proof.
  induction 1 as [|e q es r He _ IH]; intros es' x F; [exists es'; reflexivity|]. cbn [app] in F. inversion F as [|e' q' es1 r1 He' F' E1 E2]; subst.
  destruct (IH _ _ F') as [y ->]. exists y. cbn [app]. f_equal. eapply decodes_inj; eauto.
Qed.
Lemma content_begins norm es r es' r' : content_of norm es r -> content_of norm es' r' -> begins r r' -> begins es es' \/ r = r'.
Proof.
  unfold content_of. destruct norm as [x|]; [|intros -> -> ?; auto]. destruct (str_eqb x (`"uri")).
  - intros F F' [y ->]. left. eapply decodes_begins; eauto.
  - intros [q ->] [q' ->] [y E]. right. cbn [app] in E. congruence.
Qed.

(** Names that can be used with a normalization *)
Definition name_ok (norm : option str) (e : str) : Prop :=
  fname e /\ text e /\ match norm with None => ~ In newline e | Some _ => exists bs, utf8_encode e = Ok bs end.

Lemma encode_join es : Forall (fun e => exists bs, utf8_encode e = Ok bs) es -> exists bs, utf8_encode (join [PathModel.slash] es) = Ok bs.
Proof.
  assert (App : forall a b x y, utf8_encode a = Ok x -> utf8_encode b = Ok y -> utf8_encode (a ++ b) = Ok (x ++ y)).
  { induction a as [|c a IH]; intros b x y Ea Eb; cbn [app].
    - cbn in Ea. apply Ok_inv in Ea. subst x. exact Eb.
    - apply utf8_encode_cons in Ea as (b1 & b2 & H1 & H2 & ->). cbn [utf8_encode]. rewrite H1, (IH _ _ _ H2 Eb). cbn [ebind]. now rewrite app_assoc. }
  induction 1 as [|e es [b Hb] _ [bs IH]]; [exists []; reflexivity|]. destruct es as [|e' es]; [exists b; exact Hb|].
  rewrite join_cons by discriminate. exists (b ++ [PathModel.slash] ++ bs). apply App; [auto|]. apply App; [reflexivity|auto].
Qed.

Lemma enc_chars b c : (b < 256)%N -> In c (enc b) -> (c < 128)%N /\ c <> newline.
Proof.
  intros Hb Hi. unfold enc in Hi. assert (Hex : forall k, (k < 16)%N -> (hex_upper_digit k < 128)%N /\ hex_upper_digit k <> newline).
  { intros k Hk. unfold hex_upper_digit, newline. destruct (N.ltb_spec k 10); lia. }
  destruct (uri_safe b) eqn:E.
  - destruct Hi as [<-|[]]. split; [now apply uri_safe_facts|]. intros ->. discriminate E.
  - destruct Hi as [<-|[<-|[<-|[]]]]; [split; [reflexivity|discriminate]| |]; apply Hex; [apply N.div_lt_upper_bound; lia|apply N.mod_lt; lia].
Qed.
Lemma quoted_chars e q c : urlquote e = Ok q -> In c q -> (c < 128)%N /\ c <> newline.
Proof.
  rewrite urlquote_enc. intros E Hi. apply ebind_ok in E as [bs [E1 E2]]. apply Ok_inv in E2. subst q. apply in_flat_map in Hi as (b & Hb & Hi).
  apply (enc_chars b); [|auto]. pose proof (utf8_encode_bytes _ _ E1) as F. rewrite Forall_forall in F. auto.
Qed.

(** A name below the content directory *)
Definition cname (q : str) : Prop := fname q /\ text q /\ ~ In newline q.

Lemma cname_quoted e q : fname e -> urlquote e = Ok q -> cname q.
Proof.
  intros (H1 & H2 & H3 & H4) E. destruct (urlquote_plain e q E) as (P1 & P2 & P3); [unfold plain; auto|]. split; [|split].
  - split; [auto|]. split; [auto|]. split; [auto|]. eapply urlquote_noslash; eauto.
  - apply text_ascii. rewrite Forall_forall. intros c Hc. eapply quoted_chars; eauto.
  - intros Hi. eapply quoted_chars in Hi; [|eauto]. now apply Hi.
Qed.
Lemma cname_2e r : cname (46%N :: r) -> cname (`"%2E" ++ r).
Proof.
  intros ((H1 & H2 & H3 & H4) & T & Nl). split; [|split].
  - split; [discriminate|]. split; [intros E; discriminate E|]. split; [intros E; discriminate E|]. intros Hi. apply H4. destruct Hi as [Hi|[Hi|[Hi|Hi]]]; try discriminate Hi. now right.
  - cbn [text] in T. destruct T as (_ & _ & T). change (text (37 :: 50 :: 69 :: r)%N). cbn [text]. split; [lia|]. split; [unfold high_surrogate; lia|]. split; [lia|].
    split; [unfold high_surrogate; lia|]. split; [lia|]. split; [destruct r; [exact I|unfold high_surrogate; lia]|auto].
  - intros Hi. apply Nl. destruct Hi as [Hi|[Hi|[Hi|Hi]]]; try discriminate Hi. now right.
Qed.

Lemma cname_hex q : q <> [] -> q <> `"." -> q <> `".." -> Forall (fun c => is_lower_hex c = true \/ c = 95%N) q -> cname q.
Proof.
  intros H1 H2 H3 F. rewrite Forall_forall in F. assert (G : forall c, In c q -> (c < 128)%N /\ c <> newline /\ c <> PathModel.slash).
  { intros c Hc. destruct (F c Hc) as [Hx| ->]; [|unfold newline, PathModel.slash; lia]. unfold is_lower_hex, is_ascii_digit in Hx. rewrite orb_true_iff, !andb_true_iff, !N.leb_le in Hx. unfold newline, PathModel.slash. lia. }
  split; [|split].
  - split; [auto|]. split; [auto|]. split; [auto|]. intros Hi. apply G in Hi. tauto.
  - apply text_ascii. rewrite Forall_forall. intros c Hc. now apply G.
  - intros Hi. apply G in Hi. tauto.
Qed.

Lemma join_head h cd r : fname h -> fname cd -> Forall fname r -> r <> [] ->
  path_join_list [h; cd; join [PathModel.slash] r] = join [PathModel.slash] (h :: cd :: r).
Proof.
  intros Fh Fc Fr Nr. rewrite join_three; [|destruct Fh as (? & ? & ? & ?); split; [unfold plain; auto|auto]|destruct Fc as (? & ? & ? & ?); split; [unfold plain; auto|auto]|now apply names_plain].
  rewrite !join_cons by (auto; discriminate). reflexivity.
Qed.

Theorem map_filepath_head H nv h es : hash_ok H -> i_head (nv_inv nv) = Some h -> fname h -> fname (content_directory_to_use (nv_inv nv)) ->
  In (nv_norm nv) [None; Some (`"uri"); Some (`"md5")] -> Forall (name_ok (nv_norm nv)) es -> es <> [] ->
  (forall r', Forall fname r' -> r' <> [] -> In (join [PathModel.slash] (h :: content_directory_to_use (nv_inv nv) :: r')) (content_paths (nv_inv nv)) ->
     exists es', content_of (nv_norm nv) es' r' /\ ~ begins es es') ->
  exists r, map_filepath H nv (join [PathModel.slash] es) = Ok (join [PathModel.slash] (h :: content_directory_to_use (nv_inv nv) :: r)) /\
    content_of (nv_norm nv) es r /\ r <> [] /\ Forall cname r /\
    ~ In (join [PathModel.slash] (h :: content_directory_to_use (nv_inv nv) :: r)) (content_paths (nv_inv nv)).
Proof.
  intros HH Hh Fh Fc Hn Fes Nes Hused. set (cd := content_directory_to_use (nv_inv nv)) in *. set (used := content_paths (nv_inv nv)) in *.
  assert (Fnames : Forall fname es) by (eapply Forall_impl; [|exact Fes]; intros e He; apply He).
  assert (Direct : forall r, normalize_filepath H (nv_norm nv) (join [PathModel.slash] es) = Ok (join [PathModel.slash] r) -> r <> [] -> Forall cname r ->
    content_of (nv_norm nv) es r -> (forall es', content_of (nv_norm nv) es' r -> es' = es) ->
    map_filepath H nv (join [PathModel.slash] es) = Ok (join [PathModel.slash] (h :: cd :: r)) /\ ~ In (join [PathModel.slash] (h :: cd :: r)) used).
  { intros r E Nr Cr Co Inj. assert (Fr : Forall fname r) by (eapply Forall_impl; [|exact Cr]; intros q Hq; apply Hq).
    assert (Hni : ~ In (join [PathModel.slash] (h :: cd :: r)) used).
    { intros Hi. destruct (Hused r Fr Nr Hi) as (es' & Ce & Hb). apply Hb. rewrite (Inj _ Ce). exists []. now rewrite app_nil_r. }
    split; [|auto]. unfold map_filepath. rewrite E. cbn [ebind]. unfold head_of. rewrite Hh. cbn [ebind]. fold cd used. rewrite join_head by auto.
    now rewrite (proj2 (str_in_false _ _) Hni). }
  destruct (nv_norm nv) as [x|] eqn:En.
  - destruct Hn as [Hn|Hn]; [discriminate|]. assert (Enc : Forall (fun e => exists bs, utf8_encode e = Ok bs) es) by (eapply Forall_impl; [|exact Fes]; intros e He; apply He).
    destruct (encode_join es Enc) as [bs Hbs]. destruct Hn as [Hn|[Hn|[]]]; apply Some_inv in Hn; subst x.
    + assert (Eq : urlquote (join [PathModel.slash] es) = Ok (flat_map ContentPathProofs.enc bs)) by (rewrite urlquote_enc, Hbs; reflexivity).
      set (q := flat_map ContentPathProofs.enc bs) in *.
      assert (El : elements (join [PathModel.slash] es) es) by (apply elements_split; symmetry; now apply names_split).
      destruct (urlquote_elements _ _ El q Eq) as (qs & Eqs & Fqs). apply elements_split in Eqs.
      assert (Jq : q = join [PathModel.slash] qs) by (rewrite Eqs; symmetry; apply join_split).
      assert (Nqs : qs <> []) by (rewrite Eqs; apply split_on_nonnil).
      assert (Cqs : Forall cname qs). { clear -Fqs Fnames. induction Fqs as [|e y es qs Hy _ IH]; constructor; inversion Fnames; subst; auto. eapply cname_quoted; eauto. }
      assert (Dqs : Forall2 decodes es qs). { clear -Fqs. induction Fqs as [|e y es qs Hy _ IH]; constructor; auto. apply urlquote_decodes in Hy. exact Hy. }
      assert (Inj : forall r, Forall2 decodes es r -> forall es', Forall2 decodes es' r -> es' = es).
      { intros r F1 es' F2. eapply decodes_list; eauto. }
      set (r := match qs with (46%N :: t) :: l => (`"%2E" ++ t) :: l | _ => qs end).
      assert (Nr : normalize_filepath H (Some (`"uri")) (join [PathModel.slash] es) = Ok (join [PathModel.slash] r) /\ r <> [] /\ Forall cname r /\ Forall2 decodes es r).
      { unfold normalize_filepath. rewrite str_eqb_refl, Eq. cbn [ebind]. rewrite Jq. destruct qs as [|y l]; [congruence|].
        inversion Cqs as [|y0 l0 Cy Cl]; subst y0 l0. inversion Dqs as [|e0 y0 es0 l0 Dy Dl]; subst. destruct y as [|c t]; [exfalso; now apply (proj1 (proj1 Cy))|].
        assert (J : forall u l, join [PathModel.slash] ((u : str) :: l) = u ++ match l with [] => [] | _ => PathModel.slash :: join [PathModel.slash] l end).
        { intros u [|z l1]; [cbn; now rewrite app_nil_r|]. rewrite join_cons by discriminate. reflexivity. }
        rewrite J. cbn [app]. destruct (N.eqb_spec c 46) as [->|Hc].
        - split; [f_equal; unfold r; rewrite J; now rewrite <- app_assoc|]. split; [discriminate|]. split; [constructor; [now apply cname_2e|auto]|].
          constructor; [|auto]. destruct Dy as (b & B1 & B2). exists b. split; [auto|]. rewrite <- B2. reflexivity.
        - assert (Er : r = (c :: t) :: l). { unfold r. destruct c as [|pc]; [reflexivity|]. do 6 (destruct pc as [pc|pc|]; try reflexivity). exfalso. now apply Hc. }
          rewrite Er. split; [f_equal; now rewrite J|]. split; [discriminate|]. split; auto. }
      destruct Nr as (N1 & N2 & N3 & N4). destruct (Direct r N1 N2 N3 N4 (Inj r N4)) as [D1 D2]. exists r. auto.
    + destruct (map_filepath_total H nv (join [PathModel.slash] es) h Hh (names_plain es Fnames Nes)) as [c Ec]; [rewrite En; cbn; auto|eauto|].
      assert (Uc : ~ In c used) by (apply (map_filepath_unused H nv _ c Ec)). pose proof Ec as Ec'. unfold map_filepath in Ec. rewrite En in Ec. apply ebind_ok in Ec as [f [Ef Ec]].
      cbn [normalize_filepath] in Ef. change (str_eqb (`"md5") (`"uri")) with false in Ef. rewrite str_eqb_refl, Hbs in Ef. cbn [ebind] in Ef. apply Ok_inv in Ef.
      destruct (HH (`"md5") 32%nat bs eq_refl) as [Hl Hf].
      assert (Lf : List.length f = 16%nat) by (subst f; rewrite firstn_length, Hl; reflexivity).
      assert (Hx : Forall (fun c => is_lower_hex c = true \/ c = 95%N) f).
      { subst f. rewrite Forall_forall in *. intros y Hy. left. apply Hf. rewrite <- (firstn_skipn 16). apply in_or_app. now left. }
      assert (Cf : forall t, Forall (fun c => is_lower_hex c = true \/ c = 95%N) t -> cname (f ++ t)).
      { intros t Ht. apply cname_hex; [| | |apply Forall_app; auto]; intros E; apply (f_equal (@List.length N)) in E; rewrite app_length, Lf in E; cbn in E; lia. }
      assert (Cf0 : cname f) by (rewrite <- (app_nil_r f); apply Cf; constructor).
      unfold head_of in Ec. rewrite Hh in Ec. cbn [ebind] in Ec. fold cd used in Ec.
      change f with (join [PathModel.slash] [f]) in Ec. rewrite join_head in Ec; [|auto|auto|constructor; [apply Cf0|constructor]|discriminate].
      assert (G : exists t, c = join [PathModel.slash] (h :: cd :: [f ++ t]) /\ Forall (fun c => is_lower_hex c = true \/ c = 95%N) t).
      { destruct (str_in _ used).
        - apply make_unused_filepath_spec in Ec as (_ & k & Hk & -> & _). unfold candidate. destruct (N.eqb_spec k 1) as [->|Hk1]; [exists []; rewrite app_nil_r; auto|].
          exists (`"__" ++ str_of_N k). split; [rewrite !join_cons by discriminate; cbn [join]; repeat (rewrite <- ?app_assoc; cbn [app]); reflexivity|].
          apply Forall_app. split; [repeat (constructor; [right; reflexivity|]); constructor|]. eapply Forall_impl; [|apply str_of_N_digits]. intros y Hy. left.
          unfold is_lower_hex. apply orb_true_iff. left. exact Hy.
        - apply Ok_inv in Ec. exists []. rewrite app_nil_r. auto. }
      destruct G as (t & -> & Ht). exists [f ++ t]. split; [auto|]. split; [exists (f ++ t); reflexivity|]. split; [discriminate|]. split; [constructor; auto|auto].
  - assert (Cr : Forall cname es) by (eapply Forall_impl; [|exact Fes]; intros e (? & ? & ?); split; auto).
    destruct (Direct es eq_refl Nes Cr eq_refl) as [D1 D2]; [intros es' E; symmetry; exact E|]. exists es. split; [auto|]. split; [reflexivity|]. auto.
Qed.
