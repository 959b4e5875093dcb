(** Properties C04-C09 (layouts) and C11-C12 (digests). *)
From Verif Require Import Base Unicode Regex Utf8 Json PathModel DigestModel LayoutModel LayoutSpec LayoutProofs.

(** ** C04 *)
Theorem C04_flat_direct : forall id,
  (safe_component id -> flat_direct_path id = Ok id) /\
  (~ safe_component id -> flat_direct_path id = Raise LayoutException).
Proof.
  intros id. unfold flat_direct_path.
  destruct (str_in_spec id [[]; `"."; `".."]) as [H1|H1]; simpl orb.
  - split; auto. intros [A [B [C _]]]. exfalso. cbn [In] in H1.
    destruct H1 as [H1|[H1|[H1|[]]]]; symmetry in H1; auto.
  - destruct (char_in_spec slash id) as [H2|H2].
    + split; auto. intros [_ [_ [_ D]]]. tauto.
    + split; auto. intros H. exfalso. apply H. simpl in H1. repeat split; intuition.
Qed.

(** Consequently distinct identifiers have distinct paths. *)
Theorem C04_flat_direct_unique : forall id1 id2 p,
  flat_direct_path id1 = Ok p -> flat_direct_path id2 = Ok p -> id1 = id2.
Proof.
  unfold flat_direct_path. intros id1 id2 p.
  destruct (_ || _); [discriminate|]. destruct (_ || _); [discriminate|]. congruence.
Qed.

Example C04_ex : flat_direct_path (`"info:a..b") = Ok (`"info:a..b") /\
  flat_direct_path (`"..") = Raise LayoutException /\ flat_direct_path (`"a/b") = Raise LayoutException.
Proof. repeat split. Qed.

(** ** C05 *)
Lemma encap_char_spec c : encap_char c -> encapsulation_char c.
Proof.
  intros [H|H]; [|unfold encapsulation_char; subst; tauto].
  unfold encap_safe, is_ascii_alnum, is_ascii_digit in H. unfold encapsulation_char.
  rewrite !orb_true_iff, !andb_true_iff, !N.leb_le, !N.eqb_eq in H. tauto.
Qed.

(** Shape and safety of the path. *)
Theorem C05_shape : forall H enc a ts nt n id p,
  hash_ok H -> config_0003_ok a ts nt n -> id <> [] ->
  identifier_to_path H enc (L0003 a ts nt) id = Ok p ->
  exists b tuples encapsulation,
    utf8_encode id = Ok b /\
    path_of (tuples ++ [encapsulation]) p /\
    length tuples = Z.to_nat nt /\
    (forall t, In t tuples -> length t = Z.to_nat ts) /\
    concat tuples = firstn (Z.to_nat nt * Z.to_nat ts) (H a b) /\
    Forall encapsulation_char encapsulation /\
    (length encapsulation <= 100 + 1 + n)%nat /\
    (forall c, In c (tuples ++ [encapsulation]) -> safe_component c).
Proof.
  intros H enc a ts nt n id p Hok Hc Hid Hp.
  destruct (id_to_path_shape H id a ts nt n p Hok Hc Hid Hp)
    as [b [tuples [e [Hb [Ep [Hl [He [Hcc [Hpl [Hg [Hne [Hch Hle]]]]]]]]]]]].
  assert (Hdot : forall c, In c (tuples ++ [e]) -> ~ In 46%N c).
  { intros c Hi Hd. apply in_app_iff in Hi as [Hi|[Hi|[]]].
    - assert (Hc46 : In 46%N (H a b)).
      { assert (Hi2 : In 46%N (concat tuples)) by (apply in_concat; eauto).
        rewrite Hcc in Hi2. now apply In_firstn in Hi2. }
      destruct Hc as [Hlen _]. destruct (Hok a n b Hlen) as [_ Hhex].
      rewrite Forall_forall in Hhex. apply Hhex in Hc46. discriminate.
    - subst c. revert Hd. now apply encap_char_nodot. }
  exists b, tuples, e. split; [exact Hb|]. split; [exact Ep|]. split; [exact Hl|].
  split; [exact He|]. split; [exact Hcc|].
  split; [eapply Forall_impl; [|exact Hch]; apply encap_char_spec|]. split; [lia|].
  intros c Hi. split; [|split; [|split]].
  - intros E. apply in_app_iff in Hi as [Hi|[Hi|[]]]; [|congruence].
    rewrite Forall_forall in Hpl. apply Hpl in Hi as [Hi _]. auto.
  - intros E. apply (Hdot c Hi). rewrite E. simpl. auto.
  - intros E. apply (Hdot c Hi). rewrite E. simpl. auto.
  - eapply shape_noslash; eauto.
Qed.

(** Every identifier that can be encoded in UTF-8 has a path. *)
Theorem C05_total : forall H enc a ts nt n id b,
  config_0003_ok a ts nt n -> utf8_encode id = Ok b ->
  exists p, identifier_to_path H enc (L0003 a ts nt) id = Ok p.
Proof. intros H enc a ts nt n id b [_ [Hin _]] Hb. eapply id_to_path_total; eauto. Qed.

(** Two different identifiers share a path only if their digests collide (and then
    only if the encapsulation directory had to be truncated at 100 characters). *)
Theorem C05_unique : forall H enc a ts nt n id1 id2 p,
  hash_ok H -> config_0003_ok a ts nt n -> id1 <> [] -> id2 <> [] ->
  identifier_to_path H enc (L0003 a ts nt) id1 = Ok p ->
  identifier_to_path H enc (L0003 a ts nt) id2 = Ok p ->
  id1 = id2 \/
  (exists b1 b2, utf8_encode id1 = Ok b1 /\ utf8_encode id2 = Ok b2 /\ H a b1 = H a b2) /\
  (100 < length p)%nat.
Proof.
  intros H enc a ts nt n id1 id2 p Hok Hc H1 H2 P1 P2.
  destruct (id_to_path_shape H id1 a ts nt n p Hok Hc H1 P1)
    as [b1 [t1 [e1 [Hb1 [Ep1 [Hl1 [He1 [Hcc1 [Hpl1 [Hg1 [Hne1 [Hch1 _]]]]]]]]]]]].
  destruct (id_to_path_shape H id2 a ts nt n p Hok Hc H2 P2)
    as [b2 [t2 [e2 [Hb2 [Ep2 [Hl2 [He2 [Hcc2 [Hpl2 [Hg2 [Hne2 [Hch2 _]]]]]]]]]]]].
  assert (E : t1 ++ [e1] = t2 ++ [e2]).
  { apply (join_inj slash).
    - destruct t1; discriminate.
    - destruct t2; discriminate.
    - intros e He. exact (shape_noslash t1 e1 e Hpl1 Hch1 Hne1 He).
    - intros e He. exact (shape_noslash t2 e2 e Hpl2 Hch2 Hne2 He).
    - congruence. }
  apply app_inj_tail in E as [-> ->].
  destruct (get_encap_inj _ _ _ _ _ Hg1 Hg2) as [->|[Hd Hlong]]; [auto|right].
  split; [exists b1, b2; auto|]. rewrite Ep1. destruct t2 as [|t t2]; [exact Hlong|].
  rewrite join_snoc by discriminate. rewrite !app_length. simpl. lia.
Qed.

(** No object path lies inside another one. *)
Theorem C05_not_nested : forall H enc a ts nt n id1 id2 p1 p2,
  hash_ok H -> config_0003_ok a ts nt n -> id1 <> [] -> id2 <> [] ->
  identifier_to_path H enc (L0003 a ts nt) id1 = Ok p1 ->
  identifier_to_path H enc (L0003 a ts nt) id2 = Ok p2 ->
  ~ inside p1 p2.
Proof.
  intros H enc a ts nt n id1 id2 p1 p2 Hok Hc H1 H2 P1 P2 [rest E].
  destruct (id_to_path_shape H id1 a ts nt n p1 Hok Hc H1 P1)
    as [b1 [t1 [e1 [_ [Ep1 [Hl1 [_ [_ [Hpl1 [_ [Hne1 [Hch1 _]]]]]]]]]]]].
  destruct (id_to_path_shape H id2 a ts nt n p2 Hok Hc H2 P2)
    as [b2 [t2 [e2 [_ [Ep2 [Hl2 [_ [_ [Hpl2 [_ [Hne2 [Hch2 _]]]]]]]]]]]].
  apply (f_equal (split_on slash)) in E.
  change 47%N with slash in E. rewrite split_on_app_gen, Ep1, Ep2 in E.
  rewrite !split_join in E.
  - apply (f_equal (@length str)) in E. rewrite !app_length in E. simpl in E.
    pose proof (split_on_nonnil slash rest). destruct (split_on slash rest); [congruence|].
    simpl in E. lia.
  - destruct t1; discriminate.
  - intros e He. exact (shape_noslash t1 e1 e Hpl1 Hch1 Hne1 He).
  - destruct t2; discriminate.
  - intros e He. exact (shape_noslash t2 e2 e Hpl2 Hch2 Hne2 He).
Qed.

(** A stand-in hash of the right format, for the examples: the bytes in hex,
    last one first. *)
Definition toy_hash : hashfn := fun alg b =>
  match hash_len alg with
  | Some n => firstn n (concat (map (fun x => hex_lower (x mod 256)) (rev b)) ++ repeat 48%N n)
  | None => []
  end.

Lemma hex_lower_digit_hex n : (n < 16)%N -> is_lower_hex (hex_lower_digit n) = true.
Proof.
  intros Hn. unfold is_lower_hex, is_ascii_digit, hex_lower_digit.
  rewrite orb_true_iff, !andb_true_iff, !N.leb_le. destruct (N.ltb_spec n 10); lia.
Qed.

Lemma toy_hash_ok : hash_ok toy_hash.
Proof.
  intros alg n b Hl. unfold toy_hash. rewrite Hl. split.
  - rewrite firstn_length, app_length, repeat_length. lia.
  - assert (G : Forall (fun c => is_lower_hex c = true)
      (concat (map (fun x => hex_lower (x mod 256)) (rev b)) ++ repeat 48%N n)).
    { apply Forall_app; split;
        [|apply Forall_forall; intros x Hx; apply repeat_spec in Hx; now subst].
      generalize (rev b). intros l. induction l as [|x l IH]; [constructor|].
        cbn [map concat]. unfold hex_lower at 1. cbn [app].
        constructor; [apply hex_lower_digit_hex; lia|].
        constructor; [apply hex_lower_digit_hex; lia|]. exact IH. }
    apply Forall_forall. intros x Hx. rewrite Forall_forall in G. apply G.
    eapply In_firstn; eauto.
Qed.

Lemma default_0003_ok : config_0003_ok (`"sha256") 3 3 64.
Proof. repeat split; simpl; auto; try lia. Qed.

Example C05_ex : exists p,
  identifier_to_path toy_hash (fun x => x) layout_0003_default (`"..hor/rib:le-$id") = Ok p /\
  p = `"646/924/2d6/%2e%2ehor%2frib%3ale-%24id".
Proof. eexists; split; vm_compute; reflexivity. Qed.

(** ** C06 *)
Theorem C06_reversible : forall id p,
  flat_quoted_path id = Ok p -> unquote_plus p = Some id /\ p <> [] /\ ~ In 47%N p.
Proof.
  intros id p H. unfold flat_quoted_path in H. destruct id as [|c id]; [discriminate|].
  split; [|split].
  - now apply quote_plus_unquote.
  - eapply quote_plus_nonnil; eauto. discriminate.
  - now apply quote_plus_noslash in H.
Qed.

Theorem C06_unique : forall id1 id2 p,
  flat_quoted_path id1 = Ok p -> flat_quoted_path id2 = Ok p -> id1 = id2.
Proof.
  intros id1 id2 p H1 H2. apply C06_reversible in H1 as [H1 _]. apply C06_reversible in H2 as [H2 _].
  congruence.
Qed.

(** The only non-empty identifiers whose path is not one safe component are '.' and '..' *)
Theorem C06_safe_partial : forall id p,
  flat_quoted_path id = Ok p -> id <> `"." -> id <> `".." -> safe_component p.
Proof.
  intros id p H H1 H2. destruct (C06_reversible id p H) as [Hu [Hn Hs]].
  repeat split; auto; intros ->.
  - apply H1. assert (flat_quoted_path (`".") = Ok (`".")) by reflexivity. eapply C06_unique; eauto.
  - apply H2. assert (flat_quoted_path (`"..") = Ok (`"..")) by reflexivity. eapply C06_unique; eauto.
Qed.

(** Missing from the full claim: '.' and '..' are accepted and lead to the storage
    root itself and to its parent directory. *)
Theorem C06_safe_refuted : exists id p,
  flat_quoted_path id = Ok p /\ ~ safe_component p.
Proof.
  exists (`".."), (`".."). split; [reflexivity|]. intros [_ [_ [H _]]]. congruence.
Qed.

Example C06_ex : flat_quoted_path (`"a b/c+d%" ++ [233%N]) = Ok (`"a+b%2Fc%2Bd%25%C3%A9").
Proof. vm_compute. reflexivity. Qed.

(** ** C07 *)
Lemma quad_spec s : quad s <-> uuid_quad s.
Proof.
  unfold quad, uuid_quad. assert (G : forall c, is_uuid_char c = true <-> uuid_char c).
  { intros c. unfold is_uuid_char, uuid_char. rewrite orb_true_iff, andb_true_iff, !N.leb_le. tauto. }
  rewrite !Forall_forall. split; intros [H1 H2]; split; auto; intros x Hx; apply G; auto.
Qed.

Lemma Forall_quad_spec l : Forall quad l <-> Forall uuid_quad l.
Proof. rewrite !Forall_forall. split; intros H x Hx; apply quad_spec; auto. Qed.

Lemma quad_plain s : quad s -> plain_component s.
Proof.
  intros [Hl Hf]. split.
  - intros ->. discriminate.
  - intros Hi. rewrite Forall_forall in Hf. apply Hf in Hi. vm_compute in Hi. discriminate.
Qed.

(** Accepted identifiers: prefix + UUID, with possibly one newline at the end. *)
Theorem C07_accepts_partial : forall prefix id p,
  uuid_quadtree_path prefix id = Ok p <->
  exists q u nl, uuid_of q u /\ (nl = [] \/ nl = [10%N]) /\ id = prefix ++ u ++ nl /\ path_of q p.
Proof.
  intros prefix id p. unfold uuid_quadtree_path. split.
  - destruct (startswith prefix id) eqn:Es; [|discriminate]. apply startswith_spec in Es as [r ->].
    rewrite skipn_app, skipn_all, Nat.sub_diag. cbn [app skipn].
    destruct (re_match re_uuid r) as [m|] eqn:Em; [|discriminate].
    apply re_uuid_some in Em as [a [b [c [d [e [f [g [h [nl [-> [Hnl [Hf ->]]]]]]]]]]]].
    intros HH. apply Ok_inv in HH. subst p. cbn [group Nat.eqb].
    exists [a; b; c; d; e; f; g; h], (uuid_text [a; b; c; d; e; f; g; h]), nl.
    split; [|split; [auto|split; [reflexivity|]]].
    + do 8 eexists. split; [reflexivity|]. split; [now apply Forall_quad_spec|reflexivity].
    + unfold path_of. apply path_join_list_plain.
      eapply Forall_impl; [|exact Hf]. apply quad_plain.
  - intros [q [u [nl [[a [b [c [d [e [f [g [h [-> [Hf ->]]]]]]]]]] [Hnl [-> Hp]]]]]].
    apply Forall_quad_spec in Hf.
    assert (Es : startswith prefix (prefix ++ (a ++ b ++ `"-" ++ c ++ `"-" ++ d ++ `"-" ++ e ++ `"-" ++ f ++ g ++ h) ++ nl) = true).
    { apply startswith_spec. eauto. }
    rewrite Es, skipn_app, skipn_all, Nat.sub_diag. cbn [app skipn].
    change (a ++ b ++ `"-" ++ c ++ `"-" ++ d ++ `"-" ++ e ++ `"-" ++ f ++ g ++ h)
      with (uuid_text [a; b; c; d; e; f; g; h]).
    destruct (re_match re_uuid (uuid_text [a; b; c; d; e; f; g; h] ++ nl)) as [m|] eqn:Em.
    + apply re_uuid_some in Em as [a' [b' [c' [d' [e' [f' [g' [h' [nl' [Eq [Hnl' [Hf' ->]]]]]]]]]]]].
      cbn [group Nat.eqb]. f_equal.
      rewrite path_join_list_plain by (eapply Forall_impl; [|exact Hf']; apply quad_plain).
      unfold path_of in Hp. rewrite Hp. f_equal.
      unfold uuid_text in Eq. rewrite <- !app_assoc in Eq.
      repeat match goal with
      | H : Forall quad (_ :: _) |- _ =>
          let H1 := fresh "Q" in let H2 := fresh "R" in
          pose proof (Forall_inv H) as H1; pose proof (Forall_inv_tail H) as H2; clear H
      end.
      repeat match goal with H : quad _ |- _ => destruct H as [? _] end.
      assert (SP : forall (x y r s : str), length x = 4%nat -> length y = 4%nat -> x ++ r = y ++ s -> x = y /\ r = s).
      { clear. intros x y r s Hx Hy E.
        destruct x as [|x1 [|x2 [|x3 [|x4 [|]]]]]; try discriminate.
        destruct y as [|y1 [|y2 [|y3 [|y4 [|]]]]]; try discriminate.
        simpl in E. inversion E; auto. }
      apply SP in Eq as [-> Eq]; auto. apply SP in Eq as [-> Eq]; auto.
      apply app_inv_head in Eq. apply SP in Eq as [-> Eq]; auto.
      apply app_inv_head in Eq. apply SP in Eq as [-> Eq]; auto.
      apply app_inv_head in Eq. apply SP in Eq as [-> Eq]; auto.
      apply app_inv_head in Eq. apply SP in Eq as [-> Eq]; auto.
      apply SP in Eq as [-> Eq]; auto. apply SP in Eq as [-> Eq]; auto.
    + exfalso. apply re_uuid_none in Em. apply Em. do 9 eexists. split; [reflexivity|]. auto.
Qed.

(** Eight components of four characters that concatenate to the UUID. *)
Theorem C07_shape : forall prefix id p,
  uuid_quadtree_path prefix id = Ok p ->
  exists q u nl, uuid_of q u /\ id = prefix ++ u ++ nl /\ path_of q p /\ length q = 8%nat /\
    (forall c, In c q -> length c = 4%nat /\ ~ In 47%N c) /\
    filter (fun c => negb (c =? 45)%N) u = concat q.
Proof.
  intros prefix id p H. apply C07_accepts_partial in H as [q [u [nl [Hu [_ [Ei Hp]]]]]].
  exists q, u, nl. repeat split; auto.
  - destruct Hu as [a [b [c [d [e [f [g [h [-> _]]]]]]]]]. reflexivity.
  - destruct Hu as [? [? [? [? [? [? [? [? [-> [Hf _]]]]]]]]]]. rewrite Forall_forall in Hf.
    apply Hf in H. apply H.
  - destruct Hu as [? [? [? [? [? [? [? [? [-> [Hf _]]]]]]]]]]. rewrite Forall_forall in Hf.
    apply Hf in H. apply quad_spec, quad_plain in H. apply H.
  - destruct Hu as [a [b [c [d [e [f [g [h [-> [Hf ->]]]]]]]]]].
    assert (G : forall s, uuid_quad s -> filter (fun c => negb (c =? 45)%N) s = s).
    { intros s [_ Hs]. induction Hs as [|x s Hx _ IH]; [reflexivity|]. simpl.
      destruct (N.eqb_spec x 45) as [->|]; simpl; [|now rewrite IH].
      exfalso. destruct Hx as [Hx|Hx]; [vm_compute in Hx; discriminate|lia]. }
    repeat match goal with
    | H : Forall uuid_quad (_ :: _) |- _ =>
        let H1 := fresh "Q" in let H2 := fresh "R" in
        pose proof (Forall_inv H) as H1; pose proof (Forall_inv_tail H) as H2; clear H
    end.
    rewrite !filter_app.
    change (filter (fun c0 => negb (c0 =? 45)%N) (`"-")) with (@nil N). cbn [app concat].
    rewrite (G a), (G b), (G c), (G d), (G e), (G f), (G g), (G h), app_nil_r by assumption.
    reflexivity.
Qed.

(** Unique among identifiers that do not end in a newline. *)
Theorem C07_unique_partial : forall prefix id1 id2 p,
  uuid_quadtree_path prefix id1 = Ok p -> uuid_quadtree_path prefix id2 = Ok p ->
  last_opt id1 <> Some 10%N -> last_opt id2 <> Some 10%N -> id1 = id2.
Proof.
  intros prefix id1 id2 p H1 H2 L1 L2.
  apply C07_accepts_partial in H1 as [q1 [u1 [n1 [U1 [N1 [-> P1]]]]]].
  apply C07_accepts_partial in H2 as [q2 [u2 [n2 [U2 [N2 [-> P2]]]]]].
  assert (n1 = []) as ->.
  { destruct N1 as [->| ->]; auto. exfalso. apply L1. rewrite app_assoc. apply last_opt_app. }
  assert (n2 = []) as ->.
  { destruct N2 as [->| ->]; auto. exfalso. apply L2. rewrite app_assoc. apply last_opt_app. }
  f_equal. f_equal. unfold path_of in *.
  assert (q1 = q2).
  { apply (join_inj 47%N); [| | | |congruence].
    - destruct U1 as [? [? [? [? [? [? [? [? [-> _]]]]]]]]]; discriminate.
    - destruct U2 as [? [? [? [? [? [? [? [? [-> _]]]]]]]]]; discriminate.
    - intros e He. destruct U1 as [? [? [? [? [? [? [? [? [-> [Hf _]]]]]]]]]].
      rewrite Forall_forall in Hf. apply Hf, quad_spec, quad_plain in He. apply He.
    - intros e He. destruct U2 as [? [? [? [? [? [? [? [? [-> [Hf _]]]]]]]]]].
      rewrite Forall_forall in Hf. apply Hf, quad_spec, quad_plain in He. apply He. }
  subst q2.
  destruct U1 as [? [? [? [? [? [? [? [? [E1 [_ ->]]]]]]]]]].
  destruct U2 as [? [? [? [? [? [? [? [? [E2 [_ ->]]]]]]]]]].
  rewrite E1 in E2. inversion E2; subst. reflexivity.
Qed.

Definition uuid_ex : str := `"urn:uuid:6ba7b810-9dad-11d1-80b4-00c04fd430c8".

(** Missing: an identifier with a newline at the end gets the path of the one without. *)
Theorem C07_unique_refuted : exists id1 id2 p,
  id1 <> id2 /\ uuid_quadtree_path (`"urn:uuid:") id1 = Ok p /\ uuid_quadtree_path (`"urn:uuid:") id2 = Ok p.
Proof.
  exists uuid_ex, (uuid_ex ++ [10%N]), (`"6ba7/b810/9dad/11d1/80b4/00c0/4fd4/30c8").
  split; [discriminate|]. split; vm_compute; reflexivity.
Qed.

(** No path is inside another: all have exactly eight components. *)
Theorem C07_not_nested : forall prefix id1 id2 p1 p2,
  uuid_quadtree_path prefix id1 = Ok p1 -> uuid_quadtree_path prefix id2 = Ok p2 -> ~ inside p1 p2.
Proof.
  intros prefix id1 id2 p1 p2 H1 H2 [rest E].
  apply C07_shape in H1 as [q1 [_ [_ [_ [_ [P1 [L1 [C1 _]]]]]]]].
  apply C07_shape in H2 as [q2 [_ [_ [_ [_ [P2 [L2 [C2 _]]]]]]]].
  apply (f_equal (split_on 47%N)) in E. unfold path_of in *.
  rewrite split_on_app_gen, P1, P2, !split_join in E.
  - apply (f_equal (@length str)) in E. rewrite app_length in E.
    pose proof (split_on_nonnil 47%N rest). destruct (split_on 47%N rest); [congruence|]. simpl in E. lia.
  - intros ->; discriminate.
  - intros e He; now apply C1.
  - intros ->; discriminate.
  - intros e He; now apply C2.
Qed.

(** ** C08 *)
Section C08.
  Variable id_encode : str -> str.

  Theorem C08_shape : forall n id p, (2 <= n)%nat ->
    id_encode id <> [] -> ~ In 47%N (id_encode id) ->
    tuple_tree_path id_encode n id = Ok p ->
    exists init last, path_of (init ++ [last; id_encode id]) p /\
      concat (init ++ [last]) = id_encode id /\
      (forall t, In t init -> length t = n) /\ (1 <= length last <= n)%nat.
  Proof.
    intros n id p Hn Hne Hs H. apply tuple_tree_path_shape in H; auto; [|lia].
    destruct (segs_shape n ltac:(lia) (id_encode id) Hne) as [init [last [E [Hf Hl]]]].
    exists init, last. repeat split; try lia.
    - unfold path_of. rewrite H, E, <- app_assoc. reflexivity.
    - rewrite <- E. apply segs_concat. lia.
    - rewrite Forall_forall in Hf. auto.
  Qed.

  Theorem C08_unique : forall n id1 id2 p, (2 <= n)%nat ->
    id_encode id1 <> [] -> ~ In 47%N (id_encode id1) ->
    id_encode id2 <> [] -> ~ In 47%N (id_encode id2) ->
    tuple_tree_path id_encode n id1 = Ok p -> tuple_tree_path id_encode n id2 = Ok p ->
    id_encode id1 = id_encode id2.
  Proof.
    intros n id1 id2 p Hn N1 S1 N2 S2 H1 H2.
    apply tuple_tree_path_shape in H1; auto; [|lia]. apply tuple_tree_path_shape in H2; auto; [|lia].
    rewrite H1 in H2. apply join_inj in H2.
    - now apply app_inj_tail in H2 as [_ ->].
    - destruct (segs n (id_encode id1)); discriminate.
    - destruct (segs n (id_encode id2)); discriminate.
    - intros e He. apply in_app_iff in He as [He|[<-|[]]]; auto.
      pose proof (segs_plain n ltac:(lia) _ N1 S1) as HP. rewrite Forall_forall in HP. now apply HP in He as [_ He].
    - intros e He. apply in_app_iff in He as [He|[<-|[]]]; auto.
      pose proof (segs_plain n ltac:(lia) _ N2 S2) as HP. rewrite Forall_forall in HP. now apply HP in He as [_ He].
  Qed.

  Lemma segs_noslash n id e : (0 < n)%nat -> id_encode id <> [] -> ~ In 47%N (id_encode id) ->
    In e (segs n (id_encode id) ++ [id_encode id]) -> ~ In 47%N e.
  Proof.
    intros Hn Hne Hs He. apply in_app_iff in He as [He|[<-|[]]]; auto.
    pose proof (segs_plain n Hn _ Hne Hs) as HP. rewrite Forall_forall in HP. now apply HP in He as [_ He].
  Qed.

  (** Exactly when one object's path is inside another's: the first encoded
      identifier has exactly n characters and the second begins with it twice. *)
  Theorem C08_nested_exactly_partial : forall n id1 id2 p1 p2, (2 <= n)%nat ->
    id_encode id1 <> [] -> ~ In 47%N (id_encode id1) ->
    id_encode id2 <> [] -> ~ In 47%N (id_encode id2) ->
    tuple_tree_path id_encode n id1 = Ok p1 -> tuple_tree_path id_encode n id2 = Ok p2 ->
    (inside p1 p2 <->
     length (id_encode id1) = n /\ exists r, id_encode id2 = id_encode id1 ++ id_encode id1 ++ r).
  Proof.
    intros n id1 id2 p1 p2 Hn N1 S1 N2 S2 H1 H2.
    apply tuple_tree_path_shape in H1; auto; [|lia]. apply tuple_tree_path_shape in H2; auto; [|lia].
    pose proof (segs_noslash n id1) as X1. pose proof (segs_noslash n id2) as X2.
    set (e1 := id_encode id1) in *. set (e2 := id_encode id2) in *.
    assert (Hinit : forall s, s <> [] -> forall x r, segs n s = x :: r -> r <> [] -> length x = n /\
       s = x ++ concat r /\ segs n (concat r) = r).
    { intros s Hs x r E Hr. destruct (Nat.lt_ge_cases n (length s)) as [L|L].
      - rewrite segs_long in E by lia. inversion E; subst. split; [rewrite firstn_length; lia|].
        rewrite segs_concat by lia. split; [now rewrite firstn_skipn|reflexivity].
      - rewrite segs_short in E by lia. injection E as E0 E1. now subst r. }
    split.
    - intros [rest E]. apply (f_equal (split_on 47%N)) in E.
      rewrite split_on_app_gen, H1, H2 in E. rewrite !split_join in E.
      2:{ destruct (segs n e1); discriminate. }
      2:{ intros e He; apply X1; auto; lia. }
      2:{ destruct (segs n e2); discriminate. }
      2:{ intros e He; apply X2; auto; lia. }
      (* segs e2 ++ [e2] = segs e1 ++ [e1] ++ R, R non-empty *)
      pose proof (split_on_nonnil 47%N rest) as HR.
      destruct (exists_last HR) as [R [r0 ER]]. rewrite ER in E. rewrite app_assoc in E. apply app_inj_tail in E as [E _].
      assert (Hle1 : (length e1 <= n)%nat).
      { destruct (segs_shape n ltac:(lia) e2 N2) as [init [lst [E2 [Hf Hl]]]].
        assert (Hi : In e1 (segs n e2)) by (rewrite E, <- app_assoc; apply in_app_iff; simpl; auto).
        rewrite E2 in Hi. apply in_app_iff in Hi as [Hi|[Hi|[]]].
        - rewrite Forall_forall in Hf. apply Hf in Hi. lia.
        - subst lst. lia. }
      rewrite (segs_short n ltac:(lia) e1 Hle1) in E. simpl in E.
      destruct (Hinit e2 N2 _ _ E) as [Hlen [Ee2 Hs2]]; [discriminate|].
      split; auto. simpl in Ee2. eauto.
    - intros [Hlen [r Er]].
      assert (F : forall s, firstn n (e1 ++ s) = e1).
      { intros s. rewrite firstn_app, Hlen, Nat.sub_diag, firstn_all2 by lia. apply app_nil_r. }
      assert (K : forall s, skipn n (e1 ++ s) = s).
      { intros s. rewrite skipn_app, Hlen, Nat.sub_diag, skipn_all2 by lia. reflexivity. }
      assert (E2 : segs n e2 = e1 :: segs n (e1 ++ r)).
      { rewrite Er. rewrite segs_long by (rewrite ?app_length; lia || lia).
        now rewrite F, K. }
      assert (E3 : exists t, segs n (e1 ++ r) ++ [e2] = e1 :: t /\ t <> []).
      { destruct r as [|c r].
        - rewrite app_nil_r, segs_short by lia. exists [e2]. split; [reflexivity|discriminate].
        - exists (segs n (c :: r) ++ [e2]). split; [|destruct (segs n (c :: r)); discriminate].
          rewrite segs_long by (rewrite ?app_length; simpl; lia || lia).
          now rewrite F, K. }
      destruct E3 as [t [E3 Ht]].
      exists (join [47%N] t). rewrite H1, H2, E2. rewrite (segs_short n ltac:(lia) e1) by lia.
      change ((e1 :: segs n (e1 ++ r)) ++ [e2]) with (e1 :: (segs n (e1 ++ r) ++ [e2])).
      rewrite E3. rewrite !join_cons by (auto; discriminate).
      change ([e1] ++ [e1]) with [e1; e1]. cbn [join]. rewrite <- app_assoc. reflexivity.
  Qed.
End C08.

(** Missing: object paths can be nested, e.g. identifiers 'ab' and 'abab' with
    tuple size 2 (for every encoder that leaves these alone). *)
Theorem C08_not_nested_refuted : forall id_encode,
  id_encode (`"ab") = `"ab" -> id_encode (`"abab") = `"abab" ->
  exists id1 id2 p1 p2, tuple_tree_path id_encode 2 id1 = Ok p1 /\
    tuple_tree_path id_encode 2 id2 = Ok p2 /\ inside p1 p2.
Proof.
  intros enc E1 E2. exists (`"ab"), (`"abab"), (`"ab/ab"), (`"ab/ab/abab").
  unfold tuple_tree_path.
  change (lit "ab") with [97; 98]%N in *. change (lit "abab") with [97; 98; 97; 98]%N in *.
  cbv iota. rewrite E1, E2. split; [reflexivity|]. split; [reflexivity|].
  exists (`"abab"). reflexivity.
Qed.

(** ** C09 *)

Lemma string_digest_dummy H s :
  (exists d, string_digest H (`"dummy_data") s = Ok d) <-> In s [`"sha512"; `"sha256"; `"sha1"; `"md5"].
Proof.
  unfold string_digest. split.
  - intros [d Hd]. apply ebind_ok in Hd as [b [_ Hd]].
    destruct (str_eqb_spec s (`"sha512")) as [->|]; [simpl; auto|].
    destruct (str_eqb_spec s (`"sha256")) as [->|]; [simpl; auto|].
    destruct (str_eqb_spec s (`"sha1")) as [->|]; [simpl; auto|].
    destruct (str_eqb_spec s (`"md5")) as [->|]; [simpl; auto|]. discriminate.
  - intros Hi. change (utf8_encode (`"dummy_data")) with (Ok (`"dummy_data")). cbn [ebind].
    destruct Hi as [<-|[<-|[<-|[<-|[]]]]]; eexists; reflexivity.
Qed.

Lemma json_eq_str_true j s : json_eq_str j s = true <-> j = JStr s.
Proof.
  destruct j; simpl; split; intros HH; try discriminate.
  - apply str_eqb_eq in HH. now subst.
  - injection HH as ->. apply str_eqb_refl.
Qed.

(** value is an integer (bool counts as one in Python) between lo and hi *)
Definition int_between (lo hi : Z) (v : json) (z : Z) : Prop :=
  json_int v = Some z /\ (lo <= z <= hi)%Z.

Lemma check_int_range_ok lo hi v z : check_int_range lo hi v = Ok z <-> int_between lo hi v z.
Proof.
  unfold check_int_range, int_between. destruct (json_int v) as [y|]; [|split; [discriminate|intros [E _]; discriminate]].
  destruct (Z.ltb_spec y lo), (Z.ltb_spec hi y); simpl; split; intros HH;
    try discriminate; try (destruct HH as [[= ->] ?]; lia); try (inversion HH; subst; split; auto; lia).
  destruct HH as [[= ->] _]. reflexivity.
Qed.

(** Extension 0003: accepted exactly if the extension name and all parameters are right. *)
Theorem C09_0003_accepts : forall H l0 cfg a ts nt, hash_ok H ->
  (exists a0 ts0 nt0, l0 = L0003 a0 ts0 nt0) ->
  (check_and_set_layout_params H l0 cfg true = Ok (L0003 a ts nt) <->
   dget (`"extensionName") cfg = Some (JStr (`"0003-hash-and-id-n-tuple-storage-layout")) /\
   dget (`"digestAlgorithm") cfg = Some (JStr a) /\
   (exists v, dget (`"tupleSize") cfg = Some v /\ int_between 0 32 v ts) /\
   (exists v, dget (`"numberOfTuples") cfg = Some v /\ int_between 0 32 v nt) /\
   exists n, config_0003_ok a ts nt n).
Proof.
  intros H l0 cfg a ts nt Hok [a0 [ts0 [nt0 ->]]]. unfold check_and_set_layout_params.
  cbn [layout_name]. split.
  - intros HH. apply ebind_ok in HH as [u [H1 HH]].
    apply ebind_ok in HH as [a' [H2 HH]]. apply ebind_ok in HH as [ts' [H3 HH]].
    apply ebind_ok in HH as [nt' [H4 HH]]. apply ebind_ok in HH as [u' [H5 HH]].
    inversion HH; subst a' ts' nt'; clear HH.
    destruct (dget (`"extensionName") cfg) as [v|]; [|discriminate].
    destruct (json_eq_str v (`"0003-hash-and-id-n-tuple-storage-layout")) eqn:Ev; [|discriminate]. apply json_eq_str_true in Ev. subst v.
    split; [reflexivity|].
    unfold config_get in *.
    destruct (dget (`"digestAlgorithm") cfg) as [v|]; [|discriminate].
    unfold check_digest_algorithm in H2. destruct v as [| | | |s| |]; try discriminate.
    destruct (string_digest H (`"dummy_data") s) as [d|e] eqn:Ed; [|destruct e; discriminate].
    inversion H2; subst s. split; [reflexivity|].
    apply check_int_range_ok in H3, H4.
    destruct (dget (`"tupleSize") cfg) as [v|]; [|destruct H3; discriminate].
    destruct (dget (`"numberOfTuples") cfg) as [w|]; [|destruct H4; discriminate].
    split; [eauto|]. split; [eauto|].
    unfold check_full_config_0003 in H5.
    destruct (((ts =? 0)%Z && negb (nt =? 0)%Z) || (negb (ts =? 0)%Z && (nt =? 0)%Z)) eqn:Ez; [discriminate|].
    rewrite Ed in H5. cbn [ebind] in H5.
    destruct (Z.ltb_spec (Z.of_nat (length d)) (ts * nt)); [discriminate|].
    apply string_digest_ok in Ed as Ed'. destruct Ed' as [b [n [_ [-> Hn]]]].
    exists n. destruct (Hok a n b Hn) as [Hl _]. destruct H3 as [_ H3], H4 as [_ H4].
    split; [exact Hn|]. split; [apply (string_digest_dummy H); eauto|].
    rewrite Hl in H0. repeat split; try lia.
  - intros [H1 [H2 [[v [H3 I3]] [[w [H4 I4]] [n Hc]]]]].
    rewrite H1. unfold json_eq_str. rewrite str_eqb_refl. cbn [ebind].
    unfold config_get. rewrite H2, H3, H4.
    destruct Hc as [Hn [Hin [Hts [Hnt [Hz Hp]]]]].
    unfold check_digest_algorithm. apply (string_digest_dummy H) in Hin as [d Hd]. rewrite Hd.
    cbn [ebind]. apply check_int_range_ok in I3, I4. rewrite I3, I4. cbn [ebind].
    unfold check_full_config_0003.
    destruct (((ts =? 0)%Z && negb (nt =? 0)%Z) || (negb (ts =? 0)%Z && (nt =? 0)%Z)) eqn:Ez.
    { exfalso. lia. }
    rewrite Hd. cbn [ebind]. apply string_digest_ok in Hd as [b [n' [_ [-> _]]]].
    destruct (Hok a n b Hn) as [Hl _]. rewrite Hl.
    destruct (Z.ltb_spec (Z.of_nat n) (ts * nt)); [lia|]. reflexivity.
Qed.

Theorem C09_tuple_tree_accepts : forall H ts0 cfg ts,
  check_and_set_layout_params H (LTupleTree ts0) cfg true = Ok (LTupleTree ts) <->
  dget (`"extensionName") cfg = Some (JStr (`"nnnn-tuple-tree-layout")) /\
  exists v, dget (`"tupleSize") cfg = Some v /\ int_between 2 6 v ts.
Proof.
  intros H ts0 cfg ts. unfold check_and_set_layout_params. cbn [layout_name]. split.
  - intros HH. apply ebind_ok in HH as [u [H1 HH]]. apply ebind_ok in HH as [ts' [H3 HH]].
    inversion HH; subst ts'.
    destruct (dget (`"extensionName") cfg) as [v|]; [|discriminate].
    destruct (json_eq_str v (`"nnnn-tuple-tree-layout")) eqn:Ev; [|discriminate]. apply json_eq_str_true in Ev. subst v.
    split; [reflexivity|]. apply check_int_range_ok in H3. unfold config_get in H3.
    destruct (dget (`"tupleSize") cfg) as [v|]; [eauto|destruct H3; discriminate].
  - intros [H1 [v [H2 H3]]]. rewrite H1. unfold json_eq_str. rewrite str_eqb_refl. cbn [ebind].
    unfold config_get. rewrite H2. apply check_int_range_ok in H3. now rewrite H3.
Qed.

Theorem C09_uuid_accepts : forall H p0 cfg p,
  check_and_set_layout_params H (LUuid p0) cfg true = Ok (LUuid p) <->
  dget (`"extensionName") cfg = Some (JStr (`"nnnn-uuid-quadtree")) /\
  dget (`"prefix") cfg = Some (JStr p) /\ p <> [].
Proof.
  intros H p0 cfg p. unfold check_and_set_layout_params. cbn [layout_name]. split.
  - intros HH. apply ebind_ok in HH as [u [H1 HH]]. apply ebind_ok in HH as [p' [H3 HH]].
    inversion HH; subst p'.
    destruct (dget (`"extensionName") cfg) as [v|]; [|discriminate].
    destruct (json_eq_str v (`"nnnn-uuid-quadtree")) eqn:Ev; [|discriminate]. apply json_eq_str_true in Ev. subst v.
    split; [reflexivity|]. unfold config_get in H3.
    destruct (dget (`"prefix") cfg) as [v|]; [|discriminate]. unfold check_prefix in H3.
    destruct v; try discriminate. destruct s; inversion H3; subst. split; [auto|discriminate].
  - intros [H1 [H2 H3]]. rewrite H1. unfold json_eq_str. rewrite str_eqb_refl. cbn [ebind].
    unfold config_get. rewrite H2. unfold check_prefix. destruct p; [congruence|reflexivity].
Qed.


Lemma check_int_range_exn lo hi v e : check_int_range lo hi v = Raise e -> e = LayoutException.
Proof.
  unfold check_int_range. destruct (json_int v); [destruct (_ || _)|]; congruence.
Qed.

Lemma string_digest_exn H s e : string_digest H (`"dummy_data") s = Raise e -> e = ValueError.
Proof.
  unfold string_digest. change (utf8_encode (`"dummy_data")) with (Ok (`"dummy_data")). cbn [ebind].
  repeat (destruct (str_eqb _ _); [discriminate|]). congruence.
Qed.

Lemma check_digest_algorithm_exn H v e : check_digest_algorithm H v = Raise e -> e = LayoutException.
Proof.
  unfold check_digest_algorithm. destruct v; try congruence.
  destruct (string_digest H (`"dummy_data") s) eqn:E; [discriminate|].
  apply string_digest_exn in E. subst. congruence.
Qed.

Lemma ebind_raise {A B} (x : exc A) (f : A -> exc B) e :
  ebind x f = Raise e -> x = Raise e \/ exists a, x = Ok a /\ f a = Raise e.
Proof. destruct x; simpl; intros HH; eauto. left. congruence. Qed.

(** All failures for layouts with parameters are LayoutExceptions. *)
Theorem C09_only_layout_exceptions : forall H l cfg r e,
  layout_config l <> None ->
  check_and_set_layout_params H l cfg r = Raise e -> e = LayoutException.
Proof.
  intros H l cfg r e Hc HH. unfold check_and_set_layout_params in HH.
  apply ebind_raise in HH as [HH|[u [_ HH]]].
  { destruct (dget (`"extensionName") cfg); [destruct (json_eq_str _ _)|destruct r]; congruence. }
  destruct l; simpl in Hc; try congruence.
  - apply ebind_raise in HH as [HH|[a [Ha HH]]]; [now apply check_digest_algorithm_exn in HH|].
    apply ebind_raise in HH as [HH|[ts [_ HH]]]; [now apply check_int_range_exn in HH|].
    apply ebind_raise in HH as [HH|[nt [_ HH]]]; [now apply check_int_range_exn in HH|].
    apply ebind_raise in HH as [HH|[? [_ HH]]]; [|discriminate].
    unfold check_full_config_0003 in HH. destruct (_ || _); [congruence|].
    apply ebind_raise in HH as [HH|[d [_ HH]]].
    + unfold check_digest_algorithm in Ha. destruct (config_get _ _); try discriminate.
      destruct (string_digest H (`"dummy_data") s) eqn:E; [|destruct e0; discriminate].
      inversion Ha; subst. congruence.
    + destruct (_ <? _)%Z; congruence.
  - apply ebind_raise in HH as [HH|[ts [_ HH]]]; [now apply check_int_range_exn in HH|discriminate].
  - apply ebind_raise in HH as [HH|[p [_ HH]]]; [|discriminate].
    unfold check_prefix in HH. destruct (config_get _ _); try congruence. destruct s; congruence.
Qed.

(** Layouts whose parameters passed the checks. *)
Definition layout_params_ok (H : hashfn) (l : layout) : Prop :=
  match l with
  | L0003 a ts nt => exists n, config_0003_ok a ts nt n
  | LTupleTree ts => (2 <= ts <= 6)%Z
  | LUuid p => p <> []
  | _ => False
  end.

(** A layout's own configuration is accepted by a fresh instance and restores it. *)
Theorem C09_config_roundtrip : forall H l cfg l0, hash_ok H ->
  layout_params_ok H l -> layout_config l = Some (JObj cfg) ->
  layout_name l0 = layout_name l ->
  check_and_set_layout_params H l0 cfg true = Ok l.
Proof.
  intros H l cfg l0 Hok Hl Hc Hn. destruct l as [|a ts nt| |ts|p]; simpl in Hl; try contradiction.
  - destruct l0; try discriminate. apply C09_0003_accepts; eauto.
    simpl in Hc. inversion Hc; subst; clear Hc. destruct Hl as [n Hl].
    split; [reflexivity|]. split; [reflexivity|]. destruct Hl as [A [B [C [D E]]]].
    split; [exists (JInt ts); repeat split; lia|]. split; [exists (JInt nt); repeat split; lia|].
    exists n. repeat split; auto; lia.
  - destruct l0; try discriminate. apply C09_tuple_tree_accepts.
    simpl in Hc. inversion Hc; subst; clear Hc. split; [reflexivity|].
    exists (JInt ts); repeat split; lia.
  - destruct l0; try discriminate. apply C09_uuid_accepts.
    simpl in Hc. inversion Hc; subst; clear Hc. repeat split; auto.
Qed.

Theorem C09_accepted_params_ok : forall H l0 cfg l, hash_ok H ->
  check_and_set_layout_params H l0 cfg true = Ok l -> layout_params_ok H l.
Proof.
  intros H l0 cfg l Hok HH. destruct l0.
  - unfold check_and_set_layout_params in HH. apply ebind_ok in HH as [? [_ HH]]. discriminate.
  - assert (exists a ts nt, l = L0003 a ts nt) as [a [ts [nt ->]]].
    { unfold check_and_set_layout_params in HH.
      repeat (apply ebind_ok in HH as [? [_ HH]]). inversion HH; eauto. }
    apply C09_0003_accepts in HH; eauto. apply HH.
  - unfold check_and_set_layout_params in HH. apply ebind_ok in HH as [? [_ HH]]. discriminate.
  - assert (exists ts, l = LTupleTree ts) as [ts ->].
    { unfold check_and_set_layout_params in HH.
      repeat (apply ebind_ok in HH as [? [_ HH]]). inversion HH; eauto. }
    apply C09_tuple_tree_accepts in HH as [_ [v [_ [_ HH]]]]. exact HH.
  - assert (exists p, l = LUuid p) as [p ->].
    { unfold check_and_set_layout_params in HH.
      repeat (apply ebind_ok in HH as [? [_ HH]]). inversion HH; eauto. }
    apply C09_uuid_accepts in HH. apply HH.
Qed.

(** Missing for the layouts without parameters: any configuration makes the code fail
    with an AttributeError instead of being ignored or rejected as LayoutException. *)
Theorem C09_no_params_refuted : forall H, exists l cfg,
  dget (`"extensionName") cfg = Some (JStr (layout_name l)) /\
  check_and_set_layout_params H l cfg true = Raise AttributeError.
Proof.
  intros H. exists L0002, [(`"extensionName", JStr (layout_name L0002))]. split; reflexivity.
Qed.

Example C09_ex : check_and_set_layout_params toy_hash layout_0003_default
  [(`"extensionName", JStr (`"0003-hash-and-id-n-tuple-storage-layout"));
   (`"digestAlgorithm", JStr (`"md5")); (`"tupleSize", JInt 2); (`"numberOfTuples", JInt 15)] true
  = Ok (L0003 (`"md5") 2 15).
Proof. vm_compute. reflexivity. Qed.

(** ** C11 *)
Definition supported_digests : list (str * str) :=
  [ (`"sha512", `"sha512"); (`"sha256", `"sha256"); (`"sha1", `"sha1"); (`"md5", `"md5");
    (`"blake2b-512", `"blake2b-512"); (`"blake2b-160", `"blake2b-160");
    (`"blake2b-256", `"blake2b-256"); (`"blake2b-384", `"blake2b-384") ].

(** Reading in blocks of any positive size gives the digest of the whole content. *)
Theorem C11_blocks_irrelevant : forall H n alg content, (0 < n)%nat ->
  file_digest_blocks H n alg content = Ok (H alg content).
Proof. exact file_digest_blocks_ok. Qed.

Theorem C11_file_digest : forall H t content,
  file_digest H t content =
    if str_in t (map fst supported_digests) then Ok (H t content)
    else if str_eqb t (`"sha512-spec-ex") then
      Ok (firstn 15 (H (`"sha512") content) ++ `"..." ++
          skipn (length (H (`"sha512") content) - 3) (H (`"sha512") content))
    else if str_eqb t (`"sha256-spec-ex") then
      Ok (firstn 6 (H (`"sha256") content) ++ `"..." ++
          skipn (length (H (`"sha256") content) - 3) (H (`"sha256") content))
    else Raise ValueError.
Proof.
  intros H t content. unfold file_digest, supported_digests.
  rewrite !file_digest_blocks_ok by apply BUFSIZE_pos. cbn [map fst str_in existsb ebind].
  destruct (str_eqb_spec t (`"sha512")) as [->|]; [reflexivity|].
  destruct (str_eqb_spec t (`"sha256")) as [->|]; [reflexivity|].
  destruct (str_eqb_spec t (`"sha1")) as [->|]; [reflexivity|].
  destruct (str_eqb_spec t (`"md5")) as [->|]; [reflexivity|].
  destruct (str_eqb_spec t (`"blake2b-512")) as [->|]; [reflexivity|].
  destruct (str_eqb_spec t (`"blake2b-160")) as [->|]; [reflexivity|].
  destruct (str_eqb_spec t (`"blake2b-256")) as [->|]; [reflexivity|].
  destruct (str_eqb_spec t (`"blake2b-384")) as [->|]; [reflexivity|].
  simpl orb. cbv iota. reflexivity.
Qed.

Example C11_ex : file_digest toy_hash (`"md5") [1; 2; 255]%N = Ok (`"ff020100000000000000000000000000").
Proof. rewrite C11_file_digest. vm_compute. reflexivity. Qed.

(** ** C12 *)
Lemma re_hex_match n d : length d = n -> Forall (fun c => is_lower_hex c = true) d ->
  re_match (re_hex n) d <> None.
Proof.
  intros Hl Hf. eapply re_match_complete with (x := d ++ []) (rest := []) (c' := []).
  - now rewrite !app_nil_r.
  - unfold re_hex. eapply Den_seq_intro.
    + apply Den_rep_chr. repeat split; auto. eapply Forall_impl; [|exact Hf].
      intros c Hc. unfold is_hex. now rewrite Hc.
    + apply Den_dol. auto.
Qed.

(** Full claim for all types but one. *)
Theorem C12_digest_matches_regex_partial : forall H t content d, hash_ok H ->
  file_digest H t content = Ok d -> t <> `"sha512-spec-ex" ->
  exists r, digest_regex t = Ok r /\ re_match r d <> None /\ normalized_digest d t = d.
Proof.
  intros H t content d Hok Hd Ht. rewrite C11_file_digest in Hd.
  destruct (str_in_spec t (map fst supported_digests)) as [Hi|Hi].
  - apply Ok_inv in Hd. subst d. unfold supported_digests in Hi. cbn [map fst] in Hi.
    assert (G : exists n, hash_len t = Some n /\ digest_regex t = Ok (re_hex n) /\
              str_in t [`"sha512-spec-ex"; `"sha256-spec-ex"] = false).
    { destruct Hi as [<-|[<-|[<-|[<-|[<-|[<-|[<-|[<-|[]]]]]]]]]; eexists; repeat split. }
    destruct G as [n [Hn [-> Hs]]]. destruct (Hok t n content Hn) as [Hl Hf].
    eexists; split; [reflexivity|]. split; [now apply re_hex_match|].
    unfold normalized_digest. rewrite Hs. now apply lower_id.
  - destruct (str_eqb_spec t (`"sha512-spec-ex")); [congruence|].
    destruct (str_eqb_spec t (`"sha256-spec-ex")) as [->|]; [|discriminate].
    apply Ok_inv in Hd. subst d.
    destruct (Hok (`"sha256") 64%nat content eq_refl) as [Hl Hf].
    set (h := H (`"sha256") content) in *.
    exists re_spec_ex. split; [reflexivity|]. split; [|reflexivity].
    eapply re_match_complete with (x := firstn 6 h ++ `"..." ++ skipn (length h - 3) h ++ []) (rest := []) (c' := []).
    + now rewrite !app_nil_r.
    + unfold re_spec_ex. eapply Den_seq_intro; [|eapply Den_seq_intro; [|eapply Den_seq_intro]].
      * apply Den_rep_chr. repeat split.
        -- rewrite firstn_length. lia.
        -- rewrite <- (firstn_skipn 6 h) in Hf. apply Forall_app in Hf. apply Hf.
      * apply Den_lit_intro.
      * apply Den_rep_chr. repeat split.
        -- rewrite skipn_length. lia.
        -- rewrite <- (firstn_skipn (length h - 3) h) in Hf. apply Forall_app in Hf. apply Hf.
      * apply Den_dol. auto.
Qed.

(** The missing type: a computed sha512-spec-ex digest (15 characters before the dots)
    never matches its own regex (6 characters before the dots). *)
Theorem C12_sha512_spec_ex_refuted : forall H content d r, hash_ok H ->
  file_digest H (`"sha512-spec-ex") content = Ok d -> digest_regex (`"sha512-spec-ex") = Ok r ->
  re_match r d = None.
Proof.
  intros H content d r Hok Hd Hr. rewrite C11_file_digest in Hd. cbn -[firstn skipn] in Hd.
  apply Ok_inv in Hd. change (Ok re_spec_ex = Ok r) in Hr. apply Ok_inv in Hr. subst r d.
  destruct (Hok (`"sha512") 128%nat content eq_refl) as [Hl Hf].
  change ([115; 104; 97; 53; 49; 50]%N) with (`"sha512").
  set (h := H (`"sha512") content) in *.
  match goal with |- ?x = None => destruct x eqn:E; [exfalso|reflexivity] end.
  apply re_match_sound in E as [x [rest [E HD]]]. unfold re_spec_ex in HD.
  apply Den_seq in HD as [p [y [c1 [-> [H1 H2]]]]]. apply Den_rep_chr in H1 as [L1 [F1 ->]].
  apply Den_seq in H2 as [q [z [c2 [-> [H2 H3]]]]]. apply Den_lit in H2 as [-> ->].
  (* character number 7 is '.' on the right and a hex digit on the left *)
  apply (f_equal (fun l => nth 6 l 0%N)) in E.
  rewrite app_nth1 in E by (rewrite firstn_length; lia).
  rewrite <- app_assoc, app_nth2 in E by lia. rewrite L1 in E. simpl nth in E at 2.
  assert (Hi : In (nth 6 (firstn 15 h) 0%N) (firstn 15 h)) by (apply nth_In; rewrite firstn_length; lia).
  rewrite E in Hi. apply In_firstn in Hi. rewrite Forall_forall in Hf. apply Hf in Hi. discriminate.
Qed.

Example C12_ex : exists d, file_digest toy_hash (`"sha512-spec-ex") [7%N] = Ok d /\
  re_match re_spec_ex d = None.
Proof. eexists. split; [rewrite C11_file_digest; vm_compute; reflexivity|vm_compute; reflexivity]. Qed.

Print Assumptions C04_flat_direct.
Print Assumptions C05_shape.
Print Assumptions C05_total.
Print Assumptions C05_unique.
Print Assumptions C05_not_nested.
Print Assumptions C06_reversible.
Print Assumptions C06_safe_partial.
Print Assumptions C07_accepts_partial.
Print Assumptions C07_shape.
Print Assumptions C07_unique_partial.
Print Assumptions C07_not_nested.
Print Assumptions C08_shape.
Print Assumptions C08_unique.
Print Assumptions C08_nested_exactly_partial.
Print Assumptions C08_not_nested_refuted.
Print Assumptions C09_0003_accepts.
Print Assumptions C09_config_roundtrip.
Print Assumptions C09_accepted_params_ok.
Print Assumptions C11_file_digest.
Print Assumptions C12_digest_matches_regex_partial.
Print Assumptions C12_sha512_spec_ex_refuted.
