(** What the writing functions of ObjectModel ObjectSpec do to the file system. *)
From Verif Require Import Base Utf8 Json JsonTextModel DigestModel PathModel TextFile FsModel FsSpec FsProofs FswModel FswSpec FswProofs FswCopyProofs
  FsStepProofs NamasteModel NamasteProofs ValidatorModel ObjectModel.

(** * Paths *)

Lemma dirname_place h a k : Forall fname h -> Forall fname a -> fname k ->
  at_path h (path_dirname (join [slash] (a ++ [k]))) = h ++ a.
Proof.
  intros Hh Ha Hk. destruct a as [|x a].
  - cbn [app join]. assert (E : at_path h (path_dirname (path_join [] k)) = at_path h []) by now apply at_path_dirname.
    rewrite path_join_name in E by auto. cbn [last_opt rev hd_error] in E. change (join [slash] [k]) with k. rewrite E, app_nil_r. now apply at_path_nil.
  - assert (E : join [slash] ((x :: a) ++ [k]) = path_join (path_join [] (join [slash] (x :: a))) k).
    { rewrite <- (path_join_app [] (x :: a) k) by (auto; discriminate). rewrite path_join_ns; [reflexivity|].
      apply join_nostart; [discriminate|]. apply Forall_app; auto. }
    rewrite E, at_path_dirname by auto. rewrite at_path_rel by (auto; discriminate). now rewrite at_path_nil.
Qed.

Lemma app_prefix_cases {A} (h r q x : list A) : h ++ r = q ++ x -> (exists y, h = q ++ y) \/ exists y, q = h ++ y /\ r = y ++ x.
Proof.
  revert q. induction h as [|c h IH]; intros q E.
  - right. exists q. auto.
  - destruct q as [|d q]; [left; eexists; reflexivity|]. cbn in E. injection E as -> E.
    destruct (IH q E) as [[y ->]|(y & -> & ->)]; [left; now exists y|right; now exists y].
Qed.

(** * Copying into an object *)

(** The files [L] (paths as lists of names, with their bytes) have been put below [h]; the
    directories needed have been made, and nothing else is changed. *)
Definition placed (w : node) (h : place) (L : list (place * bytes)) (w' : node) : Prop :=
  (forall r b, In (r, b) L -> look w' (h ++ r) = Some (EFile b)) /\
  (forall r b q x, In (r, b) L -> h ++ r = q ++ x -> x <> [] -> look w' q = Some EDir) /\
  (forall q, (forall r b x, In (r, b) L -> h ++ r <> q ++ x) -> look w' q = look w q).

(** There is room for them. *)
Record room (w : node) (h : place) (L : list (place * bytes)) : Prop := {
  rm_names : forall r b, In (r, b) L -> r <> [] /\ Forall fname r;
  rm_nodup : NoDup (map fst L);
  rm_apart : forall r b r' b' x, In (r, b) L -> In (r', b') L -> r' = r ++ x -> x = [];
  rm_free : forall r b, In (r, b) L -> look w (h ++ r) = None;
  rm_dirs : forall r b, In (r, b) L -> dirs_to w (h ++ r)
}.

Lemma placed_nil w h : placed w h [] w.
Proof. split; [intros r b []|]. split; [intros r b q x []|auto]. Qed.

Lemma snoc_case {A} (l : list A) : l <> [] -> exists a k, l = a ++ [k].
Proof. intros H. destruct (@exists_last _ l H) as (a & k & ->). eauto. Qed.

Lemma copy_into_ok w h src s r b : Forall fname h -> r <> [] -> Forall fname r ->
  look w (at_path src s) = Some (EFile b) -> look w (h ++ r) = None -> dirs_to w (h ++ r) ->
  result (copy_into_object h src s (join [slash] r) true) w = Ok tt /\
  placed w h [(r, b)] (after (copy_into_object h src s (join [slash] r) true) w).
Proof.
  intros Hh Hr Hf Hs Hno Hd. destruct (snoc_case r Hr) as (a & k & ->). apply Forall_app in Hf as [Ha Hk]. inversion Hk as [|? ? Hk' _]; subst.
  unfold copy_into_object. set (dp := path_dirname (join [slash] (a ++ [k]))). assert (Edp : at_path h dp = h ++ a) by now apply dirname_place.
  assert (Ec : at_path h (join [slash] (a ++ [k])) = h ++ a ++ [k]) by (apply at_path_join; auto; apply Forall_app; auto).
  rewrite after_read, result_read. cbn [andb].
  assert (Hdir : exists w1, result (if negb (fs_exists w h dp) then fs_makedirs h dp false else iret tt) w = Ok tt /\
    after (if negb (fs_exists w h dp) then fs_makedirs h dp false else iret tt) w = w1 /\
    forall q, look w1 q = if strip q (h ++ a) then Some EDir else look w q).
  { destruct (fs_exists w h dp) eqn:E; cbn [negb].
    - exists w. split; [reflexivity|]. split; [reflexivity|]. intros q. destruct (strip q (h ++ a)) as [x|] eqn:Ex; auto. apply strip_some in Ex.
      apply fs_exists_look in E. rewrite Edp in E. destruct (Hd q (x ++ [k])) as [F|F]; auto; [rewrite app_assoc, Ex; now rewrite app_assoc|].
      destruct x as [|y x]; [rewrite app_nil_r in Ex; congruence|]. rewrite (look_prefix_dir w (h ++ a) q (y :: x) E Ex) in F by discriminate. discriminate.
    - apply fs_exists_false in E. destruct (makedirs_ok w h dp false E) as [R1 R2].
      { rewrite Edp. intros q x Ex. apply (Hd q (x ++ [k])). now rewrite app_assoc, Ex, app_assoc. }
      rewrite Edp in R2. eexists. split; [exact R1|]. split; [reflexivity|exact R2]. }
  destruct Hdir as (w1 & R1 & A1 & L1).
  destruct (after_bind_ok (if negb (fs_exists w h dp) then fs_makedirs h dp false else iret tt)
    (fun _ => fsw_copyfile src s h (join [slash] (a ++ [k]))) w tt R1) as [Ea Er].
  rewrite Ea, Er, A1.
  assert (Hnp : strip (h ++ a ++ [k]) (h ++ a) = None).
  { apply strip_none. intros x E. apply (f_equal (@List.length _)) in E. rewrite !app_length in E. cbn in E. lia. }
  assert (Hs1 : look w1 (at_path src s) = Some (EFile b)).
  { rewrite L1. destruct (strip (at_path src s) (h ++ a)) as [x|] eqn:Ex; auto. apply strip_some in Ex.
    destruct (Hd (at_path src s) (x ++ [k])) as [F|F]; [now rewrite app_assoc, Ex, app_assoc| |]; rewrite Hs in F; discriminate. }
  assert (Hfr : fresh_place w1 (h ++ a ++ [k])).
  { split; [destruct h; destruct a; discriminate|]. rewrite app_assoc, removelast_last, <- app_assoc. rewrite !L1, strip_self, Hnp. auto. }
  destruct (copyfile_ok w1 src s h (join [slash] (a ++ [k])) b Hs1) as [Rc Cc].
  - rewrite Ec. intros E. rewrite E in Hs1. destruct Hfr as (_ & _ & F). rewrite Hs1 in F. discriminate.
  - left. now rewrite Ec.
  - split; [exact Rc|]. rewrite Ec in Cc. split; [|split].
    + intros r b0 [E|[]]. injection E as <- <-. exact (changes_at _ _ _ _ Cc).
    + intros r b0 q x [E|[]] Ex Hx. injection E as <- _. rewrite (changes_other _ _ _ _ _ Cc).
      2:{ intros ->. rewrite <- (app_nil_r (h ++ a ++ [k])) in Ex at 1. apply app_inv_head in Ex. congruence. }
      destruct (snoc_case x Hx) as (y & z & ->). rewrite app_assoc in Ex. rewrite app_assoc in Ex. apply app_inj_tail in Ex as [Ex _].
      rewrite L1, Ex, strip_app. reflexivity.
    + intros q Hq0. pose proof (Hq0 (a ++ [k]) b) as Hq. rewrite (changes_other _ _ _ _ _ Cc).
      2:{ intros ->. apply (Hq [] (or_introl eq_refl)). now rewrite app_nil_r. }
      rewrite L1. destruct (strip q (h ++ a)) as [x|] eqn:Ex; auto. apply strip_some in Ex. exfalso.
      apply (Hq (x ++ [k]) (or_introl eq_refl)). now rewrite app_assoc, Ex, app_assoc.
Qed.

(** What is there stays there. *)
Lemma placed_keep w h L w' p x : room w h L -> placed w h L w' -> look w p = Some x -> look w' p = Some x.
Proof.
  intros R (P1 & P2 & P3) Hp.
  destruct (List.existsb (fun rb => if strip p (h ++ fst rb) then true else false) L) eqn:E.
  - apply existsb_exists in E as ([r b] & Hin & E). cbn [fst] in E. destruct (strip p (h ++ r)) as [y|] eqn:Ey; [|discriminate].
    apply strip_some in Ey. destruct y as [|c y].
    + rewrite app_nil_r in Ey. subst p. rewrite (rm_free _ _ _ R r b Hin) in Hp. discriminate.
    + rewrite (P2 r b p (c :: y) Hin Ey) by discriminate. destruct (rm_dirs _ _ _ R r b Hin p (c :: y) Ey) as [F|F]; rewrite Hp in F; [discriminate|now rewrite F].
  - rewrite P3; auto. intros r b y Hin F. assert (existsb (fun rb => if strip p (h ++ fst rb) then true else false) L = true).
    { apply existsb_exists. exists (r, b). split; auto. cbn [fst]. rewrite F, strip_app. reflexivity. } congruence.
Qed.

Lemma room_cons w h r b L w1 : room w h ((r, b) :: L) -> placed w h [(r, b)] w1 -> room w1 h L.
Proof.
  intros R (P1 & P2 & P3). pose proof (rm_nodup _ _ _ R) as Hnd. cbn in Hnd. inversion Hnd as [|? ? Hni Hnd']; subst.
  assert (Hne : forall r' b', In (r', b') L -> r <> r').
  { intros r' b' Hin <-. apply Hni. apply in_map_iff. now exists (r, b'). }
  constructor; auto.
  - intros r' b' Hin. apply (rm_names _ _ _ R r' b'). now right.
  - intros r1 b1 r2 b2 x H1 H2. apply (rm_apart _ _ _ R r1 b1 r2 b2); now right.
  - intros r' b' Hin. rewrite P3; [apply (rm_free _ _ _ R r' b'); now right|]. intros r0 b0 x [E|[]] F. injection E as <- <-.
    rewrite <- app_assoc in F. apply app_inv_head in F. assert (x = []) by (apply (rm_apart _ _ _ R r' b' r b x); auto; [now right|now left]).
    subst x. rewrite app_nil_r in F. now apply (Hne r' b').
  - intros r' b' Hin q x Eq. destruct (strip q (h ++ r)) as [y|] eqn:Ey.
    + apply strip_some in Ey. destruct y as [|c y].
      * rewrite app_nil_r in Ey. subst q. rewrite <- app_assoc in Eq. apply app_inv_head in Eq.
        exfalso. assert (x = []) by (apply (rm_apart _ _ _ R r b r' b' x); auto; [now left|now right]). subst x. rewrite app_nil_r in Eq.
        now apply (Hne r' b').
      * right. apply (P2 r b q (c :: y)); auto; [now left|discriminate].
    + rewrite P3; [apply (rm_dirs _ _ _ R r' b' (or_intror Hin) q x Eq)|]. intros r0 b0 y [E|[]] F. injection E as <- <-. rewrite F, strip_app in Ey. discriminate.
Qed.

Lemma placed_cons w h r b L w1 w2 : room w h ((r, b) :: L) -> placed w h [(r, b)] w1 -> placed w1 h L w2 -> placed w h ((r, b) :: L) w2.
Proof.
  intros R Q P. pose proof (room_cons _ _ _ _ _ _ R Q) as R1.
  split; [|split].
  - intros r0 b0 [E|Hin]; [|now apply P]. injection E as <- <-. apply (placed_keep w1 h L w2 _ _ R1 P). apply Q. now left.
  - intros r0 b0 q x [E|Hin] Eq Hx; [|exact (proj1 (proj2 P) r0 b0 q x Hin Eq Hx)]. injection E as <- <-.
    apply (placed_keep w1 h L w2 _ _ R1 P). exact (proj1 (proj2 Q) r b q x (or_introl eq_refl) Eq Hx).
  - intros q Hq. destruct P as (_ & _ & P3). destruct Q as (_ & _ & Q3). rewrite P3, Q3; auto.
    + intros r0 b0 x [E|[]]. apply (Hq r0 b0 x). now left.
    + intros r0 b0 x Hin. apply (Hq r0 b0 x). now right.
Qed.

Lemma copy_files_ok h src (L : list (str * (place * bytes))) : Forall fname h -> forall w,
  room w h (map snd L) -> (forall s r b, In (s, (r, b)) L -> look w (at_path src s) = Some (EFile b)) ->
  let x := copy_files h src (map (fun e => (fst e, join [slash] (fst (snd e)))) L) in
  result x w = Ok tt /\ placed w h (map snd L) (after x w).
Proof.
  intros Hh. induction L as [|[s [r b]] L IH]; intros w R Hs.
  - split; [reflexivity|apply placed_nil].
  - cbn [map fst snd] in *. unfold copy_files. rewrite iter_cons.
    destruct (rm_names _ _ _ R r b (or_introl eq_refl)) as [N1 N2].
    destruct (copy_into_ok w h src s r b Hh N1 N2 (Hs s r b (or_introl eq_refl)) (rm_free _ _ _ R r b (or_introl eq_refl)) (rm_dirs _ _ _ R r b (or_introl eq_refl))) as [E1 P1].
    cbn [fst snd].
    destruct (after_bind_ok (copy_into_object h src s (join [slash] r) true)
      (fun _ => iter (fun sp : str * str => copy_into_object h src (fst sp) (snd sp) true) (map (fun e => (fst e, join [slash] (fst (snd e)))) L)) w tt E1) as [Ea Er].
    rewrite Ea, Er. set (w1 := after (copy_into_object h src s (join [slash] r) true) w) in *.
    assert (R1 : room w h [(r, b)]).
    { destruct R as [a1 a2 a3 a4 a5]. constructor.
      - intros r0 b0 [E|[]]. apply (a1 r0 b0). now left.
      - repeat constructor. intros [].
      - intros r1 b1 r2 b2 x [G1|[]] [G2|[]]. apply (a3 r1 b1 r2 b2 x); now left.
      - intros r0 b0 [E|[]]. apply (a4 r0 b0). now left.
      - intros r0 b0 [E|[]]. apply (a5 r0 b0). now left. }
    destruct (IH w1) as [IH1 IH2].
    + exact (room_cons _ _ _ _ _ _ R P1).
    + intros s' r' b' Hin. apply (placed_keep w h [(r, b)] w1 _ _ R1 P1). apply (Hs s' r' b'). now right.
    + split; [exact IH1|]. exact (placed_cons _ _ _ _ _ _ _ R P1 IH2).
Qed.
