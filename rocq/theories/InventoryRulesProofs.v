(** InventoryValidator.validate accepts exactly the inventories that obey the rules as
    the validator reads them. *)
From Coq Require Import Permutation.
From Verif Require Import Base Unicode Utf8 Regex Json PyJson Log ObjectUtilsModel DigestModel DatetimeModel DatetimeSpec
  InventorySpec InventoryValidatorModel ObjectUtilsProofs LayoutProofs DatetimeProofs InventoryValidatorProofs.

(** ** created *)

Definition digits (s : str) : Prop := Forall (fun c => is_digit c = true) s.

Lemma num2_shape n s : num2 n s -> exists a b, s = [a; b] /\ is_digit a = true /\ is_digit b = true.
Proof. intros [a [b [x [y [-> [Ha [Hb _]]]]]]]. exists a, b. repeat split; apply dig_is_digit; eauto. Qed.
Lemma num2_digits n s : num2 n s -> digits s.
Proof. intros H. apply num2_shape in H as [a [b [-> [Ha Hb]]]]. repeat constructor; auto. Qed.
Lemma num4_digits n s : num4 n s -> digits s.
Proof.
  intros [a [b [c [d [w [x [y [z [-> [Ha [Hb [Hc [Hd _]]]]]]]]]]]]].
  repeat constructor; apply dig_is_digit; eauto.
Qed.
Lemma all_digits_digits s : all_digits s -> digits s.
Proof. intros [_ H]. apply Forall_forall. intros c Hc. apply dig_is_digit. auto. Qed.

Lemma digits_notin c s : is_digit c = false -> digits s -> ~ In c s.
Proof. intros Hc H Hi. unfold digits in H. rewrite Forall_forall in H. apply H in Hi. congruence. Qed.

Lemma date_text_notin c x s : is_digit c = false -> c <> 45%N -> date_text x s -> ~ In c s.
Proof.
  intros Hc H45. destruct x as [[y m] d]. intros [sy [sm [sd [H1 [H2 [H3 ->]]]]]].
  apply num4_digits in H1. apply num2_digits in H2, H3.
  rewrite !in_app_iff. intros [H|[[H|[]]|[H|[[H|[]]|H]]]]; try (now apply H45); revert H; now apply digits_notin.
Qed.

Lemma tz_notin_T off tz : tz_text off tz -> ~ In 84%N tz.
Proof.
  destruct 1 as [| |hh mm a b Ha Hb _ _|hh mm a b Ha Hb _ _]; [intros []|intros [H|[]]; discriminate| |];
    apply num2_digits in Ha, Hb; rewrite !in_app_iff;
    (intros [[H|[]]|[H|[[H|[]]|H]]]; try discriminate; revert H; apply digits_notin; auto; vm_compute; reflexivity).
Qed.

Lemma nl_notin c nl : c <> 10%N -> nl = [] \/ nl = [10%N] \/ nl = [10%N; 10%N] -> ~ In c nl.
Proof. intros Hc [->|[->| ->]]; simpl; intuition. Qed.

Lemma unique_char (c : N) a x b y : ~ In c a -> ~ In c x -> a ++ c :: x = b ++ c :: y -> a = b /\ x = y.
Proof.
  revert b. induction a as [|k a IH]; intros [|d b] Ha Hx E; simpl in *.
  - injection E as ->. auto.
  - injection E as -> ->. exfalso. apply Hx, in_or_app. right. now left.
  - injection E as -> _. exfalso. apply Ha. now left.
  - injection E as -> E. apply IH in E as [-> ->]; auto.
Qed.

Lemma time_found s : re_found re_created_time s = true <->
  exists b d1 d2 d3 d4 d5 d6 rest, s = b ++ 84%N :: [d1; d2; 58; d3; d4; 58; d5; d6]%N ++ rest /\ digits [d1; d2; d3; d4; d5; d6].
Proof.
  unfold re_found. split.
  - destruct (re_search re_created_time s) as [[b c]|] eqn:E; [|discriminate]. intros _.
    apply re_search_sound in E as [x [rest [-> HD]]]. unfold re_created_time, rdd, rdigit in HD.
    apply Den_seq in HD as [x1 [y1 [c1 [-> [D1 HD]]]]]. apply Den_lit in D1 as [-> ->].
    apply Den_seq in HD as [x2 [y2 [c2 [-> [D1 HD]]]]]. apply Den_rep_chr in D1 as [L1 [F1 ->]].
    apply Den_seq in HD as [x3 [y3 [c3 [-> [D1 HD]]]]]. apply Den_lit in D1 as [-> ->].
    apply Den_seq in HD as [x4 [y4 [c4 [-> [D1 HD]]]]]. apply Den_rep_chr in D1 as [L2 [F2 ->]].
    apply Den_seq in HD as [x5 [y5 [c5 [-> [D1 HD]]]]]. apply Den_lit in D1 as [-> ->].
    apply Den_rep_chr in HD as [L3 [F3 ->]].
    destruct x2 as [|d1 [|d2 [|]]]; try discriminate L1. destruct x4 as [|d3 [|d4 [|]]]; try discriminate L2.
    destruct y5 as [|d5 [|d6 [|]]]; try discriminate L3.
    exists b, d1, d2, d3, d4, d5, d6, rest. split; [reflexivity|].
    unfold digits. rewrite !Forall_cons_iff in *. tauto.
  - intros [b [d1 [d2 [d3 [d4 [d5 [d6 [rest [-> HF]]]]]]]]].
    unfold digits in HF. rewrite !Forall_cons_iff in HF. destruct HF as [F1 [F2 [F3 [F4 [F5 [F6 _]]]]]].
    assert (G : re_search re_created_time (b ++ 84%N :: [d1; d2; 58; d3; d4; 58; d5; d6]%N ++ rest) <> None).
    { apply (re_search_complete _ _ b (84%N :: [d1; d2; 58; d3; d4; 58; d5; d6]%N) rest []); [reflexivity|].
      unfold re_created_time, rdd, rdigit.
      apply Den_seq. exists (`"T"), [d1; d2; 58; d3; d4; 58; d5; d6]%N, []. split; [reflexivity|]. split; [now apply Den_lit|].
      apply Den_seq. exists [d1; d2], [58; d3; d4; 58; d5; d6]%N, []. split; [reflexivity|]. split; [apply Den_rep_chr; repeat split; auto|].
      apply Den_seq. exists (`":"), [d3; d4; 58; d5; d6]%N, []. split; [reflexivity|]. split; [now apply Den_lit|].
      apply Den_seq. exists [d3; d4], [58; d5; d6]%N, []. split; [reflexivity|]. split; [apply Den_rep_chr; repeat split; auto|].
      apply Den_seq. exists (`":"), [d5; d6], []. split; [reflexivity|]. split; [now apply Den_lit|].
      apply Den_rep_chr; repeat split; auto. }
    destruct (re_search _ _); [reflexivity|congruence].
Qed.

Definition zone (y : str) : Prop :=
  y = `"Z" \/ exists sg d1 d2 d3 d4, (sg = 43 \/ sg = 45)%N /\ y = [sg; d1; d2; 58; d3; d4]%N /\ digits [d1; d2; d3; d4].

Lemma tz_found s : re_found re_created_tz s = true <->
  exists b y rest, s = b ++ y ++ rest /\ zone y /\ (rest = [] \/ rest = [10%N]).
Proof.
  unfold re_found. split.
  - destruct (re_search re_created_tz s) as [[b c]|] eqn:E; [|discriminate]. intros _.
    apply re_search_sound in E as [x [rest [-> HD]]]. unfold re_created_tz, rdd, rdigit in HD.
    apply Den_seq in HD as [y [z [c1 [-> [D1 HD]]]]]. apply Den_dol in HD as [-> [-> Hr]].
    apply Den_grp in D1 as [c2 [-> D1]]. exists b, y, rest. rewrite app_nil_r. split; [reflexivity|]. split; [|exact Hr].
    apply Den_alt in D1 as [D1|D1].
    + apply Den_lit in D1 as [-> ->]. now left.
    + right. apply Den_seq in D1 as [x1 [y1 [c3 [-> [D1 HD]]]]]. apply Den_chr in D1 as [sg [-> [Hs ->]]].
      apply Den_seq in HD as [x2 [y2 [c4 [-> [D1 HD]]]]]. apply Den_rep_chr in D1 as [L1 [F1 ->]].
      apply Den_seq in HD as [x3 [y3 [c5 [-> [D1 HD]]]]]. apply Den_lit in D1 as [-> ->].
      apply Den_rep_chr in HD as [L2 [F2 ->]].
      destruct x2 as [|d1 [|d2 [|]]]; try discriminate L1. destruct y3 as [|d3 [|d4 [|]]]; try discriminate L2.
      exists sg, d1, d2, d3, d4. split; [apply orb_true_iff in Hs; rewrite !N.eqb_eq in Hs; exact Hs|].
      split; [reflexivity|]. unfold digits. rewrite !Forall_cons_iff in *. tauto.
  - intros [b [y [rest [-> [Hz Hr]]]]].
    assert (G : exists c, Den re_created_tz y rest [] c).
    { exists [(1%nat, y)]. unfold re_created_tz, rdd, rdigit. apply Den_seq. exists y, [], [(1%nat, y)].
      rewrite app_nil_r. split; [reflexivity|]. split; [|apply Den_dol; auto].
      apply Den_grp. exists []. split; [reflexivity|]. apply Den_alt. destruct Hz as [->|[sg [d1 [d2 [d3 [d4 [Hs [-> HF]]]]]]]].
      - left. now apply Den_lit.
      - right. unfold digits in HF. rewrite !Forall_cons_iff in HF. destruct HF as [F1 [F2 [F3 [F4 _]]]].
        apply Den_seq. exists [sg], [d1; d2; 58; d3; d4]%N, []. split; [reflexivity|].
        split; [apply Den_chr; exists sg; repeat split; apply orb_true_iff; rewrite !N.eqb_eq; auto|].
        apply Den_seq. exists [d1; d2], [58; d3; d4]%N, []. split; [reflexivity|]. split; [apply Den_rep_chr; repeat split; auto|].
        apply Den_seq. exists (`":"), [d3; d4], []. split; [reflexivity|]. split; [now apply Den_lit|].
        apply Den_rep_chr; repeat split; auto. }
    destruct G as [c G].
    pose proof (re_search_complete re_created_tz _ b y rest c eq_refl G) as H.
    destruct (re_search _ _); [reflexivity|congruence].
Qed.

Lemma zone_notin_T y : zone y -> ~ In 84%N y.
Proof.
  intros [->|[sg [d1 [d2 [d3 [d4 [Hs [-> HF]]]]]]]] Hi; [destruct Hi as [H|[]]; discriminate|].
  assert (N84 : is_digit 84 = false) by (vm_compute; reflexivity).
  unfold digits in HF. rewrite !Forall_cons_iff in HF. destruct HF as [F1 [F2 [F3 [F4 _]]]].
  destruct Hi as [H|[H|[H|[H|[H|[H|[]]]]]]]; subst; try congruence; destruct Hs; discriminate.
Qed.

(** With nothing but digits, ':', '.' and newlines after the T there is no zone. *)
Lemma no_zone sx t : ~ In 84%N sx -> ~ In 84%N t ->
  (forall c, In c t -> c <> 90%N /\ c <> 43%N /\ c <> 45%N) -> re_found re_created_tz (sx ++ 84%N :: t) = true -> False.
Proof.
  intros Hsx Ht Hc H. apply tz_found in H as [b [y [rest [E [Hz Hr]]]]].
  assert (Hin : In 84%N b).
  { assert (Hi : In 84%N (b ++ y ++ rest)) by (rewrite <- E; apply in_or_app; right; now left).
    apply in_app_or in Hi as [Hi|Hi]; [auto|]. apply in_app_or in Hi as [Hi|Hi]; [now apply zone_notin_T in Hi|].
    destruct Hr as [->| ->]; [destruct Hi|destruct Hi as [Hi|[]]; discriminate]. }
  apply in_split in Hin as [b1 [b2 ->]]. rewrite <- app_assoc in E. cbn [app] in E.
  apply unique_char in E as [_ ->]; auto.
  assert (Hy : exists c, In c y /\ (c = 90 \/ c = 43 \/ c = 45)%N).
  { destruct Hz as [->|[sg [d1 [d2 [d3 [d4 [Hs [-> HF]]]]]]]]; [exists 90%N; split; [now left|auto]|].
    exists sg. split; [now left|tauto]. }
  destruct Hy as [c [Hy Hcc]]. destruct (Hc c) as [? [? ?]]; [apply in_or_app; right; apply in_or_app; now left|]. tauto.
Qed.

Lemma tz_zone off tz : tz_text off tz -> tz <> [] -> zone tz.
Proof.
  destruct 1 as [| |hh mm a b Ha Hb _ _|hh mm a b Ha Hb _ _]; intros Hne; [congruence|now left| |];
    apply num2_shape in Ha as [a1 [a2 [-> [? ?]]]]; apply num2_shape in Hb as [b1 [b2 [-> [? ?]]]]; right;
    [exists 43%N|exists 45%N]; exists a1, a2, b1, b2; (split; [auto|]); (split; [reflexivity|repeat constructor; auto]).
Qed.

Lemma w3c_no_T s x hh mm ss frac off nl : w3c_text s x hh mm ss frac off nl ->
  In 84%N s -> exists sx sh sm t, s = sx ++ `"T" ++ sh ++ `":" ++ sm ++ t /\ date_text x sx /\ num2 hh sh /\ num2 mm sm /\
    ((exists tz, t = tz ++ nl /\ tz_text off tz /\ (nl = [] \/ nl = [10%N])) \/
     (exists s2 f tz, t = `":" ++ s2 ++ f ++ tz ++ nl /\ num2 ss s2 /\ tz_text off tz /\
        (f = [] \/ exists ds, all_digits ds /\ f = `"." ++ ds) /\
        (nl = [] \/ nl = [10%N] \/ tz = [] /\ nl = [10%N; 10%N]))).
Proof.
  assert (N84 : is_digit 84 = false) by (vm_compute; reflexivity).
  destruct 1; intros Hi.
  - apply num4_digits in H. now apply (digits_notin 84) in H.
  - exfalso. apply num4_digits in H. apply num2_digits in H0. revert Hi. rewrite !in_app_iff.
    intros [Hi|[[Hi|[]]|Hi]]; try discriminate; revert Hi; now apply digits_notin.
  - exfalso. revert Hi. eapply date_text_notin; eauto. discriminate.
  - exists sx, sh, sm, (tz ++ nl). repeat split; auto. left. exists tz. auto.
  - exists sx, sh, sm, (`":" ++ s2 ++ tz ++ nl). repeat split; auto. right. exists s2, [], tz. repeat split; auto. tauto.
  - exists sx, sh, sm, (`":" ++ s2 ++ (`"." ++ frac) ++ tz ++ nl). repeat split; auto.
    right. exists s2, (`"." ++ frac), tz. repeat split; auto. right. eauto.
Qed.

Lemma created_iff c :
  ((exists t, str_to_datetime c = Ok t) /\ re_found re_created_tz c = true /\ re_found re_created_time c = true) <->
  r_created as_coded c.
Proof.
  assert (N84 : is_digit 84 = false) by (vm_compute; reflexivity).
  assert (N90 : is_digit 90 = false) by (vm_compute; reflexivity).
  assert (N43 : is_digit 43 = false) by (vm_compute; reflexivity).
  assert (N45 : is_digit 45 = false) by (vm_compute; reflexivity).
  cbn [r_created as_coded]. split.
  - intros [[[t frac] Ht] [Hz Hti]]. apply str_to_datetime_iff in Ht as [x [hh [mm [ss [off [nl [HW [Hd [Hv _]]]]]]]]].
    assert (HT : In 84%N c).
    { apply time_found in Hti as [b [d1 [d2 [d3 [d4 [d5 [d6 [rest [-> _]]]]]]]]]. apply in_or_app. right. now left. }
    apply w3c_no_T in HW; [|exact HT]. destruct HW as [sx [sh [sm [t0 [-> [Hsx [Hsh [Hsm HW]]]]]]]].
    pose proof (date_text_notin 84 x sx N84 ltac:(discriminate) Hsx) as HsxT.
    destruct HW as [[tz [-> [Htz Hnl]]]|[s2 [f [tz [-> [Hs2 [Htz [Hf Hnl]]]]]]]].
    + exfalso. apply time_found in Hti as [b [d1 [d2 [d3 [d4 [d5 [d6 [rest [E HF]]]]]]]]].
      cbn [app lit] in E. change (sx ++ `"T" ++ sh ++ `":" ++ sm ++ tz ++ nl) with (sx ++ 84%N :: (sh ++ `":" ++ sm ++ tz ++ nl)) in E.
      assert (HnT : ~ In 84%N (sh ++ `":" ++ sm ++ tz ++ nl)).
      { rewrite !in_app_iff. intros [H|[[H|[]]|[H|[H|H]]]]; try discriminate; revert H;
          [apply digits_notin; [auto|now apply num2_digits in Hsh]|apply digits_notin; [auto|now apply num2_digits in Hsm]|
           now apply (tz_notin_T off)|apply nl_notin; [discriminate|tauto]]. }
      apply unique_char in E as [_ E]; auto.
      apply num2_shape in Hsh as [a1 [a2 [-> _]]]. apply num2_shape in Hsm as [b1 [b2 [-> _]]].
      cbn [app lit] in E. change (`":") with [58%N] in E. cbn [app] in E.
      assert (E' : tz ++ nl = (58 :: d5 :: d6 :: rest)%N) by congruence.
      destruct Htz; cbn [app] in E'; [destruct Hnl as [->| ->]; discriminate|discriminate..].
    + assert (Htne : tz <> []).
      { intros ->. cbn [app] in *. refine (no_zone sx (sh ++ `":" ++ sm ++ `":" ++ s2 ++ f ++ nl) HsxT _ _ _).
        - apply num2_digits in Hsh, Hsm, Hs2. rewrite !in_app_iff.
          intros [H|[[H|[]]|[H|[[H|[]]|[H|[H|H]]]]]]; try discriminate; revert H; try (now apply digits_notin).
          + destruct Hf as [->|[ds [Hds ->]]]; [intros []|]. apply all_digits_digits in Hds.
            intros [H|H]; [discriminate|revert H; now apply digits_notin].
          + apply nl_notin; [discriminate|tauto].
        - intros k Hk. apply num2_digits in Hsh, Hsm, Hs2.
          assert (G : is_digit k = true \/ k = 58%N \/ k = 46%N \/ k = 10%N).
          { unfold digits in *. rewrite Forall_forall in Hsh, Hsm, Hs2. rewrite !in_app_iff in Hk.
            destruct Hk as [H|[[H|[]]|[H|[[H|[]]|[H|[H|H]]]]]]; auto.
            - destruct Hf as [->|[ds [Hds ->]]]; [destruct H|]. apply all_digits_digits in Hds.
              destruct H as [H|H]; [auto|]. unfold digits in Hds. rewrite Forall_forall in Hds. auto.
            - destruct Hnl as [->|[->|[_ ->]]]; simpl in H; intuition. }
          destruct G as [G|[->|[->| ->]]]; [|repeat split; discriminate..].
          repeat split; intros ->; congruence.
        - exact Hz. }
      exists x, sx, hh, mm, ss, sh, sm, s2, f, off, tz, nl.
      split; [reflexivity|]. repeat (split; [tauto|]). destruct Hnl as [->|[->|[H _]]]; auto. contradiction.
  - intros [x [sx [hh [mi [ss [sh [smi [s2 [f [off [tz [nl [-> [Hsx [Hd [Hsh [Hsmi [Hs2 [Hv [Hf [Htz [Htne Hnl]]]]]]]]]]]]]]]]]]]]]].
    split; [|split].
    + assert (W : exists fr, w3c_text (sx ++ `"T" ++ sh ++ `":" ++ smi ++ `":" ++ s2 ++ f ++ tz ++ nl) x hh mi ss fr off nl).
      { destruct Hf as [->|[ds [Hds ->]]].
        - exists []. change (s2 ++ [] ++ tz ++ nl) with (s2 ++ tz ++ nl). now apply W_seconds.
        - exists ds. rewrite <- app_assoc. apply W_fraction; auto. tauto. }
      destruct W as [fr W]. exists (tgm x hh mi ss + off, fr)%Z. apply str_to_datetime_iff.
      exists x, hh, mi, ss, off, nl. auto.
    + apply tz_found. exists (sx ++ `"T" ++ sh ++ `":" ++ smi ++ `":" ++ s2 ++ f), tz, nl.
      split; [rewrite <- !app_assoc; reflexivity|]. split; [now apply (tz_zone off)|auto].
    + apply time_found. apply num2_shape in Hsh as [a1 [a2 [-> [? ?]]]]. apply num2_shape in Hsmi as [b1 [b2 [-> [? ?]]]].
      apply num2_shape in Hs2 as [c1 [c2 [-> [? ?]]]].
      exists sx, a1, a2, b1, b2, c1, c2, (f ++ tz ++ nl). split; [reflexivity|repeat constructor; auto].
Qed.

(** ** Fields *)

Lemma member_obj d k v : NoDup (keys d) -> (member (JObj d) k v <-> dget k d = Some v).
Proof.
  intros Hn. split.
  - intros [d' [E H]]. injection E as <-. now apply In_dget.
  - intros H. exists d. split; [auto|now apply dget_In].
Qed.
Lemma lacks_obj d k : lacks (JObj d) k <-> dmem k d = false.
Proof.
  rewrite dmem_false. split.
  - intros H Hi. apply in_map_iff in Hi as [[k' v] [E Hi]]. cbn [fst] in E. subst k'. apply (H v). exists d. auto.
  - intros H v [d' [E Hi]]. injection E as <-. apply H, in_map_iff. exists (k, v). auto.
Qed.
Lemma member_wf j k v : json_wf j -> member j k v -> json_wf v.
Proof.
  intros Hw [d [-> Hi]]. apply json_wf_obj in Hw as [_ Hw]. rewrite Forall_forall in Hw. apply (Hw (k, v) Hi).
Qed.
Lemma member_fun j k v v' : json_wf j -> member j k v -> member j k v' -> v = v'.
Proof.
  intros Hw [d [-> Hi]] [d' [E Hi']]. injection E as <-. apply json_wf_obj in Hw as [Hn _].
  apply In_dget in Hi, Hi'; auto. congruence.
Qed.
Lemma member_lacks j k v : member j k v -> lacks j k -> False.
Proof. intros H Hl. now apply (Hl v). Qed.
Lemma member_py j k v : json_wf j -> member j k v -> py_in k j = Ok true /\ py_getitem k j = Ok v.
Proof.
  intros Hw [d [-> Hi]]. apply json_wf_obj in Hw as [Hn _]. cbn [py_in py_getitem].
  rewrite (proj2 (dmem_true k d)); [|apply in_map_iff; exists (k, v); auto]. rewrite (In_dget k v d); auto.
Qed.
Lemma py_member j k v : py_in k j = Ok true -> py_getitem k j = Ok v -> member j k v.
Proof.
  destruct j; cbn [py_in py_getitem]; try discriminate. intros _. destruct (dget k d) eqn:E; [|discriminate].
  intros H. apply Ok_inv in H. subst. exists d. split; [auto|now apply dget_In].
Qed.
Lemma lacks_py d k : lacks (JObj d) k -> py_in k (JObj d) = Ok false.
Proof. intros H. apply lacks_obj in H. cbn [py_in]. now rewrite H. Qed.
Lemma py_lacks j k : py_in k j = Ok false -> lacks j k.
Proof.
  intros H v [d [-> Hi]]. cbn [py_in] in H. apply Ok_inv in H.  apply dmem_false in H. apply H, in_map_iff.
  exists (k, v). auto.
Qed.

Section Field.
  Context {A : Type} (k : str) (j : json) (F : json -> wexc A) (G : wexc A) (r : A).
  Hypothesis Hw : json_wf j.
  Lemma clean_in_get :
    clean (let! c := wlift (py_in k j) in if c then (let! v := wlift (py_getitem k j) in F v) else G) r <->
    (exists v, member j k v /\ clean (F v) r) \/ (py_in k j = Ok false /\ clean G r).
  Proof using Hw.
    rewrite clean_bind. split.
    - intros [[|] [H1 H2]]; apply clean_lift in H1.
      + rewrite clean_bind in H2. destruct H2 as [v [H2 H3]]. apply clean_lift in H2. left. exists v.
        split; [now apply py_member|auto].
      + right. auto.
    - intros [[v [H1 H2]]|[H1 H2]].
      + apply member_py in H1 as [E1 E2]; auto. exists true. split; [now apply clean_lift|].
        rewrite clean_bind. exists v. split; [now apply clean_lift|auto].
      + exists false. split; [now apply clean_lift|auto].
  Qed.
  Lemma clean_notin_get :
    clean (let! c := wlift (py_in k j) in if negb c then G else (let! v := wlift (py_getitem k j) in F v)) r <->
    (exists v, member j k v /\ clean (F v) r) \/ (py_in k j = Ok false /\ clean G r).
  Proof using Hw.
    rewrite <- clean_in_get, !clean_bind. split; intros [[|] H]; [exists true|exists false|exists true|exists false]; exact H.
  Qed.
End Field.

Lemma clean_created b u : json_wf b -> (clean (validate_created b) u <-> created_rule as_coded b).
Proof.
  intros Hw. unfold validate_created. rewrite clean_notin_get by auto. unfold created_rule. split.
  - intros [[v [Hm H]]|[_ H]]; [|now apply clean_error in H].
    destruct v as [| | | |s| |]; try (now apply clean_error in H). exists s. split; [auto|].
    apply created_iff. destruct (str_to_datetime s) as [t|e] eqn:E.
    + rewrite clean_bind in H. destruct H as [[] [H1 H2]]. apply clean_when_ok in H1, H2. split; [eauto|auto].
    + destruct e; (now apply clean_error in H) || (now apply clean_raise in H).
  - intros [c [Hm Hc]]. left. exists (JStr c). split; [auto|]. apply created_iff in Hc as [[t Ht] [H1 H2]].
    rewrite Ht, clean_bind. exists tt. split; now apply clean_when_ok.
Qed.

Lemma clean_message d u : json_wf (JObj d) -> (clean (validate_message (JObj d)) u <-> message_rule (JObj d)).
Proof.
  intros Hw. unfold validate_message. rewrite clean_notin_get by auto. unfold message_rule. split.
  - intros [[v [Hm H]]|[H _]]; [|left; now apply py_lacks].
    destruct v as [| | | |s| |]; try (now apply clean_error in H). eauto.
  - intros [H|[m Hm]]; [right; split; [now apply lacks_py|now apply clean_warning]|].
    left. exists (JStr m). split; [auto|]. destruct u. now apply clean_ret.
Qed.

Lemma clean_user d u : json_wf (JObj d) -> (clean (validate_user (JObj d)) u <-> user_rule (JObj d)).
Proof.
  intros Hw. unfold validate_user. rewrite clean_notin_get by auto. unfold user_rule. split.
  - intros [[v [Hm H]]|[H _]]; [|left; now apply py_lacks]. right. exists v. split; [auto|].
    destruct v as [| | | | | |ud]; try (now apply clean_error in H).
    rewrite clean_bind in H. destruct H as [[] [H1 H2]].
    split.
    + destruct (dget (`"name") ud) as [[| | | |n| |]|] eqn:E; try (now apply clean_error in H1).
      exists n, ud. split; [auto|now apply dget_In].
    + destruct (dget (`"address") ud) as [[| | | |n| |]|] eqn:E; try (now apply clean_error in H2).
      * right. exists n, ud. split; [auto|now apply dget_In].
      * left. apply lacks_obj. unfold dmem. now rewrite E.
  - intros [H|[v [Hm [[n Hn] Ha]]]]; [right; split; [now apply lacks_py|now apply clean_warning]|].
    left. exists v. split; [auto|]. pose proof (member_wf _ _ _ Hw Hm) as Hv. destruct Hn as [ud [-> Hn]].
    apply json_wf_obj in Hv as [Hnd _]. rewrite clean_bind. exists tt. split.
    + rewrite (In_dget _ _ _ Hnd Hn). now apply clean_ret.
    + destruct Ha as [Ha|[ad Ha]].
      * apply lacks_obj in Ha. unfold dmem in Ha. destruct (dget (`"address") ud); [discriminate|].
        now apply clean_warning.
      * apply member_obj in Ha; auto. rewrite Ha. destruct (re_match re_address ad); [destruct u; now apply clean_ret|now apply clean_warning].
Qed.

(** ** One version, all versions *)

Definition state_cond (a : str) (re_ : re) (u : list str) (d : dict json) : Prop :=
  Forall (fun kv => re_match re_ (fst kv) <> None /\ string_array (snd kv) /\ In (fst kv) u) d /\
  Forall plain_path (listed d) /\ NoDup (listed d) /\
  (forall p q, In p (listed d) -> In q (listed d) -> p <> ldir q).

Definition block_cond (a : str) (re_ : re) (u : list str) (b : json) (st : dict json) : Prop :=
  created_rule as_coded b /\ message_rule b /\ user_rule b /\ member b (`"state") (JObj st) /\ state_cond a re_ u st.

Definition norms (a : str) (d : dict json) : list str := map (fun kv => normalized_digest (fst kv) a) d.

Lemma clean_version a re_ u (vs : dict json) used v r : digest_regex a = Ok re_ -> json_wf (JObj vs) ->
  (clean (validate_version false (JStr a) (Some u) vs used v) r <->
   exists b st, In (v, b) vs /\ block_cond a re_ u b st /\ r = used ++ norms a st).
Proof.
  intros Hr Hw. apply json_wf_obj in Hw as [Hn Hw]. unfold validate_version. destruct (dget v vs) as [b|] eqn:E.
  2:{ rewrite clean_raise. split; [tauto|]. intros [b [st [Hi _]]]. apply In_dget in Hi; auto. congruence. }
  assert (Hb : json_wf b) by (apply dget_In in E; rewrite Forall_forall in Hw; apply (Hw _ E)).
  rewrite clean_bind. split.
  - intros [u0 [Hc H]]. apply clean_created in Hc; auto.
    assert (Hobj : exists d, b = JObj d) by (destruct Hc as [c [[d [-> _]] _]]; eauto).
    destruct Hobj as [d ->].
    rewrite clean_bind in H. destruct H as [c [H1 H]]. apply clean_lift in H1.
    rewrite clean_bind in H. destruct H as [us [H2 H]].
    rewrite clean_bind in H. destruct H as [u1 [Hmsg H]]. apply clean_message in Hmsg; auto.
    rewrite clean_bind in H. destruct H as [u2 [Huser H]]. apply clean_user in Huser; auto.
    apply clean_ret in H. subst r. destruct c; [|now rewrite clean_bind_error in H2].
    rewrite clean_bind in H2. destruct H2 as [st [H3 H2]]. apply clean_lift in H3.
    pose proof (py_member _ _ _ H1 H3) as Hm. apply (clean_state a re_) in H2; auto.
    destruct H2 as [std [-> [G1 [G2 [G3 [G4 ->]]]]]].
    exists (JObj d), std. split; [now apply dget_In|]. split; [|reflexivity].
    repeat split; auto.
  - intros [b' [st [Hi [[Hc [Hmsg [Huser [Hm [G1 [G2 [G3 G4]]]]]]] ->]]]].
    apply In_dget in Hi; auto. rewrite E in Hi. injection Hi as <-.
    exists tt. split; [now apply clean_created|].
    assert (Hobj : exists d, b = JObj d) by (destruct Hm as [d [-> _]]; eauto). destruct Hobj as [d ->].
    apply member_py in Hm as [E1 E2]; auto.
    rewrite clean_bind. exists true. split; [now apply clean_lift|].
    rewrite clean_bind. exists (norms a st). split.
    { rewrite clean_bind. exists (JObj st). split; [now apply clean_lift|]. apply (clean_state a re_); auto.
      exists st. repeat split; auto. }
    rewrite clean_bind. exists tt. split; [now apply clean_message|].
    rewrite clean_bind. exists tt. split; [now apply clean_user|]. now apply clean_ret.
Qed.

Lemma clean_versions a re_ u (vs : dict json) all r : digest_regex a = Ok re_ -> json_wf (JObj vs) ->
  (clean (validate_versions false (JStr a) (Some u) (JObj vs) all) r <->
   exists sts, Forall2 (fun v st => exists b, In (v, b) vs /\ block_cond a re_ u b st) all sts /\
     r = flat_map (norms a) sts).
Proof.
  intros Hr Hw. unfold validate_versions.
  assert (G : forall all used r, clean (wfold (validate_version false (JStr a) (Some u) vs) all used) r <->
    exists sts, Forall2 (fun v st => exists b, In (v, b) vs /\ block_cond a re_ u b st) all sts /\
     r = used ++ flat_map (norms a) sts); [|apply G].
  clear all r. induction all as [|v all IH]; intros used r; cbn [wfold].
  - rewrite clean_ret. split; [intros <-; exists []; split; [constructor|simpl; now rewrite app_nil_r]|].
    intros [sts [H ->]]. inversion H. simpl. now rewrite app_nil_r.
  - rewrite clean_bind. split.
    + intros [s1 [H1 H2]]. apply (clean_version a re_) in H1; auto. destruct H1 as [b [st [Hi [Hb ->]]]].
      apply IH in H2 as [sts [H2 ->]]. exists (st :: sts). split; [constructor; eauto|]. simpl. now rewrite app_assoc.
    + intros [sts [H ->]]. inversion H as [|? st ? sts' [b [Hi Hb]] H2]; subst.
      exists (used ++ norms a st). split; [apply (clean_version a re_); auto; exists b, st; auto|].
      apply IH. exists sts'. split; [auto|]. simpl. now rewrite app_assoc.
Qed.

(** ** Fixity *)

Lemma clean_fixity_files mf l u : clean (wfold (fixity_file (Some mf)) l tt) u <->
  exists fs, l = map JStr fs /\ incl fs (keys mf).
Proof.
  unfold fixity_file.
  rewrite (clean_wfold_unit (fun file => match file with
      | JStr f => if dmem f mf then wret tt else werror (`"E057d")
      | _ => if hashable file then werror (`"E057d") else wraise TypeError end)).
  induction l as [|x l IH].
  - split; [intros _; exists []; split; [reflexivity|intros y []]|constructor].
  - rewrite Forall_cons_iff, IH. split.
    + intros [H1 [fs [-> H2]]]. destruct x as [| | | |f| |]; cbn [hashable] in H1;
        try (now apply clean_error in H1); try (now apply clean_raise in H1).
      apply clean_when_ok, dmem_true in H1. exists (f :: fs). split; [reflexivity|]. intros y [<-|Hy]; auto.
    + intros [fs [E H]]. destruct fs as [|f fs]; [discriminate|]. injection E as -> ->. split.
      * apply clean_when_ok, dmem_true, H. now left.
      * exists fs. split; [reflexivity|]. intros y Hy. apply H. now right.
Qed.

Lemma clean_fixity_digests mf re_ a d : forall seen r,
  clean (wfold (fixity_digest (Some mf) re_ true a) d seen) r <->
  Forall (fun kv => re_match re_ (fst kv) <> None /\ string_array (snd kv) /\ incl (strings (snd kv)) (keys mf)) d /\
  NoDup (norms a d) /\ (forall x, In x (norms a d) -> ~ In x seen) /\ r = seen ++ norms a d.
Proof.
  induction d as [|[k x] d IH]; intros seen r; cbn [wfold].
  - rewrite clean_ret. simpl. rewrite app_nil_r. split; [intros <-; repeat split; auto; constructor|]. intros [_ [_ [_ ->]]]. auto.
  - rewrite clean_bind.
    assert (Step : forall s1, clean (fixity_digest (Some mf) re_ true a seen (k, x)) s1 <->
      re_match re_ k <> None /\ string_array x /\ incl (strings x) (keys mf) /\ ~ In (normalized_digest k a) seen /\
      s1 = seen ++ [normalized_digest k a]).
    { intros s1. unfold fixity_digest. destruct (re_match re_ k) as [m|].
      2:{ rewrite clean_bind_error. split; [tauto|]. intros [H _]. congruence. }
      destruct x as [| | | | |l|]; try (rewrite clean_bind_error; split; [tauto|]; intros [_ [[fs H] _]]; discriminate).
      cbn zeta. rewrite clean_bind. split.
      - intros [s2 [H1 H2]]. apply clean_if_error in H1 as [H1 H1']. apply str_in_false in H1. apply clean_ret in H1'. subst s2.
        rewrite clean_bind in H2. destruct H2 as [u [H2 H3]]. apply clean_fixity_files in H2 as [fs [-> H2]].
        apply clean_ret in H3. subst s1. split; [congruence|]. split; [now exists fs|]. rewrite strings_map. auto.
      - intros [_ [[fs E] [H1 [H2 ->]]]]. injection E as ->. rewrite strings_map in H1.
        eexists. split; [apply clean_if_error; split; [now apply str_in_false|now apply clean_ret]|].
        rewrite clean_bind. exists tt. split; [apply clean_fixity_files; eauto|]. now apply clean_ret. }
    unfold norms. cbn [map fst]. fold (norms a d). rewrite Forall_cons_iff, NoDup_cons_iff. cbn [fst snd]. split.
    + intros [s1 [H1 H2]]. apply Step in H1 as [G1 [G2 [G3 [G4 ->]]]]. apply IH in H2 as [I1 [I2 [I3 ->]]].
      split; [auto|]. split; [split; [|auto]; intros Hi; apply (I3 _ Hi), in_or_app; right; now left|].
      split; [intros y [<-|Hy]; [auto|intros Hq; apply (I3 _ Hy), in_or_app; now left]|].
      now rewrite <- app_assoc.
    + intros [[[G1 [G2 G3]] I1] [[I2 I2'] [I3 ->]]]. exists (seen ++ [normalized_digest k a]).
      split; [apply Step; repeat split; auto; apply I3; now left|].
      apply IH. split; [auto|]. split; [auto|]. split.
      * intros y Hy Hq. apply in_app_or in Hq as [Hq|[<-|[]]]; [apply (I3 y); [now right|auto]|auto].
      * now rewrite <- app_assoc.
Qed.

Lemma known_algorithm a :
  ((exists n, digest_size a n) \/ In a [`"sha512-spec-ex"; `"sha256-spec-ex"]) <-> exists r, digest_regex a = Ok r.
Proof.
  split.
  - intros [[n Hn]|H]; [apply digest_regex_size in Hn; eauto|apply digest_regex_ex in H; eauto].
  - intros [r H]. apply digest_regex_inv in H as [[n [Hn _]]|[H _]]; eauto.
Qed.

Lemma clean_fixity spec fx mf u : json_wf fx ->
  (clean (validate_fixity false spec fx (Some mf)) u <->
   exists d, fx = JObj d /\ forall alg x, In (alg, x) d ->
     ((exists n, digest_size alg n) \/ In alg [`"sha512-spec-ex"; `"sha256-spec-ex"]) /\
     exists block, x = JObj block /\
       (forall k y, In (k, y) block -> r_digest as_coded alg k /\ string_array y /\ incl (strings y) (keys mf)) /\
       distinct_digests alg block).
Proof.
  intros Hw. unfold validate_fixity. destruct fx as [| | | | | |d];
    try (rewrite clean_error; split; [tauto|]; intros [d [H _]]; discriminate).
  change (wfold (fixity_algorithm false (Some mf)) d tt) with (wfold (fun _ x => fixity_algorithm false (Some mf) tt x) d tt).
  rewrite (clean_wfold_unit (fun x => fixity_algorithm false (Some mf) tt x)).
  rewrite Forall_forall. apply json_wf_obj in Hw as [Hn Hw]. rewrite Forall_forall in Hw.
  assert (G : forall alg x, In (alg, x) d ->
    (clean (fixity_algorithm false (Some mf) tt (alg, x)) tt <->
     ((exists n, digest_size alg n) \/ In alg [`"sha512-spec-ex"; `"sha256-spec-ex"]) /\
     exists block, x = JObj block /\
       (forall k y, In (k, y) block -> r_digest as_coded alg k /\ string_array y /\ incl (strings y) (keys mf)) /\
       distinct_digests alg block)).
  { intros alg x Hi. rewrite known_algorithm. unfold fixity_algorithm. cbn zeta. destruct (digest_regex alg) as [re_|e] eqn:Er.
    2:{ rewrite clean_error. split; [tauto|]. intros [[r H] _]. discriminate. }
    destruct x as [| | | | | |block]; try (rewrite clean_error; split; [intros []|]; intros [_ [b0 [H _]]]; discriminate H).
    assert (Hb : NoDup (keys block)) by (apply Hw in Hi; cbn [snd] in Hi; now apply json_wf_obj in Hi).
    rewrite clean_bind. split.
    - intros [s [H _]]. apply clean_fixity_digests in H as [H1 [H2 _]]. split; [eauto|]. exists block. split; [auto|]. split.
      + intros k y Hk. rewrite Forall_forall in H1. apply H1 in Hk as [K1 K2]. cbn [fst snd] in *.
        split; [now apply (digest_regex_iff alg re_)|auto].
      + now apply (distinct_iff alg re_).
    - intros [_ [b [E [H1 H2]]]]. injection E as <-. exists ([] ++ norms alg block).
      split; [|now apply clean_ret]. apply clean_fixity_digests. split.
      + apply Forall_forall. intros [k y] Hk. apply H1 in Hk as [K1 K2]. cbn [fst snd]. split; [|auto].
        now apply (digest_regex_iff alg re_).
      + split; [now apply (distinct_iff alg re_)|]. split; auto. }
  split.
  - intros H. exists d. split; [auto|]. intros alg x Hi. apply (G alg x Hi). apply (H (alg, x) Hi).
  - intros [d' [E H]] [alg x] Hi. injection E as <-. apply (G alg x Hi). now apply H.
Qed.

(** ** Identifier, type, algorithm, content directory *)

Lemma clean_id inv r : json_wf inv ->
  (clean (validate_id inv) r <-> exists i, member inv (`"id") (JStr i) /\ i <> [] /\ r = Some i).
Proof.
  intros Hw. unfold validate_id. rewrite clean_in_get by auto. split.
  - intros [[v [Hm H]]|[_ H]]; [|now apply clean_bind_error in H].
    destruct v as [| | | |s| |]; try (now apply clean_bind_error in H).
    destruct s as [|c s]; [now apply clean_bind_error in H|]. rewrite clean_bind in H. destruct H as [u [_ H]].
    apply clean_ret in H. subst r. exists (c :: s). repeat split; auto. discriminate.
  - intros [i [Hm [Hn ->]]]. left. exists (JStr i). split; [auto|]. destruct i as [|c s]; [congruence|].
    rewrite clean_bind. exists tt. split; [|now apply clean_ret].
    destruct (re_match re_uri (c :: s)); [now apply clean_ret|now apply clean_warning].
Qed.

Lemma app_cancel_slash_type a b : `"/spec/#inventory" ++ a = `"/spec/#inventory" ++ b -> a = b.
Proof. apply app_inv_head. Qed.

Lemma type_iff t v : In v [`"1.0"; `"1.1"] ->
  ((exists m, re_match re_type t = Some m /\ group_or_nil 1 m = v) <-> r_type as_coded t v).
Proof.
  intros Hv. cbn [r_type as_coded].
  assert (Sound : forall m, re_match re_type t = Some m ->
    exists c ds a d r, is_dot c = true /\ ds <> [] /\ digits ds /\ group_or_nil 1 m = ds ++ [a; d] /\
      t = `"https://ocfl" ++ c :: `"io/" ++ (ds ++ [a; d]) ++ `"/spec/#inventory" ++ r).
  { intros m H. apply re_match_sound in H as [x [rest [-> HD]]]. unfold re_type in HD.
    apply Den_seq in HD as [x1 [y1 [c1 [-> [D1 HD]]]]]. apply Den_lit in D1 as [-> ->].
    apply Den_seq in HD as [x2 [y2 [c2 [-> [D2 HD]]]]]. apply Den_chr in D2 as [c [-> [Hc ->]]].
    apply Den_seq in HD as [x3 [y3 [c3 [-> [D3 HD]]]]]. apply Den_lit in D3 as [-> ->].
    apply Den_seq in HD as [x4 [y4 [c4 [-> [D4 HD]]]]]. apply Den_lit in HD as [-> ->].
    apply Den_grp in D4 as [c5 [-> D4]]. apply Den_seq in D4 as [ds [y5 [c6 [-> [D5 D6]]]]].
    apply Den_plus_chr in D5 as [H1 [H2 ->]].
    apply Den_seq in D6 as [x6 [y6 [c7 [-> [D6 D7]]]]]. apply Den_chr in D6 as [a [-> [Ha ->]]].
    apply Den_chr in D7 as [d [-> [Hd ->]]].
    exists c, ds, a, d, rest. split; [auto|]. split; [auto|]. split; [auto|]. split; [reflexivity|].
    repeat (first [rewrite <- app_assoc | progress cbn [app]]); reflexivity. }
  split.
  - intros [m [H E]]. apply Sound in H as [c [ds [a [d [r [Hc [_ [_ [Hg ->]]]]]]]]]. exists c, r.
    split; [|congruence]. intros ->. discriminate Hc.
  - intros [c [r [Hc E]]].
    assert (Hm : re_match re_type t <> None).
    { apply re_match_iff. exists (`"https://ocfl" ++ c :: `"io/" ++ v ++ `"/spec/#inventory"), r, [(1%nat, v)].
      split; [rewrite E; repeat (first [rewrite <- app_assoc | progress cbn [app]]); reflexivity|].
      unfold re_type. apply Den_seq. exists (`"https://ocfl"), (c :: `"io/" ++ v ++ `"/spec/#inventory"), [].
      split; [reflexivity|]. split; [now apply Den_lit|].
      apply Den_seq. exists [c], (`"io/" ++ v ++ `"/spec/#inventory"), []. split; [reflexivity|]. split.
      { apply Den_chr. exists c. repeat split. unfold is_dot. apply negb_true_iff, N.eqb_neq. exact Hc. }
      apply Den_seq. exists (`"io/"), (v ++ `"/spec/#inventory"), []. split; [reflexivity|]. split; [now apply Den_lit|].
      apply Den_seq. exists v, (`"/spec/#inventory"), [(1%nat, v)]. split; [reflexivity|]. split; [|now apply Den_lit].
      apply Den_grp. exists []. split; [reflexivity|].
      apply Den_seq. exists [49%N], (skipn 1 v), []. split; [now destruct Hv as [<-|[<-|[]]]|]. split.
      { apply Den_plus_chr. repeat split; [discriminate|]. repeat constructor. }
      apply Den_seq. exists [46%N], (skipn 2 v), []. split; [now destruct Hv as [<-|[<-|[]]]|]. split.
      { apply Den_chr. exists 46%N. auto. }
      apply Den_chr. destruct Hv as [<-|[<-|[]]]; eexists; repeat split. }
    destruct (re_match re_type t) as [m|] eqn:Em; [|congruence]. exists m. split; [auto|].
    destruct (Sound m eq_refl) as [c' [ds [a [d [r' [_ [Hne [Hds [Hg E']]]]]]]]]. rewrite Hg.
    rewrite E in E'. apply app_inv_head in E'. injection E' as _ E'.
    assert (V : exists z, v = [49; 46; z]%N) by (destruct Hv as [<-|[<-|[]]]; eexists; reflexivity).
    destruct V as [z ->]. destruct ds as [|x [|y ds]]; [congruence| |].
    + injection E' as <- <- <- _. reflexivity.
    + exfalso. injection E' as _ E' _. inversion Hds as [|? ? _ H]. inversion H as [|? ? H' _]. subst y. discriminate H'.
Qed.

Definition forced (force : option str) (inv : json) : Prop :=
  match force with
  | Some ((_ :: _) as v) => member inv (`"type") (JStr (`"https://ocfl.io/" ++ v ++ `"/spec/#inventory"))
  | _ => True
  end.

Lemma clean_type force spec inv r : json_wf inv ->
  (clean (validate_type force spec inv) r <->
   (exists t, member inv (`"type") (JStr t) /\ r_type as_coded t r /\ In r [`"1.0"; `"1.1"]) /\ forced force inv).
Proof.
  intros Hw. unfold validate_type. rewrite clean_notin_get by auto.
  assert (F : forall t, member inv (`"type") (JStr t) ->
    (match force with
     | Some ((_ :: _) as f) => negb (str_eqb t (`"https://ocfl.io/" ++ f ++ `"/spec/#inventory"))
     | _ => false end = false <-> forced force inv)).
  { intros t Ht. destruct force as [[|c v]|]; cbn [forced]; try tauto.
    rewrite negb_false_iff, str_eqb_eq. split; [intros <-; auto|]. intros H.
    pose proof (member_fun _ _ _ _ Hw Ht H) as E. now injection E. }
  split.
  - intros [[v [Hm H]]|[_ H]]; [|now apply clean_bind_error in H].
    destruct v as [| | | |t| |]; try (now apply clean_bind_error in H). cbn zeta in H.
    apply clean_if_error in H as [Hf H]. apply (F t Hm) in Hf. split; [|auto]. exists t. split; [auto|].
    destruct (re_match re_type t) as [m|] eqn:E; [|now apply clean_bind_error in H].
    destruct (str_in_spec (group_or_nil 1 m) SPEC_VERSIONS_SUPPORTED) as [Hi|Hi]; [|now apply clean_bind_error in H].
    apply clean_ret in H. subst r. assert (Hi' : In (group_or_nil 1 m) [`"1.0"; `"1.1"]) by exact Hi.
    split; [|auto]. apply type_iff; auto. eauto.
  - intros [[t [Hm [Ht Hr]]] Hf]. left. exists (JStr t). split; [auto|]. cbn zeta. apply clean_if_error.
    split; [now apply (F t Hm)|]. apply type_iff in Ht as [m [-> E]]; auto. rewrite E.
    destruct (str_in_spec r SPEC_VERSIONS_SUPPORTED) as [Hi|Hi]; [now apply clean_ret|]. exfalso. apply Hi. exact Hr.
Qed.

Lemma json_eq_str_iff j s : json_eq_str j s = true <-> j = JStr s.
Proof.
  destruct j; simpl; try (split; [discriminate|discriminate]). rewrite str_eqb_eq. split; [intros ->; auto|now intros [= ->]].
Qed.

Lemma clean_algorithm inv r : json_wf inv ->
  (clean (validate_digest_algorithm false inv) (Some r) <->
   exists a, r = JStr a /\ member inv (`"digestAlgorithm") (JStr a) /\ In a [`"sha512"; `"sha256"]).
Proof.
  intros Hw. unfold validate_digest_algorithm. cbn zeta. rewrite clean_notin_get by auto. split.
  - intros [[v [Hm H]]|[_ H]]; [|now apply clean_bind_error in H].
    destruct (json_eq_str v (`"sha512")) eqn:E1.
    { apply json_eq_str_iff in E1. subst v. apply clean_ret in H. apply Some_inv in H. exists (`"sha512").
      split; [auto|]. split; [auto|]. now left. }
    destruct (json_eq_str v (`"sha256")) eqn:E2; [|now apply clean_bind_error in H].
    apply json_eq_str_iff in E2. subst v. rewrite clean_bind_warning in H. apply clean_ret in H. apply Some_inv in H.
    exists (`"sha256"). split; [auto|]. split; [auto|]. right. now left.
  - intros [a [-> [Hm Ha]]]. left. exists (JStr a). split; [auto|]. destruct Ha as [<-|[<-|[]]].
    + change (json_eq_str (JStr (`"sha512")) (`"sha512")) with true. cbv iota. now apply clean_ret.
    + change (json_eq_str (JStr (`"sha256")) (`"sha512")) with false.
      change (json_eq_str (JStr (`"sha256")) (`"sha256")) with true. cbv iota.
      rewrite clean_bind_warning. now apply clean_ret.
Qed.
Lemma clean_algorithm_none inv : json_wf inv -> ~ clean (validate_digest_algorithm false inv) None.
Proof.
  intros Hw. unfold validate_digest_algorithm. cbn zeta. rewrite clean_notin_get by auto.
  intros [[v [Hm H]]|[_ H]]; [|now apply clean_bind_error in H].
  destruct (json_eq_str v (`"sha512")); [apply clean_ret in H; discriminate|].
  destruct (json_eq_str v (`"sha256")); [rewrite clean_bind_warning in H; apply clean_ret in H; discriminate|].
  now apply clean_bind_error in H.
Qed.

Lemma clean_content_directory inv cd b : json_wf inv -> (exists d, inv = JObj d) ->
  (clean (validate_content_directory inv) (cd, b) <->
   if b then member inv (`"contentDirectory") (JStr cd) /\ r_content_directory as_coded cd
   else lacks inv (`"contentDirectory") /\ cd = `"content").
Proof.
  intros Hw [d ->]. unfold validate_content_directory. cbn zeta. rewrite clean_notin_get by auto. split.
  - intros [[v [Hm H]]|[E H]].
    + destruct v as [| | | |s| |]; try (now apply clean_bind_error in H).
      apply clean_if_error in H as [H1 H]. apply clean_if_error in H as [H2 H]. apply clean_ret in H.
      injection H as <- <-. split; [auto|]. destruct (char_in_spec 47 s) as [Hi|Hi]; [discriminate|].
      apply str_in_false in H2. simpl in H2. cbn [r_content_directory as_coded]. repeat split; auto; intros ->; tauto.
    + apply clean_ret in H. injection H as <- <-. split; [now apply py_lacks|reflexivity].
  - destruct b.
    + intros [Hm [H1 [H2 H3]]]. left. exists (JStr cd). split; [auto|]. apply clean_if_error.
      destruct (char_in_spec 47 cd) as [Hi|Hi]; [exfalso; apply H1; exact Hi|]. split; [auto|]. apply clean_if_error.
      split; [|now apply clean_ret]. apply str_in_false. intros [E|[E|[]]]; [apply H2|apply H3]; now rewrite <- E.
    + intros [H ->]. right. split; [now apply lacks_py|]. now apply clean_ret.
Qed.

(** ** The checks across blocks *)

Lemma hd_split_app v r : ~ In slash v -> hd [] (split_on 47 (v ++ slash :: r)) = v.
Proof. intros H. unfold slash. rewrite split_on_app; [reflexivity|exact H]. Qed.

Lemma clean_map_versions l all u :
  clean (check_content_paths_map_to_versions l all) u <-> Forall (fun p => In (hd [] (split_on 47 p)) all) l.
Proof.
  unfold check_content_paths_map_to_versions.
  rewrite (clean_wfold_unit (fun path => if str_in (hd [] (split_on 47 path)) all then wret tt else werror (`"E042b"))).
  apply Forall_iff. intros p. rewrite clean_when_ok. apply str_in_true.
Qed.

Lemma ascii_digits_digits ds : Forall ascii_digit ds -> Forall (fun c => is_digit c = true) ds.
Proof. apply Forall_impl. intros c Hc. now apply ascii_is_digit, ascii_digit_spec. Qed.

Lemma version_sequence_digits w all v : version_sequence w all -> In v all ->
  exists ds, v = `"v" ++ ds /\ ds <> [] /\ Forall (fun c => is_digit c = true) ds.
Proof.
  intros [_ H] Hi. apply In_nth_error in Hi as [i Hi]. apply H in Hi as [ds [-> [H1 [H2 _]]]].
  exists ds. split; [auto|]. split; [auto|]. now apply ascii_digits_digits.
Qed.

Lemma cpath_rule R cd f p w : f_cdir f = cd -> r_content R = r_content as_coded -> version_sequence w (f_versions f) ->
  ((exists dir, cpath cd p dir) /\ In (hd [] (split_on 47 p)) (f_versions f) <-> content_path R f p).
Proof.
  intros Hcd HR Hs. unfold content_path. rewrite Hcd, HR. cbn [r_content as_coded]. split.
  - intros [[dir [Hne [ds [rest [l [-> [H1 [H2 [H3 [H4 [H5 ->]]]]]]]]]]] Hi]. split; [auto|].
    unfold cp_text in Hi. rewrite hd_split_app in Hi by now apply digits_no_slash.
    exists (`"v" ++ ds), rest. split; [auto|]. split; [reflexivity|]. split; [exists l; auto|auto].
  - intros [Hne [v [rest [Hv [-> [[l [H3 H4]] H5]]]]]].
    destruct (version_sequence_digits w _ v Hs Hv) as [ds [-> [H1 H2]]]. split.
    + exists (cdir_of (`"v" ++ ds) cd l). split; [auto|]. exists ds, rest, l. repeat split; auto; apply H3.
    + now rewrite hd_split_app by now apply digits_no_slash.
Qed.

Lemma In_snd_entries a d x : In x (map snd (entries_of a d)) <->
  exists k j p, In (k, j) d /\ In p (strings j) /\ x = normalized_digest k a.
Proof.
  unfold entries_of. rewrite in_map_iff. split.
  - intros [[p y] [<- H]]. apply in_flat_map in H as [[k j] [Hk H]]. apply in_map_iff in H as [p' [E H]].
    cbn [fst snd] in *. injection E as -> <-. exists k, j, p. auto.
  - intros [k [j [p [Hk [Hp ->]]]]]. exists (p, normalized_digest k a). split; [reflexivity|].
    apply in_flat_map. exists (k, j). split; [auto|]. apply in_map_iff. exists p. auto.
Qed.

Lemma clean_present_used mf used u :
  clean (check_digests_present_and_used mf used) u <->
  incl used (map snd mf) /\ incl (map snd mf) used.
Proof.
  unfold check_digests_present_and_used. cbn zeta. rewrite clean_bind. split.
  - intros [x [H1 H2]]. apply clean_when_ok in H1, H2. rewrite forallb_forall in H1, H2.
    split; intros d Hd; apply str_in_true; auto.
  - intros [H1 H2]. exists tt. split; apply clean_when_ok; apply forallb_forall; intros d Hd; apply str_in_true; auto.
Qed.

Lemma norms_inj a re_ (man : dict json) k k' : digest_regex a = Ok re_ -> NoDup (keys man) -> NoDup (norms a man) ->
  In k (keys man) -> In k' (keys man) -> normalized_digest k a = normalized_digest k' a -> k = k'.
Proof.
  intros _ Hn Hd. unfold norms in Hd. rewrite <- map_map with (f := fst) (g := fun k => normalized_digest k a) in Hd.
  pose proof (proj1 (NoDup_map_inj _ _ Hn) Hd) as G. apply G.
Qed.

Lemma string_array_hd x p : string_array x -> In p (strings x) -> exists q qs, x = JArr (JStr q :: qs).
Proof.
  intros [l ->]. rewrite strings_map. destruct l as [|q l]; [intros []|]. intros _. exists q, (map JStr l). reflexivity.
Qed.

(** All states together: [sts] are the states of the versions in order. *)
Lemma present_used a re_ man sts : digest_regex a = Ok re_ -> NoDup (keys man) -> NoDup (norms a man) ->
  (forall k x, In (k, x) man -> string_array x) ->
  (forall st k x, In st sts -> In (k, x) st -> In k (keys man)) ->
  (incl (flat_map (norms a) sts) (map snd (entries_of a man)) /\ incl (map snd (entries_of a man)) (flat_map (norms a) sts) <->
   (forall st k x, In st sts -> In (k, x) st -> exists p ps, In (k, JArr (JStr p :: ps)) man) /\
   (forall k p ps, In (k, JArr (p :: ps)) man -> exists st x, In st sts /\ In (k, x) st)).
Proof.
  intros Hr Hn Hd Hs Hu. split.
  - intros [H1 H2]. split.
    + intros st k x Hst Hk.
      assert (Hi : In (normalized_digest k a) (flat_map (norms a) sts)).
      { apply in_flat_map. exists st. split; [auto|]. apply in_map_iff. exists (k, x). auto. }
      apply H1, In_snd_entries in Hi as [k' [j [p [Hk' [Hp E]]]]].
      assert (k = k') as <-.
      { apply (norms_inj a re_ man); auto; [now apply (Hu st k x)|]. apply in_map_iff. exists (k', j). auto. }
      destruct (string_array_hd j p (Hs _ _ Hk') Hp) as [q [qs ->]]. eauto.
    + intros k p ps Hk. assert (Hj := Hs _ _ Hk). destruct Hj as [l E]. destruct l as [|q l]; [discriminate|].
      injection E as -> ->.
      assert (Hi : In (normalized_digest k a) (map snd (entries_of a man))).
      { apply In_snd_entries. exists k, (JArr (map JStr (q :: l))), q. split; [auto|]. split; [|auto].
        rewrite strings_map. now left. }
      apply H2, in_flat_map in Hi as [st [Hst Hi]]. apply in_map_iff in Hi as [[k' x] [E Hi]]. cbn [fst] in E.
      assert (k' = k) as ->.
      { apply (norms_inj a re_ man); auto; [now apply (Hu st k' x)|]. apply in_map_iff. eexists. split; [|exact Hk]. reflexivity. }
      eauto.
  - intros [H1 H2]. split.
    + intros x Hx. apply in_flat_map in Hx as [st [Hst Hi]]. apply in_map_iff in Hi as [[k y] [<- Hi]].
      destruct (H1 _ _ _ Hst Hi) as [p [ps Hk]]. apply In_snd_entries. exists k, (JArr (JStr p :: ps)), p.
      split; [auto|]. split; [now left|reflexivity].
    + intros x Hx. apply In_snd_entries in Hx as [k [j [p [Hk [Hp ->]]]]].
      destruct (string_array_hd j p (Hs _ _ Hk) Hp) as [q [qs ->]].
      destruct (H2 _ _ _ Hk) as [st [y [Hst Hy]]]. apply in_flat_map. exists st. split; [auto|].
      apply in_map_iff. exists (k, y). auto.
Qed.

(** ** The whole inventory *)

Definition manifest_cond (a : str) (re_ : re) (cd : str) (man : dict json) : Prop :=
  Forall (fun kv => re_match re_ (fst kv) <> None /\ string_array (snd kv)) man /\ NoDup (listed man) /\ NoDup (norms a man) /\
  exists dirs, Forall2 (cpath cd) (listed man) dirs /\ forall dir, In dir dirs -> ~ In dir (listed man).

Lemma clean_blocks id spec a re_ cd b inv r : ~ In slash cd -> digest_regex a = Ok re_ -> json_wf inv ->
  (clean (validate_blocks false id spec (JStr a) (cd, b) inv) r <->
   exists man vs all w sts h before,
     member inv (`"manifest") (JObj man) /\ manifest_cond a re_ cd man /\
     member inv (`"versions") (JObj vs) /\ version_sequence w all /\ r_versions as_coded w (N.of_nat (List.length all)) /\
     Permutation (keys vs) all /\
     Forall2 (fun v st => exists bl, In (v, bl) vs /\ block_cond a re_ (adds (keys man) []) bl st) all sts /\
     member inv (`"head") (JStr h) /\ all = before ++ [h] /\
     r = (mk_iv id spec (JStr a) cd b all (Some (entries_of a man)) (Some (adds (keys man) [])) h,
          Some (listed man), flat_map (norms a) sts)).
Proof.
  intros Hcd Hr Hw. unfold validate_blocks. cbn [fst snd]. rewrite clean_bind. split.
  - intros [c1 [H1 H]]. apply clean_lift in H1. rewrite clean_bind in H. destruct H as [m [H2 H]].
    destruct c1; [|now apply clean_bind_error in H2].
    rewrite clean_bind in H2. destruct H2 as [mj [H2 H3]]. apply clean_lift in H2.
    pose proof (py_member _ _ _ H1 H2) as Hman. clear H1 H2.
    rewrite clean_bind in H3. destruct H3 as [mr [H3 H4]]. apply clean_ret in H4. subst m.
    apply (clean_manifest a re_) in H3; auto. destruct H3 as [man [dirs [-> [M1 [M2 [M3 [M4 [M5 ->]]]]]]]].
    cbn zeta iota in H. rewrite clean_bind in H. destruct H as [c2 [H1 H]]. apply clean_lift in H1.
    rewrite clean_bind in H. destruct H as [[all used] [H2 H]]. destruct c2; [|now apply clean_bind_error in H2].
    rewrite clean_bind in H2. destruct H2 as [vj [H2 H3]]. apply clean_lift in H2.
    pose proof (py_member _ _ _ H1 H2) as Hvs. clear H1 H2. pose proof (member_wf _ _ _ Hw Hvs) as Hvw.
    rewrite clean_bind in H3. destruct H3 as [all' [H3 H4]].
    apply clean_version_sequence in H3; [|intros d ->; now apply json_wf_obj in Hvw].
    destruct H3 as [vs [w [-> [V1 [V2 V3]]]]]. rewrite clean_bind in H4. destruct H4 as [used' [H4 H5]].
    apply clean_ret in H5. injection H5 as -> ->. apply (clean_versions a re_) in H4; auto.
    destruct H4 as [sts [V4 ->]].
    rewrite clean_bind in H. destruct H as [c3 [H1 H]]. apply clean_lift in H1.
    rewrite clean_bind in H. destruct H as [h [H2 H]]. apply clean_ret in H. subst r.
    destruct c3; [|now apply clean_bind_error in H2]. cbn [negb] in H2.
    destruct (last_opt all) as [h'|] eqn:El.
    2:{ exfalso. destruct V1 as [V1 _]. destruct all as [|x l]; [congruence|].
        destruct (exists_last V1) as [l' [y E]]. rewrite E, last_opt_app in El. discriminate. }
    apply last_opt_some in El as [before ->].
    rewrite clean_bind in H2. destruct H2 as [hv [H2 H3]]. apply clean_lift in H2.
    pose proof (py_member _ _ _ H1 H2) as Hh. rewrite clean_bind in H3. destruct H3 as [u [H3 H4]].
    apply clean_ret in H4. subst h'. apply clean_when_ok, json_eq_str_iff in H3. subst hv.
    exists man, vs, (before ++ [h]), w, sts, h, before. unfold manifest_cond.
    split; [auto|]. split; [split; [auto|split; [auto|split; [auto|exists dirs; auto]]]|]. repeat (split; [auto|]). auto.
  - intros [man [vs [all [w [sts [h [before [Hman [[M1 [M3 [M4 [dirs [M2 M5]]]]] [Hvs [V1 [V2 [V3 [V4 [Hh [El ->]]]]]]]]]]]]]]]].
    destruct (member_py _ _ _ Hw Hman) as [E1 E2]. destruct (member_py _ _ _ Hw Hvs) as [E3 E4].
    destruct (member_py _ _ _ Hw Hh) as [E5 E6]. pose proof (member_wf _ _ _ Hw Hvs) as Hvw.
    exists true. split; [now apply clean_lift|]. rewrite clean_bind.
    exists (Some (entries_of a man, listed man, adds (keys man) [])). split.
    { rewrite clean_bind. exists (JObj man). split; [now apply clean_lift|]. rewrite clean_bind.
      eexists. split; [|now apply clean_ret]. apply (clean_manifest a re_); auto. exists man, dirs. repeat split; auto. }
    cbn zeta iota. rewrite clean_bind. exists true. split; [now apply clean_lift|].
    rewrite clean_bind. exists (all, flat_map (norms a) sts). split.
    { rewrite clean_bind. exists (JObj vs). split; [now apply clean_lift|]. rewrite clean_bind. exists all. split.
      - apply clean_version_sequence; [intros d E; injection E as <-; now apply json_wf_obj in Hvw|].
        exists vs, w. auto.
      - rewrite clean_bind. eexists. split; [|now apply clean_ret]. apply (clean_versions a re_); auto. exists sts. auto. }
    rewrite clean_bind. exists true. split; [now apply clean_lift|].
    rewrite clean_bind. exists h. split; [|now apply clean_ret]. cbn [negb]. rewrite El, last_opt_app.
    rewrite clean_bind. exists (JStr h). split; [now apply clean_lift|]. rewrite clean_bind. exists tt.
    split; [|now apply clean_ret]. apply clean_when_ok. now apply json_eq_str_iff.
Qed.

Definition accepted (f : facts) (h : str) : iv :=
  mk_iv (Some (f_id f)) (f_spec f) (JStr (f_alg f)) (f_cdir f) (f_cdir_set f) (f_versions f)
    (Some (entries_of (f_alg f) (f_manifest f))) (Some (adds (keys (f_manifest f)) [])) h.

Lemma clean_rest st correct used inv u man : json_wf inv -> (exists d, inv = JObj d) ->
  iv_manifest_files st = Some man ->
  (clean (validate_rest false st (Some correct) used inv) u <->
   Forall (fun p => In (hd [] (split_on 47 p)) (iv_all_versions st)) correct /\
   (incl used (map snd man) /\ incl (map snd man) used) /\
   (lacks inv (`"fixity") \/ exists fx, member inv (`"fixity") fx /\
      clean (validate_fixity false (iv_spec_version st) fx (Some man)) u)).
Proof.
  intros Hw [d ->] Hm. unfold validate_rest. rewrite Hm, clean_bind. split.
  - intros [u1 [H1 H]]. apply clean_map_versions in H1. rewrite clean_bind in H. destruct H as [u2 [H2 H]].
    apply clean_present_used in H2. rewrite clean_in_get in H by auto. split; [auto|]. split; [auto|].
    destruct H as [H|[H _]]; [auto|left; now apply py_lacks].
  - intros [H1 [H2 H3]]. exists tt. split; [now apply clean_map_versions|]. rewrite clean_bind. exists tt.
    split; [now apply clean_present_used|]. rewrite clean_in_get by auto.
    destruct H3 as [H3|H3]; [right; split; [now apply lacks_py|destruct u; now apply clean_ret]|auto].
Qed.

Lemma r_content_directory_slash cd : r_content_directory as_coded cd -> ~ In slash cd.
Proof. now intros [H _]. Qed.

Lemma state_cond_rule a re_ f st : digest_regex a = Ok re_ -> f_alg f = a ->
  ((state_cond a re_ (adds (keys (f_manifest f)) []) st /\
    forall k x, In (k, x) st -> exists p ps, In (k, JArr (JStr p :: ps)) (f_manifest f)) <->
   state_rule as_coded f st).
Proof.
  intros Hr Ha. unfold state_cond, state_rule. rewrite Ha, !Forall_forall. split.
  - intros [[H1 [H2 [H3 H4]]] H5]. split.
    { intros d x Hd. apply H1 in Hd as [K1 [K2 _]]. split; [now apply (digest_regex_iff a re_)|auto]. }
    repeat (split; [auto|]). intros p q Hp Hq Hab. apply (H4 p q Hp Hq). apply ldir_above; [|auto].
    apply plain_path_nonnil. auto.
  - intros [H1 [H2 [H3 [H4 H5]]]]. split; [|auto]. split.
    { intros [k x] Hk. cbn [fst snd]. destruct (H1 _ _ Hk) as [K1 K2]. split; [now apply (digest_regex_iff a re_)|].
      split; [auto|]. apply In_adds. left. destruct (H2 _ _ Hk) as [p [ps Hi]]. apply in_map_iff. eexists. split; [|exact Hi]. reflexivity. }
    split; [auto|]. split; [auto|]. intros p q Hp Hq E. apply (H5 p q Hp Hq). apply ldir_above; [|auto].
    apply plain_path_nonnil. auto.
Qed.

Lemma Forall2_choose {A B} (P : A -> B -> Prop) l : (forall x, In x l -> exists y, P x y) -> exists ys, Forall2 P l ys.
Proof.
  induction l as [|x l IH]; intros H; [exists []; constructor|].
  destruct (H x (or_introl eq_refl)) as [y Hy]. destruct IH as [ys Hys]; [intros z Hz; apply H; now right|].
  exists (y :: ys). now constructor.
Qed.

Lemma Forall2_imp {A B} (P Q : A -> B -> Prop) l m : (forall x y, P x y -> Q x y) -> Forall2 P l m -> Forall2 Q l m.
Proof. intros H. induction 1; constructor; auto. Qed.

Theorem validate_body_iff dsv force inv st : json_wf inv ->
  (clean (validate_body false dsv force inv) (st, true) <->
   exists f h before, obeys as_coded inv f /\ forced force inv /\ f_versions f = before ++ [h] /\
     member inv (`"head") (JStr h) /\ st = accepted f h).
Proof.
  intros Hw. unfold validate_body. cbn zeta. rewrite clean_bind. split.
  - intros [id [H1 H]]. apply clean_id in H1; auto. destruct H1 as [i [Hi [Hi0 ->]]].
    assert (Hobj : exists d, inv = JObj d) by (destruct Hi as [d [-> _]]; eauto).
    rewrite clean_bind in H. destruct H as [spec [H1 H]]. apply clean_type in H1; auto. destruct H1 as [[t [Ht [Ht1 Ht2]]] Hf].
    rewrite clean_bind in H. destruct H as [[alg|] [H1 H]]; [|now apply clean_algorithm_none in H1].
    apply clean_algorithm in H1; auto. destruct H1 as [a [-> [Ha Ha1]]].
    rewrite clean_bind in H. destruct H as [[cd b] [H1 H]]. apply clean_content_directory in H1; auto.
    assert (Hcd : ~ In slash cd).
    { destruct b; destruct H1 as [_ H1]; [now apply r_content_directory_slash|subst cd; simpl; intuition discriminate]. }
    assert (Hr : exists re_, digest_regex a = Ok re_).
    { apply known_algorithm. left. destruct Ha1 as [<-|[<-|[]]]; eexists; constructor. }
    destruct Hr as [re_ Hr].
    rewrite clean_bind in H. destruct H as [[[s1 correct] used] [H2 H]].
    apply (clean_blocks _ _ a re_) in H2; auto.
    destruct H2 as [man [vs [all [w [sts [h [before [Hman [[M1 [M3 [M4 M2]]] [Hvs [V1 [V2 [V3 [V4 [Hh [El E]]]]]]]]]]]]]]]].
    injection E as -> -> ->. cbn [iv_all_versions] in H. destruct all as [|v1 all']; [now destruct V1|].
    rewrite clean_bind in H. destruct H as [u [H2 H]]. apply clean_ret in H. injection H as <-.
    eapply clean_rest in H2; [|auto|auto|reflexivity]. cbn [iv_all_versions iv_spec_version] in H2.
    destruct H2 as [R1 [R2 R3]]. set (all := v1 :: all') in *.
    pose proof (member_wf _ _ _ Hw Hman) as Hmw. apply json_wf_obj in Hmw as [Hmn _].
    pose proof (member_wf _ _ _ Hw Hvs) as Hvw. apply json_wf_obj in Hvw as [Hvn _].
    rewrite Forall_forall in M1.
    assert (St : forall st, In st sts -> exists v bl, In v all /\ In (v, bl) vs /\ block_cond a re_ (adds (keys man) []) bl st).
    { intros st Hst. apply (Forall2_in_r _ _ _ V4) in Hst as [v [Hv [bl Hb]]]. exists v, bl. tauto. }
    apply (present_used a re_) in R2; auto.
    3:{ intros st k x Hst Hk. apply St in Hst as [v [bl [_ [_ [_ [_ [_ [_ [Hs _]]]]]]]]]. rewrite Forall_forall in Hs.
        apply Hs in Hk as [_ [_ Hk]]. cbn [fst] in Hk. apply In_adds in Hk as [Hk|[]]. auto. }
    2:{ intros k x Hk. apply M1 in Hk. apply Hk. }
    destruct R2 as [P1 P2]. apply cpath_conflicts in M2 as [M2 M5]; auto.
    set (f := {| f_id := i; f_spec := spec; f_alg := a; f_cdir := cd; f_cdir_set := b; f_versions := all; f_manifest := man |}).
    exists f, h, before. split; [|split; [auto|split; [exact El|split; [auto|reflexivity]]]].
    split; [split; auto|]. split; [exists t; auto|]. split; [split; auto|]. split; [exact H1|].
    split.
    { split; [auto|]. split; [intros d x Hd; apply M1 in Hd as [K1 K2]; split; [now apply (digest_regex_iff a re_)|auto]|].
      split; [now apply (distinct_iff a re_)|]. split; [|auto].
      intros p Hp. apply (cpath_rule as_coded cd f p w); auto. split; [now apply M2|]. rewrite Forall_forall in R1. now apply R1. }
    split; [exists h, before; auto|].
    split.
    { destruct R3 as [R3|[fx [Hfx R3]]]; [now left|right].
      apply clean_fixity in R3; [|now apply (member_wf inv (`"fixity"))]. destruct R3 as [d [-> R3]].
      rewrite keys_entries in R3. exists d. split; [auto|exact R3]. }
    exists vs. split; [split; [auto|split; [exists w; auto|auto]]|]. split.
    + intros v bl Hv. assert (Hva : In v all). { apply (Permutation_in _ V3), in_map_iff. eexists. split; [|exact Hv]. reflexivity. }
      apply (Forall2_in_l _ _ _ V4) in Hva as [st [Hst [bl' [Hv' [B1 [B2 [B3 [B4 B5]]]]]]]].
      assert (bl' = bl) as -> by (apply In_dget in Hv, Hv'; auto; congruence).
      exists st. split; [auto|split; [auto|split; [auto|split; [auto|]]]]. apply (state_cond_rule a re_ f); auto. split; [auto|].
      intros k x Hk. now apply (P1 st k x).
    + intros k p ps Hk. destruct (P2 k p ps Hk) as [st [x [Hst Hx]]]. apply St in Hst as [v [bl [_ [Hv [_ [_ [_ [Hm _]]]]]]]].
      exists v, bl, st, x. auto.
  - intros [f [h [before [Hob [Hf [El [Hh ->]]]]]]].
    destruct Hob as [[Hi Hi0] [Ht [[Ha Ha1] [Hcdr [[Hman [M1 [M2 [M3 [M4 M5]]]]] [_ [Hfx Hob]]]]]]].
    destruct Hob as [vs [[Hvs [[w [V1 V2]] V3]] [Hblk Hused]]].
    assert (Hobj : exists d, inv = JObj d) by (destruct Hi as [d [-> _]]; eauto).
    exists (Some (f_id f)). split; [apply clean_id; eauto|].
    rewrite clean_bind. exists (f_spec f). split; [now apply clean_type|].
    rewrite clean_bind. exists (Some (JStr (f_alg f))). split; [apply clean_algorithm; eauto|].
    rewrite clean_bind. exists (f_cdir f, f_cdir_set f). split; [now apply clean_content_directory|].
    assert (Hcd : ~ In slash (f_cdir f)).
    { unfold content_directory_rule in Hcdr. destruct (f_cdir_set f); destruct Hcdr as [_ Hcdr];
        [now apply r_content_directory_slash|rewrite Hcdr; simpl; intuition discriminate]. }
    assert (Hr : exists re_, digest_regex (f_alg f) = Ok re_).
    { apply known_algorithm. left. destruct Ha1 as [<-|[<-|[]]]; eexists; constructor. }
    destruct Hr as [re_ Hr].
    pose proof (member_wf _ _ _ Hw Hman) as Hmw. apply json_wf_obj in Hmw as [Hmn _].
    pose proof (member_wf _ _ _ Hw Hvs) as Hvw. apply json_wf_obj in Hvw as [Hvn _].
    destruct (Forall2_choose (fun v st => exists bl, In (v, bl) vs /\ block_rule as_coded f bl st) (f_versions f)) as [sts Hsts].
    { intros v Hv. apply (Permutation_in _ (Permutation_sym V3)), in_map_iff in Hv as [[v' bl] [E Hv]]. cbn [fst] in E. subst v'.
      destruct (Hblk _ _ Hv) as [st Hst]. exists st, bl. auto. }
    assert (St : forall st, In st sts -> exists v bl, In v (f_versions f) /\ In (v, bl) vs /\ block_rule as_coded f bl st).
    { intros st Hst. apply (Forall2_in_r _ _ _ Hsts) in Hst as [v [Hv [bl Hb]]]. exists v, bl. tauto. }
    assert (Hall : (forall p, In p (listed (f_manifest f)) -> exists dir, cpath (f_cdir f) p dir) /\
      Forall (fun p => In (hd [] (split_on 47 p)) (f_versions f)) (listed (f_manifest f))).
    { split; [|apply Forall_forall]; intros p Hp; apply M3 in Hp; apply (cpath_rule as_coded (f_cdir f) f p w) in Hp; auto; tauto. }
    destruct Hall as [C1 C2].
    assert (Hnn : NoDup (norms (f_alg f) (f_manifest f))) by (apply (distinct_iff _ re_); auto).
    rewrite clean_bind. exists (accepted f h, Some (listed (f_manifest f)), flat_map (norms (f_alg f)) sts). split.
    { apply (clean_blocks _ _ _ re_); auto. exists (f_manifest f), vs, (f_versions f), w, sts, h, before.
      split; [auto|]. split.
      { split; [apply Forall_forall; intros [k x] Hk; apply M1 in Hk as [K1 K2]; split; [now apply (digest_regex_iff (f_alg f) re_)|auto]|].
        split; [auto|]. split; [auto|]. apply cpath_conflicts; auto. }
      split; [auto|]. split; [auto|]. split; [auto|]. split; [auto|]. split; [|auto].
      eapply Forall2_imp; [|exact Hsts]. intros v st [bl [Hv [B1 [B2 [B3 [B4 B5]]]]]]. exists bl. split; [auto|].
      apply (state_cond_rule (f_alg f) re_) in B5 as [B5 _]; auto. split; [auto|split; [auto|split; [auto|split; auto]]]. }
    cbn [iv_all_versions accepted]. destruct (f_versions f) as [|v1 all'] eqn:Ev; [now destruct V1|]. rewrite <- Ev in *.
    rewrite clean_bind. exists tt. split; [|now apply clean_ret].
    eapply clean_rest; [auto|auto|reflexivity|]. cbn [iv_all_versions iv_spec_version].
    split; [exact C2|]. split.
    { apply (present_used _ re_); auto.
      - intros k x Hk. apply M1 in Hk. tauto.
      - intros st k x Hst Hk. apply St in Hst as [v [bl [_ [_ [_ [_ [_ [_ [_ [Hs _]]]]]]]]]].
        destruct (Hs _ _ Hk) as [p [ps Hi']]. apply in_map_iff. eexists. split; [|exact Hi']. reflexivity.
      - split.
        + intros st k x Hst Hk. apply St in Hst as [v [bl [_ [_ [_ [_ [_ [_ [_ [Hs _]]]]]]]]]]. now apply (Hs k x).
        + intros k p ps Hk. destruct (Hused _ _ _ Hk) as [v [bl [st [x [Hv [Hm Hx]]]]]].
          assert (Hva : In v (f_versions f)). { apply (Permutation_in _ V3), in_map_iff. eexists. split; [|exact Hv]. reflexivity. }
          apply (Forall2_in_l _ _ _ Hsts) in Hva as [st' [Hst [bl' [Hv' [_ [_ [_ [Hm' _]]]]]]]].
          assert (bl' = bl) as -> by (apply In_dget in Hv, Hv'; auto; congruence).
          assert (Hblw : json_wf bl). { pose proof (member_wf _ _ _ Hw Hvs) as Hvw. apply json_wf_obj in Hvw as [_ Hvw]. rewrite Forall_forall in Hvw. apply (Hvw (v, bl) Hv). }
          pose proof (member_fun _ _ _ _ Hblw Hm Hm') as E. injection E as ->. exists st', x. auto. }
    destruct Hfx as [Hfx|[fx [Hfx Hfr]]]; [now left|right]. exists (JObj fx). split; [auto|].
    apply clean_fixity; [now apply (member_wf inv (`"fixity"))|]. exists fx. split; [auto|]. rewrite keys_entries. exact Hfr.
Qed.

Theorem iv_validate_iff dsv force inv st : json_wf inv ->
  (snd (iv_validate false dsv force inv) = Ok (st, true) <->
   exists f h before, obeys as_coded inv f /\ forced force inv /\ f_versions f = before ++ [h] /\
     member inv (`"head") (JStr h) /\ st = accepted f h).
Proof.
  intros Hw. rewrite <- (validate_body_iff dsv) by auto. unfold iv_validate, clean.
  destruct (validate_body false dsv force inv) as [log [[st' [|]]|e]]; cbn [fst snd]; split.
  - intros H. apply Ok_inv in H. injection H as -> H. rewrite H. auto.
  - intros [H ->]. apply Ok_inv in H. now injection H as ->.
  - intros H. apply Ok_inv in H. injection H as _ H. discriminate.
  - intros [H _]. apply Ok_inv in H. injection H as _ H. discriminate.
  - discriminate.
  - intros [H _]. discriminate.
Qed.
