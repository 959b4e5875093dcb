(** Proofs about InventoryValidatorModel: what a run without errors means. *)
From Coq Require Import Permutation.
From Verif Require Import Base Unicode Utf8 Regex Json PyJson Log ObjectUtilsModel DigestModel DatetimeModel DatetimeSpec
  InventorySpec InventoryValidatorModel ObjectUtilsProofs LayoutProofs DatetimeProofs.

(** ** Greedy repetition *)

Lemma mstar_chr p : forall x fuel r c k v,
  (List.length x <= fuel)%nat -> Forall (fun a => p a = true) x -> k r c = Some v ->
  (match r with [] => True | a :: _ => p a = false end) ->
  mstar (rmatch (RChr p)) fuel (x ++ r) c k = Some v.
Proof.
  induction x as [|a x IH]; intros fuel r c k v Hl Hf Hk Hr.
  - simpl. destruct fuel as [|fuel]; [exact Hk|]. cbn [mstar rmatch].
    destruct r as [|b r]; [exact Hk|]. now rewrite Hr.
  - destruct fuel as [|fuel]; [simpl in Hl; lia|].
    change (mstar (rmatch (RChr p)) (S fuel) ((a :: x) ++ r) c k) with
      (match (if p a then (if (List.length (x ++ r) <? S (List.length (x ++ r)))%nat
                           then mstar (rmatch (RChr p)) fuel (x ++ r) c k else None) else None)
       with Some v => Some v | None => k (a :: x ++ r) c end).
    rewrite (Forall_inv Hf).
    rewrite (proj2 (Nat.ltb_lt (List.length (x ++ r)) (S (List.length (x ++ r)))) ltac:(lia)).
    rewrite (IH fuel r c k v); auto; [simpl in Hl; lia|]. now inversion Hf.
Qed.

Lemma rmatch_star p x r c k v :
  Forall (fun a => p a = true) x -> k r c = Some v ->
  (match r with [] => True | a :: _ => p a = false end) ->
  rmatch (RStar (RChr p)) (x ++ r) c k = Some v.
Proof. intros. cbn [rmatch]. apply mstar_chr; auto. rewrite app_length. lia. Qed.

Lemma rmatch_plus p x r c k v :
  x <> [] -> Forall (fun a => p a = true) x -> k r c = Some v ->
  (match r with [] => True | a :: _ => p a = false end) ->
  rmatch (rplus (RChr p)) (x ++ r) c k = Some v.
Proof.
  intros Hx Hf Hk Hr. destruct x as [|a x]; [congruence|]. unfold rplus. cbn [rmatch app].
  rewrite (Forall_inv Hf). apply (rmatch_star p x r c k v); auto. now inversion Hf.
Qed.

Lemma rmatch_lit l : forall r c k, rmatch (rlit l) (l ++ r) c k = k r c.
Proof.
  induction l as [|a l IH]; intros r c k; [reflexivity|]. cbn [rlit rmatch app rchar].
  now rewrite N.eqb_refl, IH.
Qed.

Lemma split_line s : exists l t, s = l ++ t /\ ~ In newline l /\ (t = [] \/ exists r, t = newline :: r).
Proof.
  induction s as [|a s [l [t [-> [Hl Ht]]]]].
  - exists [], []. repeat split; auto.
  - destruct (N.eq_dec a newline) as [->|Ha].
    + exists [], (newline :: l ++ t). repeat split; eauto.
    + exists (a :: l), t. split; [reflexivity|]. split; [|exact Ht]. intros [E|E]; auto.
Qed.

Lemma first_line_app l t : ~ In newline l -> (t = [] \/ exists r, t = newline :: r) -> first_line (l ++ t) l.
Proof.
  intros Hl [->|[r ->]]; (split; [exact Hl|]); [left; now rewrite app_nil_r|right; eauto].
Qed.

Lemma first_line_inv s l : first_line s l ->
  exists t, s = l ++ t /\ ~ In newline l /\ (t = [] \/ exists r, t = newline :: r).
Proof.
  intros [Hl [->|[r ->]]]; [exists []|exists (newline :: r)]; repeat split; eauto. now rewrite app_nil_r.
Qed.

Lemma first_line_ex s : exists l, first_line s l.
Proof. destruct (split_line s) as [l [t [-> [Hl Ht]]]]. exists l. now apply first_line_app. Qed.

Lemma first_line_unique s a b : first_line s a -> first_line s b -> a = b.
Proof.
  intros Ha Hb. apply first_line_inv in Ha as [t [-> [Ha Ht]]], Hb as [u [E [Hb Hu]]].
  revert a Ha E. induction b as [|x b IH]; intros a Ha E.
  - destruct a as [|y a]; [reflexivity|]. simpl in E. destruct Hu as [->|[r ->]]; [discriminate|].
    injection E as -> _. exfalso. apply Ha. now left.
  - destruct a as [|y a].
    + simpl in E. destruct Ht as [->|[r ->]]; [discriminate|]. injection E as <- _. exfalso. apply Hb. now left.
    + injection E as -> E. f_equal. apply IH; auto; intros Hi; [apply Hb|apply Ha]; now right.
Qed.

Definition cp_text (ds g2 rest : str) : str := (`"v" ++ ds) ++ slash :: g2 ++ slash :: rest.

Lemma not_slash c : negb (c =? 47)%N = true <-> c <> slash.
Proof. rewrite negb_true_iff. apply N.eqb_neq. Qed.
Lemma Forall_not_slash g : Forall (fun c => negb (c =? 47)%N = true) g <-> ~ In slash g.
Proof.
  rewrite Forall_forall. split.
  - intros H Hi. apply H in Hi. now apply not_slash in Hi.
  - intros H c Hc. apply not_slash. now intros ->.
Qed.
Lemma Forall_is_dot g : Forall (fun c => is_dot c = true) g <-> ~ In newline g.
Proof.
  rewrite Forall_forall. split.
  - intros H Hi. apply H in Hi. now vm_compute in Hi.
  - intros H c Hc. unfold is_dot. rewrite negb_true_iff. apply N.eqb_neq. now intros ->.
Qed.

Lemma slash_not_digit : is_digit 47 = false. Proof. vm_compute. reflexivity. Qed.

Lemma firstn_len_app {A} (a b : list A) : firstn (List.length (a ++ b) - List.length b) (a ++ b) = a.
Proof.
  rewrite app_length, Nat.add_sub. rewrite firstn_app, Nat.sub_diag, firstn_all. simpl. apply app_nil_r.
Qed.

Lemma content_path_match ds g2 l t :
  ds <> [] -> Forall (fun c => is_digit c = true) ds -> g2 <> [] -> ~ In slash g2 -> l <> [] -> first_line (l ++ t) l ->
  re_match re_content_path (cp_text ds g2 (l ++ t)) = Some [(3, l); (2, g2); (1, `"v" ++ ds)]%nat.
Proof.
  intros Hds Hdf Hg2 Hg2s Hl Hline.
  apply first_line_inv in Hline as [t' [E [Hln Ht]]]. apply app_inv_head in E. subst t'.
  unfold re_match, re_content_path, cp_text. cbn [option_map].
  set (k := fun (s' : str) (c' : caps) => Some (s', c')).
  assert (G : forall s c k, rmatch (RGroup 1 (RSeq (rlit (`"v")) (rplus rdigit))) s c k =
            rmatch (rlit (`"v")) s c (fun s1 c1 => rmatch (rplus rdigit) s1 c1
              (fun s' c' => k s' ((1%nat, firstn (List.length s - List.length s') s) :: c')))) by reflexivity.
  match goal with |- option_map snd (rmatch (RSeq ?a ?b) ?s ?c ?k) = _ =>
    change (rmatch (RSeq a b) s c k) with (rmatch a s c (fun s' c' => rmatch b s' c' k)) end.
  rewrite G, <- app_assoc, rmatch_lit.
  erewrite (rmatch_plus is_digit ds); [|exact Hds|exact Hdf| |apply slash_not_digit].
  2:{ match goal with |- rmatch (RSeq ?a ?b) ?s ?c ?k = _ =>
        change (rmatch (RSeq a b) s c k) with (rmatch a s c (fun s' c' => rmatch b s' c' k)) end.
      change (slash :: g2 ++ slash :: l ++ t) with (`"/" ++ g2 ++ slash :: l ++ t). rewrite rmatch_lit.
      match goal with |- rmatch (RSeq ?a ?b) ?s ?c ?k = _ =>
        change (rmatch (RSeq a b) s c k) with (rmatch a s c (fun s' c' => rmatch b s' c' k)) end.
      match goal with |- rmatch (RGroup ?n ?a) ?s ?c ?k = _ =>
        change (rmatch (RGroup n a) s c k) with
          (rmatch a s c (fun s' c' => k s' ((n, firstn (List.length s - List.length s') s) :: c'))) end.
      apply (rmatch_plus (fun c => negb (c =? 47)%N) g2); [exact Hg2|now apply Forall_not_slash| |reflexivity].
      match goal with |- rmatch (RSeq ?a ?b) ?s ?c ?k = _ =>
        change (rmatch (RSeq a b) s c k) with (rmatch a s c (fun s' c' => rmatch b s' c' k)) end.
      change (slash :: l ++ t) with (`"/" ++ l ++ t). rewrite rmatch_lit.
      match goal with |- rmatch (RGroup ?n ?a) ?s ?c ?k = _ =>
        change (rmatch (RGroup n a) s c k) with
          (rmatch a s c (fun s' c' => k s' ((n, firstn (List.length s - List.length s') s) :: c'))) end.
      apply (rmatch_plus is_dot l); [exact Hl|now apply Forall_is_dot|reflexivity|].
      destruct Ht as [->|[r ->]]; [exact I|vm_compute; reflexivity]. }
  cbn [option_map snd]. f_equal. f_equal; [|f_equal; [|f_equal]]; f_equal.
  - apply firstn_len_app.
  - apply (firstn_len_app g2 (slash :: l ++ t)).
  - rewrite app_assoc. apply firstn_len_app.
Qed.

Lemma content_path_regex s m :
  re_match re_content_path s = Some m ->
  exists ds g2 l t, s = cp_text ds g2 (l ++ t) /\ ds <> [] /\ Forall (fun c => is_digit c = true) ds /\
    g2 <> [] /\ ~ In slash g2 /\ l <> [] /\ first_line (l ++ t) l /\
    m = [(3, l); (2, g2); (1, `"v" ++ ds)]%nat.
Proof.
  intros H. pose proof H as H0. apply re_match_sound in H as [x [rest [-> HD]]].
  unfold re_content_path in HD.
  apply Den_seq in HD as [x1 [x2 [c1 [-> [D1 HD]]]]]. apply Den_grp in D1 as [c1' [-> D1]].
  apply Den_seq in D1 as [y1 [ds [c2 [-> [D1 D2]]]]]. apply Den_lit in D1 as [-> ->].
  unfold rdigit in D2. apply Den_plus_chr in D2 as [Hds [Hdf ->]].
  apply Den_seq in HD as [z1 [x3 [c3 [-> [D1 HD]]]]]. apply Den_lit in D1 as [-> ->].
  apply Den_seq in HD as [g1 [x4 [c4 [-> [D1 HD]]]]]. apply Den_grp in D1 as [c5 [-> D1]].
  apply Den_plus_chr in D1 as [Hg [Hgf ->]].
  apply Den_seq in HD as [z2 [x5 [c6 [-> [D1 HD]]]]]. apply Den_lit in D1 as [-> ->].
  apply Den_grp in HD as [c7 [-> D1]]. unfold rdot in D1. apply Den_plus_chr in D1 as [Hl [Hlf ->]].
  destruct (split_line rest) as [l2 [t [-> [Hl2 Ht]]]].
  exists ds, g1, (x5 ++ l2), t.
  assert (E : (((`"v" ++ ds) ++ `"/" ++ g1 ++ `"/" ++ x5) ++ l2 ++ t) = cp_text ds g1 ((x5 ++ l2) ++ t)).
  { unfold cp_text. change (`"/") with [slash]. repeat (first [rewrite <- app_assoc | progress cbn [app]]). reflexivity. }
  assert (Hln : ~ In newline (x5 ++ l2)).
  { rewrite in_app_iff. intros [Hi|Hi]; [|auto]. now apply Forall_is_dot in Hlf. }
  assert (Hnn : x5 ++ l2 <> []) by (destruct x5; [congruence|discriminate]).
  assert (Hs : ~ In slash g1) by now apply Forall_not_slash.
  assert (Hfl : first_line ((x5 ++ l2) ++ t) (x5 ++ l2)) by now apply first_line_app.
  rewrite E in H0 |- *. rewrite content_path_match in H0; auto. apply Some_inv in H0.
  split; [reflexivity|]. tauto.
Qed.

(** ** Path elements *)

Lemma elements_split p es : elements p es <-> es = split_on 47 p.
Proof.
  split.
  - induction 1 as [e He|e p es He Hp IH].
    + now rewrite split_on_single.
    + rewrite split_on_app by exact He. now rewrite IH.
  - intros ->. pose proof (split_on_noc 47 p) as Hn. rewrite <- (join_split 47 p) at 1.
    pose proof (split_on_nonnil 47 p) as Hne. revert Hn Hne. generalize (split_on 47 p) as l.
    induction l as [|e l IH]; intros Hn Hne; [congruence|].
    destruct l as [|e2 l].
    + apply E_last. apply Hn. now left.
    + rewrite join_cons by discriminate. apply E_more; [apply Hn; now left|].
      apply IH; [intros x Hx; apply Hn; now right|discriminate].
Qed.

Lemma bad_element_false e : bad_element e = false <-> plain e.
Proof.
  unfold bad_element, plain. rewrite str_in_false. cbn [In]. split.
  - intros H. repeat split; intros ->; apply H; auto.
  - intros [H1 [H2 H3]] [E|[E|[E|[]]]]; [apply H1|apply H2|apply H3]; symmetry; exact E.
Qed.

Lemma bad_elements_false es : existsb bad_element es = false <-> Forall plain es.
Proof.
  induction es as [|e es IH]; simpl; [split; auto|].
  rewrite orb_false_iff, IH, bad_element_false. split; [intros [? ?]; constructor; auto|].
  intros H; inversion H; auto.
Qed.

Lemma plain_path_split p : plain_path p <-> existsb bad_element (split_on 47 p) = false.
Proof.
  rewrite bad_elements_false. unfold plain_path. split.
  - intros [es [H1 H2]]. apply elements_split in H1. now subst.
  - intros H. exists (split_on 47 p). split; [now apply elements_split|auto].
Qed.

Lemma plain_path_nonnil p : plain_path p -> p <> [].
Proof. intros [es [H1 H2]] ->. inversion H1; subst; [|destruct e; discriminate]. apply Forall_inv in H2. now destruct H2. Qed.

(** ** Content paths *)

Definition cdir_of (v cd l : str) : str := join (`"/") ([v; cd] ++ removelast (split_on 47 l)).

Definition cpath (cd p dir : str) : Prop :=
  cd <> [] /\ exists ds rest l,
    p = cp_text ds cd rest /\ ds <> [] /\ Forall (fun c => is_digit c = true) ds /\
    first_line rest l /\ plain_path l /\ (forall r, rest <> r ++ [slash]) /\
    dir = cdir_of (`"v" ++ ds) cd l.

Lemma ends_slash_cp ds cd rest : rest <> [] ->
  (endswith (`"/") (cp_text ds cd rest) = true <-> exists r, rest = r ++ [slash]).
Proof.
  intros Hr. rewrite endswith_spec. split.
  - intros [r E]. unfold cp_text in E. destruct (exists_last Hr) as [r' [c ->]].
    exists r'. change (`"/") with [slash] in E.
    replace ((`"v" ++ ds) ++ slash :: cd ++ slash :: r' ++ [c]) with
      (((`"v" ++ ds) ++ slash :: cd ++ slash :: r') ++ [c]) in E
      by (repeat (first [rewrite <- app_assoc | progress cbn [app]]); reflexivity).
    apply app_inj_tail in E as [_ ->]. reflexivity.
  - intros [r ->]. exists ((`"v" ++ ds) ++ slash :: cd ++ slash :: r).
    unfold cp_text. change (`"/") with [slash].
    repeat (first [rewrite <- app_assoc | progress cbn [app]]); reflexivity.
Qed.

Lemma clean_if_error {A} (b : bool) c (x : A) (w : wexc A) r :
  clean (if b then werror c ;! wret x else w) r <-> b = false /\ clean w r.
Proof. rewrite clean_if, clean_bind_error. intuition congruence. Qed.

Lemma not_true_false (b : bool) : b = false <-> ~ b = true.
Proof. destruct b; intuition congruence. Qed.

Lemma clean_content_path cd p ps ds r : ~ In slash cd ->
  (clean (check_content_path cd p ps ds) r <->
   exists dir, cpath cd p dir /\ ~ In p ps /\ r = (true, ps ++ [p], set_add dir ds)).
Proof.
  intros Hcd. unfold check_content_path. rewrite clean_if_error. split.
  - intros [Hse H]. apply orb_false_iff in Hse as [_ He].
    destruct (re_match re_content_path p) as [m|] eqn:E; [|now rewrite clean_bind_error in H].
    apply content_path_regex in E as [dd [g2 [l [t [-> [H1 [H2 [H3 [H4 [H5 [H6 ->]]]]]]]]]]].
    cbn [group_or_nil group Nat.eqb] in H.
    change (group_or_nil 2 _) with g2 in H. change (group_or_nil 3 _) with l in H.
    change (group_or_nil 1 _) with (`"v" ++ dd) in H.
    rewrite !clean_if_error, clean_ret in H. destruct H as [Hc [Hb [Hp Hr]]].
    apply negb_false_iff, str_eqb_eq in Hc. subst g2. apply plain_path_split in Hb.
    exists (cdir_of (`"v" ++ dd) cd l). split; [|split].
    + split; [auto|]. exists dd, (l ++ t), l. repeat split; auto; try apply H6.
      intros r' Er. apply not_true_false in He. apply He. apply ends_slash_cp; [|eauto].
      intros Ez. apply app_eq_nil in Ez as [-> _]. congruence.
    + now apply str_in_false.
    + rewrite <- Hr. unfold set_add at 1. now rewrite Hp.
  - intros [dir [[Hc [dd [rest [l [-> [H1 [H2 [H3 [H4 [H5 ->]]]]]]]]]] [Hp ->]]].
    pose proof (plain_path_nonnil _ H4) as Hl.
    apply first_line_inv in H3 as [t [-> [Hln Ht]]].
    split.
    + apply orb_false_iff. split.
      * apply not_true_false. rewrite startswith_spec. intros [r E]. discriminate E.
      * apply not_true_false. rewrite ends_slash_cp; [intros [r E]; now apply (H5 r)|].
        destruct l; [congruence|discriminate].
    + rewrite content_path_match; auto; [|now apply first_line_app].
      change (group_or_nil 2 _) with cd. change (group_or_nil 3 _) with l.
      change (group_or_nil 1 _) with (`"v" ++ dd).
      rewrite !clean_if_error, clean_ret. split; [now rewrite str_eqb_refl|].
      split; [now apply plain_path_split|]. split; [now apply str_in_false|].
      unfold set_add at 1. now rewrite (proj2 (str_in_false _ _) Hp).
Qed.

(** ** Manifest *)

Definition adds (l s : list str) : list str := fold_left (fun a d => set_add d a) l s.
Lemma In_set_add x y s : In x (set_add y s) <-> x = y \/ In x s.
Proof.
  unfold set_add. destruct (str_in_spec y s) as [H|H].
  - split; [auto|intros [->|H']; auto].
  - rewrite in_app_iff. simpl. intuition.
Qed.
Lemma In_adds l : forall s x, In x (adds l s) <-> In x l \/ In x s.
Proof.
  induction l as [|y l IH]; intros s x; simpl; [tauto|].
  unfold adds in IH. rewrite IH, In_set_add. intuition.
Qed.
Lemma adds_app a b s : adds (a ++ b) s = adds b (adds a s).
Proof. apply fold_left_app. Qed.

Lemma dset_absent {A} (k : str) (v : A) d : ~ In k (keys d) -> dset k v d = d ++ [(k, v)].
Proof.
  induction d as [|[a b] d IH]; simpl; [reflexivity|]. intros H.
  destruct (str_eqb_spec k a) as [E|E]; [exfalso; apply H; auto|]. rewrite IH; auto.
Qed.

Lemma NoDup_app_intro {A} (a b : list A) : NoDup a -> NoDup b -> (forall x, In x a -> ~ In x b) -> NoDup (a ++ b).
Proof.
  induction a as [|x a IH]; simpl; intros Ha Hb H; [auto|]. inversion Ha; subst.
  constructor; [rewrite in_app_iff; intros [Hi|Hi]; [auto|now apply (H x); [left|]]|].
  apply IH; auto.
Qed.
Lemma NoDup_app_inv {A} (a b : list A) : NoDup (a ++ b) -> NoDup a /\ NoDup b /\ (forall x, In x a -> ~ In x b).
Proof.
  induction a as [|x a IH]; simpl; intros H; [repeat split; auto; constructor|]. inversion H as [|? ? Hn Hd]; subst.
  apply IH in Hd as [H1 [H2 H3]]. rewrite in_app_iff in Hn.
  split; [constructor; tauto|]. split; [auto|]. intros y [<-|Hy]; [tauto|auto].
Qed.

Lemma keys_app {A} (a b : dict A) : keys (a ++ b) = keys a ++ keys b.
Proof. apply map_app. Qed.
Lemma keys_map_pair {A} (v : A) fs : keys (map (fun p : str => (p, v)) fs) = fs.
Proof. unfold keys. rewrite map_map. simpl. apply map_id. Qed.

Lemma clean_manifest_files cd nd : ~ In slash cd -> forall l s s', keys (ms_files s) = ms_paths s ->
  (clean (wfold (manifest_file cd nd) l s) s' <->
   exists fs dirs, l = map JStr fs /\ Forall2 (cpath cd) fs dirs /\ NoDup fs /\
     (forall p, In p fs -> ~ In p (ms_paths s)) /\
     s' = mk_mstate (ms_files s ++ map (fun p => (p, nd)) fs) (ms_ok s ++ fs) (ms_unnorm s) (ms_digests s)
                    (ms_paths s ++ fs) (adds dirs (ms_dirs s))).
Proof.
  intros Hcd. induction l as [|x l IH]; intros s s' Hk.
  - cbn [wfold]. rewrite clean_ret. split.
    + intros <-. exists [], []. simpl. rewrite !app_nil_r. destruct s. repeat split; auto; constructor.
    + intros [fs [dirs [E [H2 [_ [_ ->]]]]]]. destruct fs; [|discriminate]. inversion H2. simpl.
      rewrite !app_nil_r. now destruct s.
  - cbn [wfold]. rewrite clean_bind. split.
    + intros [s1 [H1 H2]]. unfold manifest_file in H1. destruct x as [| | | |f| |]; try (now rewrite clean_raise in H1).
      rewrite clean_bind in H1. destruct H1 as [r [Hc Hs]]. apply clean_content_path in Hc; [|exact Hcd].
      destruct Hc as [dir [Hp [Hn ->]]]. cbn beta iota in Hs. rewrite clean_ret in Hs. subst s1.
      rewrite dset_absent in H2 by now rewrite Hk.
      apply IH in H2.
      2:{ cbn [ms_files ms_paths]. rewrite keys_app, Hk. reflexivity. }
      destruct H2 as [fs [dirs [-> [H2 [H3 [H4 ->]]]]]]. cbn [ms_files ms_ok ms_unnorm ms_digests ms_paths ms_dirs] in *.
      exists (f :: fs), (dir :: dirs). split; [reflexivity|]. split; [now constructor|].
      split; [constructor; [|exact H3]; intros Hi; apply (H4 f Hi), in_or_app; right; now left|].
      split; [intros p [<-|Hi]; [exact Hn|intros Hq; apply (H4 p Hi), in_or_app; now left]|].
      cbn [map]. rewrite <- !app_assoc. reflexivity.
    + intros [fs [dirs [E [H2 [H3 [H4 ->]]]]]]. destruct fs as [|f fs]; [discriminate|].
      injection E as -> ->. inversion H2 as [|? dir ? dirs' Hp H2']; subst. inversion H3 as [|? ? Hnf H3']; subst.
      exists (mk_mstate (ms_files s ++ [(f, nd)]) (ms_ok s ++ [f]) (ms_unnorm s) (ms_digests s)
                        (ms_paths s ++ [f]) (set_add dir (ms_dirs s))).
      split.
      * unfold manifest_file. rewrite clean_bind. exists (true, ms_paths s ++ [f], set_add dir (ms_dirs s)).
        split; [apply clean_content_path; [exact Hcd|]; exists dir; split; [auto|]; split; [apply H4; now left|reflexivity]|].
        cbn beta iota. rewrite clean_ret. rewrite dset_absent; [reflexivity|]. rewrite Hk. apply H4. now left.
      * apply IH; [cbn [ms_files ms_paths]; now rewrite keys_app, Hk|].
        cbn [ms_files ms_ok ms_unnorm ms_digests ms_paths ms_dirs].
        exists fs, dirs'. split; [reflexivity|]. split; [auto|]. split; [auto|].
        split; [intros p Hi Hq; apply in_app_or in Hq as [Hq|[<-|[]]]; [apply (H4 p); [now right|auto]|auto]|].
        cbn [map]. rewrite <- !app_assoc. reflexivity.
Qed.

Lemma strings_map l : strings (JArr (map JStr l)) = l.
Proof. simpl. induction l as [|a l IH]; simpl; [reflexivity|]. now rewrite IH. Qed.
Lemma listed_app a b : listed (a ++ b) = listed a ++ listed b.
Proof. apply flat_map_app. Qed.

Definition entries_of (a : str) (d : dict json) : dict str :=
  flat_map (fun kv => map (fun p => (p, normalized_digest (fst kv) a)) (strings (snd kv))) d.

Lemma keys_entries a d : keys (entries_of a d) = listed d.
Proof.
  unfold entries_of, listed. induction d as [|[k v] d IH]; simpl; [reflexivity|].
  rewrite keys_app, IH. cbn [fst snd]. now rewrite keys_map_pair.
Qed.

Lemma clean_manifest_digests a re_ cd : ~ In slash cd -> digest_regex a = Ok re_ -> forall d s s',
  keys (ms_files s) = ms_paths s ->
  (clean (wfold (manifest_digest false (JStr a) cd) d s) s' <->
   exists dirs, Forall (fun kv => re_match re_ (fst kv) <> None /\ string_array (snd kv)) d /\
     Forall2 (cpath cd) (listed d) dirs /\ NoDup (listed d) /\
     (forall p, In p (listed d) -> ~ In p (ms_paths s)) /\
     NoDup (map (fun kv => normalized_digest (fst kv) a) d) /\
     (forall kv, In kv d -> ~ In (normalized_digest (fst kv) a) (ms_digests s)) /\
     s' = mk_mstate (ms_files s ++ entries_of a d) (ms_ok s ++ listed d) (adds (keys d) (ms_unnorm s))
            (ms_digests s ++ map (fun kv => normalized_digest (fst kv) a) d) (ms_paths s ++ listed d)
            (adds dirs (ms_dirs s))).
Proof.
  intros Hcd Hr. induction d as [|[k x] d IH]; intros s s' Hk.
  - cbn [wfold]. rewrite clean_ret. split.
    + intros <-. exists []. simpl. rewrite !app_nil_r. destruct s. repeat split; auto; try constructor; tauto.
    + intros [dirs [_ [H2 [_ [_ [_ [_ ->]]]]]]]. inversion H2. simpl. rewrite !app_nil_r. now destruct s.
  - cbn [wfold]. rewrite clean_bind.
    assert (Step : forall s1, clean (manifest_digest false (JStr a) cd s (k, x)) s1 <->
      exists fs dirs, re_match re_ k <> None /\ x = JArr (map JStr fs) /\
        ~ In (normalized_digest k a) (ms_digests s) /\ Forall2 (cpath cd) fs dirs /\ NoDup fs /\
        (forall p, In p fs -> ~ In p (ms_paths s)) /\
        s1 = mk_mstate (ms_files s ++ map (fun p => (p, normalized_digest k a)) fs) (ms_ok s ++ fs)
               (set_add k (ms_unnorm s)) (ms_digests s ++ [normalized_digest k a]) (ms_paths s ++ fs)
               (adds dirs (ms_dirs s))).
    { intros s1. unfold manifest_digest, iv_digest_regex, digest_regex_j. rewrite Hr.
      rewrite clean_bind_ret. destruct (re_match re_ k) as [m|] eqn:Em.
      2:{ rewrite clean_bind_error. split; [tauto|]. intros [? [? [H _]]]. congruence. }
      destruct x as [| | | | |l|]; try (rewrite clean_bind_error; split; [tauto|];
        intros [fs [dirs [_ [H _]]]]; discriminate).
      unfold norm_digest. cbn zeta. rewrite clean_bind.
      split.
      - intros [dg [H1 H2]]. apply clean_if_error in H1 as [H1 H1']. apply str_in_false in H1.
        apply clean_ret in H1'. subst dg. apply clean_manifest_files in H2; [|exact Hcd|exact Hk].
        destruct H2 as [fs [dirs [-> [H2 [H3 [H4 ->]]]]]]. exists fs, dirs. repeat split; auto; congruence.
      - intros [fs [dirs [_ [E [H1 [H2 [H3 [H4 ->]]]]]]]]. injection E as ->.
        exists (ms_digests s ++ [normalized_digest k a]).
        split; [apply clean_if_error; split; [now apply str_in_false|now apply clean_ret]|].
        apply clean_manifest_files; [exact Hcd|exact Hk|]. exists fs, dirs. repeat split; auto. }
    split.
    + intros [s1 [H1 H2]]. apply Step in H1 as [fs [dirs [Hm [-> [Hd [Hf [Hnd [Hdis ->]]]]]]]].
      apply IH in H2.
      2:{ cbn [ms_files ms_paths]. now rewrite keys_app, keys_map_pair, Hk. }
      destruct H2 as [dirs2 [G1 [G2 [G3 [G4 [G5 [G6 ->]]]]]]].
      cbn [ms_files ms_ok ms_unnorm ms_digests ms_paths ms_dirs] in *.
      exists (dirs ++ dirs2). unfold listed, entries_of. cbn [flat_map snd fst map keys]. fold (listed d) (entries_of a d).
      rewrite strings_map.
      split; [constructor; [split; [auto|now exists fs]|auto]|].
      split; [now apply Forall2_app|].
      split. { apply NoDup_app_intro; auto. intros p Hp Hq. apply (G4 p Hq), in_or_app. now right. }
      split. { intros p Hp Hq. apply in_app_or in Hp as [Hp|Hp]; [now apply (Hdis p)|]. apply (G4 p Hp), in_or_app. now left. }
      split. { constructor; [|auto]. intros Hi. apply in_map_iff in Hi as [kv [Ekv Hi]]. apply (G6 kv Hi), in_or_app. right. left. congruence. }
      split. { intros kv [<-|Hi] Hq; [now apply Hd|]. apply (G6 kv Hi), in_or_app. now left. }
      rewrite adds_app, <- !app_assoc. reflexivity.
    + intros [dirs [G1 [G2 [G3 [G4 [G5 [G6 ->]]]]]]].
      apply Forall_cons_iff in G1 as [[Hm [fs Hfs]] G1]. cbn [fst snd] in Hm, Hfs. subst x.
      unfold listed in G2, G3, G4. cbn [flat_map snd] in G2, G3, G4. fold (listed d) in G2, G3, G4. rewrite strings_map in G2, G3, G4.
      apply Forall2_app_inv_l in G2 as [d1 [d2 [F1 [F2 ->]]]].
      cbn [map fst] in G5. inversion G5 as [|? ? Hk1 Hk2]; subst.
      apply NoDup_app_inv in G3 as [N1 [N2 N3]].
      eexists. split.
      * apply Step. exists fs, d1. repeat split; auto; [|intros p Hp; apply G4, in_or_app; now left].
        apply (G6 (k, JArr (map JStr fs))). now left.
      * apply IH; [cbn [ms_files ms_paths]; now rewrite keys_app, keys_map_pair, Hk|].
        cbn [ms_files ms_ok ms_unnorm ms_digests ms_paths ms_dirs].
        exists d2. split; [auto|]. split; [auto|]. split; [auto|].
        split. { intros p Hp Hq. apply in_app_or in Hq as [Hq|Hq]; [apply (G4 p); [apply in_or_app; now right|auto]|now apply (N3 p)]. }
        split; [auto|].
        split. { intros kv Hi Hq. apply in_app_or in Hq as [Hq|[Hq|[]]]; [apply (G6 kv); [now right|auto]|].
                 apply Hk1. rewrite Hq. apply in_map_iff. now exists kv. }
        unfold listed, entries_of. cbn [flat_map snd fst map keys]. fold (listed d) (entries_of a d). rewrite strings_map.
        rewrite adds_app, <- !app_assoc. reflexivity.
Qed.

Lemma clean_wfold_unit {A} (g : A -> wexc unit) l u :
  clean (wfold (fun _ x => g x) l tt) u <-> Forall (fun x => clean (g x) tt) l.
Proof.
  revert u. induction l as [|x l IH]; intros []; cbn [wfold].
  - rewrite clean_ret. split; auto.
  - rewrite clean_bind, Forall_cons_iff. split.
    + intros [[] [H1 H2]]. split; [auto|]. now apply IH in H2.
    + intros [H1 H2]. exists tt. split; [auto|]. now apply IH.
Qed.

Lemma clean_unless_error (b : bool) c u : clean (if b then werror c else wret tt) u <-> b = false.
Proof. rewrite clean_if, clean_error, clean_ret. destruct u. intuition congruence. Qed.
Lemma clean_when_ok (b : bool) c u : clean (if b then wret tt else werror c) u <-> b = true.
Proof. rewrite clean_if, clean_error, clean_ret. destruct u. intuition congruence. Qed.

Lemma clean_conflicts c paths dirs u :
  clean (check_conflicts c paths dirs) u <-> forall d, In d dirs -> ~ In d paths.
Proof.
  unfold check_conflicts. rewrite (clean_wfold_unit (fun d => if str_in d paths then werror c else wret tt)).
  rewrite Forall_forall. split; intros H d Hd; specialize (H d Hd).
  - now apply clean_unless_error, str_in_false in H.
  - now apply clean_unless_error, str_in_false.
Qed.

Lemma clean_manifest a re_ cd man r : ~ In slash cd -> digest_regex a = Ok re_ ->
  (clean (validate_manifest false (JStr a) cd man) r <->
   exists d dirs, man = JObj d /\
     Forall (fun kv => re_match re_ (fst kv) <> None /\ string_array (snd kv)) d /\
     Forall2 (cpath cd) (listed d) dirs /\ NoDup (listed d) /\
     NoDup (map (fun kv => normalized_digest (fst kv) a) d) /\
     (forall dir, In dir dirs -> ~ In dir (listed d)) /\
     r = (entries_of a d, listed d, adds (keys d) [])).
Proof.
  intros Hcd Hr. unfold validate_manifest. destruct man as [| | | | | |d];
    try (rewrite clean_bind_error; split; [tauto|]; intros [d [dirs [H _]]]; discriminate).
  rewrite clean_bind. split.
  - intros [s [H1 H2]]. apply (clean_manifest_digests a re_) in H1; auto.
    destruct H1 as [dirs [G1 [G2 [G3 [G4 [G5 [G6 ->]]]]]]]. cbn [ms_files ms_ok ms_unnorm ms_digests ms_paths ms_dirs app] in *.
    rewrite clean_bind in H2. destruct H2 as [u [H2 H3]]. rewrite clean_conflicts in H2. rewrite clean_ret in H3.
    exists d, dirs. repeat split; auto. intros dir Hd. apply H2. apply In_adds. now left.
  - intros [d' [dirs [E [G1 [G2 [G3 [G5 [G6 ->]]]]]]]]. injection E as <-.
    eexists. split.
    + apply (clean_manifest_digests a re_); auto. exists dirs. repeat split; auto.
    + cbn [ms_files ms_ok ms_unnorm ms_digests ms_paths ms_dirs app]. rewrite clean_bind. exists tt.
      split; [|now rewrite clean_ret]. apply clean_conflicts. intros x Hx. apply In_adds in Hx as [Hx|[]]. auto.
Qed.

(** ** State *)

Definition ldir (p : str) : str := join (`"/") (removelast (split_on 47 p)).

Lemma plain_path_ends p : plain_path p -> startswith (`"/") p || endswith (`"/") p = false.
Proof.
  intros H. apply orb_false_iff. rewrite !not_true_false, startswith_spec, endswith_spec.
  apply plain_path_split, bad_elements_false in H. split; intros [r ->].
  - change (`"/" ++ r) with ([] ++ 47%N :: r) in H. rewrite split_on_app in H by (intros []).
    apply Forall_inv in H. now destruct H.
  - change (r ++ `"/") with (r ++ 47%N :: []) in H. rewrite split_on_app_gen in H.
    apply Forall_app in H as [_ H]. apply Forall_inv in H. now destruct H.
Qed.

Lemma clean_logical_path p s s' :
  clean (check_logical_path p s) s' <->
  plain_path p /\ s' = (set_add p (fst s), set_add (ldir p) (snd s)).
Proof.
  destruct s as [lp ld]. unfold check_logical_path. rewrite !clean_if_error, clean_ret, <- plain_path_split. cbn [fst snd].
  split.
  - intros [_ [H1 H2]]. auto.
  - intros [H ->]. split; [now apply plain_path_ends|]. auto.
Qed.

Lemma clean_state_paths l : forall s s',
  clean (wfold state_path l s) s' <->
  exists fs, l = map JStr fs /\ Forall plain_path fs /\ NoDup fs /\ (forall p, In p fs -> ~ In p (fst s)) /\
    s' = (fst s ++ fs, adds (map ldir fs) (snd s)).
Proof.
  induction l as [|x l IH]; intros s s'; cbn [wfold].
  - rewrite clean_ret. split.
    + intros <-. exists []. destruct s. simpl. rewrite app_nil_r. repeat split; auto; constructor.
    + intros [fs [E [_ [_ [_ ->]]]]]. destruct fs; [|discriminate]. simpl. rewrite app_nil_r. now destruct s.
  - rewrite clean_bind.
    assert (Step : forall s1, clean (state_path s x) s1 <-> exists p, x = JStr p /\ plain_path p /\ ~ In p (fst s) /\
        s1 = (fst s ++ [p], set_add (ldir p) (snd s))).
    { intros s1. unfold state_path. destruct x as [| | | |p| |];
        try (rewrite clean_raise; split; [tauto|]; intros [p [H _]]; discriminate).
      rewrite clean_if_error, clean_logical_path, str_in_false. split.
      - intros [H1 [H2 ->]]. exists p. repeat split; auto. unfold set_add at 1.
        now rewrite (proj2 (str_in_false _ _) H1).
      - intros [p' [E [H1 [H2 ->]]]]. injection E as <-. repeat split; auto. unfold set_add at 2.
        now rewrite (proj2 (str_in_false _ _) H2). }
    split.
    + intros [s1 [H1 H2]]. apply Step in H1 as [p [-> [Hp [Hn ->]]]].
      apply IH in H2 as [fs [-> [G1 [G2 [G3 ->]]]]]. cbn [fst snd] in *.
      exists (p :: fs). split; [reflexivity|]. split; [now constructor|].
      split; [constructor; [|auto]; intros Hi; apply (G3 p Hi), in_or_app; right; now left|].
      split; [intros q [<-|Hq]; [auto|intros Hr; apply (G3 q Hq), in_or_app; now left]|].
      now rewrite <- app_assoc.
    + intros [fs [E [G1 [G2 [G3 ->]]]]]. destruct fs as [|p fs]; [discriminate|]. injection E as -> ->.
      inversion G1; subst. inversion G2; subst.
      eexists. split; [apply Step; exists p; repeat split; auto; apply G3; now left|].
      apply IH. cbn [fst snd]. exists fs. repeat split; auto.
      * intros q Hq Hr. apply in_app_or in Hr as [Hr|[<-|[]]]; [apply (G3 q); [now right|auto]|auto].
      * now rewrite <- app_assoc.
Qed.

Lemma clean_state_digests a re_ u d : forall s s',
  clean (wfold (state_digest re_ (JStr a) (Some u)) d s) s' <->
  Forall (fun kv => re_match re_ (fst kv) <> None /\ string_array (snd kv) /\ In (fst kv) u) d /\
  Forall plain_path (listed d) /\ NoDup (listed d) /\ (forall p, In p (listed d) -> ~ In p (fst (fst s))) /\
  s' = ((fst (fst s) ++ listed d, adds (map ldir (listed d)) (snd (fst s))),
        snd s ++ map (fun kv => normalized_digest (fst kv) a) d).
Proof.
  induction d as [|[k x] d IH]; intros s s'; cbn [wfold].
  - rewrite clean_ret. split.
    + intros <-. destruct s as [[? ?] ?]. simpl. rewrite !app_nil_r. repeat split; auto; constructor.
    + intros [_ [_ [_ [_ ->]]]]. simpl. rewrite !app_nil_r. now destruct s as [[? ?] ?].
  - rewrite clean_bind.
    assert (Step : forall s1, clean (state_digest re_ (JStr a) (Some u) s (k, x)) s1 <->
      exists fs, re_match re_ k <> None /\ x = JArr (map JStr fs) /\ In k u /\ Forall plain_path fs /\ NoDup fs /\
        (forall p, In p fs -> ~ In p (fst (fst s))) /\
        s1 = ((fst (fst s) ++ fs, adds (map ldir fs) (snd (fst s))), snd s ++ [normalized_digest k a])).
    { intros s1. unfold state_digest. destruct (re_match re_ k) as [m|].
      2:{ rewrite clean_bind_error. split; [tauto|]. intros [? [H _]]. congruence. }
      destruct x as [| | | | |l|]; try (rewrite clean_bind_error; split; [tauto|];
        intros [fs [_ [H _]]]; discriminate).
      rewrite clean_bind. split.
      - intros [s2 [H1 H2]]. apply clean_state_paths in H1 as [fs [-> [G1 [G2 [G3 ->]]]]].
        rewrite clean_bind in H2. destruct H2 as [[] [H2 H3]]. apply clean_when_ok, str_in_true in H2.
        apply clean_ret in H3. subst s1. exists fs. repeat split; auto; congruence.
      - intros [fs [_ [E [H1 [H2 [H3 [H4 ->]]]]]]]. injection E as ->.
        eexists. split; [apply clean_state_paths; exists fs; repeat split; auto|].
        rewrite clean_bind. exists tt. split; [now apply clean_when_ok, str_in_true|]. now apply clean_ret. }
    unfold listed. cbn [flat_map snd fst map]. fold (listed d). split.
    + intros [s1 [H1 H2]]. apply Step in H1 as [fs [Hm [-> [Hu [Hf [Hnd [Hdis ->]]]]]]].
      apply IH in H2. cbn [fst snd] in *. destruct H2 as [G1 [G2 [G3 [G4 ->]]]].
      rewrite strings_map.
      split; [constructor; [split; [auto|]; split; [now exists fs|auto]|auto]|].
      split; [now apply Forall_app|].
      split. { apply NoDup_app_intro; auto. intros p Hp Hq. apply (G4 p Hq), in_or_app. now right. }
      split. { intros p Hp Hq. apply in_app_or in Hp as [Hp|Hp]; [now apply (Hdis p)|]. apply (G4 p Hp), in_or_app. now left. }
      rewrite map_app, adds_app, <- !app_assoc. reflexivity.
    + intros [G1 [G2 [G3 [G4 ->]]]]. apply Forall_cons_iff in G1 as [[Hm [[fs Hfs] Hu]] G1]. cbn [fst snd] in *. subst x.
      rewrite strings_map in *. apply Forall_app in G2 as [F1 F2]. apply NoDup_app_inv in G3 as [N1 [N2 N3]].
      eexists. split.
      * apply Step. exists fs. repeat split; auto. intros p Hp. apply G4, in_or_app. now left.
      * apply IH. cbn [fst snd]. split; [auto|]. split; [auto|]. split; [auto|].
        split. { intros p Hp Hq. apply in_app_or in Hq as [Hq|Hq]; [apply (G4 p); [apply in_or_app; now right|auto]|now apply (N3 p)]. }
        rewrite map_app, adds_app, <- !app_assoc. reflexivity.
Qed.

Lemma clean_state a re_ u st r : digest_regex a = Ok re_ ->
  (clean (validate_state_block false (JStr a) st (Some u)) r <->
   exists d, st = JObj d /\
     Forall (fun kv => re_match re_ (fst kv) <> None /\ string_array (snd kv) /\ In (fst kv) u) d /\
     Forall plain_path (listed d) /\ NoDup (listed d) /\
     (forall p q, In p (listed d) -> In q (listed d) -> p <> ldir q) /\
     r = map (fun kv => normalized_digest (fst kv) a) d).
Proof.
  intros Hr. unfold validate_state_block. destruct st as [| | | | | |d];
    try (rewrite clean_bind_error; split; [tauto|]; intros [d [H _]]; discriminate).
  unfold iv_digest_regex, digest_regex_j. rewrite Hr, clean_bind_ret, clean_bind. split.
  - intros [s [H1 H2]]. apply clean_state_digests in H1 as [G1 [G2 [G3 [_ ->]]]]. cbn [fst snd app] in *.
    rewrite clean_bind in H2. destruct H2 as [u' [H2 H3]]. rewrite clean_conflicts in H2. rewrite clean_ret in H3. subst r.
    exists d. repeat split; auto. intros p q Hp Hq ->. apply (H2 (ldir q)); [|auto].
    apply In_adds. left. now apply in_map.
  - intros [d' [E [G1 [G2 [G3 [G4 ->]]]]]]. injection E as <-. eexists.
    split; [apply clean_state_digests; cbn [fst snd app]; repeat split; auto|].
    cbn [fst snd app]. rewrite clean_bind. exists tt. split; [|now rewrite clean_ret].
    apply clean_conflicts. intros x Hx Hi. apply In_adds in Hx as [Hx|[]]. apply in_map_iff in Hx as [q [<- Hq]].
    now apply (G4 (ldir q) q).
Qed.

(** ** Digests *)

Lemma is_lower_hex_spec c : is_lower_hex c = true <-> lower_hex c.
Proof.
  unfold is_lower_hex, lower_hex, is_ascii_digit. rewrite ?orb_true_iff, ?andb_true_iff, ?N.leb_le. tauto.
Qed.
Lemma is_hex_spec c : is_hex c = true <-> hex c.
Proof.
  unfold is_hex, is_upper_hex, hex. rewrite orb_true_iff, is_lower_hex_spec. unfold lower_hex.
  rewrite ?andb_true_iff, ?N.leb_le. tauto.
Qed.
Lemma Forall_iff {A} (P Q : A -> Prop) l : (forall x, P x <-> Q x) -> Forall P l <-> Forall Q l.
Proof. intros H. split; apply Forall_impl; intros; now apply H. Qed.

Lemma re_match_iff r s : re_match r s <> None <-> exists x rest c, s = x ++ rest /\ Den r x rest [] c.
Proof.
  split.
  - intros H. destruct (re_match r s) as [m|] eqn:E; [|congruence].
    apply re_match_sound in E as [x [rest [-> HD]]]. eauto.
  - intros [x [rest [c [-> HD]]]]. now apply (re_match_complete r _ x rest c).
Qed.

Lemma nl_cases d : forall rest : str, (rest = [] \/ rest = [10%N]) -> forall e, d = e ++ rest -> d = e \/ d = e ++ [newline].
Proof. intros rest [->| ->] e ->; [left; apply app_nil_r|now right]. Qed.

Lemma re_hex_iff n d : re_match (re_hex n) d <> None <->
  exists e, (d = e \/ d = e ++ [newline]) /\ List.length e = n /\ Forall hex e.
Proof.
  rewrite re_match_iff. unfold re_hex. split.
  - intros [x [rest [c [-> HD]]]]. apply Den_seq in HD as [e [y [c1 [-> [D1 D2]]]]].
    apply Den_rep_chr in D1 as [Hl [Hf ->]]. apply Den_dol in D2 as [-> [-> Hr]]. rewrite app_nil_r.
    exists e. split; [now apply (nl_cases _ rest)|]. split; [auto|].
    revert Hf. apply Forall_iff. intros x. symmetry. apply is_hex_spec.
  - intros [e [Hd [Hl Hf]]].
    assert (G : exists rest, d = e ++ rest /\ (rest = [] \/ rest = [10%N])).
    { destruct Hd as [->| ->]; [exists []; rewrite app_nil_r; auto|exists [newline]; auto]. }
    destruct G as [rest [-> Hr]]. exists e, rest, []. split; [auto|].
    apply Den_seq. exists e, [], []. rewrite app_nil_r. split; [auto|]. split.
    + apply Den_rep_chr. split; [auto|]. split; [|auto]. revert Hf. apply Forall_iff. intros x. apply is_hex_spec.
    + apply Den_dol. auto.
Qed.

Lemma re_spec_ex_iff d : re_match re_spec_ex d <> None <->
  exists e, (d = e \/ d = e ++ [newline]) /\ exists a b, e = a ++ `"..." ++ b /\ List.length a = 6%nat /\
    List.length b = 3%nat /\ Forall lower_hex a /\ Forall lower_hex b.
Proof.
  rewrite re_match_iff. unfold re_spec_ex. split.
  - intros [x [rest [c [-> HD]]]]. apply Den_seq in HD as [a [y [c1 [-> [D1 D2]]]]].
    apply Den_rep_chr in D1 as [Hl [Hf ->]]. apply Den_seq in D2 as [dots [z [c2 [-> [D1 D2]]]]].
    apply Den_lit in D1 as [-> ->]. apply Den_seq in D2 as [b [w [c3 [-> [D1 D2]]]]].
    apply Den_rep_chr in D1 as [Hl2 [Hf2 ->]]. apply Den_dol in D2 as [-> [-> Hr]]. rewrite app_nil_r.
    exists (a ++ `"..." ++ b). split; [now apply (nl_cases _ rest)|]. exists a, b. split; [auto|]. split; [auto|]. split; [auto|].
    split; [revert Hf|revert Hf2]; apply Forall_iff; intros x; symmetry; apply is_lower_hex_spec.
  - intros [e [Hd [a [b [-> [Hl [Hl2 [Hf Hf2]]]]]]]].
    assert (G : exists rest, d = (a ++ `"..." ++ b) ++ rest /\ (rest = [] \/ rest = [10%N])).
    { destruct Hd as [->| ->]; [exists []; rewrite app_nil_r; auto|exists [newline]; auto]. }
    destruct G as [rest [-> Hr]]. exists (a ++ `"..." ++ b), rest, []. split; [auto|].
    apply Den_seq. exists a, (`"..." ++ b), []. split; [auto|]. split.
    { apply Den_rep_chr. split; [auto|]. split; [|auto]. revert Hf. apply Forall_iff. intros x. apply is_lower_hex_spec. }
    apply Den_seq. exists (`"..."), b, []. split; [auto|]. split; [now apply Den_lit|].
    apply Den_seq. exists b, [], []. rewrite app_nil_r. split; [auto|]. split.
    { apply Den_rep_chr. split; [auto|]. split; [|auto]. revert Hf2. apply Forall_iff. intros x. apply is_lower_hex_spec. }
    apply Den_dol. auto.
Qed.

Lemma digest_regex_inv a r : digest_regex a = Ok r ->
  (exists n, digest_size a n /\ r = re_hex n) \/ (In a [`"sha512-spec-ex"; `"sha256-spec-ex"] /\ r = re_spec_ex).
Proof.
  unfold digest_regex. destruct (dget a DIGEST_REGEXES) as [x|] eqn:E; [|discriminate].
  intros H. apply Ok_inv in H. subst x. apply dget_In in E. cbn [DIGEST_REGEXES In] in E.
  repeat match type of E with _ \/ _ => destruct E as [E|E] end; [..|destruct E];
    apply pair_equal_spec in E as [<- <-]; try (left; eexists; split; [constructor|reflexivity]);
    right; (split; [|reflexivity]); [left|right; left]; reflexivity.
Qed.

Lemma digest_regex_size a n : digest_size a n -> digest_regex a = Ok (re_hex n).
Proof. destruct 1; reflexivity. Qed.
Lemma digest_regex_ex a : In a [`"sha512-spec-ex"; `"sha256-spec-ex"] -> digest_regex a = Ok re_spec_ex.
Proof. intros [<-|[<-|[]]]; reflexivity. Qed.

Lemma digest_size_fun a n m : digest_size a n -> digest_size a m -> n = m.
Proof.
  intros H1 H2. apply digest_regex_size in H1, H2. rewrite H1 in H2. clear H1.
  apply Ok_inv in H2.
  assert (G : re_match (re_hex n) (repeat 48%N n) <> None).
  { apply re_hex_iff. exists (repeat 48%N n). split; [auto|]. split; [apply repeat_length|].
    apply Forall_forall. intros x Hx. apply repeat_spec in Hx. subst. left. lia. }
  rewrite H2 in G. apply re_hex_iff in G as [e [Hd [Hl _]]].
  destruct Hd as [Hd|Hd].
  - rewrite <- Hl, <- Hd. now rewrite repeat_length.
  - exfalso. assert (Hi : In newline (repeat 48%N n)) by (rewrite Hd; apply in_or_app; right; now left).
    apply repeat_spec in Hi. discriminate.
Qed.

Lemma not_ex a n : digest_size a n -> ~ In a [`"sha512-spec-ex"; `"sha256-spec-ex"].
Proof. destruct 1; intros [E|[E|[]]]; discriminate. Qed.

Lemma digest_regex_iff a r d : digest_regex a = Ok r ->
  (re_match r d <> None <-> r_digest as_coded a d).
Proof.
  intros H. apply digest_regex_inv in H as [[n [Hn ->]]|[Hi ->]].
  - rewrite re_hex_iff. cbn [r_digest as_coded]. split.
    + intros [e [Hd [Hl Hf]]]. exists e. split; [auto|]. left. exists n. auto.
    + intros [e [Hd [[m [Hm [Hl Hf]]]|[Hi _]]]].
      * exists e. rewrite (digest_size_fun a n m); auto.
      * now apply not_ex in Hn.
  - rewrite re_spec_ex_iff. cbn [r_digest as_coded]. split.
    + intros [e [Hd H]]. exists e. split; [auto|]. right. split; auto.
    + intros [e [Hd [[m [Hm _]]|[_ H]]]]; [now apply not_ex in Hm|eauto].
Qed.

Lemma lower_char_iff x y : lower_char x = lower_char y <-> same_letter x y.
Proof.
  unfold lower_char, same_letter.
  destruct (N.leb_spec 65 x), (N.leb_spec x 90), (N.leb_spec 65 y), (N.leb_spec y 90); cbn [andb]; lia.
Qed.
Lemma lower_iff a b : lower a = lower b <-> same_ci a b.
Proof.
  unfold lower, same_ci. revert b. induction a as [|x a IH]; intros [|y b]; simpl; split; intros H; try discriminate; try constructor; auto;
    try (inversion H; fail).
  - injection H as H1 H2. now apply lower_char_iff.
  - injection H as H1 H2. now apply IH.
  - inversion H; subst. f_equal; [now apply lower_char_iff|now apply IH].
Qed.

Lemma NoDup_map_inj {A B} (g : A -> B) l :
  NoDup l -> (NoDup (map g l) <-> forall x y, In x l -> In y l -> g x = g y -> x = y).
Proof.
  induction l as [|a l IH]; intros Hn; simpl.
  - split; [intros _ x y []|constructor].
  - inversion Hn as [|? ? Ha Hl]; subst. rewrite NoDup_cons_iff, (IH Hl), in_map_iff. split.
    + intros [H1 H2] x y [<-|Hx] [<-|Hy] E; auto; exfalso; apply H1; eauto.
    + intros H. split; [|intros; apply H; auto]. intros [y [E Hy]]. apply Ha.
      rewrite (H a y); auto.
Qed.

Lemma NoDup_keys {A} (d : dict A) : NoDup (keys d) -> NoDup d.
Proof. apply NoDup_map_inv. Qed.

Lemma distinct_iff a r d : digest_regex a = Ok r -> NoDup (keys d) ->
  (NoDup (map (fun kv : str * json => normalized_digest (fst kv) a) d) <-> distinct_digests a d).
Proof.
  intros Hr Hk. apply digest_regex_inv in Hr. unfold distinct_digests, normalized_digest.
  destruct (str_in_spec a [`"sha512-spec-ex"; `"sha256-spec-ex"]) as [Hi|Hi].
  - split; [auto|intros _; exact Hk].
  - rewrite NoDup_map_inj by now apply NoDup_keys. split.
    + intros H. right. intros d1 f1 d2 f2 H1 H2 E. apply lower_iff in E.
      specialize (H (d1, f1) (d2, f2) H1 H2 E). congruence.
    + intros [H|H]; [contradiction|]. intros [d1 f1] [d2 f2] H1 H2 E. cbn [fst] in E. apply lower_iff in E.
      assert (d1 = d2) by eauto. subst d2. f_equal.
      apply In_dget in H1, H2; auto. congruence.
Qed.

(** ** Directories *)

Lemma last_slash_unique a e b g : ~ In slash e -> ~ In slash g -> a ++ slash :: e = b ++ slash :: g -> a = b /\ e = g.
Proof.
  intros He Hg E. apply (f_equal (split_on slash)) in E. rewrite !split_on_app_gen in E.
  rewrite (split_on_single slash e), (split_on_single slash g) in E by auto.
  apply app_inj_tail in E as [E1 E2]. split; [|exact E2].
  rewrite <- (join_split slash a), <- (join_split slash b). now rewrite E1.
Qed.

Lemma first_slash_unique a x b y : ~ In slash a -> ~ In slash b -> a ++ slash :: x = b ++ slash :: y -> a = b /\ x = y.
Proof.
  revert b. induction a as [|c a IH]; intros [|d b] Ha Hb E; simpl in *.
  - injection E as ->. auto.
  - injection E as E _. exfalso. apply Hb. now left.
  - injection E as E _. exfalso. apply Ha. now left.
  - injection E as -> E. apply IH in E as [-> ->]; [auto|intros H; apply Ha; now right|intros H; apply Hb; now right].
Qed.

Lemma removelast_last {A} (l : list A) (d : A) : l <> [] -> l = removelast l ++ [last l d].
Proof. apply app_removelast_last. Qed.

Lemma split_dir s : removelast (split_on 47 s) = [] /\ ~ In slash s \/
  exists e, ~ In slash e /\ s = join (`"/") (removelast (split_on 47 s)) ++ slash :: e.
Proof.
  pose proof (split_on_nonnil 47 s) as Hn. pose proof (split_on_noc 47 s) as Hc.
  pose proof (join_split 47 s) as Hj. pose proof (removelast_last (split_on 47 s) [] Hn) as Hl.
  set (i := removelast (split_on 47 s)) in *. set (e := last (split_on 47 s) []) in *.
  assert (He : ~ In slash e) by (apply Hc; rewrite Hl; apply in_or_app; right; now left).
  destruct i as [|x i].
  - left. split; [auto|]. rewrite <- Hj, Hl. exact He.
  - right. exists e. split; [auto|]. rewrite <- Hj at 1. rewrite Hl.
    rewrite PathModel.join_snoc by discriminate. reflexivity.
Qed.

Lemma ldir_above p q : p <> [] -> (p = ldir q <-> r_logical_above as_coded p q).
Proof.
  intros Hp. cbn [r_logical_above as_coded]. unfold ldir. destruct (split_dir q) as [[E Hq]|[e [He Hq]]].
  - rewrite E. cbn [join]. split; [congruence|]. intros [e [_ ->]]. exfalso. apply Hq, in_or_app. right. now left.
  - split.
    + intros ->. eauto.
    + intros [g [Hg Hq']]. rewrite Hq in Hq'. apply last_slash_unique in Hq' as [E _]; auto.
Qed.

Lemma cdir_of_last v cd l : exists e, ~ In slash e /\ v ++ slash :: cd ++ slash :: l = cdir_of v cd l ++ slash :: e.
Proof.
  unfold cdir_of. destruct (split_dir l) as [[E Hl]|[e [He Hl]]].
  - rewrite E. exists l. split; [auto|]. cbn [app join]. change (`"/") with [slash].
    repeat (first [rewrite <- app_assoc | progress cbn [app]]). reflexivity.
  - exists e. split; [auto|]. rewrite Hl at 1.
    destruct (removelast (split_on 47 l)) as [|x i] eqn:Ei.
    + exfalso. cbn [join app] in Hl. rewrite Hl in Ei. change (slash :: e) with ([] ++ 47%N :: e) in Ei.
      rewrite split_on_app in Ei by (intros []). destruct (split_on 47 e) eqn:E2; [now apply split_on_nonnil in E2|discriminate].
    + cbn [app]. rewrite (join_cons (`"/") v) by discriminate. rewrite (join_cons (`"/") cd) by discriminate.
      change (`"/") with [slash]. repeat (first [rewrite <- app_assoc | progress cbn [app]]). reflexivity.
Qed.

Lemma digits_no_slash ds : Forall (fun c => is_digit c = true) ds -> ~ In slash (`"v" ++ ds).
Proof.
  intros H Hi. apply in_app_or in Hi as [[E|[]]|Hi]; [discriminate|]. rewrite Forall_forall in H. apply H in Hi.
  change (is_digit 47 = true) in Hi. now rewrite slash_not_digit in Hi.
Qed.

Lemma cpath_above cd p q dir : ~ In slash cd -> cpath cd q dir -> (p = dir <-> r_content_above as_coded cd p q).
Proof.
  intros Hcd [_ [ds [rest [l [-> [H1 [H2 [H3 [H4 [H5 ->]]]]]]]]]].
  pose proof (digits_no_slash ds H2) as Hv. cbn [r_content_above as_coded]. split.
  - intros ->. destruct (cdir_of_last (`"v" ++ ds) cd l) as [e [He E]].
    exists (`"v" ++ ds), rest, l, e. repeat split; auto; apply H3.
  - intros [v [rest' [l' [e [Hv' [E [Hl [He E2]]]]]]]]. unfold cp_text in E.
    apply first_slash_unique in E as [<- E]; auto. apply first_slash_unique in E as [_ <-]; auto.
    rewrite (first_line_unique rest l' l) in E2; auto.
    destruct (cdir_of_last (`"v" ++ ds) cd l) as [e' [He' E']]. rewrite E' in E2.
    now apply last_slash_unique in E2 as [-> _].
Qed.

Lemma Forall2_exists {A B} (P : A -> B -> Prop) l : (forall x, In x l -> exists y, P x y) -> exists l', Forall2 P l l'.
Proof.
  induction l as [|a l IH]; intros H; [exists []; constructor|].
  destruct (H a) as [b Hb]; [now left|]. destruct IH as [l' Hl]; [intros; apply H; now right|].
  exists (b :: l'). now constructor.
Qed.
Lemma Forall2_in_r {A B} (P : A -> B -> Prop) l l' : Forall2 P l l' -> forall y, In y l' -> exists x, In x l /\ P x y.
Proof. induction 1; simpl; [tauto|]. intros z [<-|Hz]; [eauto|]. apply IHForall2 in Hz as [u [Hu HP]]. eauto. Qed.
Lemma Forall2_in_l {A B} (P : A -> B -> Prop) l l' : Forall2 P l l' -> forall x, In x l -> exists y, In y l' /\ P x y.
Proof. induction 1; simpl; [tauto|]. intros z [<-|Hz]; [eauto|]. apply IHForall2 in Hz as [u [Hu HP]]. eauto. Qed.

Lemma cpath_conflicts cd l : ~ In slash cd ->
  ((exists dirs, Forall2 (cpath cd) l dirs /\ forall dir, In dir dirs -> ~ In dir l) <->
   (forall p, In p l -> exists dir, cpath cd p dir) /\
   (forall p q, In p l -> In q l -> ~ r_content_above as_coded cd p q)).
Proof.
  intros Hcd. split.
  - intros [dirs [H1 H2]]. split.
    + intros p Hp. apply (Forall2_in_l _ _ _ H1) in Hp as [dir [_ Hd]]. eauto.
    + intros p q Hp Hq Ha. apply (Forall2_in_l _ _ _ H1) in Hq as [dir [Hi Hd]].
      apply (cpath_above cd p q dir) in Ha; auto. subst p. now apply (H2 dir).
  - intros [H1 H2]. destruct (Forall2_exists _ _ H1) as [dirs Hd]. exists dirs. split; [auto|].
    intros dir Hi Hp. apply (Forall2_in_r _ _ _ Hd) in Hi as [q [Hq Hc]].
    apply (H2 dir q); auto. now apply (cpath_above cd dir q dir).
Qed.

(** ** Version names *)

Lemma value_digits_val s : value s 0 = digits_val s.
Proof.
  unfold digits_val. assert (G : forall a, value s a = fold_left (fun a c => (a * 10 + (c - 48))%N) s a); [|apply G].
  induction s as [|c s IH]; intros a; cbn [value fold_left]; [reflexivity|]. rewrite IH. f_equal. lia.
Qed.
Lemma ascii_digit_spec c : is_ascii_digit c = true <-> ascii_digit c.
Proof. unfold is_ascii_digit, ascii_digit. rewrite andb_true_iff, !N.leb_le. tauto. Qed.

Lemma digits_zero ds : Forall ascii_digit ds -> digits_val ds = 0%N -> ds = repeat 48%N (List.length ds).
Proof.
  induction ds as [|b ds IH] using rev_ind; intros Hf Hv; [reflexivity|].
  apply Forall_app in Hf as [Hf Hb]. apply Forall_inv in Hb. unfold ascii_digit in Hb.
  rewrite digits_val_app in Hv. rewrite app_length, Nat.add_comm. cbn [List.length Nat.add].
  replace b with 48%N by lia. rewrite IH at 1 by (auto; lia).
  cbn [repeat]. rewrite repeat_cons. reflexivity.
Qed.

Lemma digits_canonical ds : ds <> [] -> Forall ascii_digit ds -> ds = zero_pad (List.length ds) (str_of_N (digits_val ds)).
Proof.
  induction ds as [|b ds IH] using rev_ind; intros Hn Hf; [congruence|]. clear Hn.
  apply Forall_app in Hf as [Hf Hb]. apply Forall_inv in Hb. unfold ascii_digit in Hb.
  rewrite digits_val_app, app_length, Nat.add_comm. cbn [List.length Nat.add].
  destruct (N.eq_dec (digits_val ds) 0) as [Hz|Hz].
  - rewrite Hz. rewrite str_of_N_small by lia. unfold zero_pad. cbn [List.length Nat.sub].
    rewrite Nat.sub_0_r. rewrite <- digits_zero by auto. f_equal. f_equal. lia.
  - rewrite str_of_N_step by lia.
    replace ((digits_val ds * 10 + (b - 48)) / 10)%N with (digits_val ds) by (apply N.div_unique with (b - 48)%N; lia).
    replace ((digits_val ds * 10 + (b - 48)) mod 10)%N with (b - 48)%N by (apply N.mod_unique with (digits_val ds); lia).
    unfold zero_pad. rewrite app_length, Nat.add_comm. cbn [List.length Nat.add Nat.sub].
    replace (48 + (b - 48))%N with b by lia. rewrite app_assoc. f_equal.
    apply IH; [|auto]. intros ->. apply Hz. reflexivity.
Qed.

Lemma version_name_fmt w n s : (0 < n)%N -> version_name w n s -> s = version_fmt w n.
Proof.
  intros Hn [ds [-> [Hne [Hf [Hv Hw]]]]]. rewrite value_digits_val in Hv.
  pose proof (digits_canonical ds Hne Hf) as Hc. rewrite Hv in Hc. destruct w as [w|].
  - destruct Hw as [<- _]. unfold version_fmt. f_equal. exact Hc.
  - unfold version_fmt. f_equal. unfold zero_pad in Hc.
    destruct (List.length ds - List.length (str_of_N n))%nat as [|k]; [exact Hc|].
    exfalso. apply Hw. rewrite Hc. reflexivity.
Qed.

Lemma version_fmt_name w n : (0 < n)%N ->
  match w with None => True | Some w => (2 <= w)%nat /\ (n < 10 ^ N.of_nat (w - 1))%N end ->
  version_name w n (version_fmt w n).
Proof.
  intros Hn Hw. destruct w as [w|].
  - destruct Hw as [H2 Hw]. exists (zero_pad w (str_of_N n)).
    assert (Hl : (List.length (str_of_N n) <= w - 1)%nat) by (apply str_of_N_length; [lia|auto]).
    split; [reflexivity|]. split; [intros E; apply (f_equal (@List.length N)) in E; rewrite zero_pad_length in E; simpl in E; lia|].
    split; [eapply Forall_impl; [|apply zero_pad_ascii]; intros; now apply ascii_digit_spec|].
    split; [rewrite value_digits_val; apply digits_val_zero_pad|].
    split; [rewrite zero_pad_length; lia|]. unfold zero_pad.
    destruct (w - List.length (str_of_N n))%nat as [|k] eqn:E; [lia|reflexivity].
  - exists (str_of_N n). split; [reflexivity|]. split; [apply str_of_N_nonnil|].
    split; [eapply Forall_impl; [|apply str_of_N_digits]; intros; now apply ascii_digit_spec|].
    split; [rewrite value_digits_val; apply digits_val_str_of_N|].
    destruct (str_of_N_head n Hn) as [c [r [-> Hc]]]. simpl. congruence.
Qed.

Lemma version_fmt_inj w a b : version_fmt w a = version_fmt w b -> a = b.
Proof.
  destruct w as [w|]; intros H.
  - apply app_inv_head in H. rewrite <- (digits_val_zero_pad w a), H. apply digits_val_zero_pad.
  - apply app_inv_head in H. now apply str_of_N_inj.
Qed.

(** The first m names *)
Definition names (w : option nat) (m : nat) : list str := map (fun i => version_fmt w (N.of_nat i + 1)) (seq 0 m).

Lemma names_S w m : names w (S m) = names w m ++ [version_fmt w (N.of_nat m + 1)].
Proof. unfold names. rewrite seq_S, map_app. reflexivity. Qed.
Lemma names_length w m : List.length (names w m) = m.
Proof. unfold names. now rewrite map_length, seq_length. Qed.
Lemma names_NoDup w m : NoDup (names w m).
Proof.
  unfold names. apply FinFun.Injective_map_NoDup; [|apply seq_NoDup].
  intros a b E. apply version_fmt_inj in E. lia.
Qed.
Lemma In_names w m s : In s (names w m) <-> exists i, (i < m)%nat /\ s = version_fmt w (N.of_nat i + 1).
Proof.
  unfold names. rewrite in_map_iff. split.
  - intros [i [<- Hi]]. apply in_seq in Hi. exists i. split; [lia|auto].
  - intros [i [Hi ->]]. exists i. split; [auto|]. apply in_seq. lia.
Qed.
Lemma names_next w m : ~ In (version_fmt w (N.of_nat m + 1)) (names w m).
Proof. rewrite In_names. intros [i [Hi E]]. apply version_fmt_inj in E. lia. Qed.

Lemma version_loop_clean w max (d : dict json) : NoDup (keys d) -> forall fuel a all,
  incl (names w a) (keys d) -> (S (List.length d) <= fuel + a)%nat -> (N.of_nat a <= max)%N ->
  (clean (version_loop fuel w max d (N.of_nat a + 1) (names w a)) all <->
   Permutation (keys d) all /\ exists m, all = names w m /\ (a <= m)%nat /\ (N.of_nat m <= max)%N).
Proof.
  intros Hk. assert (Hkl : List.length (keys d) = List.length d) by apply map_length.
  assert (P1 : forall a, incl (names w a) (keys d) -> List.length d = a -> Permutation (keys d) (names w a)).
  { intros a Hi Hl. apply Permutation_sym, NoDup_Permutation_bis; [apply names_NoDup|rewrite names_length; lia|auto]. }
  assert (P2 : forall a, incl (names w a) (keys d) -> (a <= List.length d)%nat).
  { intros a Hi. rewrite <- Hkl, <- (names_length w a). apply NoDup_incl_length; [apply names_NoDup|auto]. }
  assert (P3 : forall m, Permutation (keys d) (names w m) -> List.length d = m).
  { intros m Hp. apply Permutation_length in Hp. rewrite names_length in Hp. lia. }
  induction fuel as [|fuel IH]; intros a all Hi Hf Ha.
  - specialize (P2 a Hi). lia.
  - cbn [version_loop]. destruct (N.ltb_spec max (N.of_nat a + 1)) as [Hm|Hm].
    + rewrite clean_bind. split.
      * intros [u [H1 H2]]. apply clean_unless_error in H1. apply N.ltb_ge in H1. apply clean_ret in H2. subst all.
        specialize (P2 a Hi). split; [apply P1; [auto|lia]|]. exists a. repeat split; auto.
      * intros [Hp [m [-> [Hm1 Hm2]]]]. assert (m = a) by lia. subst m. exists tt.
        split; [|now apply clean_ret]. apply clean_unless_error, N.ltb_ge. rewrite (P3 a Hp). lia.
    + destruct (dmem_spec (version_fmt w (N.of_nat a + 1)) d) as [Hin|Hin].
      * rewrite <- names_S. replace (N.of_nat a + 1 + 1)%N with (N.of_nat (S a) + 1)%N by lia.
        rewrite IH; [| |lia|lia].
        -- split; intros [Hp [m [-> [Hm1 Hm2]]]]; (split; [auto|]); exists m; repeat split; auto; try lia.
           destruct (Nat.eq_dec m a) as [->|]; [|lia]. exfalso. apply (names_next w a).
           apply (Permutation_in _ Hp). exact Hin.
        -- rewrite names_S. intros x Hx. apply in_app_or in Hx as [Hx|[<-|[]]]; auto.
      * rewrite clean_bind. split.
        -- intros [u [H1 H2]]. apply clean_when_ok, N.eqb_eq in H1. apply clean_ret in H2. subst all.
           assert (List.length d = a) by lia. split; [apply P1; auto|]. exists a. repeat split; auto.
        -- intros [Hp [m [-> [Hm1 Hm2]]]]. destruct (Nat.eq_dec m a) as [->|Hne].
           ++ exists tt. split; [apply clean_when_ok, N.eqb_eq; rewrite (P3 a Hp); lia|now apply clean_ret].
           ++ exfalso. apply Hin. apply (Permutation_in _ (Permutation_sym Hp)). apply In_names. exists a. split; [lia|auto].
Qed.

Lemma nth_error_eq {A} (a b : list A) : (forall i, nth_error a i = nth_error b i) -> a = b.
Proof.
  revert b. induction a as [|x a IH]; intros [|y b] H; [reflexivity|specialize (H 0%nat); discriminate H..|].
  f_equal; [specialize (H 0%nat); simpl in H; congruence|]. apply IH. intros i. apply (H (S i)).
Qed.

Lemma version_sequence_names w all :
  version_sequence w all -> all = names w (List.length all).
Proof.
  intros [_ H]. apply nth_error_eq. intros i. destruct (nth_error all i) as [s|] eqn:E.
  - symmetry. unfold names. rewrite nth_error_map.
    assert (Hi : (i < List.length all)%nat) by (apply nth_error_Some; congruence).
    rewrite (nth_error_nth' _ 0%nat) by now rewrite seq_length. rewrite seq_nth by auto. cbn [option_map]. f_equal.
    symmetry. apply version_name_fmt; [lia|]. now apply H.
  - symmetry. apply nth_error_None. rewrite names_length. now apply nth_error_None.
Qed.

Lemma names_version_sequence w m : (1 <= m)%nat ->
  match w with None => True | Some w => (2 <= w)%nat /\ (N.of_nat m < 10 ^ N.of_nat (w - 1))%N end ->
  version_sequence w (names w m).
Proof.
  intros Hm Hw. split.
  - intros E. apply (f_equal (@List.length str)) in E. rewrite names_length in E. simpl in E. lia.
  - intros i s Hs. assert (Hi : (i < m)%nat) by (rewrite <- (names_length w m); apply nth_error_Some; congruence).
    unfold names in Hs. rewrite nth_error_map in Hs.
    rewrite (nth_error_nth' _ 0%nat) in Hs by now rewrite seq_length. rewrite seq_nth in Hs by auto.
    cbn [option_map] in Hs. assert (Hs' : s = version_fmt w (N.of_nat i + 1)) by (cbn [Nat.add] in Hs; congruence).
    subst s. apply version_fmt_name; [lia|]. destruct w; [split; [tauto|lia]|auto].
Qed.

Lemma find_width (d : dict json) w m : (2 <= w <= 10)%nat -> (1 <= m)%nat -> (N.of_nat m < 10 ^ N.of_nat (w - 1))%N ->
  Permutation (keys d) (names (Some w) m) ->
  dmem (`"v1") d = false /\ find (fun n => dmem (version_fmt (Some n) 1) d) (seq 2 9) = Some w.
Proof.
  intros Hw Hm Hlt Hp.
  assert (L : forall s, In s (keys d) -> List.length s = S w).
  { intros s Hs. apply (Permutation_in _ Hp) in Hs. apply In_names in Hs as [i [Hi ->]].
    unfold version_fmt. rewrite app_length, zero_pad_length. cbn [List.length lit].
    assert ((List.length (str_of_N (N.of_nat i + 1)) <= w - 1)%nat) by (apply str_of_N_length; lia).
    change (List.length (`"v")) with 1%nat. lia. }
  assert (Lf : forall n, (1 <= n)%nat -> List.length (version_fmt (Some n) 1) = S n).
  { intros n Hn. unfold version_fmt. rewrite app_length, zero_pad_length. change (List.length (`"v")) with 1%nat.
    change (List.length (str_of_N 1)) with 1%nat. lia. }
  split.
  - destruct (dmem_spec (`"v1") d) as [H|H]; [|auto]. apply L in H. change (List.length (`"v1")) with 2%nat in H. lia.
  - assert (F : forall l, incl l (seq 2 9) -> In w l -> find (fun n => dmem (version_fmt (Some n) 1) d) l = Some w).
    { induction l as [|n l IH]; intros Hi Hin; [destruct Hin|]. cbn [find].
      assert (Hn : (1 <= n)%nat) by (assert (In n (seq 2 9)) as Hq by (apply Hi; now left); apply in_seq in Hq; lia).
      destruct (dmem_spec (version_fmt (Some n) 1) d) as [H|H].
      - f_equal. apply L in H. rewrite Lf in H by auto. lia.
      - destruct Hin as [->|Hin]; [|apply IH; auto; intros x Hx; apply Hi; now right].
        exfalso. apply H. apply (Permutation_in _ (Permutation_sym Hp)). apply In_names. exists 0%nat. split; [lia|reflexivity]. }
    apply F; [apply incl_refl|]. apply in_seq. lia.
Qed.

Lemma clean_version_sequence vs all : (forall d, vs = JObj d -> NoDup (keys d)) ->
  (clean (validate_version_sequence vs) all <->
   exists d w, vs = JObj d /\ version_sequence w all /\ r_versions as_coded w (N.of_nat (List.length all)) /\
     Permutation (keys d) all).
Proof.
  intros Hwf. unfold validate_version_sequence.
  destruct vs as [| | | | | |d]; try (rewrite clean_bind_error; split; [tauto|]; intros [d [w [H _]]]; discriminate).
  specialize (Hwf d eq_refl). destruct d as [|kv d'] eqn:Ed.
  { rewrite clean_bind_error. split; [tauto|]. intros [d0 [w [H [[Hne _] [_ Hp]]]]]. injection H as <-.
    apply Permutation_nil in Hp. congruence. }
  rewrite <- Ed in *. clear Ed d' kv.
  assert (Hlen : forall m w, Permutation (keys d) (names w m) -> (1 <= m)%nat -> (1 <= List.length d)%nat).
  { intros m w Hp Hm. apply Permutation_length in Hp. rewrite names_length in Hp. unfold keys in Hp. rewrite map_length in Hp. lia. }
  destruct (dmem_spec (`"v1") d) as [Hv1|Hv1].
  - change 2%N with (N.of_nat 1 + 1)%N. change [`"v1"] with (names None 1).
    rewrite version_loop_clean; [|auto| |lia|vm_compute; discriminate].
    2:{ intros x [<-|[]]. exact Hv1. }
    split.
    + intros [Hp [m [-> [Hm1 Hm2]]]]. exists d, None. split; [auto|]. split; [now apply names_version_sequence|].
      split; [cbn [r_versions as_coded]; rewrite names_length; exact Hm2|auto].
    + intros [d' [w [E [Hs [Hr Hp]]]]]. injection E as <-. split; [auto|].
      pose proof (version_sequence_names w all Hs) as En. exists (List.length all).
      assert (Hl : (1 <= List.length all)%nat) by (destruct Hs as [Hne _]; destruct all; [congruence|simpl; lia]).
      destruct w as [w|].
      * exfalso. cbn [r_versions as_coded] in Hr. rewrite En in Hp.
        destruct (find_width d w (List.length all)) as [F _]; auto; try lia.
        destruct (dmem_spec (`"v1") d); [discriminate|auto].
      * split; [auto|]. split; [auto|exact Hr].
  - destruct (find _ (seq 2 9)) as [w|] eqn:F.
    + apply find_some in F as Fs. destruct Fs as [Hw Hf]. apply in_seq in Hw.
      destruct (dmem_spec (version_fmt (Some w) 1) d) as [Hf'|Hf']; [|discriminate]. clear Hf.
      rewrite clean_bind_warning. change 2%N with (N.of_nat 1 + 1)%N at 1.
      change [version_fmt (Some w) 1] with (names (Some w) 1).
      assert (Hpow : (10 <= 10 ^ N.of_nat (w - 1))%N).
      { replace (N.of_nat (w - 1)) with (N.succ (N.of_nat (w - 2))) by lia. rewrite N.pow_succ_r'.
        assert (0 < 10 ^ N.of_nat (w - 2))%N by (apply N.neq_0_lt_0, N.pow_nonzero; lia). nia. }
      rewrite version_loop_clean; [|auto| |lia|lia].
      2:{ intros x [<-|[]]. exact Hf'. }
      split.
      * intros [Hp [m [-> [Hm1 Hm2]]]]. exists d, (Some w). split; [auto|].
        split; [apply names_version_sequence; [auto|split; lia]|].
        split; [cbn [r_versions as_coded]; rewrite names_length; split; lia|auto].
      * intros [d' [w' [E [Hs [Hr Hp]]]]]. injection E as <-. split; [auto|].
        pose proof (version_sequence_names w' all Hs) as En. exists (List.length all).
        assert (Hl : (1 <= List.length all)%nat) by (destruct Hs as [Hne _]; destruct all; [congruence|simpl; lia]).
        destruct w' as [w'|].
        -- cbn [r_versions as_coded] in Hr. rewrite En in Hp.
           destruct (find_width d w' (List.length all)) as [_ F']; auto; try lia.
           rewrite F in F'. injection F' as <-. split; [auto|]. split; [auto|lia].
        -- exfalso. apply Hv1. rewrite En in Hp. apply (Permutation_in _ (Permutation_sym Hp)).
           apply In_names. exists 0%nat. split; [lia|reflexivity].
    + rewrite clean_bind_error. split; [tauto|]. intros [d' [w' [E [Hs [Hr Hp]]]]]. injection E as <-.
      pose proof (version_sequence_names w' all Hs) as En.
      assert (Hl : (1 <= List.length all)%nat) by (destruct Hs as [Hne _]; destruct all; [congruence|simpl; lia]).
      rewrite En in Hp. destruct w' as [w'|].
      * cbn [r_versions as_coded] in Hr. destruct (find_width d w' (List.length all)) as [_ F']; auto; try lia. congruence.
      * apply Hv1. apply (Permutation_in _ (Permutation_sym Hp)). apply In_names. exists 0%nat. split; [lia|reflexivity].
Qed.
