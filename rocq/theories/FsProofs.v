(** Facts about the file system model: what each step changes, seen place by place. *)
From Verif Require Import Base Utf8 PathModel TextFile FsModel FsSpec.

(** * Induction on trees *)

Fixpoint node_ind' (P : node -> Prop) (Hf : forall b, P (File b)) (Ho : P Other)
  (Hd : forall d, Forall (fun kv => P (snd kv)) d -> P (Dir d)) (n : node) : P n :=
  match n with
  | File b => Hf b
  | Other => Ho
  | Dir d => Hd d ((fix all d := match d return Forall (fun kv => P (snd kv)) d with
                                | [] => Forall_nil _
                                | kv :: r => Forall_cons kv (node_ind' P Hf Ho Hd (snd kv)) (all r)
                                end) d)
  end.

Lemma tree_dir d : tree (Dir d) <->
  NoDup (keys d) /\ (forall k m, In (k, m) d -> fname k /\ tree m).
Proof.
  cbn [tree].
  assert (G : (fix all (d : list (str * node)) : Prop :=
      match d with [] => True | (k, m) :: r => fname k /\ tree m /\ all r end) d <->
      (forall k m, In (k, m) d -> fname k /\ tree m)).
  { induction d as [|[k m] d IH]; [split; [intros _ k m []|trivial]|]. split.
    - intros (A & B & C) k' m' [E|Hin]; [injection E as <- <-; auto|]. now apply (proj1 IH C).
    - intros A. destruct (A k m (or_introl eq_refl)). split; [auto|split; [auto|]]. apply IH. intros; apply A; right; auto. }
  now rewrite G.
Qed.

Lemma fname_dec (c : str) : {fname c} + {~ fname c}.
Proof.
  unfold fname.
  destruct (list_eq_dec N.eq_dec c []) as [->|]; [right; tauto|].
  destruct (list_eq_dec N.eq_dec c (`".")) as [->|]; [right; tauto|].
  destruct (list_eq_dec N.eq_dec c (`"..")) as [->|]; [right; tauto|].
  destruct (in_dec N.eq_dec slash c); [right; tauto|left; tauto].
Qed.

Lemma fname_plain c : fname c -> plain_component c.
Proof. intros (A & _ & _ & D). split; auto. Qed.

Lemma fnames_plain l : Forall fname l -> Forall plain_component l.
Proof. intros H. eapply Forall_impl; [|exact H]. apply fname_plain. Qed.

(** * Places *)

Lemma resolve_names a l : Forall fname l -> fold_left resolve_step l a = rev l ++ a.
Proof.
  revert a; induction l as [|c l IH]; intros a H; [reflexivity|]. inversion H as [|? ? Hc Hl]; subst.
  cbn [fold_left rev]. rewrite IH by auto. destruct Hc as (A & B & C & D).
  unfold resolve_step.
  destruct (str_eqb_spec c []); [congruence|]. destruct (str_eqb_spec c (`".")); [congruence|].
  cbn [orb]. destruct (str_eqb_spec c (`"..")); [congruence|]. now rewrite <- app_assoc.
Qed.

Lemma resolve_fnames l : Forall fname l -> resolve l = l.
Proof. intros H. unfold resolve. rewrite resolve_names by auto. now rewrite app_nil_r, rev_involutive. Qed.

Lemma split_fnames l : l <> [] -> Forall fname l -> split_on slash (join [slash] l) = l.
Proof. intros Hn H. apply split_join; auto. intros c Hc. rewrite Forall_forall in H. now destruct (H c Hc) as (_ & _ & _ & D). Qed.

Lemma resolve_app_nil h : resolve (h ++ [[]]) = resolve h.
Proof. unfold resolve. rewrite fold_left_app. reflexivity. Qed.

Lemma at_path_join h l : Forall fname h -> Forall fname l -> at_path h (join [slash] l) = h ++ l.
Proof.
  intros Hh Hl. unfold at_path. destruct l as [|c l].
  - cbn [join]. change (split_on slash []) with [@nil N]. rewrite resolve_app_nil, app_nil_r. now apply resolve_fnames.
  - rewrite split_fnames by (auto; discriminate). apply resolve_fnames. apply Forall_app; auto.
Qed.

Lemma split_slash s : split_on slash (slash :: s) = [] :: split_on slash s.
Proof. reflexivity. Qed.

Lemma fold_resolve_fname l : forall a, Forall (fun c => ~ In slash c) l -> Forall fname a -> Forall fname (fold_left resolve_step l a).
Proof.
  induction l as [|c l IH]; intros a Hl Ha; [auto|]. inversion Hl; subst. cbn [fold_left]. apply IH; auto.
  unfold resolve_step. destruct (str_eqb_spec c []); [auto|]. destruct (str_eqb_spec c (`".")); [auto|]. cbn [orb].
  destruct (str_eqb_spec c (`"..")).
  - destruct a; auto. now inversion Ha.
  - apply Forall_cons; auto. repeat split; auto.
Qed.

Lemma split_noslash s : Forall (fun c => ~ In slash c) (split_on slash s).
Proof. apply Forall_forall. intros e. apply split_on_noc. Qed.

Lemma at_path_fnames h path : Forall fname h -> Forall fname (at_path h path).
Proof.
  intros Hh. unfold at_path, resolve. apply Forall_rev. apply fold_resolve_fname; auto.
  apply Forall_app; split; [|apply split_noslash]. eapply Forall_impl; [|exact Hh]. intros c (_ & _ & _ & D); auto.
Qed.

(** a leading slash makes no difference *)
Lemma at_path_slash h p : at_path h (slash :: p) = at_path h p.
Proof.
  unfold at_path, resolve. rewrite split_slash. rewrite !fold_left_app. reflexivity.
Qed.

(** * Looking *)

Lemma look_nil n : look n [] = Some (entry_of n).
Proof. reflexivity. Qed.

Lemma look_cons c r n : look n (c :: r) =
  match n with Dir d => match dget c d with Some m => look m r | None => None end | _ => None end.
Proof. unfold look. cbn [get]. destruct n as [b|d|]; auto. now destruct (dget c d). Qed.

Lemma get_app n p q : get n (p ++ q) = match get n p with Ok m => get m q | Raise e => Raise e end.
Proof.
  revert n; induction p as [|c p IH]; intros n; [reflexivity|]. cbn [app get].
  destruct n as [b|d|]; auto. destruct (dget c d); auto.
Qed.

Lemma look_app n p q : look n (p ++ q) = match get n p with Ok m => look m q | Raise _ => None end.
Proof. unfold look. rewrite get_app. now destruct (get n p). Qed.

Lemma look_get n p e : look n p = Some e -> exists m, get n p = Ok m /\ entry_of m = e.
Proof. unfold look. destruct (get n p) as [m|]; [|discriminate]. intros H. exists m. split; auto. congruence. Qed.

Lemma get_look n p m : get n p = Ok m -> look n p = Some (entry_of m).
Proof. unfold look. now intros ->. Qed.

Lemma look_dir n p : look n p = Some EDir <-> exists d, get n p = Ok (Dir d).
Proof.
  split.
  - intros H. apply look_get in H as (m & G & E). destruct m; try discriminate. eauto.
  - intros (d & H). now rewrite (get_look _ _ _ H).
Qed.

Lemma look_file n p b : look n p = Some (EFile b) <-> get n p = Ok (File b).
Proof.
  split.
  - intros H. apply look_get in H as (m & G & E). destruct m; try discriminate. cbn in E. congruence.
  - intros H. now rewrite (get_look _ _ _ H).
Qed.

Lemma look_other n p : look n p = Some EOther <-> get n p = Ok Other.
Proof.
  split.
  - intros H. apply look_get in H as (m & G & E). destruct m; try discriminate. auto.
  - intros H. now rewrite (get_look _ _ _ H).
Qed.

(** what is above something is a directory *)
Lemma look_above n p c r : look n (p ++ c :: r) <> None -> look n p = Some EDir.
Proof.
  rewrite look_app. destruct (get n p) as [m|] eqn:E; [|congruence]. intros H.
  rewrite look_cons in H. destruct m; try congruence. apply look_dir. eauto.
Qed.

Lemma look_child n p d c : get n p = Ok (Dir d) -> look n (p ++ [c]) = option_map entry_of (dget c d).
Proof. intros H. rewrite look_app, H, look_cons. destruct (dget c d); reflexivity. Qed.

Lemma tree_get n p m : tree n -> get n p = Ok m -> tree m.
Proof.
  revert n; induction p as [|c p IH]; intros n Hn H; [cbn in H; congruence|]. cbn [get] in H.
  destruct n as [b|d|]; try discriminate. destruct (dget c d) as [m'|] eqn:E; [|discriminate].
  apply tree_dir in Hn as [_ Hn]. apply dget_In in E. destruct (Hn _ _ E). eauto.
Qed.

Lemma look_fnames n p : tree n -> look n p <> None -> Forall fname p.
Proof.
  revert n; induction p as [|c p IH]; intros n Hn H; [constructor|]. rewrite look_cons in H.
  destruct n as [b|d|]; try congruence. destruct (dget c d) as [m|] eqn:E; [|congruence].
  apply tree_dir in Hn as [_ Hn]. apply dget_In in E. destruct (Hn _ _ E). constructor; eauto.
Qed.

Lemma dir_names n p d : tree n -> get n p = Ok (Dir d) -> NoDup (keys d) /\ Forall fname (keys d) /\
  forall c, In c (keys d) <-> look n (p ++ [c]) <> None.
Proof.
  intros Hn H. pose proof (tree_get _ _ _ Hn H) as Hd. apply tree_dir in Hd as [A B]. repeat split; auto.
  - apply Forall_forall. intros c Hc. apply in_map_iff in Hc as ([k m] & <- & Hin). now apply (B k m).
  - intros Hc. rewrite (look_child _ _ _ _ H). destruct (dget c d) eqn:E; [discriminate|].
    apply dget_None in E. contradiction.
  - intros Hc. rewrite (look_child _ _ _ _ H) in Hc. destruct (dget c d) eqn:E; [|now destruct Hc].
    eapply dget_In_key; eauto.
Qed.

(** * Steps *)

Lemma strip_app p r : strip p (p ++ r) = Some r.
Proof. induction p as [|c p IH]; [reflexivity|]. cbn. now rewrite str_eqb_refl. Qed.
Lemma strip_some p q r : strip p q = Some r -> q = p ++ r.
Proof.
  revert q; induction p as [|c p IH]; intros q H; [cbn in *; congruence|].
  destruct q as [|c' q]; [discriminate|]. cbn in H. destruct (str_eqb_spec c c'); [|discriminate].
  subst. cbn. f_equal. now apply IH.
Qed.
Lemma strip_none p q : strip p q = None <-> (forall r, q <> p ++ r).
Proof.
  split.
  - intros H r ->. rewrite strip_app in H. discriminate.
  - intros H. destruct (strip p q) as [r|] eqn:E; auto. apply strip_some in E. exfalso. now apply (H r).
Qed.
Lemma strip_self p : strip p p = Some [].
Proof. rewrite <- (app_nil_r p) at 2. apply strip_app. Qed.

Lemma can_put_cons c r d : can_put (c :: r) (Dir d) ->
  match dget c d with Some m => can_put r m | None => r = [] end.
Proof.
  unfold can_put. rewrite look_cons. intros [H|[H1 H2]].
  - destruct (dget c d); [left; exact H|now destruct H].
  - destruct r as [|c' r].
    + destruct (dget c d); [left; rewrite look_nil; discriminate|auto].
    + change (removelast (c :: c' :: r)) with (c :: removelast (c' :: r)) in H2. rewrite look_cons in H2.
      destruct (dget c d); [|discriminate]. right. split; [discriminate|auto].
Qed.

Lemma look_put p new n q : can_put p n ->
  look (put p new n) q = match strip p q with Some r => look new r | None => look n q end.
Proof.
  revert n q; induction p as [|c p IH]; intros n q H; [reflexivity|].
  destruct n as [b|d|].
  - exfalso. destruct H as [H|[_ H]]; [rewrite look_cons in H; congruence|].
    destruct p as [|c' p]; [discriminate|]. change (removelast (c :: c' :: p)) with (c :: removelast (c' :: p)) in H.
    rewrite look_cons in H. discriminate.
  - apply can_put_cons in H. cbn [put]. destruct (dget c d) as [m|] eqn:E.
    + destruct q as [|c' q]; [reflexivity|]. cbn [strip]. rewrite look_cons, dget_dset.
      destruct (str_eqb_spec c c').
      * subst c'. rewrite str_eqb_refl, IH by auto. rewrite look_cons, E. reflexivity.
      * destruct (str_eqb_spec c' c); [congruence|]. now rewrite look_cons.
    + subst p. destruct q as [|c' q]; [reflexivity|]. cbn [strip]. rewrite look_cons, dget_dset.
      destruct (str_eqb_spec c c').
      * subst c'. now rewrite str_eqb_refl.
      * destruct (str_eqb_spec c' c); [congruence|]. now rewrite look_cons.
  - exfalso. destruct H as [H|[_ H]]; [rewrite look_cons in H; congruence|].
    destruct p as [|c' p]; [discriminate|]. change (removelast (c :: c' :: p)) with (c :: removelast (c' :: p)) in H.
    rewrite look_cons in H. discriminate.
Qed.

Lemma look_remove p n q : tree n -> p <> [] ->
  look (remove p n) q = match strip p q with Some _ => None | None => look n q end.
Proof.
  revert n q; induction p as [|c p IH]; intros n q Hn Hp; [congruence|]. clear Hp.
  destruct n as [b|d|].
  - cbn [remove]. destruct q as [|c' q]; [reflexivity|]. rewrite look_cons. now destruct (strip _ _).
  - cbn [remove]. pose proof (proj1 (tree_dir d) Hn) as [Hk Hs]. destruct (dget c d) as [m|] eqn:E.
    + destruct p as [|c1 p].
      * destruct q as [|c' q]; [reflexivity|]. cbn [strip]. rewrite look_cons, dget_ddel by auto.
        destruct (str_eqb_spec c c').
        -- subst c'. now rewrite str_eqb_refl.
        -- destruct (str_eqb_spec c' c); [congruence|]. now rewrite look_cons.
      * destruct q as [|c' q]; [reflexivity|]. rewrite look_cons, dget_dset.
        change (strip (c :: c1 :: p) (c' :: q)) with (if str_eqb c c' then strip (c1 :: p) q else None).
        destruct (str_eqb_spec c c').
        -- subst c'. rewrite str_eqb_refl, IH; [rewrite look_cons, E; reflexivity| |discriminate].
           apply dget_In in E. now apply (Hs c m).
        -- destruct (str_eqb_spec c' c); [congruence|]. now rewrite look_cons.
    + destruct q as [|c' q]; [reflexivity|]. cbn [strip]. rewrite look_cons.
      destruct (str_eqb_spec c c'); auto. subst c'. rewrite E. now destruct (strip p q).
  - cbn [remove]. destruct q as [|c' q]; [reflexivity|]. rewrite look_cons. now destruct (strip _ _).
Qed.

Lemma tree_put p new n : tree n -> tree new -> Forall fname p -> tree (put p new n).
Proof.
  revert n; induction p as [|c p IH]; intros n Hn Hw Hp; [auto|]. inversion Hp; subst. cbn [put].
  destruct n as [b|d|]; auto. pose proof (proj1 (tree_dir d) Hn) as [Hk Hs].
  destruct (dget c d) as [m|] eqn:E.
  - apply tree_dir. split; [now apply NoDup_dset|]. intros k m' Hin.
    apply dget_In in E. destruct (Hs _ _ E) as [_ Hm].
    assert (Hx : dget k (dset c (put p new m) d) = Some m') by (apply In_dget; auto; now apply NoDup_dset).
    rewrite dget_dset in Hx. destruct (str_eqb_spec k c).
    + subst. split; auto. injection Hx as <-. apply IH; auto.
    + apply dget_In in Hx. now apply Hs.
  - destruct p; auto. apply tree_dir. split; [now apply NoDup_dset|]. intros k m' Hin.
    assert (Hx : dget k (dset c new d) = Some m') by (apply In_dget; auto; now apply NoDup_dset).
    rewrite dget_dset in Hx. destruct (str_eqb_spec k c).
    + subst. split; auto. congruence.
    + apply dget_In in Hx. now apply Hs.
Qed.

Lemma tree_remove p n : tree n -> tree (remove p n).
Proof.
  revert n; induction p as [|c p IH]; intros n Hn; [auto|]. cbn [remove].
  destruct n as [b|d|]; auto. pose proof (proj1 (tree_dir d) Hn) as [Hk Hs].
  destruct (dget c d) as [m|] eqn:E; auto. destruct p as [|c1 p].
  - apply tree_dir. split; [now apply NoDup_ddel|]. intros k m' Hin. apply In_ddel_sub in Hin. now apply Hs.
  - apply tree_dir. split; [now apply NoDup_dset|]. intros k m' Hin.
    assert (Hx : dget k (dset c (remove (c1 :: p) m) d) = Some m') by (apply In_dget; auto; now apply NoDup_dset).
    apply dget_In in E. destruct (Hs _ _ E) as [Hc Hm].
    rewrite dget_dset in Hx. destruct (str_eqb_spec k c).
    + subst. split; auto. injection Hx as <-. apply IH; auto.
    + apply dget_In in Hx. now apply Hs.
Qed.

(** ** Each step changes one place *)

Lemma strip_eq p q : look_at_spec p q (strip p q).
Proof.
  unfold look_at_spec. destruct (place_eq_dec q p) as [->|Hn].
  - now rewrite strip_self.
  - destruct (strip p q) as [[|c r]|] eqn:E; auto.
    + apply strip_some in E. rewrite app_nil_r in E. congruence.
    + apply strip_some in E. eauto.
Qed.

Lemma look_below n p r : r <> [] -> (forall d, get n p <> Ok (Dir d)) -> look n (p ++ r) = None.
Proof.
  intros Hr H. rewrite look_app. destruct (get n p) as [m|] eqn:E; auto.
  destruct r as [|c r]; [congruence|]. rewrite look_cons. destruct m; auto. exfalso. now apply (H d).
Qed.

Lemma look_below_leaf n p r : r <> [] -> look n p <> Some EDir -> look n (p ++ r) = None.
Proof. intros Hr H. apply look_below; auto. intros d Hd. apply H. apply look_dir. eauto. Qed.

Lemma mkdir_changes w p : fresh_place w p -> changes w (apply (Mkdir p) w) p (Some EDir).
Proof.
  intros (Hp & Hpar & Hno) q. cbn [apply]. rewrite look_put by (right; auto).
  pose proof (strip_eq p q) as S. unfold look_at_spec in S. destruct (place_eq_dec q p) as [->|Hn].
  - rewrite S. reflexivity.
  - destruct (strip p q) as [r|]; auto. destruct r as [|c r]; [contradiction|]. subst q.
    rewrite look_below_leaf by (try discriminate; congruence). reflexivity.
Qed.

Lemma create_changes w p : (fresh_place w p \/ exists b, look w p = Some (EFile b)) ->
  changes w (apply (Create p) w) p (Some (EFile [])).
Proof.
  intros H q. cbn [apply]. rewrite look_put.
  2:{ destruct H as [(Hp & Hpar & Hno)|[b H]]; [right; auto|left; congruence]. }
  pose proof (strip_eq p q) as S. unfold look_at_spec in S. destruct (place_eq_dec q p) as [->|Hn].
  - rewrite S. reflexivity.
  - destruct (strip p q) as [r|]; auto. destruct r as [|c r]; [contradiction|]. subst q.
    rewrite look_below_leaf by (try discriminate; destruct H as [(Hp & Hpar & Hno)|[b H]]; congruence). reflexivity.
Qed.

Lemma append_changes w p b c : look w p = Some (EFile c) ->
  changes w (apply (Append p b) w) p (Some (EFile (c ++ b))).
Proof.
  intros H q. cbn [apply]. rewrite (proj1 (look_file _ _ _) H). rewrite look_put by (left; congruence).
  pose proof (strip_eq p q) as S. unfold look_at_spec in S. destruct (place_eq_dec q p) as [->|Hn].
  - rewrite S. reflexivity.
  - destruct (strip p q) as [r|]; auto. destruct r as [|x r]; [contradiction|]. subst q.
    rewrite look_below_leaf by (try discriminate; congruence). reflexivity.
Qed.

Lemma unlink_changes w p : tree w -> p <> [] -> look w p <> Some EDir ->
  changes w (apply (Unlink p) w) p None.
Proof.
  intros Hw Hp Hl q. cbn [apply]. rewrite look_remove by auto.
  pose proof (strip_eq p q) as S. unfold look_at_spec in S. destruct (place_eq_dec q p) as [->|Hn].
  - rewrite S. reflexivity.
  - destruct (strip p q) as [r|]; auto. destruct r as [|x r]; [contradiction|]. subst q.
    rewrite look_below_leaf by (try discriminate; congruence). reflexivity.
Qed.

Lemma tree_step s w : tree w -> Forall fname (step_place s) -> tree (apply s w).
Proof.
  intros Hw Hp. destruct s as [p|p|p b|p]; cbn [apply step_place] in *.
  - apply tree_put; auto. apply tree_dir. split; [constructor|]. intros k m [].
  - now apply tree_put.
  - destruct (get w p) as [[c|d|]|]; auto. now apply tree_put.
  - now apply tree_remove.
Qed.

Lemma tree_steps l w : tree w -> Forall (fun s => Forall fname (step_place s)) l -> tree (apply_all l w).
Proof.
  revert w; induction l as [|s l IH]; intros w Hw H; [auto|]. inversion H; subst. cbn. apply IH; auto.
  now apply tree_step.
Qed.

(** * Sequences of operations *)

Lemma apply_all_app a b w : apply_all (a ++ b) w = apply_all b (apply_all a w).
Proof. unfold apply_all. apply fold_left_app. Qed.

Lemma ibind_after {A B} (x : io A) (f : A -> io B) w :
  after (ibind x f) w = match result x w with Ok a => after (f a) (after x w) | Raise _ => after x w end.
Proof.
  unfold after, result, ibind. destruct (x w) as [s r]. cbn [fst snd]. destruct r as [a|e]; [|reflexivity].
  destruct (f a (apply_all s w)) as [s' r']. cbn [fst snd]. now rewrite apply_all_app.
Qed.

Lemma ibind_result {A B} (x : io A) (f : A -> io B) w :
  result (ibind x f) w = match result x w with Ok a => result (f a) (after x w) | Raise e => Raise e end.
Proof.
  unfold after, result, ibind. destruct (x w) as [s r]. cbn [fst snd]. destruct r as [a|e]; [|reflexivity].
  now destruct (f a (apply_all s w)) as [s' r'].
Qed.

Lemma ibind_ok {A B} (x : io A) (f : A -> io B) w b : result (ibind x f) w = Ok b ->
  exists a, result x w = Ok a /\ result (f a) (after x w) = Ok b /\ after (ibind x f) w = after (f a) (after x w).
Proof.
  intros H. rewrite ibind_result in H. destruct (result x w) as [a|] eqn:E; [|discriminate].
  exists a. repeat split; auto. rewrite ibind_after, E. reflexivity.
Qed.

Lemma steps_bind {A B} (x : io A) (f : A -> io B) w :
  fst (ibind x f w) = fst (x w) ++ match result x w with Ok a => fst (f a (after x w)) | Raise _ => [] end.
Proof.
  unfold after, result, ibind. destruct (x w) as [s r]. cbn [fst snd]. destruct r as [a|e]; [|now rewrite app_nil_r].
  now destruct (f a (apply_all s w)) as [s' r'].
Qed.

Lemma after_iread {A} (f : node -> exc A) w : after (iread f) w = w.
Proof. reflexivity. Qed.
Lemma result_iread {A} (f : node -> exc A) w : result (iread f) w = f w.
Proof. reflexivity. Qed.

Lemma after_read {A B} (f : node -> exc A) (k : A -> io B) w :
  after (ibind (iread f) k) w = match f w with Ok a => after (k a) w | Raise _ => w end.
Proof. rewrite ibind_after. reflexivity. Qed.
Lemma result_read {A B} (f : node -> exc A) (k : A -> io B) w :
  result (ibind (iread f) k) w = match f w with Ok a => result (k a) w | Raise e => Raise e end.
Proof. rewrite ibind_result. reflexivity. Qed.
Lemma after_seq {A B} (x : io A) (k : A -> io B) w a : result x w = Ok a -> after (ibind x k) w = after (k a) (after x w).
Proof. intros H. now rewrite ibind_after, H. Qed.
Lemma result_seq {A B} (x : io A) (k : A -> io B) w a : result x w = Ok a -> result (ibind x k) w = result (k a) (after x w).
Proof. intros H. now rewrite ibind_result, H. Qed.

(** * Checking that something is a tree *)

Definition fname_b (c : str) : bool :=
  negb (str_eqb c []) && negb (str_eqb c (`".")) && negb (str_eqb c (`"..")) && negb (existsb (N.eqb slash) c).
Fixpoint nodup_b (l : list str) : bool := match l with [] => true | a :: r => negb (str_in a r) && nodup_b r end.
Fixpoint tree_b (n : node) : bool :=
  match n with
  | Dir d => nodup_b (keys d) &&
      (fix all (d : list (str * node)) : bool := match d with [] => true | (k, m) :: r => fname_b k && (tree_b m && all r) end) d
  | _ => true
  end.
Lemma fname_b_ok c : fname_b c = true -> fname c.
Proof.
  unfold fname_b. rewrite !andb_true_iff, !negb_true_iff. intros (((A & B) & C) & D). unfold fname.
  destruct (str_eqb_spec c []); [discriminate|]. destruct (str_eqb_spec c (`".")); [discriminate|].
  destruct (str_eqb_spec c (`"..")); [discriminate|]. repeat split; auto. intros H.
  assert (E : existsb (N.eqb slash) c = true) by (apply existsb_exists; exists slash; split; [auto|apply N.eqb_refl]). congruence.
Qed.
Lemma nodup_b_ok l : nodup_b l = true -> NoDup l.
Proof.
  induction l as [|a l IH]; [constructor|]. cbn. rewrite andb_true_iff, negb_true_iff. intros [A B]. constructor; auto. now apply str_in_false.
Qed.
Lemma tree_b_ok n : tree_b n = true -> tree n.
Proof.
  induction n as [b| |d IH] using node_ind'; [intros _; exact I|intros _; exact I|]. cbn [tree_b]. rewrite andb_true_iff. intros [A B]. apply tree_dir.
  split; [now apply nodup_b_ok|]. clear A. induction d as [|[k m] d IHd]; [intros k m []|]. inversion IH as [|? ? IHm IHd']; subst.
  apply andb_true_iff in B as [B1 B2]. apply andb_true_iff in B2 as [B2 B3].
  intros k' m' [E|Hin]; [injection E as <- <-; split; [now apply fname_b_ok|now apply IHm]|now apply IHd].
Qed.
