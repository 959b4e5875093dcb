(** The same object with and without digest checks: a run with the checks logs what a run
    without them logs, and codes of the checks. *)
From Verif Require Import Base Unicode Regex Utf8 Json PyJson Log TextFile PathModel FsModel FswModel NamasteModel DigestModel ObjectUtilsModel.
From Verif Require Import InventoryValidatorModel ValidatorModel.
Open Scope N_scope.

(** the codes of an entry that only a digest check logs *)
Definition digest_codes : list str := [`"E058b"; `"E060"; `"E061"; `"E092a"; `"E093a"].
Definition code_of (e : entry) : str := match e with LError c | LWarning c => c end.
(** [l'] is [l] without some of the entries of digest checks *)
Inductive drops : list entry -> list entry -> Prop :=
| drops_nil : drops [] []
| drops_keep e l l' : drops l l' -> drops (e :: l) (e :: l')
| drops_drop e l l' : In (code_of e) digest_codes -> drops l l' -> drops (e :: l) l'.

Lemma drops_refl l : drops l l.
Proof. induction l; constructor; auto. Qed.
Lemma drops_app a a' b b' : drops a a' -> drops b b' -> drops (a ++ b) (a' ++ b').
Proof. intros H1 H2. induction H1; cbn [app]; [exact H2|now constructor|now constructor]. Qed.
Lemma drops_errors l l' : drops l l' -> (num_errors l' <= num_errors l)%nat.
Proof. unfold num_errors. induction 1 as [|[c|c] l l' Hd IH|[c|c] l l' Hc Hd IH]; cbn [filter List.length] in *; try lia; cbn in *; lia. Qed.
Lemma drops_extra l l' : drops l l' -> num_errors l' = O -> num_errors l <> O -> exists code, In (LError code) l /\ In code digest_codes.
Proof.
  induction 1 as [|e l l' Hd IH|e l l' Hc Hd IH]; intros H0 H1; [contradiction| |].
  - destruct e as [c|c]; [discriminate H0|]. destruct (IH H0 H1) as (code & Hi & Hc). exists code. split; [now right|exact Hc].
  - destruct e as [code|code]; [exists code; split; [now left|exact Hc]|]. destruct (IH H0 H1) as (code' & Hi & Hc'). exists code'. split; [now right|exact Hc'].
Qed.

Definition refines {A} (x y : wexc A) : Prop :=
  match snd x with
  | Ok a => snd y = Ok a /\ drops (fst x) (fst y)
  | Raise _ => True
  end.

Lemma refines_refl {A} (x : wexc A) : refines x x.
Proof. unfold refines. destruct (snd x); auto using drops_refl. Qed.
Lemma refines_bind {A B} (x y : wexc A) (f g : A -> wexc B) : refines x y -> (forall a, refines (f a) (g a)) -> refines (wbind x f) (wbind y g).
Proof.
  unfold refines, wbind. intros H1 H2. destruct x as [lx [a|e]]; cbn [fst snd] in *; [|exact I].
  destruct H1 as [E1 E2]. destruct y as [ly ry]. cbn [fst snd] in *. subst ry. specialize (H2 a).
  destruct (f a) as [lf [b|e]], (g a) as [lg rg]; cbn [fst snd] in *; [|exact I]. destruct H2 as [-> H2].
  split; [reflexivity|]. now apply drops_app.
Qed.
Lemma refines_fold {A S} (f g : S -> A -> wexc S) l s : (forall s a, refines (f s a) (g s a)) -> refines (wfold f l s) (wfold g l s).
Proof. intros H. revert s. induction l as [|a l IH]; intros s; cbn [wfold]; [apply refines_refl|]. apply refines_bind; auto. Qed.
Lemma refines_silent {A} (x : wexc A) a : Forall (fun e => In (code_of e) digest_codes) (fst x) -> (forall b, snd x = Ok b -> b = a) -> refines x (wret a).
Proof.
  unfold refines. intros H1 H2. destruct (snd x) as [b|]; [|exact I]. rewrite (H2 b eq_refl). split; [reflexivity|]. cbn [wret fst].
  induction H1 as [|e l He _ IH]; constructor; auto.
Qed.
Lemma fold_codes {A S} (f : S -> A -> wexc S) l : (forall s a, Forall (fun e => In (code_of e) digest_codes) (fst (f s a))) -> forall s,
  Forall (fun e => In (code_of e) digest_codes) (fst (wfold f l s)).
Proof.
  intros H. induction l as [|a l IH]; intros s; cbn [wfold]; [constructor|]. unfold wbind. specialize (H s a).
  destruct (f s a) as [lf [b|e]]; cbn [fst snd] in *; [|exact H]. apply Forall_app. split; [exact H|apply IH].
Qed.
Lemma bind_codes {A B} (x : wexc A) (f : A -> wexc B) : Forall (fun e => In (code_of e) digest_codes) (fst x) ->
  (forall a, Forall (fun e => In (code_of e) digest_codes) (fst (f a))) -> Forall (fun e => In (code_of e) digest_codes) (fst (wbind x f)).
Proof. intros H1 H2. unfold wbind. destruct x as [l [a|e]]; cbn [fst snd] in *; [|exact H1]. apply Forall_app. auto. Qed.

Definition without_checks (c : vconf) : vconf := mkVconf false (vc_lax_digests c) (vc_default_spec c) (vc_sizes c).

Section Off.
  Variable H : hashfn.
  Variable c : vconf.
  Variable w : node.
  Variable h : place.
  Notation c' := (without_checks c).
  Ltac code := cbn [fst werror wret wraise wlift]; first [apply Forall_nil|apply Forall_cons; [apply str_in_true; reflexivity|apply Forall_nil]].

  Lemma refines_digest f alg : refines (validate_inventory_digest H c w h f alg) (validate_inventory_digest H c' w h f alg).
  Proof using.
    unfold validate_inventory_digest. destruct alg; try apply refines_refl. cbv zeta. destruct (negb _); [apply refines_refl|].
    unfold validate_inventory_digest_match at 2. cbn [vc_check_digests without_checks negb].
    apply refines_silent; [|intros []; reflexivity].
    unfold validate_inventory_digest_match. destruct (negb (vc_check_digests c)); [code|]. destruct (re_match _ _); [|code].
    destruct (ebind _ _) as [[]|[]]; code.
  Qed.

  Lemma refines_version_dir root last s v :
    refines (validate_version_dir H c w h root last s v) (validate_version_dir H c' w h root last s v).
  Proof using.
    unfold validate_version_dir. cbv zeta. destruct (negb _); [apply refines_refl|]. apply refines_bind.
    - destruct (str_eqb v last).
      + apply refines_bind; [apply refines_refl|]. intros same. apply refines_bind; [|intros; apply refines_refl].
        destruct same; [apply refines_digest|apply refines_refl].
      + apply refines_bind; [apply refines_refl|]. intros [[inv st]|]; [|apply refines_refl]. apply refines_bind; [apply refines_digest|intros; apply refines_refl].
    - intros; apply refines_refl.
  Qed.

  Lemma additional_codes p known m code : In code digest_codes ->
    Forall (fun e => In (code_of e) digest_codes) (fst (check_additional_digests H w h p known m code)).
  Proof using.
    intros Hc. unfold check_additional_digests. destruct (dget p m); [|code]. apply fold_codes. intros s a. apply bind_codes.
    - destruct (dget (fst a) s); code.
    - intros d0. apply bind_codes; [|intros; code]. apply fold_codes. intros _ x. destruct (str_eqb _ _); [code|]. cbn [fst werror]. constructor; [exact Hc|constructor].
  Qed.

  Lemma refines_file alg fixity prior remaining dp : refines (check_file H c w h alg fixity prior remaining dp) (check_file H c' w h alg fixity prior remaining dp).
  Proof using.
    unfold check_file. destruct dp as [d p]. destruct (negb _); [apply refines_refl|]. apply refines_bind; [|intros; apply refines_refl].
    cbn [vc_check_digests without_checks]. apply refines_silent; [|intros []; reflexivity]. destruct (vc_check_digests c); [|code].
    apply bind_codes; [code|]. intros x. apply bind_codes; [destruct (str_eqb _ _); code|]. intros _.
    apply bind_codes; [apply additional_codes; apply str_in_true; reflexivity|]. intros k1.
    apply bind_codes; [apply additional_codes; apply str_in_true; reflexivity|]. intros k2.
    apply bind_codes; [apply additional_codes; apply str_in_true; reflexivity|]. intros k3. code.
  Qed.

  Lemma refines_content root vs prior : refines (validate_content H c w h root vs prior) (validate_content H c' w h root vs prior).
  Proof using.
    unfold validate_content. apply refines_bind; [apply refines_refl|]. intros seen. apply refines_bind; [apply refines_refl|]. intros fx.
    apply refines_bind; [apply refines_refl|]. intros has. apply refines_bind; [|intros; apply refines_refl]. destruct has; [|apply refines_refl].
    apply refines_bind; [apply refines_refl|]. intros man. apply refines_bind; [apply refines_refl|]. intros items.
    destruct (iv_digest_algorithm _); try apply refines_refl. apply refines_fold. intros; apply refines_file.
  Qed.

  Lemma refines_parts n spec ns : refines (validate_parts H c w h n spec ns) (validate_parts H c' w h n spec ns).
  Proof using.
    unfold validate_parts. change (validate_inventory c' w h INVENTORY_FILENAME spec) with (validate_inventory c w h INVENTORY_FILENAME spec).
    destruct (validate_inventory c w h INVENTORY_FILENAME spec) as [log [[[inv st]|]|e]]; try apply refines_refl. cbv zeta.
    apply refines_bind; [apply refines_refl|]. intros _. apply refines_bind; [apply refines_digest|]. intros _.
    apply refines_bind; [apply refines_refl|]. intros _. apply refines_bind.
    - unfold validate_version_inventories. cbv zeta. destruct (last_opt _); [|apply refines_refl]. apply refines_fold. intros [s1|] v; [|apply refines_refl].
      apply refines_version_dir.
    - intros [prior|]; [|apply refines_refl]. destruct (Nat.eqb _ _); [apply refines_content|apply refines_refl].
  Qed.

  (** The result may be another; the log is the same but for the codes of the checks. *)
  Theorem refines_opened n log r : validate_opened H c w h n = (log, Ok r) ->
    exists log' r', validate_opened H c' w h n = (log', Ok r') /\ drops log log' /\ (r = true -> r' = true).
  Proof using.
    unfold validate_opened. unfold wlift, wbind. cbn [fst snd app]. destruct (find_namastes w h (`"0") [] 10) as [ns|e]; cbn [fst snd]; [|intros E; discriminate E].
    change (check_declarations c' w h ns) with (check_declarations c w h ns).
    destruct (check_declarations c w h ns) as [l1 [spec|e]]; [|intros E; discriminate E].
    destruct (negb (fs_exists w h INVENTORY_FILENAME)).
    { cbn [fst snd]. intros E. injection E as <- <-. eexists _, _. split; [reflexivity|]. split; [apply drops_refl|auto]. }
    pose proof (refines_parts (n + num_errors l1) spec ns) as R. unfold refines in R.
    destruct (validate_parts H c w h (n + num_errors l1) spec ns) as [l2 [u|e]]; [|intros E; discriminate E]. cbn [fst snd] in *.
    destruct (validate_parts H c' w h (n + num_errors l1) spec ns) as [l3 r3]. cbn [fst snd] in R. destruct R as [-> R].
    intros E. injection E as <- <-. eexists _, _. split; [reflexivity|]. cbn [fst].
    assert (D : drops (l1 ++ l2) (l1 ++ l3)) by (apply drops_app; [apply drops_refl|exact R]). split; [exact D|].
    apply drops_errors in D. rewrite !Nat.eqb_eq. lia.
  Qed.
End Off.
