(** Proofs about Object.tree. *)
From Coq Require Import Permutation Sorted.
From Verif Require Import Base Unicode Regex Utf8 Json Log DigestModel LayoutModel ObjectUtilsModel ObjectUtilsProofs InventoryValidatorModel PathModel FsModel FsSpec FsProofs FswModel FswSpec FswProofs NamasteModel NamasteSpec NamasteProofs
  ValidatorModel ValidatorBasicProofs ObjectModel TreeModel TreeSpec.

Lemma re_tree_version_iff n : (exists m, re_match re_tree_version n = Some m) <-> version_like n.
Proof.
  split.
  - intros [m H]. apply re_match_sound in H as [x [rest [-> HD]]]. unfold re_tree_version in HD.
    apply Den_seq in HD as [p [y [c1 [-> [H1 H2]]]]]. apply Den_lit in H1 as [-> ->]. apply Den_seq in H2 as [q [z [c2 [-> [H2 H3]]]]].
    apply Den_dol in H3 as [-> [-> Hnl]]. apply Den_plus_chr in H2 as (Hn & Hf & _). exists q, rest. rewrite app_nil_r, <- !app_assoc. auto.
  - intros (ds & nl & -> & Hn & Hf & Ho). destruct (re_match re_tree_version (`"v" ++ ds ++ nl)) as [m|] eqn:E; [eauto|]. exfalso. revert E.
    eapply re_match_complete with (x := `"v" ++ ds) (rest := nl); [now rewrite <- app_assoc|].
    apply Den_seq. exists (`"v"), ds, []. split; [reflexivity|]. split; [apply Den_lit; auto|].
    apply Den_seq. exists ds, [], []. split; [now rewrite app_nil_r|]. split; [apply Den_plus_chr; auto|apply Den_dol; auto].
Qed.

Lemma digest_file_iff n : startswith (INVENTORY_FILENAME ++ `".") n = true <-> digest_file n.
Proof. rewrite startswith_spec. unfold digest_file. split; intros [x E]; exists x; exact E. Qed.

(** ** The number of files *)

Fixpoint files_of (n : node) : list place :=
  match n with
  | Dir d => (fix all (d : list (str * node)) : list place := match d with [] => [] | (k, m) :: r => map (cons k) (files_of m) ++ all r end) d
  | _ => [[]]
  end.
Lemma files_of_length n : List.length (files_of n) = count_files n.
Proof.
  induction n as [b| |d IH] using node_ind'; [reflexivity|reflexivity|]. cbn [files_of count_files]. induction d as [|[k m] d IHd]; [reflexivity|].
  inversion IH as [|? ? Hm Hd]; subst. rewrite app_length, map_length. f_equal; [exact Hm|now apply IHd].
Qed.
Lemma files_of_dir d q : In q (files_of (Dir d)) <-> exists k m r, In (k, m) d /\ q = k :: r /\ In r (files_of m).
Proof.
  cbn [files_of]. induction d as [|[k m] d IH].
  - split; [intros []|intros (k & m & r & [] & _)].
  - rewrite in_app_iff, in_map_iff, IH. split.
    + intros [(r & <- & Hr)|(k' & m' & r & Hi & E & Hr)]; [exists k, m, r|exists k', m', r]; split; [now left|auto|now right|auto].
    + intros (k' & m' & r & [E|Hi] & -> & Hr); [injection E as <- <-; left; eauto|right; eauto 6].
Qed.
Lemma files_of_in n : FsSpec.tree n -> NoDup (files_of n) /\ forall q, In q (files_of n) <-> exists e, look n q = Some e /\ e <> EDir.
Proof.
  induction n as [b| |d IH] using node_ind'; intros T.
  - split; [constructor; [intros []|constructor]|]. intros q. cbn. split.
    + intros [<-|[]]. exists (EFile b). split; [reflexivity|discriminate].
    + intros (e & He & _). destruct q; [now left|discriminate He].
  - split; [constructor; [intros []|constructor]|]. intros q. cbn. split.
    + intros [<-|[]]. exists EOther. split; [reflexivity|discriminate].
    + intros (e & He & _). destruct q; [now left|discriminate He].
  - apply tree_dir in T as [Nd T]. rewrite Forall_forall in IH. split.
    + cbn [files_of]. clear - Nd T IH. induction d as [|[k m] d IHd]; [constructor|]. cbn [keys map fst] in Nd. inversion Nd as [|? ? Hk Nd']; subst.
      apply NoDup_app_iff. split; [|split].
      * apply FinFun.Injective_map_NoDup; [intros a b E; now injection E|]. apply (IH (k, m)); [now left|]. apply (T k m). now left.
      * apply IHd; auto. { intros x Hx. apply IH. now right. } { intros k' m' Hi. apply T. now right. }
      * intros q Hq Hq'. apply in_map_iff in Hq as (r & <- & _). apply (proj1 (files_of_dir d (k :: r))) in Hq' as (k' & m' & r' & Hi & E & _). injection E as <- _. apply Hk. apply in_map_iff. exists (k, m'). auto.
    + intros q. rewrite files_of_dir. split.
      * intros (k & m & r & Hi & -> & Hr). destruct (T k m Hi) as [_ Tm]. apply (proj2 (IH _ Hi Tm)) in Hr as (e & He & Hn). exists e. split; [|auto]. unfold look. cbn [get]. rewrite (In_dget _ _ _ Nd Hi). exact He.
      * intros (e & He & Hn). destruct q as [|k r]; [cbn in He; apply Some_inv in He; congruence|]. unfold look in He. cbn [get] in He. destruct (dget k d) as [m|] eqn:Ek; [|discriminate].
        apply dget_In in Ek. exists k, m, r. split; [auto|]. split; [auto|]. destruct (T k m Ek) as [_ Tm]. apply (proj2 (IH _ Ek Tm)). exists e. auto.
Qed.
Lemma files_below_at w p n : FsSpec.tree w -> get w p = Ok n -> exists l, files_below w p l /\ List.length l = count_files n.
Proof.
  intros T Hg. exists (map (fun r => p ++ r) (files_of n)).
  assert (Tn : FsSpec.tree n).
  { clear - T Hg. revert w T Hg. induction p as [|c p IH]; intros w T; cbn [get]; [intros E; apply Ok_inv in E; now subst n|]. destruct w as [b|d|]; try discriminate. destruct (dget c d) as [m|] eqn:Ec; [|discriminate].
    intros E. apply dget_In in Ec. apply tree_dir in T as [_ T]. destruct (T _ _ Ec). eauto. }
  destruct (files_of_in n Tn) as [Nd Hin]. split; [|now rewrite map_length, files_of_length]. split.
  - apply FinFun.Injective_map_NoDup; [intros a b E; now apply app_inv_head in E|exact Nd].
  - intros q. rewrite in_map_iff. split.
    + intros (r & <- & Hr). apply Hin in Hr as (e & He & Hn). exists r, e. split; [reflexivity|]. split; [|exact Hn]. now rewrite look_app, Hg.
    + intros (r & e & -> & He & Hn). exists r. split; [reflexivity|]. apply Hin. exists e. split; [|exact Hn]. now rewrite look_app, Hg in He.
Qed.

(** ** Listings *)

Lemma sorted_names l : NoDup l -> StronglySorted (fun a b => str_leb a b = true /\ a <> b) (sorted_strs l).
Proof.
  intros Nd. assert (Nd' : NoDup (sorted_strs l)) by (revert Nd; apply Permutation_NoDup, isort_perm).
  pose proof (isort_sorted str_leb str_leb_total str_leb_trans l) as S. change (isort str_leb l) with (sorted_strs l) in S.
  induction S as [|a r S IH F]; [constructor|]. inversion Nd' as [|? ? Ha Nr]; subst. constructor; [auto|]. rewrite Forall_forall in *. intros x Hx. split; [auto|]. intros ->. contradiction.
Qed.
Lemma listed_names w h dir d : FsSpec.tree w -> walkable dir -> get w (at_path h dir) = Ok (Dir d) ->
  exists l, fsw_listdir_names w h dir = Ok l /\ names_at w (at_path h dir) (sorted_strs l).
Proof.
  intros T Wd Hg. exists (keys d). split; [now apply fsw_listdir_names_ok|].
  assert (Nd : NoDup (keys d)).
  { assert (Td : FsSpec.tree (Dir d)).
    { clear Wd. revert Hg. generalize (at_path h dir). clear - T. intros p. revert w T. induction p as [|c p IH]; intros w T; cbn [get]; [intros E; apply Ok_inv in E; now subst w|]. destruct w as [b|d'|]; try discriminate. destruct (dget c d') as [m|] eqn:Ec; [|discriminate].
      intros E. apply dget_In in Ec. apply tree_dir in T as [_ T]. destruct (T _ _ Ec). eauto. }
    now apply tree_dir in Td as [Nd _]. }
  split; [now apply sorted_names|]. intros n. rewrite look_app, Hg. unfold look. cbn [get]. split.
  - intros Hn. apply (Permutation_in n (Permutation_sym (isort_perm str_leb (keys d)))) in Hn. destruct (dget n d) eqn:E; [discriminate|]. apply dget_None in E. contradiction.
  - intros Hn. apply (Permutation_in n (isort_perm str_leb (keys d))). destruct (dget n d) as [m|] eqn:E; [|congruence]. apply dget_In in E. apply in_map_iff. exists (n, m). auto.
Qed.

Lemma walkable_fname n : fname n -> walkable n.
Proof. intros F. unfold walkable. rewrite fname_lstrip by exact F. now apply fname_last. Qed.
Lemma not_a_directory w h n m : get w (at_path h n) = Ok m -> fname n -> Forall fname h -> (forall d, m <> Dir d) ->
  fsw_listdir_names w h n = Ok [] /\ names_at w (at_path h n) (sorted_strs []).
Proof.
  intros G Fn Fh Nd. split.
  - unfold fsw_listdir_names. pose proof (fname_lstrip n Fn) as El. rewrite El. unfold fs_ls. rewrite G. cbn [ebind].
    assert (E : rstrip_slash n = n) by (apply rstrip_noslash; now apply fname_last).
    assert (R : fsw_relpath n n = Ok []).
    { unfold fsw_relpath. rewrite El. destruct n as [|c n]; [reflexivity|]. rewrite Nat.ltb_irrefl, firstn_all, skipn_all. destruct (list_eq_dec _ _ _); [reflexivity|congruence]. }
    destruct m as [b|d|]; [|now elim (Nd d)|]; rewrite E; cbn [ebind emap fst]; rewrite R; reflexivity.
  - split; [constructor|]. intros k. split; [intros []|]. rewrite look_app, G. destruct m as [b|d|]; [|now elim (Nd d)|]; unfold look; cbn [get]; congruence.
Qed.

(** ** Version directories *)

Section Version.
  Variables (w : node) (h : place) (cdir v : str).
  Hypothesis T : FsSpec.tree w.
  Hypothesis Hv : fname v.

  Lemma version_notes_ok l : (forall n, In n l -> look w (h ++ [v; n]) <> None) ->
    exists rows, Forall2 (fun k x => r_in x = Some v /\ r_name x = k /\ version_mark w h cdir v k (r_mark x)) l rows /\
      version_notes w h cdir v false l = map (fun x => r_name x ++ `" " ++ r_mark x) rows.
  Proof using All.
    induction l as [|n l IH]; intros Hl; [exists []; split; [constructor|reflexivity]|].
    destruct IH as (rows & F & E); [intros m Hm; apply Hl; now right|].
    assert (X : exists m, version_mark w h cdir v n m /\ version_note w h cdir v false n = (false, n ++ `" " ++ m)).
    { unfold version_note. destruct (str_eqb_spec n INVENTORY_FILENAME) as [->|N1].
      - exists []. split; [constructor; now left|]. now rewrite app_nil_r.
      - destruct (startswith (INVENTORY_FILENAME ++ `".") n) eqn:S.
        + apply digest_file_iff in S. exists []. split; [constructor; now right|]. now rewrite app_nil_r.
        + assert (N2 : ~ digest_file n) by (intros D; apply digest_file_iff in D; congruence).
          destruct (str_eqb_spec n cdir) as [Ec|N3].
          * assert (Hn : look w (h ++ [v; n]) <> None) by (apply Hl; now left).
            destruct (get w (h ++ [v; n])) as [k|x] eqn:G; [|unfold look in Hn; rewrite G in Hn; congruence].
            assert (P : at_path h (path_join v n) = h ++ [v; n]).
            { pose proof (look_fnames w _ T Hn) as Fs. apply Forall_app in Fs as [Fh Fs]. inversion Fs as [|? ? _ Fs']; subst. inversion Fs'; subst. rewrite at_path_name by auto. rewrite at_path_one by auto. now rewrite <- app_assoc. }
            rewrite P, G. destruct (files_below_at w _ k T G) as (fl & Hf & <-). eexists. split; [apply (vm_content w h cdir v n fl); auto|]. now rewrite <- !app_assoc.
          * exists mark_unknown. split; [now constructor|]. now rewrite <- app_assoc. }
    destruct X as (m & Hm & En). exists ({| r_in := Some v; r_name := n; r_mark := m |} :: rows). split; [constructor; auto|].
    cbn [version_notes]. rewrite En. cbn [map r_name r_mark]. now rewrite E.
  Qed.
End Version.

(** ** Drawing *)

Lemma version_lines_drawn last (below rest : list row) : Forall (fun x => in_root x = false) below -> last = negb (existsb in_root rest) ->
  match rest with [] => True | y :: _ => in_root y = true end ->
  version_lines last (map (fun x => r_name x ++ `" " ++ r_mark x) below) ++ drawn rest = drawn (below ++ rest).
Proof.
  intros F El Hr. induction below as [|x below IH]; [reflexivity|]. inversion F as [|? ? Fx Fb]; subst. cbn [map version_lines app drawn].
  assert (Ex : existsb in_root (below ++ rest) = existsb in_root rest).
  { rewrite existsb_app. replace (existsb in_root below) with false; [reflexivity|]. symmetry. apply not_true_is_false. intros X. apply existsb_exists in X as (y & Hy & Y). rewrite Forall_forall in Fb. rewrite (Fb y Hy) in Y. discriminate. }
  rewrite Ex, Fx, <- IH by auto. unfold show_indent. rewrite <- !app_assoc. cbn [app]. f_equal.
  - destruct (existsb in_root rest); reflexivity.
  - f_equal. destruct below as [|y below].
    + cbn [map app]. destruct rest as [|y rest]; [reflexivity|]. rewrite Hr. reflexivity.
    + cbn [map app]. inversion Fb as [|? ? Fy _]; subst. rewrite Fy. reflexivity.
Qed.

Lemma rows_first w h spec cdir all l rows : rows_for w h spec cdir all l rows ->
  (existsb in_root rows = match l with [] => false | _ => true end) /\ match rows with [] => True | y :: _ => in_root y = true end.
Proof. destruct 1; cbn [existsb in_root r_in orb]; auto. Qed.

Section Lines.
  Variables (w : node) (h : place) (spec cdir : str).
  Hypothesis T : FsSpec.tree w.
  Hypothesis Hs : filename (mkNamaste (`"0") (`"ocfl_object_" ++ spec) None) = `"0=ocfl_object_" ++ spec.

  Lemma tree_lines_ok all : StronglySorted (fun a b => str_leb a b = true /\ a <> b) all -> (forall n, In n all -> look w (h ++ [n]) <> None) ->
    forall entries before, all = before ++ entries ->
    exists rows, rows_for w h spec cdir all entries rows /\
      tree_lines w h spec cdir (existsb (startswith (INVENTORY_FILENAME ++ `".")) before) entries = Ok (drawn rows).
  Proof using All.
    intros So Hall entries. induction entries as [|n r IH]; intros before E; [exists []; split; [constructor|reflexivity]|].
    assert (Hn : look w (h ++ [n]) <> None) by (apply Hall; rewrite E; apply in_or_app; right; now left).
    pose proof (look_fnames w _ T Hn) as Fs. apply Forall_app in Fs as [Fh Fs]. inversion Fs as [|? ? Fn _]; subst x l.
    destruct (IH (before ++ [n])) as (rows & Hr & Er); [now rewrite <- app_assoc|].
    rewrite existsb_app in Er. cbn [existsb] in Er. rewrite orb_false_r in Er. destruct (rows_first _ _ _ _ _ _ _ Hr) as [R1 R2].
    assert (Last : forall seen' : bool, forall note v_notes below, Forall (fun x => in_root x = false) below -> v_notes = map (fun x => r_name x ++ `" " ++ r_mark x) below ->
      forall m, note = n ++ `" " ++ m ->
      show_indent 0 (match r with [] => true | _ => false end) false ++ note ++ [10%N] ++ version_lines (match r with [] => true | _ => false end) v_notes ++ drawn rows =
      drawn ({| r_in := None; r_name := n; r_mark := m |} :: below ++ rows)).
    { intros _ note v_notes below Fb -> m ->. cbn [drawn in_root r_in r_name r_mark].
      assert (Ex : existsb in_root (below ++ rows) = match r with [] => false | _ => true end).
      { rewrite existsb_app, R1. replace (existsb in_root below) with false; [reflexivity|]. symmetry. apply not_true_is_false. intros X. apply existsb_exists in X as (y & Hy & Y). rewrite Forall_forall in Fb. rewrite (Fb y Hy) in Y. discriminate. }
      rewrite Ex. rewrite (version_lines_drawn _ below rows Fb); [|rewrite R1; now destruct r|exact R2]. unfold show_indent. rewrite <- !app_assoc. destruct r; reflexivity. }
    cbn [tree_lines]. destruct (re_match re_tree_version n) as [mt|] eqn:Em.
    - assert (Vn : version_like n) by (apply re_tree_version_iff; eauto).
      assert (Nd : startswith (INVENTORY_FILENAME ++ `".") n = false).
      { apply not_true_is_false. rewrite digest_file_iff. intros [x Ex]. destruct Vn as (ds & nl & Ev & _). rewrite Ex in Ev. discriminate Ev. }
      assert (L : exists l, fsw_listdir_names w h n = Ok l /\ names_at w (h ++ [n]) (sorted_strs l)).
      { rewrite <- (at_path_one h n Fh Fn). destruct (get w (at_path h n)) as [[b|d|]|x] eqn:G.
        - exists []. apply (not_a_directory _ _ _ _ G); [auto|auto|discriminate].
        - apply (listed_names w h n d T); auto. now apply walkable_fname.
        - exists []. apply (not_a_directory _ _ _ _ G); [auto|auto|discriminate].
        - exfalso. rewrite at_path_one in G by auto. unfold look in Hn. rewrite G in Hn. now apply Hn. }
      destruct L as (l & El & Nl). rewrite El. cbn [ebind].
      destruct (version_notes_ok w h cdir n T Fn (sorted_strs l)) as (below & F2 & En).
      { intros k Hk. apply Nl in Hk. now rewrite <- app_assoc in Hk. }
      rewrite En. cbn [ebind]. rewrite Nd, orb_false_r in Er. cbn [ebind]; cbv beta iota zeta; rewrite Er; cbn [ebind].
      eexists. split; [exact (rf_version _ _ _ _ _ _ _ _ _ _ Vn Nl F2 Hr)|]. f_equal. apply (Last true); [|reflexivity|now rewrite app_nil_r].
      clear - F2. induction F2 as [|k x l' xs (Hx & _) _ IHx]; constructor; [unfold in_root; now rewrite Hx|exact IHx].
    - assert (Nv : ~ version_like n) by (intros V; apply re_tree_version_iff in V as [m V]; congruence).
      rewrite Hs. match goal with |- context [str_in n ?l] => destruct (str_in n l) eqn:Ek end; change (str_in n [`"0=ocfl_object_" ++ spec; INVENTORY_FILENAME] = true) in Ek || change (str_in n [`"0=ocfl_object_" ++ spec; INVENTORY_FILENAME] = false) in Ek.
      + apply str_in_true in Ek. cbn [ebind].
        assert (Nd : startswith (INVENTORY_FILENAME ++ `".") n = false).
        { apply not_true_is_false. rewrite digest_file_iff. intros [x Ex]. destruct Ek as [<-|[<-|[]]]; [discriminate Ex|]. apply (f_equal (@List.length N)) in Ex. rewrite app_length in Ex. cbn in Ex. lia. }
        rewrite Nd, orb_false_r in Er. cbn [ebind]; cbv beta iota zeta; rewrite Er; cbn [ebind]. eexists. split; [apply (rf_other _ _ _ _ _ n r [] rows Nv); [apply rm_known; destruct Ek as [<-|[<-|[]]]; auto|exact Hr]|].
        f_equal. apply (Last true _ [] []); [constructor|reflexivity|now rewrite app_nil_r].
      + assert (Nk : n <> `"0=ocfl_object_" ++ spec /\ n <> `"inventory.json").
        { split; intros En; assert (X : str_in n [`"0=ocfl_object_" ++ spec; INVENTORY_FILENAME] = true) by (apply str_in_true; rewrite En; cbn [In]; auto); congruence. }
        destruct (startswith (INVENTORY_FILENAME ++ `".") n) eqn:Sd; cbn [ebind].
        * rewrite orb_true_r in Er. cbn [ebind]; cbv beta iota zeta; rewrite Er; cbn [ebind]. apply digest_file_iff in Sd.
          assert (So' : forall m, In m before -> str_leb m n = true /\ m <> n).
          { clear - So E. subst all. induction before as [|y before IHb]; [intros m []|]. cbn [app] in So. apply StronglySorted_inv in So as [So Fy]. intros m [<-|Hm]; [|auto].
            rewrite Forall_forall in Fy. apply Fy, in_or_app. right. now left. }
          assert (So2 : forall m, In m r -> str_leb n m = true).
          { clear - So E. subst all. induction before as [|y before IHb]; cbn [app] in So; apply StronglySorted_inv in So as [So Fy]; [|auto]. rewrite Forall_forall in Fy. intros m Hm. now apply Fy. }
          destruct (existsb (startswith (INVENTORY_FILENAME ++ `".")) before) eqn:Eb.
          -- apply existsb_exists in Eb as (m & Hm & Dm). apply digest_file_iff in Dm. destruct (So' m Hm) as [L1 L2].
             eexists. split; [apply (rf_other _ _ _ _ _ n r mark_multiple rows Nv); [apply (rm_more _ _ _ m); auto; rewrite E; apply in_or_app; now left|exact Hr]|].
             f_equal. apply (Last true _ [] []); [constructor|reflexivity|now rewrite <- app_assoc].
          -- eexists. split; [apply (rf_other _ _ _ _ _ n r [] rows Nv); [apply rm_first; [auto|]|exact Hr]|].
             ++ intros m Hm Dm. rewrite E in Hm. apply in_app_or in Hm as [Hm|[<-|Hm]]; [|destruct (str_leb_total n n); auto|auto]. exfalso. apply digest_file_iff in Dm. assert (X : existsb (startswith (INVENTORY_FILENAME ++ `".")) before = true) by (apply existsb_exists; eauto). congruence.
             ++ f_equal. apply (Last true _ [] []); [constructor|reflexivity|now rewrite app_nil_r].
        * rewrite orb_false_r in Er. cbn [ebind]; cbv beta iota zeta; rewrite Er; cbn [ebind]. assert (Nd : ~ digest_file n) by (intros D; apply digest_file_iff in D; congruence).
          eexists. split; [apply (rf_other _ _ _ _ _ n r mark_unknown rows Nv); [apply rm_unknown; tauto|exact Hr]|].
          f_equal. apply (Last true _ [] []); [constructor|reflexivity|now rewrite <- app_assoc].
  Qed.
End Lines.
