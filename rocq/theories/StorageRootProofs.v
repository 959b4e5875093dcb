(** Proofs about ocfl/storage_root.py: finding objects. *)
From Verif Require Import Base Unicode Regex Utf8 Json Log DigestModel LayoutModel ContentPathProofs TextFile PathModel FsModel FsSpec FsProofs FswModel FswSpec FswProofs FswCopyProofs
  NamasteModel NamasteSpec NamasteProofs Properties_Fsw ValidatorModel ValidatorContentProofs ObjectModel StorageRootModel StorageRootSpec.
Notation J := (join [PathModel.slash]).

(** ** The pattern of declarations *)

Lemma rmatch_lit l t c k : rmatch (rlit l) (l ++ t) c k = k t c.
Proof. induction l as [|x l IH]; [reflexivity|]. cbn [rlit rmatch app rchar]. rewrite N.eqb_refl. exact IH. Qed.

Definition no_more (p : N -> bool) (s : str) : Prop := match s with c :: _ => p c = false | [] => True end.

Lemma star_all p c k v : forall a r fuel, Forall (fun x => p x = true) a -> no_more p r -> (List.length (a ++ r) <= fuel)%nat -> k r c = Some v ->
  mstar (rmatch (RChr p)) fuel (a ++ r) c k = Some v.
Proof.
  induction a as [|x a IH]; intros r fuel Fa Hn Hf E; destruct fuel as [|f]; cbn [app List.length] in *; try lia.
  - now destruct r; [|cbn in Hf; lia].
  - cbn [mstar rmatch]. destruct r as [|y r]; [exact E|]. cbn in Hn. now rewrite Hn.
  - inversion Fa; subst. cbn [mstar rmatch]. rewrite H1. destruct (Nat.ltb_spec (List.length (a ++ r)) (List.length (x :: a ++ r))); [|cbn [List.length] in *; lia].
    assert (Q : mstar (rmatch (RChr p)) f (a ++ r) c k = Some v) by (apply IH; auto; lia). cbn [rmatch] in Q. rewrite Q. reflexivity.
Qed.
Lemma plus_all p c k v a r : a <> [] -> Forall (fun x => p x = true) a -> no_more p r -> k r c = Some v -> rmatch (rplus (RChr p)) (a ++ r) c k = Some v.
Proof.
  intros Hn Fa Hr E. destruct a as [|x a]; [congruence|]. inversion Fa; subst. unfold rplus. cbn [rmatch app]. rewrite H1. now apply star_all.
Qed.

Lemma declaration_match a b r : digits a -> digits b -> no_more is_digit r ->
  re_match re_declaration (`"0=ocfl_object_" ++ a ++ `"." ++ b ++ r) = Some [(1%nat, a ++ `"." ++ b)].
Proof.
  intros [Ha Fa] [Hb Fb] Hr. unfold re_match, re_declaration.
  assert (E : rmatch (RSeq (rlit (`"0=ocfl_object_")) (RGroup 1 (RSeq (rplus rdigit) (RSeq (rchar 46) (rplus rdigit))))) (`"0=ocfl_object_" ++ a ++ `"." ++ b ++ r) [] (fun s' c' => Some (s', c')) =
    Some (r, [(1%nat, a ++ `"." ++ b)])); [|now rewrite E].
  change (rmatch (rlit (`"0=ocfl_object_")) (`"0=ocfl_object_" ++ a ++ `"." ++ b ++ r) [] (fun s' c' => rmatch (RGroup 1 (RSeq (rplus rdigit) (RSeq (rchar 46) (rplus rdigit)))) s' c' (fun s' c' => Some (s', c'))) = Some (r, [(1%nat, a ++ `"." ++ b)])).
  rewrite rmatch_lit. cbn [rmatch]. change (RSeq rdigit (RStar rdigit)) with (rplus rdigit).
  apply (plus_all _ _ _ _ a); auto; [reflexivity|]. cbn [app rmatch rchar N.eqb Pos.eqb]. apply (plus_all _ _ _ _ b); auto.
  pose proof (firstn_app_len (a ++ 46%N :: b) r) as Q. rewrite <- app_assoc in Q. cbn [app] in Q. change (`"." ++ b ++ r) with (46%N :: b ++ r). rewrite Q. reflexivity.
Qed.

Lemma digits_more b r : digits b -> exists b' r', b ++ r = b' ++ r' /\ digits b' /\ no_more is_digit r'.
Proof.
  intros [Hb Fb]. revert b Hb Fb. induction r as [|c r IH]; intros b Hb Fb; [exists b, []; repeat split; auto|].
  destruct (is_digit c) eqn:E; [|exists b, (c :: r); repeat split; auto].
  destruct (IH (b ++ [c])) as (b' & r' & E' & D' & N'); [now destruct b|apply Forall_app; auto|].
  exists b', r'. rewrite <- app_assoc in E'. auto.
Qed.

Lemma declaration_ok name :
  (declares_object name -> exists m v, re_match re_declaration name = Some m /\ group 1 m = Some v /\ str_in v SPEC_VERSIONS_SUPPORTED = true) /\
  (forall m v, re_match re_declaration name = Some m -> group 1 m = Some v -> str_in v SPEC_VERSIONS_SUPPORTED = true -> declares_object name).
Proof.
  assert (D1 : forall c, is_digit c = true -> digits [c]) by (intros c Hc; split; [discriminate|auto]).
  split.
  - intros (v & r & Hv & -> & Hr). assert (Ev : exists a b, v = a ++ `"." ++ b /\ digits a /\ digits b).
    { destruct Hv as [<-|[<-|[]]]; eexists [_], [_]; (split; [reflexivity|]; split; apply D1; reflexivity). }
    destruct Ev as (a & b & -> & Da & Db). exists [(1%nat, a ++ `"." ++ b)], (a ++ `"." ++ b). repeat rewrite <- app_assoc. rewrite declaration_match by auto. split; [reflexivity|]. split; [reflexivity|].
    apply str_in_true. destruct Hv as [<-|[<-|[]]]; [left|right; left]; reflexivity.
  - intros m v E G Hv. destruct (re_match_sound _ _ _ E) as (x & rest & -> & HD). unfold re_declaration in HD.
    apply Den_seq in HD as (x1 & x2 & c1 & -> & H1 & H2). apply Den_lit in H1 as [-> ->]. apply Den_grp in H2 as (c2 & -> & H2).
    apply Den_seq in H2 as (a & y & c3 & -> & H3 & H4). apply Den_plus_chr in H3. apply Den_seq in H4 as (d & b & c4 & -> & H5 & H6). apply Den_chr in H5 as (z & -> & Hz & ->). apply N.eqb_eq in Hz. subst z. apply Den_plus_chr in H6.
    destruct H3 as (Ha & Fa & ->), H6 as (Hb & Fb & ->).
    destruct (digits_more b rest) as (b' & r' & Eb & Db & Nr); [split; auto|].
    assert (En : (`"0=ocfl_object_" ++ a ++ [46%N] ++ b) ++ rest = `"0=ocfl_object_" ++ a ++ `"." ++ b' ++ r') by (rewrite <- Eb; repeat rewrite <- app_assoc; reflexivity).
    rewrite En in *. rewrite declaration_match in E by (auto; split; auto). rewrite (Some_inv _ _ E) in G. cbn in G. apply Some_inv in G. subst v.
    apply str_in_true in Hv. exists (a ++ `"." ++ b'), r'. repeat rewrite <- app_assoc. split; [exact Hv|auto].
Qed.

(** ** Directories that are visited *)

Lemma join_last rel : Forall fname rel -> last_opt (slash :: J rel) = Some slash -> rel = [].
Proof.
  intros F E. destruct rel as [|k rel _] using rev_ind; [reflexivity|exfalso]. apply Forall_app in F as [F Fk]. inversion Fk; subst. destruct H1 as (Hk & _ & _ & Hs).
  destruct k as [|c k _] using rev_ind; [congruence|]. assert (X : exists y, slash :: J (rel ++ [k ++ [c]]) = y ++ [c]).
  { destruct rel as [|a rel]; [exists (slash :: k); reflexivity|]. exists (slash :: J (a :: rel) ++ slash :: k). rewrite join_snoc by discriminate. cbn [app]. rewrite <- app_assoc. reflexivity. }
  destruct X as [y X]. assert (E' : last_opt (y ++ [c]) = Some slash) by (rewrite <- X; exact E). rewrite last_opt_app in E'. apply Some_inv in E'. subst c. apply Hs. apply in_app_iff. right. left. reflexivity.
Qed.
Lemma dirpath_ok rel : Forall fname rel -> fold_left path_join rel [slash] = slash :: J rel.
Proof.
  induction rel as [|k rel IH] using rev_ind; [reflexivity|]. intros F. apply Forall_app in F as [F Fk]. inversion Fk; subst.
  rewrite fold_left_app. cbn [fold_left]. rewrite IH by auto. rewrite path_join_name by auto.
  destruct rel as [|a rel]; [reflexivity|]. destruct (last_opt (slash :: J (a :: rel))) as [c|] eqn:E.
  - destruct (N.eqb_spec c slash); [subst; apply join_last in E; [discriminate|auto]|]. rewrite join_snoc by discriminate. reflexivity.
  - exfalso. change (last_opt ([] ++ slash :: J (a :: rel)) = None) in E. unfold last_opt in E. cbn [app rev] in E. destruct (rev (J (a :: rel))); discriminate.
Qed.

Lemma dirpath_root rel : Forall fname rel -> str_eqb (fold_left path_join rel [slash]) [slash] = true <-> rel = [].
Proof.
  intros F. rewrite dirpath_ok by auto. destruct (str_eqb_spec (slash :: J rel) [slash]) as [E|E]; split; auto; try discriminate; intros Hr.
  - apply (join_last rel F). change (last_opt (slash :: J rel) = Some slash). rewrite E. reflexivity.
  - subst rel. now destruct E.
Qed.

Lemma reached_ok keep rel : forall s n, reached keep s n rel <->
  (exists d, get n rel = Ok (Dir d)) /\
  forall q c r, rel = q ++ c :: r -> exists d, get n q = Ok (Dir d) /\ keep (fold_left path_join q s) (dirs_of d) (others_of d) c = true.
Proof.
  induction rel as [|k rel IH]; intros s n.
  - destruct n as [b|d|]; cbn [reached get]; (split; [|intros [[x E] _]; try discriminate; auto]); try contradiction.
    intros _. split; [eauto|]. intros q c r E. destruct q; discriminate.
  - destruct n as [b|d|]; cbn [reached]; try (split; [contradiction|intros [[x E] _]; cbn [get] in E; discriminate]).
    split.
    + intros [K R]. destruct (dget k d) as [m|] eqn:Ek; [|contradiction]. apply IH in R as [G A]. cbn [get]. rewrite Ek. split; [exact G|].
      intros q c r E. destruct q as [|a q].
      * cbn [app] in E. injection E as E1 E2. subst c r. exists d. split; [reflexivity|exact K].
      * cbn [app] in E. injection E as E1 E2. subst a. cbn [get fold_left]. rewrite Ek. apply (A q c r E2).
    + intros [G A]. cbn [get] in G. destruct (A [] k rel eq_refl) as (d' & E & K). cbn [get] in E. injection E as E. subst d'. split; [exact K|].
      destruct (dget k d) as [m|] eqn:Ek; [|destruct G as [x G]; discriminate]. apply IH. split; [exact G|].
      intros q c r E. destruct (A (k :: q) c r) as (x & G' & K'); [now rewrite E|]. cbn [get] in G'. rewrite Ek in G'. exists x. auto.
Qed.

Lemma others_none w p d : tree w -> get w p = Ok (Dir d) -> others_of d = [] <-> ~ has_files w p.
Proof.
  intros Hw Hg. pose proof (tree_get _ _ _ Hw Hg) as Ht. apply tree_dir in Ht as [Hk _].
  assert (A : forall k, In k (others_of d) <-> leaf w (p ++ [k])).
  { intros k. rewrite others_of_spec by auto. unfold leaf. rewrite (look_child _ _ _ _ Hg). split.
    - intros (m & -> & Hm). cbn. destruct m; try discriminate; split; discriminate.
    - intros [H1 H2]. destruct (dget k d) as [m|]; [|now destruct H1]. exists m. split; auto. destruct m; auto. now destruct H2. }
  split.
  - intros E [f Hf]. apply A in Hf. rewrite E in Hf. contradiction.
  - intros N. destruct (others_of d) as [|k l] eqn:E; [reflexivity|]. exfalso. apply N. exists k. apply A. left. reflexivity.
Qed.

Lemma visited_ok w h n rel : tree w -> get w h = Ok n -> rel <> [] -> reached keep_dirs [slash] n rel <-> visited w h rel.
Proof.
  intros Hw Hg Hne. pose proof (tree_get _ _ _ Hw Hg) as Ht. rewrite reached_ok. split.
  - intros [[d G] A]. assert (Fr : Forall fname rel) by (eapply look_fnames; [exact Ht|rewrite (get_look _ _ _ G); discriminate]).
    split; [exact Hne|]. split; [|split; [rewrite look_app, Hg; apply look_dir; eauto|]].
    + destruct rel as [|c r]; [congruence|]. destruct (A [] c r eq_refl) as (x & _ & K). unfold keep_dirs in K. cbn [fold_left] in K. rewrite str_eqb_refl in K. cbn [hd].
      intros E. rewrite E in K. discriminate.
    + intros q c r E Hq. destruct (A q c r E) as (x & Gx & K). assert (Fq : Forall fname q) by (rewrite E in Fr; apply Forall_app in Fr; apply Fr).
      unfold keep_dirs in K. destruct (str_eqb (fold_left path_join q [slash]) [slash]) eqn:B; [apply dirpath_root in B; [congruence|exact Fq]|].
      assert (G' : get w (h ++ q) = Ok (Dir x)) by (rewrite get_app, Hg; exact Gx). apply (others_none w _ x Hw G'). now destruct (others_of x).
  - intros (_ & Hx & Hl & Hf). rewrite look_app, Hg in Hl. apply look_dir in Hl as Hd. split; [exact Hd|]. intros q c r E.
    assert (Fr : Forall fname rel) by (eapply look_fnames; [exact Ht|rewrite Hl; discriminate]).
    assert (Fq : Forall fname q) by (rewrite E in Fr; apply Forall_app in Fr; apply Fr).
    assert (Hq : look n q = Some EDir) by (apply (look_above n q c r); rewrite <- E, Hl; discriminate). apply look_dir in Hq as [x Gx]. exists x. split; [exact Gx|].
    unfold keep_dirs. destruct (str_eqb (fold_left path_join q [slash]) [slash]) eqn:B.
    + apply dirpath_root in B; [|exact Fq]. subst q. cbn [app] in E. rewrite E in Hx. cbn [hd] in Hx. destruct (str_eqb_spec c (`"extensions")); [congruence|reflexivity].
    + assert (Hqn : q <> []) by (intros Z; apply (dirpath_root q Fq) in Z; congruence). assert (G' : get w (h ++ q) = Ok (Dir x)) by (rewrite get_app, Hg; exact Gx).
      rewrite (proj2 (others_none w _ x Hw G')) by (apply (Hf q c r E Hqn)). reflexivity.
Qed.

(** ** What is found *)

Definition objects (l : list found) : list str := flat_map (fun f => match f with FoundObject p => [p] | _ => [] end) l.
Definition errors (l : list found) : list str := flat_map (fun f => match f with FoundError c => [c] | _ => [] end) l.
Definition warnings (l : list found) : list str := flat_map (fun f => match f with FoundWarning c => [c] | _ => [] end) l.

Lemma visits_ok w h f ys r : (forall y, In y ys -> visit w h y = Ok (f y)) -> visits w h ys r = (flat_map f ys, r).
Proof.
  induction ys as [|y ys IH]; intros A; [reflexivity|]. cbn [visits flat_map]. rewrite (A y (or_introl eq_refl)). rewrite IH by (intros z Hz; apply A; right; exact Hz). reflexivity.
Qed.

(** A file declares_object an object: look_for_object *)
Lemma filter_one {A} (f : A -> bool) l x : filter f l = [x] -> In x l /\ f x = true /\ forall y, In y l -> f y = true -> y = x.
Proof.
  intros E. assert (Hx : In x (filter f l)) by (rewrite E; left; reflexivity). apply filter_In in Hx as [H1 H2]. split; [exact H1|]. split; [exact H2|].
  intros y Hy Fy. assert (Hf : In y (filter f l)) by (apply filter_In; auto). rewrite E in Hf. destruct Hf as [<-|[]]. reflexivity.
Qed.
Lemma startswith_app a b : startswith a b = true -> exists t, b = a ++ t.
Proof.
  revert b. induction a as [|x a IH]; intros b E; [exists b; reflexivity|]. destruct b as [|y b]; [discriminate|]. cbn in E. apply andb_prop in E as [E1 E2]. apply N.eqb_eq in E1. subst y.
  destruct (IH b E2) as [t ->]. exists t. reflexivity.
Qed.
Lemma declares_object_start d : declares_object d -> startswith (`"0=") d = true.
Proof. intros (v & r & _ & -> & _). reflexivity. Qed.

Lemma look_for_object_ok w p s files : NoDup files -> (forall k, In k files <-> leaf w (p ++ [k])) ->
  (single_declaration w p /\ look_for_object s files = FoundObject (lstrip_slash s)) \/ (~ single_declaration w p /\ exists c, look_for_object s files = FoundError c).
Proof.
  intros Hn Hf. unfold look_for_object. destruct (filter (startswith (`"0=")) files) as [|d [|d2 l]] eqn:E.
  - right. split; [|eauto]. intros (d & D & L & _). apply Hf in L. assert (X : In d (filter (startswith (`"0=")) files)) by (apply filter_In; split; [exact L|now apply declares_object_start]). rewrite E in X. contradiction.
  - destruct (filter_one _ _ _ E) as (Hd & Sd & U).
    assert (S1 : declares_object d -> single_declaration w p).
    { intros D. exists d. split; [exact D|]. split; [now apply Hf|]. intros t Ht. apply U; [now apply Hf|]. reflexivity. }
    assert (S2 : single_declaration w p -> declares_object d).
    { intros (d' & D & L & _). rewrite (U d') in D; auto; [now apply Hf|now apply declares_object_start]. }
    destruct (re_match re_declaration d) as [m|] eqn:Em; [|right; split; [|eauto]; intros S; apply S2 in S; apply declaration_ok in S as (m & v & E1 & _); congruence].
    destruct (group 1 m) as [v|] eqn:Eg; [|right; split; [|eauto]; intros S; apply S2 in S; apply declaration_ok in S as (m' & v & E1 & E2 & _); congruence].
    destruct (str_in v SPEC_VERSIONS_SUPPORTED) eqn:Ev; [left; split; [|reflexivity]; apply S1; eapply declaration_ok; eauto|].
    right; split; [|eauto]. intros S; apply S2 in S; apply declaration_ok in S as (m' & v' & E1 & E2 & E3). congruence.
  - right. split; [|eauto]. intros (d' & D & L & U). assert (Nf : NoDup (filter (startswith (`"0=")) files)) by (apply NoDup_filter; exact Hn). rewrite E in Nf.
    assert (A : forall x, In x (d :: d2 :: l) -> x = d').
    { intros x Hx. rewrite <- E in Hx. apply filter_In in Hx as [H1 H2]. apply startswith_app in H2 as [t ->]. apply U. now apply Hf. }
    inversion Nf. apply H1. left. transitivity d'; [apply A; right; left; reflexivity|symmetry; apply A; left; reflexivity].
Qed.

Lemma lstrip_J rel : Forall fname rel -> rel <> [] -> lstrip_slash (J rel) = J rel.
Proof.
  intros F Hne. apply lstrip_noslash. destruct rel as [|a rel]; [congruence|]. inversion F; subst. destruct H1 as (Ha & _ & _ & Hs). destruct a as [|x a]; [congruence|].
  assert (Hx : N.eqb slash x = false) by (destruct (N.eqb_spec slash x) as [E|E]; [exfalso; apply Hs; left; auto|reflexivity]).
  destruct rel; cbn; rewrite Hx; reflexivity.
Qed.

(** Directories below the root *)
Lemma visit_below w h rel s ds fs : s = fold_left path_join rel [slash] -> rel <> [] -> Forall fname rel -> NoDup fs ->
  (forall k, In k ds <-> look w (h ++ rel ++ [k]) = Some EDir) -> (forall k, In k fs <-> leaf w (h ++ rel ++ [k])) ->
  exists l, visit w h (s, (ds, fs)) = Ok l /\ warnings l = [] /\
    (objects l = [J rel] /\ single_declaration w (h ++ rel) \/ objects l = [] /\ ~ single_declaration w (h ++ rel)) /\
    (errors l = [] <-> ~ ((forall k, look w (h ++ rel ++ [k]) = None) \/ has_files w (h ++ rel) /\ ~ single_declaration w (h ++ rel))).
Proof.
  intros Es Hr Fr Nf Hd Hf. unfold visit. destruct (str_eqb s [slash]) eqn:B; [rewrite Es in B; apply dirpath_root in B; [congruence|exact Fr]|].
  assert (Hf' : forall k, In k fs <-> leaf w ((h ++ rel) ++ [k])) by (intros k; rewrite <- app_assoc; apply Hf).
  assert (None_files : fs = [] -> ~ has_files w (h ++ rel) /\ ~ single_declaration w (h ++ rel)).
  { intros ->. split; [intros [f L]; apply Hf' in L; contradiction|intros (d & _ & L & _); apply Hf' in L; contradiction]. }
  destruct fs as [|f fs].
  - destruct (None_files eq_refl) as [N1 N2]. destruct ds as [|k ds].
    + exists [FoundError (`"E073")]. split; [reflexivity|]. split; [reflexivity|]. split; [right; split; auto|]. split; [discriminate|]. intros N. exfalso. apply N. left. intros k.
      destruct (look w (h ++ rel ++ [k])) as [e|] eqn:L; [exfalso|reflexivity]. destruct e.
      * apply (proj2 (Hf k)). split; rewrite L; discriminate.
      * apply (proj2 (Hd k)). exact L.
      * apply (proj2 (Hf k)). split; rewrite L; discriminate.
    + exists []. split; [reflexivity|]. split; [reflexivity|]. split; [right; split; auto|]. split; [|reflexivity]. intros _ [A|[A _]]; [|contradiction].
      rewrite (proj1 (Hd k) (or_introl eq_refl)) in A || (specialize (A k); rewrite (proj1 (Hd k) (or_introl eq_refl)) in A). discriminate.
  - assert (Some_file : has_files w (h ++ rel)) by (exists f; apply Hf'; left; reflexivity).
    assert (Not_empty : ~ forall k, look w (h ++ rel ++ [k]) = None) by (intros A; destruct (proj1 (Hf f) (or_introl eq_refl)) as [L _]; apply L, A).
    exists [look_for_object s (f :: fs)]. split; [now destruct ds|].
    destruct (look_for_object_ok w (h ++ rel) s (f :: fs) Nf Hf') as [[S E]|[S [c E]]]; rewrite E.
    + split; [reflexivity|]. split.
      * left. split; [|exact S]. cbn [objects flat_map app]. f_equal. rewrite Es, dirpath_ok by exact Fr. cbn [lstrip_slash]. rewrite N.eqb_refl.
        now apply lstrip_J.
      * split; [|reflexivity]. intros _ [A|[_ A]]; contradiction.
    + split; [reflexivity|]. split; [right; split; auto|]. split; [discriminate|]. intros N. exfalso. apply N. right. auto.
Qed.

Lemma extensions_fname : fname (`"extensions").
Proof. apply fname_b_ok. reflexivity. Qed.

Lemma check_extensions_ok w h : tree w -> Forall fname h -> look w (h ++ [`"extensions"]) = Some EDir ->
  exists l, check_extensions w h = Ok l /\ objects l = [] /\
    (errors l = [] <-> ~ has_files w (h ++ [`"extensions"])) /\ (warnings l = [] <-> known_extensions w h).
Proof.
  intros Hw Fh Hl. apply look_dir in Hl as [d Hg]. unfold check_extensions.
  assert (Ea : at_path h (`"extensions") = h ++ [`"extensions"]) by (apply (at_path_join h [`"extensions"]); auto using extensions_fname).
  change (`"extensions") with (lstrip_slash (`"extensions")) at 1. rewrite (fs_ls_dir w h (`"extensions") d) by (rewrite Ea; exact Hg).
  cbn [ebind]. eexists. split; [reflexivity|]. change (lstrip_slash (`"extensions")) with (`"extensions").
  pose proof (keys_fnames _ _ _ Hw Hg) as Fk. pose proof (tree_get _ _ _ Hw Hg) as Ht. apply tree_dir in Ht as [Nk _].
  assert (Lk : forall k, look w (h ++ [`"extensions"; k]) = option_map entry_of (dget k d)).
  { intros k. rewrite <- (look_child w _ d k Hg), <- app_assoc. reflexivity. }
  assert (E : forall d', Forall fname (keys d') -> flat_map (fun nt => match snd nt with
        | TDir => if str_in (os_relpath (fst nt) (`"extensions")) root_extensions then [] else [FoundWarning (`"W901")]
        | _ => [FoundError (`"E086")] end) (map (fun kv => (entry_name (`"extensions") (fst kv), type_of (snd kv))) d') =
      flat_map (fun kv => if is_dir (snd kv) then if str_in (fst kv) root_extensions then [] else [FoundWarning (`"W901")] else [FoundError (`"E086")]) d').
  { induction d' as [|[k m] d' IH]; intros F; [reflexivity|]. cbn [keys map] in F. inversion F; subst. cbn [map flat_map fst snd]. rewrite IH by assumption. f_equal.
    rewrite relpath_child by auto using extensions_fname. destruct m; reflexivity. }
  rewrite (E d Fk). clear E.
  assert (X : forall d', let l := flat_map (fun kv : str * node => if is_dir (snd kv) then if str_in (fst kv) root_extensions then [] else [FoundWarning (`"W901")] else [FoundError (`"E086")]) d' in
    objects l = [] /\ (errors l = [] <-> forall k m, In (k, m) d' -> is_dir m = true) /\ (warnings l = [] <-> forall k m, In (k, m) d' -> is_dir m = true -> In k root_extensions)).
  { induction d' as [|[k m] d' IH]; cbv zeta; [cbn; intuition|]. cbv zeta in IH. destruct IH as (I1 & I2 & I3). cbn [flat_map fst snd].
    destruct (is_dir m) eqn:Em; [destruct (str_in k root_extensions) eqn:Ek|]; cbn [app].
    - split; [exact I1|]. split; [rewrite I2|rewrite I3]; split.
      + intros A k' m' [Z|Z]; [injection Z as <- <-; exact Em|eapply A; eauto].
      + intros A k' m' Z. eapply A. right. exact Z.
      + intros A k' m' [Z|Z]; [injection Z as <- <-; intros _; now apply str_in_true|eapply A; eauto].
      + intros A k' m' Z. eapply A. right. exact Z.
    - split; [exact I1|]. split; [rewrite I2|]; split.
      + intros A k' m' [Z|Z]; [injection Z as <- <-; exact Em|eapply A; eauto].
      + intros A k' m' Z. eapply A. right. exact Z.
      + discriminate.
      + intros A. exfalso. specialize (A k m (or_introl eq_refl) Em). apply str_in_true in A. congruence.
    - split; [exact I1|]. split; [|change (warnings (FoundError (`"E086") :: ?l)) with (warnings l); rewrite I3]; split.
      + discriminate.
      + intros A. exfalso. specialize (A k m (or_introl eq_refl)). congruence.
      + intros A k' m' [Z|Z]; [injection Z as <- <-; intros Z; congruence|eapply A; eauto].
      + intros A k' m' Z. eapply A. right. exact Z. }
  destruct (X d) as (X1 & X2 & X3). split; [exact X1|]. rewrite X2, X3. split; split.
  - intros A [f [L1 L2]]. rewrite <- app_assoc in L1, L2. cbn [app] in L1, L2. rewrite Lk in L1, L2. destruct (dget f d) as [m|] eqn:Ef; [|now destruct L1].
    apply dget_In in Ef. apply A in Ef. destruct m; try discriminate. now destruct L2.
  - intros A k m Hin. apply In_dget in Hin; [|exact Nk]. destruct (is_dir m) eqn:Em; [reflexivity|]. exfalso. apply A. exists k. unfold leaf. rewrite <- app_assoc. cbn [app]. rewrite Lk, Hin. destruct m; try discriminate; split; discriminate.
  - intros A k L. rewrite Lk in L. destruct (dget k d) as [m|] eqn:Ef; [|discriminate]. apply dget_In in Ef. apply (A k m Ef). destruct m; try discriminate. reflexivity.
  - intros A k m Hin Em. apply In_dget in Hin; [|exact Nk]. apply A. rewrite Lk, Hin. destruct m; try discriminate. reflexivity.
Qed.

Lemma objects_flat {A} (f : A -> list found) l : objects (flat_map f l) = flat_map (fun y => objects (f y)) l.
Proof. unfold objects. induction l as [|a l IH]; [reflexivity|]. cbn [flat_map]. rewrite flat_map_app, IH. reflexivity. Qed.
Lemma errors_flat {A} (f : A -> list found) l : errors (flat_map f l) = flat_map (fun y => errors (f y)) l.
Proof. unfold errors. induction l as [|a l IH]; [reflexivity|]. cbn [flat_map]. rewrite flat_map_app, IH. reflexivity. Qed.
Lemma warnings_flat {A} (f : A -> list found) l : warnings (flat_map f l) = flat_map (fun y => warnings (f y)) l.
Proof. unfold warnings. induction l as [|a l IH]; [reflexivity|]. cbn [flat_map]. rewrite flat_map_app, IH. reflexivity. Qed.
Lemma flat_nil {A B} (f : A -> list B) l : flat_map f l = [] <-> forall y, In y l -> f y = [].
Proof.
  induction l as [|a l IH]; cbn [flat_map]; [split; [intros _ y []|reflexivity]|]. split.
  - intros E y [<-|Hy]; apply app_eq_nil in E as [E1 E2]; [exact E1|now apply IH].
  - intros A0. rewrite (A0 a (or_introl eq_refl)). apply IH. intros y Hy. apply A0. right. exact Hy.
Qed.
Lemma NoDup_flat {A B} (key : A -> str) (f : A -> list B) l : NoDup (map key l) -> (forall y, In y l -> f y = [] \/ exists b, f y = [b]) ->
  (forall y z b, In y l -> In z l -> In b (f y) -> In b (f z) -> key y = key z) -> NoDup (flat_map f l).
Proof.
  induction l as [|a l IH]; intros N F I; [constructor|]. cbn [map flat_map] in *. inversion N; subst.
  assert (R : NoDup (flat_map f l)) by (apply IH; [assumption|intros y Hy; apply F; right; exact Hy|intros y z b Hy Hz; apply I; right; assumption]).
  destruct (F a (or_introl eq_refl)) as [E|[b E]]; rewrite E; [exact R|]. cbn [app]. constructor; [|exact R].
  intros Hb. apply in_flat_map in Hb as (y & Hy & Hb). apply H1. rewrite (I a y b); [apply in_map; exact Hy|left; reflexivity|right; exact Hy|rewrite E; left; reflexivity|exact Hb].
Qed.

Theorem find_objects_ok w h : tree w -> look w h = Some EDir -> exists l, find_objects w h = (l, Ok tt) /\
  NoDup (objects l) /\ (forall p, In p (objects l) <-> exists rel, p = J rel /\ object_root w h rel) /\
  (errors l = [] <-> tidy w h) /\ (warnings l = [] <-> known_extensions w h).
Proof.
  intros Hw Hl. assert (Fh : Forall fname h) by (eapply look_fnames; [exact Hw|rewrite Hl; discriminate]). apply look_dir in Hl as [d Hg].
  assert (Eh : at_path h [slash] = h) by (rewrite at_path_slash; unfold at_path; cbn [split_on]; rewrite resolve_app_nil; now apply resolve_fnames).
  pose proof (tree_get _ _ _ Hw Hg) as Ht. assert (Hwk : walkable [slash]) by (unfold walkable; cbn; discriminate).
  destruct (C15_walk_dirs keep_dirs w h [slash] (Dir d) Hw Hwk) as (ys & Ey & Ny & R1 & R2); [rewrite Eh; exact Hg|reflexivity|].
  rewrite Eh in R2. change (if startswith [slash] [slash] then [slash] else slash :: [slash]) with [slash] in *.
  assert (Dir_of : forall rel, reached keep_dirs [slash] (Dir d) rel -> exists ds fs, In (fold_left path_join rel [slash], (ds, fs)) ys) by (intros rel R; apply R1 in R as (ds & fs & Hi & _); eauto).
  assert (Fn : forall rel, reached keep_dirs [slash] (Dir d) rel -> Forall fname rel) by (intros rel R; apply reached_fnames in R; [exact R|exact Ht]).
  (* what each directory gives *)
  assert (V : forall y, In y ys -> exists l rel, visit w h y = Ok l /\ fst y = fold_left path_join rel [slash] /\ reached keep_dirs [slash] (Dir d) rel /\
    (rel <> [] -> warnings l = [] /\
      (objects l = [J rel] /\ single_declaration w (h ++ rel) \/ objects l = [] /\ ~ single_declaration w (h ++ rel)) /\
      (errors l = [] <-> ~ ((forall k, look w (h ++ rel ++ [k]) = None) \/ has_files w (h ++ rel) /\ ~ single_declaration w (h ++ rel)))) /\
    (rel = [] -> objects l = [] /\ (errors l = [] <-> ~ (look w (h ++ [`"extensions"]) = Some EDir /\ has_files w (h ++ [`"extensions"]))) /\ (warnings l = [] <-> known_extensions w h))).
  { intros [s [ds fs]] Hy. destruct (R2 s ds fs Hy) as (rel & Es & R & Nd & Nf & Hd & Hf). destruct rel as [|c r] eqn:Er.
    - cbn [fold_left] in Es. cbn [app] in Hd, Hf. subst s. destruct (str_in (`"extensions") ds) eqn:Ex.
      + apply str_in_true in Ex. pose proof (proj1 (Hd _) Ex) as Lx. destruct (check_extensions_ok w h Hw Fh Lx) as (l & E1 & E2 & E3 & E4). exists l, []. cbn [visit].
        rewrite str_eqb_refl. apply str_in_true in Ex. rewrite Ex. split; [exact E1|]. split; [reflexivity|]. split; [exact R|]. split; [congruence|]. intros _. split; [exact E2|]. split; [|exact E4].
        rewrite E3. intuition.
      + exists [], []. cbn [visit]. rewrite str_eqb_refl, Ex. split; [reflexivity|]. split; [reflexivity|]. split; [exact R|]. split; [congruence|]. intros _. split; [reflexivity|].
        assert (Lx : look w (h ++ [`"extensions"]) <> Some EDir) by (intros L; apply Hd in L; apply str_in_true in L; congruence).
        split; (split; [intros _|reflexivity]).
        * intros [L _]. contradiction.
        * intros k L. exfalso. apply Lx. apply (look_above w (h ++ [`"extensions"]) k []). rewrite <- app_assoc. cbn [app]. rewrite L. discriminate.
    - rewrite <- Er in *. assert (Hne : rel <> []) by (rewrite Er; discriminate).
      destruct (visit_below w h rel s ds fs Es Hne (Fn rel R) Nf Hd Hf) as (l & E1 & E2 & E3 & E4).
      exists l, rel. split; [exact E1|]. split; [exact Es|]. split; [exact R|]. split; [auto|congruence]. }
  set (f := fun y => match visit w h y with Ok l => l | Raise _ => [] end).
  assert (Vf : forall y, In y ys -> visit w h y = Ok (f y)) by (intros y Hy; destruct (V y Hy) as (l & rel & E & _); unfold f; rewrite E; reflexivity).
  exists (flat_map f ys). unfold find_objects. rewrite Ey. split; [now apply visits_ok|].
  assert (V' : forall y, In y ys -> exists rel, fst y = fold_left path_join rel [slash] /\ reached keep_dirs [slash] (Dir d) rel /\
    (rel <> [] -> warnings (f y) = [] /\
      (objects (f y) = [J rel] /\ single_declaration w (h ++ rel) \/ objects (f y) = [] /\ ~ single_declaration w (h ++ rel)) /\
      (errors (f y) = [] <-> ~ ((forall k, look w (h ++ rel ++ [k]) = None) \/ has_files w (h ++ rel) /\ ~ single_declaration w (h ++ rel)))) /\
    (rel = [] -> objects (f y) = [] /\ (errors (f y) = [] <-> ~ (look w (h ++ [`"extensions"]) = Some EDir /\ has_files w (h ++ [`"extensions"]))) /\ (warnings (f y) = [] <-> known_extensions w h))).
  { intros y Hy. destruct (V y Hy) as (l & rel & E & X). exists rel. rewrite (Vf y Hy) in E. apply Ok_inv in E. rewrite E. exact X. }
  clear V.
  assert (Y : forall rel, reached keep_dirs [slash] (Dir d) rel -> exists y, In y ys /\ fst y = fold_left path_join rel [slash] /\
     forall rel', fst y = fold_left path_join rel' [slash] -> reached keep_dirs [slash] (Dir d) rel' -> rel' = rel).
  { intros rel R. destruct (Dir_of rel R) as (ds & fs & Hy). exists (fold_left path_join rel [slash], (ds, fs)). split; [exact Hy|]. split; [reflexivity|]. intros rel' E' R'.
    cbn [fst] in E'. apply (fold_join_inj rel' rel [slash]); auto. }
  assert (Root : reached keep_dirs [slash] (Dir d) []) by exact I.
  split; [|split; [|split]].
  - rewrite objects_flat. apply (NoDup_flat fst); [exact Ny| |].
    + intros y Hy. destruct (V' y Hy) as (rel & E & R & X1 & X2). destruct rel as [|c r]; [left; apply X2; reflexivity|]. destruct (X1 ltac:(discriminate)) as (_ & [[O _]|[O _]] & _); eauto.
    + intros y z b Hy Hz By Bz. destruct (V' y Hy) as (rel & E & R & X1 & X2), (V' z Hz) as (rel' & E' & R' & X1' & X2').
      destruct rel as [|c r]; [rewrite (proj1 (X2 eq_refl)) in By; contradiction|]. destruct rel' as [|c' r']; [rewrite (proj1 (X2' eq_refl)) in Bz; contradiction|].
      destruct (X1 ltac:(discriminate)) as (_ & [[O _]|[O _]] & _); rewrite O in By; [|contradiction]. destruct (X1' ltac:(discriminate)) as (_ & [[O' _]|[O' _]] & _); rewrite O' in Bz; [|contradiction].
      destruct By as [By|[]], Bz as [Bz|[]]. rewrite E, E'. rewrite (dirpath_ok _ (Fn _ R)), (dirpath_ok _ (Fn _ R')). f_equal. etransitivity; [exact By|symmetry; exact Bz].
  - intros p. rewrite objects_flat, in_flat_map. split.
    + intros (y & Hy & Hp). destruct (V' y Hy) as (rel & E & R & X1 & X2). destruct rel as [|c r] eqn:Er; [rewrite (proj1 (X2 eq_refl)) in Hp; contradiction|]. rewrite <- Er in *.
      assert (Hne : rel <> []) by (rewrite Er; discriminate). destruct (X1 Hne) as (_ & [[O S]|[O _]] & _); rewrite O in Hp; [|contradiction]. destruct Hp as [Hp|[]]. exists rel. split; [auto|]. split; [|exact S].
      now apply (visited_ok w h (Dir d)).
    + intros (rel & -> & Vr & S). assert (Hne : rel <> []) by apply Vr. apply (visited_ok w h (Dir d) rel Hw Hg Hne) in Vr. destruct (Y rel Vr) as (y & Hy & Ey' & U). exists y. split; [exact Hy|].
      destruct (V' y Hy) as (rel' & E & R & X1 & _). rewrite (U rel' E R) in X1. destruct (X1 Hne) as (_ & [[O _]|[_ N]] & _); [rewrite O; left; reflexivity|contradiction].
  - rewrite errors_flat, flat_nil. split.
    + intros A. split.
      * intros rel [Vr M]. assert (Hne : rel <> []) by apply Vr. apply (visited_ok w h (Dir d) rel Hw Hg Hne) in Vr. destruct (Y rel Vr) as (y & Hy & Ey' & U).
        destruct (V' y Hy) as (rel' & E & R & X1 & _). rewrite (U rel' E R) in X1. destruct (X1 Hne) as (_ & _ & X). apply (proj1 X (A y Hy)). exact M.
      * destruct (Y [] Root) as (y & Hy & _ & U). destruct (V' y Hy) as (rel' & E & R & _ & X2). apply (X2 (U rel' E R)). apply A. exact Hy.
    + intros [T1 T2] y Hy. destruct (V' y Hy) as (rel & E & R & X1 & X2). destruct rel as [|c r] eqn:Er; [apply (X2 eq_refl); exact T2|]. rewrite <- Er in *.
      assert (Hne : rel <> []) by (rewrite Er; discriminate). apply (X1 Hne). intros M. apply (T1 rel). split; [now apply (visited_ok w h (Dir d))|exact M].
  - rewrite warnings_flat, flat_nil. split.
    + intros A. destruct (Y [] Root) as (y & Hy & _ & U). destruct (V' y Hy) as (rel' & E & R & _ & X2). apply (X2 (U rel' E R)). apply A. exact Hy.
    + intros K y Hy. destruct (V' y Hy) as (rel & E & R & X1 & X2). destruct rel as [|c r]; [apply (X2 eq_refl); exact K|]. apply X1. discriminate.
Qed.
