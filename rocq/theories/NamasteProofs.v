(** Proofs about declaration files. *)
From Verif Require Import Base Unicode Regex Utf8 TextFile PathModel FsModel FsSpec FsProofs FswModel FswSpec FswProofs FswCopyProofs.
From Coq Require Import Sorted.
From Verif Require Import NamasteModel NamasteSpec.
Open Scope N_scope.

Lemma rev_case {A} (s : list A) : s = [] \/ exists t c, s = t ++ [c].
Proof. destruct s using rev_ind; eauto. Qed.

(** * Tag values *)

Lemma tvalue_chars s c : In c (content_to_tvalue s) -> tvalue_char c = true \/ c = 95.
Proof.
  unfold content_to_tvalue. intros H. apply in_map_iff in H as (x & <- & _). destruct (tvalue_char x) eqn:E; auto.
Qed.

Lemma tvalue_no_slash s : ~ In slash (content_to_tvalue s).
Proof. intros H. destruct (tvalue_chars _ _ H) as [E|E]; [vm_compute in E|]; discriminate. Qed.

Definition cr (c : N) : N := if c =? 13 then 10 else c.
Lemma space_13 : is_space 13 = true. Proof. reflexivity. Qed.
Lemma space_10 : is_space 10 = true. Proof. reflexivity. Qed.
Lemma cr_space c : is_space (cr c) = is_space c.
Proof. unfold cr. destruct (N.eqb_spec c 13); subst; reflexivity. Qed.
Lemma cr_tvalue c : (if tvalue_char (cr c) then cr c else 95) = (if tvalue_char c then c else 95).
Proof. unfold cr. destruct (N.eqb_spec c 13); subst; reflexivity. Qed.

Lemma lstrip_map s : lstrip (map cr s) = map cr (lstrip s).
Proof. induction s as [|c s IH]; cbn [map lstrip]; auto. rewrite cr_space. destruct (is_space c); auto. Qed.
Lemma strip_map s : strip_spaces (map cr s) = map cr (strip_spaces s).
Proof. unfold strip_spaces. now rewrite lstrip_map, <- map_rev, lstrip_map, map_rev. Qed.

Lemma lstrip_snoc s c : is_space c = true -> lstrip (s ++ [c]) = match lstrip s with [] => [] | t => t ++ [c] end.
Proof.
  intros Hc. induction s as [|x s IH]; cbn [app lstrip]; [now rewrite Hc|]. destruct (is_space x); auto.
Qed.
Lemma strip_snoc s c : is_space c = true -> strip_spaces (s ++ [c]) = strip_spaces s.
Proof.
  intros Hc. unfold strip_spaces. rewrite lstrip_snoc by auto. destruct (lstrip s) as [|x t]; [reflexivity|].
  rewrite rev_app_distr. cbn [rev app]. cbn [lstrip]. now rewrite Hc.
Qed.

Lemma tvalue_map s : content_to_tvalue (map cr s) = content_to_tvalue s.
Proof.
  unfold content_to_tvalue. rewrite strip_map, firstn_map, map_map. apply map_ext. apply cr_tvalue.
Qed.
Lemma tvalue_snoc s c : is_space c = true -> content_to_tvalue (s ++ [c]) = content_to_tvalue s.
Proof. intros H. unfold content_to_tvalue. now rewrite strip_snoc. Qed.

Lemma no_crlf_cons c s : no_crlf (c :: s) -> no_crlf s.
Proof. intros H a b E. apply (H (c :: a) b). now rewrite E. Qed.
Lemma no_crlf_front s t : no_crlf (s ++ t) -> no_crlf s.
Proof. intros H a b E. apply (H a (b ++ t)). rewrite E. now rewrite <- app_assoc. Qed.

Lemma newlines_map s : no_crlf s -> newlines s = map cr s.
Proof.
  induction s as [|c s IH]; intros H; [reflexivity|]. cbn [newlines map]. specialize (IH (no_crlf_cons _ _ H)).
  unfold cr at 1. destruct (N.eqb_spec c 13); [|now rewrite IH]. subst c. destruct s as [|d s]; [reflexivity|].
  destruct (N.eqb_spec d 10); [|now rewrite IH]. subst. exfalso. now apply (H [] s).
Qed.
Lemma newlines_end s : no_crlf (s ++ [13]) -> newlines (s ++ [13; 10]) = map cr s ++ [10].
Proof.
  intros H. induction s as [|c s IH]; [reflexivity|]. cbn [app newlines map]. specialize (IH (no_crlf_cons _ _ H)).
  unfold cr at 1. destruct (N.eqb_spec c 13); [|now rewrite IH]. subst c. destruct s as [|d s]; [reflexivity|].
  cbn [app]. destruct (N.eqb_spec d 10).
  - subst. exfalso. apply (H [] (s ++ [13])). reflexivity.
  - cbn [app] in IH. now rewrite IH.
Qed.

Lemma tvalue_newlines s : no_crlf s -> content_to_tvalue (newlines (s ++ [10])) = content_to_tvalue s.
Proof.
  intros H. destruct (rev_case s) as [->|(t & c & ->)]; [reflexivity|].
  destruct (N.eqb_spec c 13).
  - subst c. rewrite <- app_assoc. cbn [app]. rewrite newlines_end by auto.
    rewrite tvalue_snoc by apply space_10. rewrite tvalue_map. now rewrite tvalue_snoc by apply space_13.
  - rewrite newlines_map.
    + rewrite map_app. change (map cr [10]) with [10]. rewrite tvalue_snoc by apply space_10. apply tvalue_map.
    + intros a b E. destruct (rev_case b) as [->|(b' & z & ->)].
      * change (13 :: 10 :: nil) with ([13] ++ [10]) in E. rewrite app_assoc in E. apply app_inj_tail in E as [E _].
        apply app_inj_tail in E as [_ E]. contradiction.
      * change (13 :: 10 :: b' ++ [z]) with ((13 :: 10 :: b') ++ [z]) in E. rewrite app_assoc in E.
        apply app_inj_tail in E as [E _]. exact (H _ _ E).
Qed.

(** * Finding declarations *)

Lemma startswith_app p s : startswith p s = true <-> exists t, s = p ++ t.
Proof. apply startswith_spec. Qed.

Lemma names_tagged w p d dd n : tree w -> get w p = Ok (Dir d) ->
  In n (filter (startswith (dd ++ `"=")) (keys d)) <-> tagged w p dd n.
Proof.
  intros Hw Hg. rewrite filter_In, startswith_app. destruct (dir_names w p d Hw Hg) as (_ & _ & Hin). rewrite (Hin n).
  unfold tagged. split; intros [A [t ->]]; split; auto; exists t; [now rewrite <- app_assoc|now rewrite app_assoc].
Qed.

Lemma sorted_before l : NoDup l -> StronglySorted before_name (sorted_strs l).
Proof.
  intros H. pose proof (isort_sorted str_leb str_leb_total str_leb_trans l) as Hs. fold (sorted_strs l) in Hs.
  pose proof (isort_NoDup str_leb l H) as Hn. fold (sorted_strs l) in Hn. clear H.
  induction Hs as [|x r Hr IH Hx]; constructor.
  - apply IH. now inversion Hn.
  - inversion Hn; subst. rewrite Forall_forall in *. intros y Hy. split; auto. intros ->. auto.
Qed.

Lemma map_filename d l : map filename (map (fun f => mkNamaste d [] (Some (skipn (List.length (d ++ `"=")) f))) l) =
  map (fun f => (d ++ `"=") ++ skipn (List.length (d ++ `"=")) f) l.
Proof. rewrite map_map. apply map_ext. intros f. unfold filename. cbn [n_d tvalue n_tvalue]. now rewrite app_assoc. Qed.

Lemma skipn_back p l : Forall (fun f => startswith p f = true) l -> map (fun f => p ++ skipn (List.length p) f) l = l.
Proof.
  induction 1 as [|f l H Hl IH]; [reflexivity|]. cbn [map]. rewrite IH. f_equal. apply startswith_app in H as [t ->].
  now rewrite skipn_app, skipn_all, Nat.sub_diag.
Qed.

Lemma find_namastes_ok w h d dir dd limit : tree w -> walkable dir -> get w (at_path h dir) = Ok (Dir d) ->
  find_namastes w h dd dir limit =
    let l := filter (startswith (dd ++ `"=")) (keys d) in
    if Nat.ltb limit (List.length l) then Raise NamasteException
    else Ok (map (fun f => mkNamaste dd [] (Some (skipn (List.length (dd ++ `"=")) f))) (sorted_strs l)).
Proof.
  intros Hw Hd Hg. unfold find_namastes. now rewrite (fsw_listdir_names_ok w h dir d Hw Hd Hg).
Qed.

Lemma few_length w p d dd limit : tree w -> get w p = Ok (Dir d) ->
  at_most limit (tagged w p dd) <-> (List.length (filter (startswith (dd ++ `"=")) (keys d)) <= limit)%nat.
Proof.
  intros Hw Hg. destruct (dir_names w p d Hw Hg) as (Hnd & _ & _). split.
  - intros H. apply H; [now apply NoDup_filter|]. apply Forall_forall. intros n. apply names_tagged; auto.
  - intros H l Hl Hf. etransitivity; [|exact H]. apply NoDup_incl_length; auto. intros n Hn. apply (names_tagged w p d dd n); auto.
    rewrite Forall_forall in Hf. auto.
Qed.

(** * Declarations *)

Lemma ocfl_tvalue_ok t : match re_match ocfl_tvalue_re t with
  | Some c => ocfl_declaration (match group 1 c with Some _ => true | None => false end) (`"0=" ++ t)
  | None => forall o, ~ ocfl_declaration o (`"0=" ++ t)
  end.
Proof.
  destruct (re_match ocfl_tvalue_re t) as [c|] eqn:E.
  - apply re_match_sound in E as (x & rest & -> & H). unfold ocfl_tvalue_re in H.
    apply Den_seq in H as (x1 & y1 & c1 & -> & H1 & H). apply Den_lit in H1 as [-> ->].
    apply Den_seq in H as (x2 & y2 & c2 & -> & H2 & H). apply Den_seq in H as (x3 & y3 & c3 & -> & H3 & H).
    apply Den_lit in H3 as [-> ->]. apply Den_seq in H as (x4 & y4 & c4 & -> & H4 & H5).
    apply Den_dol in H5 as (-> & -> & Hr). apply Den_grp in H4 as (c5 & -> & H4).
    apply Den_seq in H4 as (a & z & c6 & -> & Ha & H4). apply Den_seq in H4 as (y & b & c7 & -> & Hy & Hb).
    unfold rdigit in Ha, Hb. apply Den_plus_chr in Ha as (Ha & Ha' & ->). apply Den_chr in Hy as (dot & -> & Hdot & ->).
    apply N.eqb_eq in Hdot. subst dot. apply Den_plus_chr in Hb as (Hb & Hb' & ->). cbn [group Nat.eqb].
    unfold ropt in H2. apply Den_alt in H2 as [H2|H2].
    + apply Den_grp in H2 as (c8 & -> & H2). apply Den_lit in H2 as [-> ->]. cbn [group Nat.eqb]. exists a, b, rest.
      split; [split; auto|]. split; [split; auto|]. split; [exact Hr|]. rewrite !app_nil_r, <- !app_assoc. reflexivity.
    + apply Den_emp in H2 as [-> ->]. cbn [group]. exists a, b, rest.
      split; [split; auto|]. split; [split; auto|]. split; [exact Hr|]. rewrite !app_nil_r, <- !app_assoc. reflexivity.
  - intros o (a & b & nl & [Ha Ha'] & [Hb Hb'] & Hn & Ht). cbn [lit app] in Ht. apply (app_inv_head (`"0=")) in Ht.
    assert (Hd : exists c', Den ocfl_tvalue_re (`"ocfl" ++ (if o then `"_object" else []) ++ `"_" ++ a ++ `"." ++ b) nl [] c').
    { unfold ocfl_tvalue_re.
      assert (Hrest : forall c, exists c', Den (RSeq (rlit (`"_")) (RSeq (RGroup 2 (RSeq (rplus rdigit) (RSeq (rchar 46) (rplus rdigit)))) RDollar))
                 (`"_" ++ a ++ `"." ++ b) nl c c').
      { intros c. exists ((2%nat, a ++ `"." ++ b) :: c). apply Den_seq. exists (`"_"), (a ++ `"." ++ b), c. split; [reflexivity|].
        split; [now apply Den_lit|]. apply Den_seq. exists (a ++ `"." ++ b), [], ((2%nat, a ++ `"." ++ b) :: c).
        split; [now rewrite app_nil_r|]. split; [|now apply Den_dol]. apply Den_grp. exists c. split; auto.
        apply Den_seq. exists a, (`"." ++ b), c. split; [reflexivity|]. split; [now apply Den_plus_chr|].
        apply Den_seq. exists (`"."), b, c. split; [reflexivity|]. split; [apply Den_chr; exists 46; auto|now apply Den_plus_chr]. }
      destruct o.
      - destruct (Hrest [(1%nat, `"_object")]) as [c' Hc']. exists c'. apply Den_seq. exists (`"ocfl"), (`"_object" ++ `"_" ++ a ++ `"." ++ b), [].
        split; [reflexivity|]. split; [now apply Den_lit|]. apply Den_seq. exists (`"_object"), (`"_" ++ a ++ `"." ++ b), [(1%nat, `"_object")].
        split; [reflexivity|]. split; [|exact Hc']. apply Den_alt. left. apply Den_grp. exists []. split; auto. now apply Den_lit.
      - destruct (Hrest []) as [c' Hc']. exists c'. apply Den_seq. exists (`"ocfl"), ([] ++ `"_" ++ a ++ `"." ++ b), [].
        split; [reflexivity|]. split; [now apply Den_lit|]. apply Den_seq. exists [], (`"_" ++ a ++ `"." ++ b), [].
        split; [reflexivity|]. split; [|exact Hc']. apply Den_alt. right. now apply Den_emp. }
    destruct Hd as [c' Hd]. refine (re_match_complete _ t _ _ _ _ Hd E). rewrite Ht. now rewrite <- !app_assoc.
Qed.

Lemma decl_kind n o o' : ocfl_declaration o n -> ocfl_declaration o' n -> o = o'.
Proof.
  assert (G : ocfl_declaration true n -> ocfl_declaration false n -> False).
  { intros (a & b & nl & _ & _ & _ & E) (a' & b' & nl' & Ha & _ & _ & E'). rewrite E in E'. cbn [lit app] in E'.
    destruct Ha as [Ha1 Ha2]. destruct a' as [|c a']; [congruence|]. inversion Ha2 as [|? ? Hc]; subst.
    cbn [app] in E'. injection E' as E' _. subst c. vm_compute in Hc. discriminate. }
  destruct o, o'; auto; intros; exfalso; auto.
Qed.

Definition mk0 (f : str) : namaste := mkNamaste (`"0") [] (Some (skipn (List.length (`"0" ++ `"=")) f)).
Lemma first_ocfl_ok l : StronglySorted before_name l -> Forall (fun f => startswith (`"0=") f = true) l ->
  match first_ocfl (map mk0 l) with
  | Some t => exists (o : bool) name, t = (if o then `"object" else `"root") /\ In name l /\ ocfl_declaration o name /\
      forall other o', In other l -> ocfl_declaration o' other -> other = name \/ before_name name other
  | None => forall name o, In name l -> ~ ocfl_declaration o name
  end.
Proof.
  induction 1 as [|f l Hl IH Hf]; intros Hp; cbn [map first_ocfl].
  - intros name o [].
  - inversion Hp as [|? ? Hpf Hpl]; subst. specialize (IH Hpl). pose proof (ocfl_tvalue_ok (tvalue (mk0 f))) as Hm.
    assert (E : `"0=" ++ tvalue (mk0 f) = f).
    { apply startswith_app in Hpf as [t ->]. reflexivity. }
    rewrite E in Hm. destruct (re_match ocfl_tvalue_re (tvalue (mk0 f))) as [c|].
    + destruct (group 1 c); [exists true, f|exists false, f]; (split; [reflexivity|]); (split; [now left|]); (split; [exact Hm|]);
        intros other o' [<-|Hin] _; auto; right; rewrite Forall_forall in Hf; auto.
    + destruct (first_ocfl (map mk0 l)) as [t|].
      * destruct IH as (o & name & Ht & Hin & Hd & Hfirst). exists o, name. split; [exact Ht|]. split; [now right|]. split; [exact Hd|].
        intros other o' [<-|Ho] Hod; [exfalso; exact (Hm _ Hod)|eauto].
      * intros name o [<-|Hin] Hd; [exact (Hm _ Hd)|exact (IH _ _ Hin Hd)].
Qed.

Lemma before_asym a b : before_name a b -> before_name b a -> False.
Proof. intros [A An] [B _]. apply An. now apply str_leb_antisym. Qed.

Lemma decl_prefix o n : ocfl_declaration o n -> exists t, n = `"0" ++ `"=" ++ t.
Proof. intros (a & b & nl & _ & _ & _ & ->). eexists. reflexivity. Qed.

Lemma first_decl_unique w p o o' : first_declaration w p o -> first_declaration w p o' -> o = o'.
Proof.
  intros (n & A & B & C) (n' & A' & B' & C'). destruct (C n' o' A' B') as [->|H]; [eapply decl_kind; eauto|].
  destruct (C' n o A B) as [->|H']; [eapply decl_kind; eauto|]. exfalso. eapply before_asym; eauto.
Qed.

(** * Opening *)

Lemma split_url_none s : no_url s -> split_url s = None.
Proof.
  induction s as [|c s IH]; intros H; [reflexivity|]. cbn [split_url].
  destruct (startswith (`"://") (c :: s)) eqn:E.
  - apply startswith_app in E as [t E]. exfalso. now apply (H [] t).
  - rewrite IH; auto. intros a b E'. apply (H (c :: a) b). now rewrite E'.
Qed.
Lemma no_url_prefix a b : no_url (a ++ b) -> no_url a.
Proof. intros H x y E. apply (H x (y ++ b)). rewrite E. now rewrite <- !app_assoc. Qed.

Lemma openfs_ok cwd path w : no_url path ->
  result (fsw_openfs cwd path false false) w =
    if fs_isdir w (base_of cwd path) path then Ok (at_path (base_of cwd path) path) else Raise FileNotFoundError.
Proof.
  intros H. unfold fsw_openfs. rewrite split_url_none by auto.
  change (str_eqb (`"file") (`"file")) with true. cbv iota. unfold base_of. rewrite result_read. cbv beta.
  destruct (fs_isdir w _ path); reflexivity.
Qed.

Lemma path_split_name p k : ~ In slash k -> (p = [] \/ last_opt p = Some slash) ->
  path_split (p ++ k) = (match rstrip_slash p with [] => p | s => s end, k).
Proof. intros Hk Hp. unfold path_split. rewrite rsplit_app by auto. now destruct (rstrip_slash p). Qed.

Lemma nth_error_firstn_lt {A} (l : list A) n k : (n < k)%nat -> nth_error (firstn k l) n = nth_error l n.
Proof.
  revert n k. induction l as [|a l IH]; intros n k H; destruct k as [|k]; try lia; [now destruct n|].
  destruct n; [reflexivity|]. cbn. apply IH. lia.
Qed.

Lemma at_path_nil h : Forall fname h -> at_path h [] = h.
Proof. intros H. exact (eq_trans (at_path_join h [] H (Forall_nil _)) (app_nil_r h)). Qed.
