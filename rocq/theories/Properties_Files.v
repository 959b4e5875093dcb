(** C97: where a path leads, and what the operations on files and directories give and
    change, said by what is at each place before and after. *)
From Coq Require Import Lia.
From Verif Require Import Base Utf8 PathModel TextFile FsModel FsSpec FsProofs FswModel FswProofs FswCopyProofs FsStepProofs.
From Verif Require Import JsonGrammarSpec Properties_JsonRead.

(** ** Where a path leads *)

(** The pieces of a path, between its slashes *)
Definition pieces (path : str) (l : list str) : Prop := l <> [] /\ Forall (fun c => ~ In 47%N c) l /\ path = join [47%N] l.
(** Going from a directory piece by piece: nothing and a dot stay, two dots go up, and at
    the top stay, a name goes into it. *)
Inductive goes : place -> list str -> place -> Prop :=
| goes_end d : goes d [] d
| goes_stay d c r p : c = [] \/ c = [46%N] -> goes d r p -> goes d (c :: r) p
| goes_up d x r p : goes d r p -> goes (d ++ [x]) ([46%N; 46%N] :: r) p
| goes_top r p : goes [] r p -> goes [] ([46%N; 46%N] :: r) p
| goes_into d c r p : c <> [] -> c <> [46%N] -> c <> [46%N; 46%N] -> goes (d ++ [c]) r p -> goes d (c :: r) p.

Lemma goes_fold l : forall d p, goes d l p <-> p = rev (fold_left resolve_step l (rev d)).
Proof.
  induction l as [|c l IH]; intros d p; cbn [fold_left].
  - rewrite rev_involutive. split; [intro G; inversion G; reflexivity|intros ->; constructor].
  - unfold resolve_step at 2. split.
    + intro G. inversion G as [|? ? ? ? Hc G'|d' x ? ? G'|? ? G'|? ? ? ? N1 N2 N3 G']; subst.
      * apply IH in G'. destruct Hc as [->| ->]; exact G'.
      * apply IH in G'. rewrite rev_app_distr. exact G'.
      * apply IH in G'. exact G'.
      * apply IH in G'. rewrite rev_app_distr in G'. destruct (str_eqb_spec c []) as [E|_]; [destruct (N1 E)|].
        destruct (str_eqb_spec c (`".")) as [E|_]; [destruct (N2 E)|]. destruct (str_eqb_spec c (`"..")) as [E|_]; [destruct (N3 E)|]. exact G'.
    + destruct (str_eqb_spec c []) as [E|N1]; [intros G; apply goes_stay; [now left|now apply IH]|].
      destruct (str_eqb_spec c (`".")) as [E|N2]; [intros G; apply goes_stay; [now right|now apply IH]|]. cbn [orb].
      destruct (str_eqb_spec c (`"..")) as [->|N3].
      * destruct (list_eq_dec (list_eq_dec N.eq_dec) d []) as [->|Hd].
        -- intros G. apply goes_top. now apply IH.
        -- destruct (exists_last Hd) as (d' & x & ->). rewrite rev_app_distr. cbn [rev app tl]. intros G. apply goes_up. now apply IH.
      * intros G. apply goes_into; auto. apply IH. now rewrite rev_app_distr.
Qed.

Theorem C97_path : forall h path p, Forall fname h ->
  (at_path h path = p <-> exists l, pieces path l /\ goes h l p).
Proof.
  intros h path p Fh. assert (E : forall l, resolve (h ++ l) = rev (fold_left resolve_step l (rev h))).
  { intros l. unfold resolve. rewrite fold_left_app, (resolve_names [] h Fh). now rewrite app_nil_r. }
  unfold at_path. split.
  - intros <-. exists (split_on slash path). split.
    + split; [apply split_on_nonnil|]. split; [|symmetry; apply join_split]. apply Forall_forall. intros c Hc. now apply split_on_noc in Hc.
    + apply goes_fold. apply E.
  - intros (l & (Hl & Hs & ->) & G). change [47%N] with [slash]. rewrite split_join; [|exact Hl|].
    + apply goes_fold in G. now rewrite E.
    + intros e He. rewrite Forall_forall in Hs. now apply Hs.
Qed.
Print Assumptions C97_path.

(** ** Reading *)
Theorem C97_reads : forall w h path,
  (fs_exists w h path = true <-> look w (at_path h path) <> None) /\
  (fs_isdir w h path = true <-> look w (at_path h path) = Some EDir) /\
  (forall b, fs_read w h path = Ok b <-> look w (at_path h path) = Some (EFile b)) /\
  (forall t, fs_read_text w h path = Ok t <->
     exists b s, look w (at_path h path) = Some (EFile b) /\ text_bytes s b /\ line_ends s t).
Proof.
  intros w h path. split; [apply fs_exists_look|]. split; [apply fs_isdir_look|]. split; [intros b; apply fs_read_look|].
  intros t. unfold fs_read_text. split.
  - intro E. apply ebind_ok in E as (b & Hb & E). unfold read_text in E. destruct (utf8_decode b) as [s|] eqn:Es; [|discriminate].
    injection E as <-. exists b, s. split; [now apply fs_read_look|]. split; [now apply C96_utf8|now apply newlines_ends].
  - intros (b & s & Hb & Hs & Hl). apply fs_read_look in Hb. rewrite Hb. cbn [ebind]. unfold read_text.
    destruct (C96_utf8 s b) as [_ [_ D]]. rewrite (D Hs). f_equal. now apply newlines_ends.
Qed.
Print Assumptions C97_reads.

(** What is in a directory is listed, each name once, with what it is, and nothing else. *)
Theorem C97_lists : forall w h path, tree w -> look w (at_path h path) = Some EDir ->
  exists l, fs_ls w h path = Ok l /\ NoDup (map fst l) /\
    forall x t, In (x, t) l <-> exists k e, fname k /\ look w (at_path h path ++ [k]) = Some e /\
      x = match rstrip_slash path with [] => k | p => p ++ 47%N :: k end /\
      t = match e with EFile _ => TFile | EDir => TDir | EOther => TOther end.
Proof.
  intros w h path Tw Hl. apply look_dir in Hl as (d & Hd). unfold fs_ls. rewrite Hd. cbn [ebind].
  exists (map (fun kv => (entry_name path (fst kv), type_of (snd kv))) d). split; [reflexivity|].
  destruct (dir_names w _ d Tw Hd) as (Nd & Fd & _). split.
  - rewrite map_map. cbn [fst]. rewrite <- map_map with (f := fst) (g := entry_name path). fold (keys d).
    apply FinFun.Injective_map_NoDup; [|exact Nd]. intros a b. unfold entry_name. destruct (rstrip_slash path) as [|c p]; [auto|].
    intro E. apply app_inv_head in E. congruence.
  - intros x t. rewrite in_map_iff. split.
    + intros ((k & m) & [= <- <-] & Hi). exists k, (entry_of m). split; [|split; [|split]].
      * rewrite Forall_forall in Fd. apply Fd. now apply (in_map fst) in Hi.
      * rewrite (look_child _ _ d) by exact Hd. now rewrite (In_dget _ _ _ Nd Hi).
      * reflexivity.
      * destruct m; reflexivity.
    + intros (k & e & Fk & Hk & -> & ->). rewrite (look_child _ _ d) in Hk by exact Hd.
      destruct (dget k d) as [m|] eqn:Em; [|discriminate]. injection Hk as <-. exists (k, m). split.
      * cbn [fst snd]. unfold entry_name. f_equal. destruct m; reflexivity.
      * now apply dget_In.
Qed.
Print Assumptions C97_lists.

(** ** Changing *)

(** Opening for writing: of a file, or of a new name in a directory, gives an empty file
    there. All else raises. Nothing else changes. *)
Theorem C97_opens_for_writing : forall w h path,
  let p := at_path h path in
  (result (fs_create h path) w = Ok tt <-> (exists b, look w p = Some (EFile b)) \/ fresh_place w p) /\
  (result (fs_create h path) w = Ok tt -> changes w (after (fs_create h path) w) p (Some (EFile []))) /\
  (result (fs_create h path) w <> Ok tt -> after (fs_create h path) w = w).
Proof.
  intros w h path p. assert (K : result (fs_create h path) w = Ok tt -> (exists b, look w p = Some (EFile b)) \/ fresh_place w p).
  { unfold result, fs_create. fold p. destruct (get w p) as [[b|d|]|e] eqn:G; cbn [snd]; try discriminate.
    - intros _. left. exists b. now apply look_file.
    - destruct e; try discriminate. destruct (get w (removelast p)) as [[b|d|]|e'] eqn:G'; try discriminate. intros _. right.
      split; [|split].
      + intros ->. discriminate G.
      + apply look_dir. eauto.
      + unfold look. now rewrite G. }
  split; [split; [exact K|]|split].
  - intros H. unfold result. rewrite create_ok; [reflexivity|]. destruct H; auto.
  - intros H. apply K in H. unfold after. rewrite create_ok by (destruct H; auto). cbn [fst apply_all fold_left].
    apply create_changes. destruct H; auto.
  - intros H. unfold result, after, fs_create in *. fold p in H |- *. destruct (get w p) as [[b|d|]|e]; try reflexivity; [now destruct H|].
    destruct e; try reflexivity. destruct (get w (removelast p)) as [[b|d|]|e']; try reflexivity. now destruct H.
Qed.
Print Assumptions C97_opens_for_writing.

(** Writing adds to the end of the file, and changes nothing else. *)
Theorem C97_appends : forall w h path b c, look w (at_path h path) = Some (EFile c) ->
  result (fs_append h path b) w = Ok tt /\ changes w (after (fs_append h path b) w) (at_path h path) (Some (EFile (c ++ b))).
Proof. intros w h path b c Hc. split; [reflexivity|]. now apply append_changes. Qed.
Print Assumptions C97_appends.

(** A text is written as its UTF-8 bytes, and replaces what was there. *)
Theorem C97_writes_text : forall w h path s b, text_bytes s b ->
  let p := at_path h path in
  (result (fs_write_text h path s) w = Ok tt <-> (exists b', look w p = Some (EFile b')) \/ fresh_place w p) /\
  (result (fs_write_text h path s) w = Ok tt -> changes w (after (fs_write_text h path s) w) p (Some (EFile b))) /\
  (result (fs_write_text h path s) w <> Ok tt -> after (fs_write_text h path s) w = w).
Proof.
  intros w h path s b Hb p. apply text_bytes_utf8 in Hb.
  assert (Y : (exists b', look w p = Some (EFile b')) \/ fresh_place w p -> result (fs_write_text h path s) w = Ok tt /\
    changes w (after (fs_write_text h path s) w) p (Some (EFile b))) by (intros H; apply write_text_file; [destruct H; auto|exact Hb]).
  destruct (C97_opens_for_writing w h path) as ((K1 & K2) & _ & K3). fold p in K1, K2, K3.
  assert (X : result (fs_write_text h path s) w = Ok tt -> result (fs_create h path) w = Ok tt).
  { intros E. apply ibind_ok in E as (x & E & _). destruct x. exact E. }
  split; [split|split].
  - intros E. now apply K1, X.
  - intros E. now apply Y.
  - intros E. now apply Y, K1, X.
  - intros E. assert (N : result (fs_create h path) w <> Ok tt) by (intros N; apply E, Y, K1, N).
    rewrite <- (K3 N) at 2. unfold fs_write_text. rewrite ibind_after. destruct (result (fs_create h path) w) as [[]|e]; [now destruct N|reflexivity].
Qed.
Print Assumptions C97_writes_text.

(** makedirs makes the directories that are missing on the way and nothing else; it raises,
    and changes nothing, if something that is no directory is in the way or if the
    directory exists and may not. *)
Theorem C97_makes_directories : forall w h path exist_ok,
  let p := at_path h path in
  (result (fs_makedirs h path exist_ok) w = Ok tt <->
     (forall q r e, p = q ++ r -> look w q = Some e -> e = EDir) /\ (look w p = None \/ exist_ok = true)) /\
  (result (fs_makedirs h path exist_ok) w = Ok tt -> forall q,
     ((exists r, p = q ++ r) -> look (after (fs_makedirs h path exist_ok) w) q = Some EDir) /\
     ((forall r, p <> q ++ r) -> look (after (fs_makedirs h path exist_ok) w) q = look w q)) /\
  (result (fs_makedirs h path exist_ok) w <> Ok tt -> after (fs_makedirs h path exist_ok) w = w).
Proof.
  intros w h path ex p.
  assert (D : (forall q r e, p = q ++ r -> look w q = Some e -> e = EDir) <-> dirs_to w p).
  { split; intros H q r; [intros E; destruct (look w q) as [e|] eqn:L; [right; f_equal; eauto|now left]|].
    intros e E L. destruct (H q r E); congruence. }
  assert (M : forall n done l, missing n done p = Ok l -> dirs_to n p).
  { clear D. generalize p. intro p0. induction p0 as [|c p0 IH]; intros n done l Hm q r E.
    - destruct q; [|discriminate]. right. cbn in Hm. destruct n; try discriminate. reflexivity.
    - cbn [missing] in Hm. destruct n as [b|d|]; try discriminate. destruct q as [|c' q]; [now right|]. injection E as <- E.
      rewrite look_cons. destruct (dget c d) as [m|] eqn:Em; [|now left]. eapply IH; eauto. }
  assert (S : forall q, (exists r, p = q ++ r) <-> strip q p <> None).
  { intros q. split; [intros (r & ->); now rewrite strip_app|]. destruct (strip q p) as [r|] eqn:E; [|congruence]. apply strip_some in E. eauto. }
  assert (Y : dirs_to w p -> look w p = None \/ ex = true -> result (fs_makedirs h path ex) w = Ok tt /\
    forall q, look (after (fs_makedirs h path ex) w) q = if strip q p then Some EDir else look w q).
  { intros Hd Hx. destruct (look w p) as [e|] eqn:L.
    - assert (e = EDir) by (destruct (Hd p [] (eq_sym (app_nil_r p))); congruence). subst e. destruct Hx as [Hx| ->]; [discriminate|].
      unfold result, after. rewrite makedirs_exist_ok by exact L. split; [reflexivity|]. intros q. cbn [fst apply_all fold_left].
      destruct (strip q p) as [r|] eqn:E; [|reflexivity]. apply strip_some in E. destruct r as [|c r]; [rewrite app_nil_r in E; congruence|].
      eapply look_prefix_dir; [|exact E|discriminate]. congruence.
    - now apply makedirs_ok. }
  assert (X : result (fs_makedirs h path ex) w = Ok tt -> dirs_to w p /\ (look w p = None \/ ex = true)).
  { unfold result, fs_makedirs. fold p. destruct (missing w [] p) as [l|e] eqn:Em; [|discriminate]. pose proof (M _ _ _ Em) as Hd. intros E. split; [exact Hd|].
    destruct (look w p) as [e|] eqn:L; [|now left]. right. assert (e = EDir) by (destruct (Hd p [] (eq_sym (app_nil_r p))); congruence). subst e.
    pose proof (makedirs_exist_ok w h path L) as K. unfold fs_makedirs in K. fold p in K. rewrite Em in K. destruct l; [|discriminate K].
    destruct ex; [reflexivity|discriminate E]. }
  split; [split|split].
  - intros E. apply X in E as (A & B). split; [now apply D|exact B].
  - intros (A & B). apply Y; [now apply D|exact B].
  - intros E. apply X in E as (A & B). destruct (Y A B) as (_ & Hq). intros q. split; intros H; rewrite Hq.
    + apply S in H. destruct (strip q p); congruence.
    + destruct (strip q p) as [r|] eqn:E; [|reflexivity]. apply strip_some in E. now apply H in E.
  - unfold result, after, fs_makedirs. destruct (missing w [] (at_path h path)) as [[|x l]|e]; cbn [fst snd]; try reflexivity. congruence.
Qed.
Print Assumptions C97_makes_directories.

(** makedir of what exists raises and changes nothing; else it is makedirs. *)
Theorem C97_makes_directory : forall w h path,
  (look w (at_path h path) <> None -> result (fs_makedir h path) w = Raise OSError /\ after (fs_makedir h path) w = w) /\
  (look w (at_path h path) = None -> result (fs_makedir h path) w = result (fs_makedirs h path false) w /\
     after (fs_makedir h path) w = after (fs_makedirs h path false) w).
Proof.
  intros w h path. unfold result, after, fs_makedir. split; intros H.
  - apply fs_exists_look in H. rewrite H. now split.
  - pose proof H as H'. apply fs_exists_false in H'. rewrite H'. unfold fs_makedirs. destruct (missing w [] (at_path h path)) as [[|x l]|e] eqn:Em; try now split.
    exfalso. assert (K : look w (at_path h path) = Some EDir); [|congruence]. revert Em. generalize (@nil str). clear. generalize (at_path h path) as p. intros p. revert w.
    induction p as [|c p IH]; intros w done; cbn [missing]; destruct w as [b|d|]; try discriminate; [reflexivity|].
    rewrite look_cons. destruct (dget c d) as [m|]; [apply IH|discriminate].
Qed.
Print Assumptions C97_makes_directory.

(** rm removes a file and nothing else, and is refused for directories. *)
Theorem C97_removes : forall w h path, tree w -> look w [] = Some EDir ->
  let p := at_path h path in
  (result (fs_rm h path) w = Ok tt <-> exists e, look w p = Some e /\ e <> EDir) /\
  (result (fs_rm h path) w = Ok tt -> changes w (after (fs_rm h path) w) p None) /\
  (result (fs_rm h path) w <> Ok tt -> after (fs_rm h path) w = w).
Proof.
  intros w h path Tw Dw p. unfold result, after, fs_rm. fold p. unfold look. destruct (get w p) as [n|e] eqn:G.
  - assert (Ep : n = Other \/ (exists b, n = File b) -> changes w (apply (Unlink p) w) p None).
    { intros H. apply unlink_changes; auto; [|unfold look; rewrite G; destruct H as [->|(b & ->)]; discriminate].
      intros E. rewrite E in G. injection G as ->. rewrite look_nil in Dw. destruct H as [->|(b & ->)]; discriminate. }
    destruct n as [b|d|]; cbn [fst snd apply_all fold_left entry_of].
    + split; [split; [intros _; exists (EFile b); split; [reflexivity|discriminate]|reflexivity]|]. split; [intros _; apply Ep; eauto|congruence].
    + split; [split; [discriminate|]|split; [discriminate|reflexivity]]. intros (e & [= <-] & H). congruence.
    + split; [split; [intros _; exists EOther; split; [reflexivity|discriminate]|reflexivity]|]. split; [intros _; apply Ep; auto|congruence].
  - cbn [fst snd]. split; [split; [discriminate|]|split; [discriminate|reflexivity]]. intros (e' & H & _). discriminate H.
Qed.
Print Assumptions C97_removes.

(** Every one of them leaves a file system with file names, all different in a directory. *)
Theorem C97_stays_a_tree : forall w h path s b e, tree w -> Forall fname h ->
  tree (after (fs_create h path) w) /\ tree (after (fs_append h path b) w) /\ tree (after (fs_write_text h path s) w) /\
  tree (after (fs_makedirs h path e) w) /\ tree (after (fs_makedir h path) w) /\ tree (after (fs_rm h path) w).
Proof.
  intros w h path s b e Tw Fh. repeat split; apply tree_after; auto using named_create, named_append, named_write_text, named_makedirs, named_makedir, named_rm.
Qed.
Print Assumptions C97_stays_a_tree.

(** ** Interruptions *)
Lemma cut_cons_inv s l c : cut c (s :: l) -> c = [] \/ (exists c', c = s :: c' /\ cut c' l) \/
  (exists p x y, s = Append p (x ++ y) /\ c = [Append p x]).
Proof.
  intros H. remember (s :: l) as l0 eqn:El. destruct H as [a b|a p x y b]; destruct a as [|s' a]; cbn [app] in El.
  - now left.
  - injection El as -> <-. right. left. exists a. split; [reflexivity|constructor].
  - injection El as <- <-. right. right. exists p, x, y. now split.
  - injection El as -> <-. right. left. exists (a ++ [Append p x]). split; [reflexivity|apply cut_write].
Qed.
Lemma cut_appends p bs : forall c, cut c (map (Append p) bs) -> exists x y, concat bs = x ++ y /\
  forall w c0, look w p = Some (EFile c0) -> look (apply_all c w) p = Some (EFile (c0 ++ x)).
Proof.
  induction bs as [|b bs IH]; intros c Hc; cbn [map] in Hc.
  - apply cut_nil in Hc as ->. exists [], []. split; [reflexivity|]. intros w c0 H. now rewrite app_nil_r.
  - apply cut_cons_inv in Hc as [->|[(c' & -> & Hc')|(p' & x & y & Es & ->)]].
    + exists [], (concat (b :: bs)). split; [reflexivity|]. intros w c0 H. now rewrite app_nil_r.
    + destruct (IH c' Hc') as (x & y & Ex & Hx). exists (b ++ x), y. cbn [concat]. rewrite Ex, app_assoc. split; [reflexivity|].
      intros w c0 H. change (apply_all (Append p b :: c') w) with (apply_all c' (apply (Append p b) w)). rewrite app_assoc. apply Hx.
      exact (changes_at _ _ _ _ (append_changes w p b c0 H)).
    + injection Es as <- ->. exists x, (y ++ concat bs). cbn [concat]. rewrite app_assoc. split; [reflexivity|].
      intros w c0 H. exact (changes_at _ _ _ _ (append_changes w p x c0 H)).
Qed.
Lemma cut_write_file p bs w c : fresh_place w p \/ (exists b, look w p = Some (EFile b)) -> cut c (Create p :: map (Append p) bs) ->
  look (apply_all c w) p = look w p \/ exists x y, concat bs = x ++ y /\ look (apply_all c w) p = Some (EFile x).
Proof.
  intros Hp Hc. apply cut_cons_inv in Hc as [->|[(c' & -> & Hc')|(p' & x & y & Es & _)]]; [now left| |discriminate].
  right. destruct (cut_appends p bs c' Hc') as (x & y & Ex & Hx). exists x, y. split; [exact Ex|].
  change (apply_all (Create p :: c') w) with (apply_all c' (apply (Create p) w)). apply (Hx _ []).
  exact (changes_at _ _ _ _ (create_changes w p Hp)).
Qed.

(** Writing a text that is interrupted at any point, also within a write, changes no other
    place, and leaves what was there or a file with the first bytes of the text. *)
Theorem C97_write_interrupted : forall w h path s b c, tree w -> Forall fname h -> text_bytes s b ->
  cut c (fst (fs_write_text h path s w)) ->
  (forall q, q <> at_path h path -> look (apply_all c w) q = look w q) /\
  (look (apply_all c w) (at_path h path) = look w (at_path h path) \/
   exists x y, b = x ++ y /\ look (apply_all c w) (at_path h path) = Some (EFile x)).
Proof.
  intros w h path s b c Tw Fh Hb Hc. set (p := at_path h path) in *. split.
  - intros q Hq. apply (acts_cut (fun q => q = p) (fs_write_text h path s)); auto. now apply acts_write_text.
  - destruct (C97_opens_for_writing w h path) as ((K1 & _) & _ & _). fold p in K1.
    assert (E : fst (fs_write_text h path s w) = [] \/
      (result (fs_create h path) w = Ok tt /\ fst (fs_write_text h path s w) = Create p :: map (Append p) [b])).
    { unfold fs_write_text. rewrite steps_bind. destruct (result (fs_create h path) w) as [[]|e] eqn:Er.
      - right. split; [reflexivity|]. apply text_bytes_utf8 in Hb. pose proof (K1 eq_refl) as Hp.
        rewrite (create_ok w h path) by (destruct Hp; auto). cbn [fst app]. f_equal. unfold write_text, ibind, iread. cbn. now rewrite Hb.
      - left. rewrite app_nil_r. unfold result, fs_create in Er |- *. destruct (get w (at_path h path)) as [[b0|d|]|e0]; try reflexivity; try discriminate.
        destruct e0; try reflexivity. destruct (get w (removelast (at_path h path))) as [[b0|d|]|e1]; try reflexivity; discriminate. }
    destruct E as [E|(Er & E)]; rewrite E in Hc.
    + apply cut_nil in Hc as ->. now left.
    + destruct (cut_write_file p [b] w c) as [K|(x & y & Ex & K)]; auto; [destruct (K1 Er); auto|].
      right. exists x, y. cbn [concat] in Ex. rewrite app_nil_r in Ex. auto.
Qed.
Print Assumptions C97_write_interrupted.

(** Making directories that is interrupted leaves some of them. *)
Theorem C97_makedirs_interrupted : forall w h path e c q, tree w -> Forall fname h ->
  cut c (fst (fs_makedirs h path e w)) ->
  look (apply_all c w) q = look w q \/
  (look w q = None /\ look (apply_all c w) q = Some EDir /\ exists r, at_path h path = q ++ r).
Proof.
  intros w h path e c q Tw Fh Hc. set (p := at_path h path) in *.
  assert (A : acts_at (fun q => look w q = None /\ exists r, p = q ++ r) (fs_makedirs h path e) w) by (apply acts_makedirs; auto; intros q0 r Eq Hq; split; [exact Hq|eauto]).
  destruct (look w q) as [e0|] eqn:L.
  - left. rewrite <- L. apply (acts_cut _ (fs_makedirs h path e) w q c Tw A Hc). intros [K _]. congruence.
  - destruct (strip q p) as [r|] eqn:S.
    2:{ left. rewrite <- L. apply (acts_cut _ (fs_makedirs h path e) w q c Tw A Hc). intros [_ [r K]]. exact (proj1 (strip_none q p) S r K). }
    assert (D : look (apply_all c w) q = None \/ look (apply_all c w) q = Some EDir).
    { assert (M : forall l w0, (forall s, In s l -> exists p0, s = Mkdir p0) -> ok_steps w0 l -> tree w0 -> look w0 q = None \/ look w0 q = Some EDir ->
        look (apply_all l w0) q = None \/ look (apply_all l w0) q = Some EDir).
      { clear. induction l as [|s l IH]; intros w0 Hl Ho Tw H; [exact H|]. destruct Ho as [H1 H2]. change (apply_all (s :: l) w0) with (apply_all l (apply s w0)).
        apply IH; auto using ok_step_tree; [intros s' Hs'; apply Hl; now right|]. destruct (Hl s (or_introl eq_refl)) as [p0 ->]. destruct H1 as [_ H1].
        rewrite (mkdir_changes w0 p0 H1). destruct (place_eq_dec q p0); auto. }
      apply M; auto; [|destruct A as [A _]; eapply ok_cut; eauto].
      assert (Hm : forall s, In s (fst (fs_makedirs h path e w)) -> exists p0, s = Mkdir p0).
      { unfold fs_makedirs. intros s Hs. destruct (missing w [] (at_path h path)) as [[|x l]|]; cbn [fst] in Hs; [destruct Hs| |destruct Hs].
        apply in_map_iff in Hs as (p0 & <- & _). eauto. }
      intros s Hs. inversion Hc as [a b Ea Eb|a p0 x y b Ea Eb]; subst c.
      - apply Hm. rewrite <- Eb. apply in_or_app. now left.
      - exfalso. destruct (Hm (Append p0 (x ++ y))) as [p1 K]; [rewrite <- Eb; apply in_or_app; right; now left|discriminate]. }
    destruct D as [D|D]; [left; congruence|right]. repeat split; auto. exists r. now apply strip_some.
Qed.
Print Assumptions C97_makedirs_interrupted.

(** ** Copying one file *)

(** fsw_copyfile succeeds exactly if the source is a file and the destination is one or can
    be made. If it does not nothing changes; if it does, the destination has the bytes of
    the source, and nothing else changes. *)
Theorem C14_copyfile : forall w sh sp dh dp,
  let s := at_path sh sp in let d := at_path dh dp in
  let x := fsw_copyfile sh sp dh dp in
  (result x w = Ok tt <-> (exists b, look w s = Some (EFile b)) /\ ((exists b, look w d = Some (EFile b)) \/ fresh_place w d)) /\
  (result x w = Ok tt -> s <> d -> exists b, look w s = Some (EFile b) /\ changes w (after x w) d (Some (EFile b))) /\
  (result x w <> Ok tt -> after x w = w).
Proof.
  intros w sh sp dh dp s d x. destruct (C97_opens_for_writing w dh dp) as ((K1 & K2) & _ & K3). fold d in K1, K2.
  assert (X : result x w = Ok tt -> (exists b, look w s = Some (EFile b)) /\ ((exists b, look w d = Some (EFile b)) \/ fresh_place w d)).
  { intros E. unfold x, fsw_copyfile in E. rewrite result_read in E. destruct (fs_read w sh sp) as [b|] eqn:Eb; [|discriminate].
    split; [exists b; now apply fs_read_look|]. apply K1. apply ibind_ok in E as ([] & E & _). exact E. }
  assert (Y : (exists b, look w s = Some (EFile b)) -> (exists b, look w d = Some (EFile b)) \/ fresh_place w d -> result x w = Ok tt).
  { intros [b Hb] Hd. destruct (place_eq_dec s d) as [E|Hn].
    - unfold x, fsw_copyfile. rewrite result_read, (proj2 (fs_read_look w sh sp b) Hb). rewrite (result_seq _ _ _ tt) by (now apply K2).
      rewrite result_read. destruct (C97_opens_for_writing w dh dp) as (_ & C & _). specialize (C (K2 Hd)). fold d in C.
      pose proof (changes_at _ _ _ _ C) as L. rewrite <- E in L. unfold s in L. rewrite (proj2 (fs_read_look _ sh sp []) L).
      apply (append_all (after (fs_create dh dp) w) dh dp _ []). exact (changes_at _ _ _ _ C).
    - apply (copyfile_ok w sh sp dh dp b); auto. destruct Hd; auto. }
  split; [split; [exact X|intros [A B]; now apply Y]|]. split.
  - intros E Hn. destruct (X E) as [[b Hb] Hd]. exists b. split; [exact Hb|]. apply copyfile_ok; auto. destruct Hd; auto.
  - intros E. unfold x, fsw_copyfile. rewrite after_read. destruct (fs_read w sh sp) as [b|] eqn:Eb; [|reflexivity].
    assert (N : result (fs_create dh dp) w <> Ok tt) by (intros N; apply E, Y; [exists b; now apply fs_read_look|now apply K1]).
    rewrite ibind_after. destruct (result (fs_create dh dp) w) as [[]|]; [now destruct N|]. now apply K3.
Qed.
Print Assumptions C14_copyfile.

(** the steps of copying, whatever the blocks are *)
Lemma copy_steps (bs : bytes -> list bytes) w sh sp dh dp b :
  look w (at_path sh sp) = Some (EFile b) -> at_path sh sp <> at_path dh dp ->
  let s := fst ((do _ <- iread (fun w => fs_read w sh sp) ;; fs_create dh dp ;;
                 do b <- iread (fun w => fs_read w sh sp) ;; iter (fs_append dh dp) (bs b)) w) in
  s = [] \/ s = Create (at_path dh dp) :: map (Append (at_path dh dp)) (bs b) /\
             (fresh_place w (at_path dh dp) \/ exists b, look w (at_path dh dp) = Some (EFile b)).
Proof.
  intros Hb Hn s. unfold s. clear s. destruct (C97_opens_for_writing w dh dp) as ((K1 & _) & K2 & _).
  rewrite steps_bind, result_iread, (proj2 (fs_read_look w sh sp b) Hb), after_iread. cbn [iread fst app]. rewrite steps_bind.
  destruct (result (fs_create dh dp) w) as [[]|e] eqn:Er.
  - right. pose proof (K1 eq_refl) as Hd. pose proof (changes_other _ _ _ _ _ (K2 eq_refl) Hn) as L. rewrite Hb in L.
    assert (Hd' : fresh_place w (at_path dh dp) \/ exists b, look w (at_path dh dp) = Some (EFile b)) by (destruct Hd; auto).
    split; [|exact Hd']. rewrite steps_bind, result_iread, (proj2 (fs_read_look _ sh sp b) L). cbn [iread fst app].
    assert (I : forall l w0, fst (iter (fs_append dh dp) l w0) = map (Append (at_path dh dp)) l).
    { induction l as [|b0 l IH]; intros w0; [reflexivity|]. rewrite iter_cons, steps_bind. cbn [map]. unfold fs_append at 1 2, result. cbn [fst snd app]. now rewrite IH. }
    rewrite I, (create_ok w dh dp Hd'). reflexivity.
  - left. rewrite app_nil_r. unfold result, fs_create in Er |- *. destruct (get w (at_path dh dp)) as [[b0|d0|]|e0]; try reflexivity; try discriminate.
    destruct e0; try reflexivity. destruct (get w (removelast (at_path dh dp))) as [[b0|d0|]|e1]; try reflexivity; discriminate.
Qed.

(** If it is interrupted no place but the destination has changed, and this is as before or a
    file with the first bytes of the source. *)
Theorem C14_copyfile_interrupted : forall w sh sp dh dp b c, tree w -> Forall fname dh ->
  look w (at_path sh sp) = Some (EFile b) -> at_path sh sp <> at_path dh dp ->
  cut c (fst (fsw_copyfile sh sp dh dp w)) ->
  (forall q, q <> at_path dh dp -> look (apply_all c w) q = look w q) /\
  (look (apply_all c w) (at_path dh dp) = look w (at_path dh dp) \/
   exists x y, b = x ++ y /\ look (apply_all c w) (at_path dh dp) = Some (EFile x)).
Proof.
  intros w sh sp dh dp b c Tw Fh Hb Hn Hc. split.
  - intros q Hq. apply (acts_cut (fun q => q = at_path dh dp) (fsw_copyfile sh sp dh dp)); auto. now apply acts_copyfile.
  - pose proof (blocks_concat BUFLEN (S (List.length b)) b buflen_pos (Nat.lt_succ_diag_r _)) as Bc.
    destruct (copy_steps (fun b => blocks BUFLEN (S (List.length b)) b) w sh sp dh dp b Hb Hn) as [E|[E Hd]];
      unfold fsw_copyfile in Hc; rewrite E in Hc; clear E.
    + apply cut_nil in Hc as ->. now left.
    + cbv beta in Hc. generalize dependent (blocks BUFLEN (S (List.length b)) b). intros bs Hc <-.
      destruct (cut_write_file (at_path dh dp) bs w c Hd Hc) as [K|(x & y & Ex & K)]; [now left|].
      right. exists x, y. auto.
Qed.
Print Assumptions C14_copyfile_interrupted.

(** ** A case *)
Definition ex_files : node := Dir [(`"a", Dir [(`"b", File [104%N; 105%N]); (`"c", Dir [])]); (`"z", Other)].
Example C97_ex :
  tree ex_files /\ at_path [`"a"] (`"./c//../b") = [`"a"; `"b"] /\ at_path [`"a"] (`"../../../z") = [`"z"] /\
  goes [`"a"] [`"."; `"c"; []; `".."; `"b"] [`"a"; `"b"] /\
  fresh_place ex_files [`"a"; `"d"] /\
  result (fs_makedirs [`"a"] (`"d/e/f") false) ex_files = Ok tt /\
  look (after (fs_makedirs [`"a"] (`"d/e/f") false) ex_files) [`"a"; `"d"; `"e"] = Some EDir /\
  result (fs_makedirs [`"a"] (`"b/e") false) ex_files = Raise OSError /\
  result (fs_rm [`"a"] (`"b")) ex_files = Ok tt /\ result (fs_rm [`"a"] (`"c")) ex_files = Raise ValueError /\
  look (after (fs_write_text [`"a"] (`"c/new") [233%N]) ex_files) [`"a"; `"c"; `"new"] = Some (EFile [195%N; 169%N]).
Proof.
  split; [apply tree_b_ok; vm_compute; reflexivity|]. split; [vm_compute; reflexivity|]. split; [vm_compute; reflexivity|].
  split; [apply goes_fold; vm_compute; reflexivity|]. split; [repeat split; [discriminate|vm_compute; reflexivity..]|].
  repeat split; vm_compute; reflexivity.
Qed.

Example C14_copyfile_ex :
  look ex_files (at_path [`"a"] (`"b")) = Some (EFile [104%N; 105%N]) /\ at_path [`"a"] (`"b") <> at_path [`"a"] (`"c/d") /\
  fresh_place ex_files (at_path [`"a"] (`"c/d")) /\ Forall fname [`"a"].
Proof.
  split; [vm_compute; reflexivity|]. split; [vm_compute; discriminate|]. split; [repeat split; [discriminate|vm_compute; reflexivity..]|].
  constructor; [|constructor]. apply fname_b_ok. vm_compute. reflexivity.
Qed.
