(** Facts about comparing and copying files (ocfl/fsw.py). *)
From Verif Require Import Base Utf8 PathModel TextFile FsModel FsSpec FsProofs FswModel FswSpec FswProofs.

(** * Blocks *)

Lemma firstn_nil_inv {A} n (l : list A) : (0 < n)%nat -> firstn n l = [] -> l = [].
Proof. destruct n; [lia|]. destruct l; [auto|discriminate]. Qed.

Lemma compare_blocks_ok n fuel b1 b2 : (0 < n)%nat -> (List.length b1 < fuel)%nat ->
  compare_blocks n fuel b1 b2 = Ok (str_eqb b1 b2).
Proof.
  intros Hn. revert b1 b2; induction fuel as [|fuel IH]; intros b1 b2 Hl; [lia|]. cbn [compare_blocks].
  destruct (str_eqb_spec (firstn n b1) (firstn n b2)) as [E|Hne]; cbn [negb].
  - destruct (firstn n b1) as [|c r] eqn:E1.
    + apply firstn_nil_inv in E1; auto. symmetry in E. apply firstn_nil_inv in E; auto. now subst.
    + rewrite IH.
      * f_equal. rewrite <- (firstn_skipn n b1) at 2. rewrite <- (firstn_skipn n b2) at 2. rewrite <- E, E1.
        destruct (str_eqb_spec (skipn n b1) (skipn n b2)) as [->|Hne]; [now rewrite str_eqb_refl|].
        destruct (str_eqb_spec ((c :: r) ++ skipn n b1) ((c :: r) ++ skipn n b2)) as [E2|]; auto. apply app_inv_head in E2. congruence.
      * rewrite skipn_length. destruct b1; [rewrite firstn_nil in E1; discriminate|]. cbn [List.length] in *. lia.
  - destruct (str_eqb_spec b1 b2); [congruence|reflexivity].
Qed.

Lemma blocks_concat n fuel b : (0 < n)%nat -> (List.length b < fuel)%nat -> concat (blocks n fuel b) = b.
Proof.
  intros Hn. revert b; induction fuel as [|fuel IH]; intros b Hl; [lia|]. cbn [blocks].
  destruct (firstn n b) as [|c r] eqn:E.
  - apply firstn_nil_inv in E; auto.
  - cbn [concat]. rewrite IH.
    + rewrite <- E. apply firstn_skipn.
    + rewrite skipn_length. destruct b; [rewrite firstn_nil in E; discriminate|]. cbn [List.length] in *. lia.
Qed.

Lemma buflen_pos : (0 < BUFLEN)%nat.
Proof. unfold BUFLEN. lia. Qed.

Lemma same_content_ok b1 b2 : same_content b1 b2 = Ok (str_eqb b1 b2).
Proof. apply compare_blocks_ok; [apply buflen_pos|lia]. Qed.

(** * Reading *)

Lemma fs_read_look w h path b : fs_read w h path = Ok b <-> look w (at_path h path) = Some (EFile b).
Proof.
  rewrite look_file. unfold fs_read. destruct (get w (at_path h path)) as [[c|d|]|]; cbn [ebind]; split; try discriminate; intros H; congruence.
Qed.

Lemma fs_exists_look w h path : fs_exists w h path = true <-> look w (at_path h path) <> None.
Proof. unfold fs_exists, look. destruct (get w (at_path h path)); split; congruence. Qed.
Lemma fs_exists_false w h path : fs_exists w h path = false <-> look w (at_path h path) = None.
Proof. unfold fs_exists, look. destruct (get w (at_path h path)); split; congruence. Qed.
Lemma fs_isdir_look w h path : fs_isdir w h path = true <-> look w (at_path h path) = Some EDir.
Proof.
  unfold fs_isdir. rewrite look_dir. destruct (get w (at_path h path)) as [[c|d|]|]; split; try discriminate; eauto; intros (x & E); congruence.
Qed.

(** * Comparing *)

Theorem files_identical_ok sizes w h f1 f2 b1 b2 :
  look w (at_path h f1) = Some (EFile b1) -> look w (at_path h f2) = Some (EFile b2) ->
  fsw_files_identical sizes w h f1 f2 = Ok (str_eqb b1 b2).
Proof.
  intros H1 H2. pose proof (proj1 (look_file _ _ _) H1) as G1. pose proof (proj1 (look_file _ _ _) H2) as G2.
  unfold fsw_files_identical, fs_info. rewrite G1, G2. cbn [ebind fst snd type_of ftype_eqb negb]. rewrite orb_false_r.
  destruct (N.eqb_spec (N.of_nat (List.length b1)) (N.of_nat (List.length b2))) as [E|E]; cbn [negb].
  - destruct (str_eqb_spec f1 f2) as [->|].
    + rewrite G1 in G2. apply Ok_inv in G2. injection G2 as ->. now rewrite str_eqb_refl.
    + unfold fs_read. rewrite G1, G2. cbn [ebind]. apply same_content_ok.
  - destruct (str_eqb_spec b1 b2); [congruence|reflexivity].
Qed.

(** * Creating and appending *)

Lemma look_none_get w p : fresh_place w p -> get w p = Raise FileNotFoundError.
Proof.
  intros (Hp & Hpar & Hno). destruct p as [|c p] using rev_ind; [congruence|]. rewrite removelast_last in Hpar.
  apply look_dir in Hpar as (d & Hd). rewrite get_app, Hd. cbn [get].
  rewrite (look_child _ _ _ _ Hd) in Hno. destruct (dget c d); [discriminate|reflexivity].
Qed.

Lemma create_ok w h path : fresh_place w (at_path h path) \/ (exists b, look w (at_path h path) = Some (EFile b)) ->
  fs_create h path w = ([Create (at_path h path)], Ok tt).
Proof.
  intros [H|[b H]].
  - unfold fs_create. rewrite (look_none_get _ _ H). destruct H as (Hp & Hpar & Hno). apply look_dir in Hpar as (d & Hd). now rewrite Hd.
  - apply look_file in H. unfold fs_create. now rewrite H.
Qed.

Lemma changes_refl w p : changes w w p (look w p).
Proof. intros q. destruct (place_eq_dec q p); congruence. Qed.

Lemma changes_trans w w1 w2 p e1 e2 : changes w w1 p e1 -> changes w1 w2 p e2 -> changes w w2 p e2.
Proof. intros H1 H2 q. rewrite H2. destruct (place_eq_dec q p); auto. rewrite H1. destruct (place_eq_dec q p); congruence. Qed.

Lemma changes_at w w' p e : changes w w' p e -> look w' p = e.
Proof. intros H. rewrite H. destruct (place_eq_dec p p); congruence. Qed.
Lemma changes_other w w' p e q : changes w w' p e -> q <> p -> look w' q = look w q.
Proof. intros H Hn. rewrite H. destruct (place_eq_dec q p); congruence. Qed.

Lemma after_bind_ok {A B} (x : io A) (f : A -> io B) w a : result x w = Ok a ->
  after (ibind x f) w = after (f a) (after x w) /\ result (ibind x f) w = result (f a) (after x w).
Proof. intros H. rewrite ibind_after, ibind_result, H. auto. Qed.

Lemma iter_cons {A} (f : A -> io unit) a l : iter f (a :: l) = (f a ;; iter f l).
Proof. reflexivity. Qed.

Lemma append_all w h path l c : look w (at_path h path) = Some (EFile c) ->
  result (iter (fs_append h path) l) w = Ok tt /\
  changes w (after (iter (fs_append h path) l) w) (at_path h path) (Some (EFile (c ++ concat l))).
Proof.
  revert w c; induction l as [|b l IH]; intros w c H.
  - split; [reflexivity|]. cbn [concat]. rewrite app_nil_r, <- H. apply changes_refl.
  - rewrite iter_cons. pose proof (append_changes w _ b c H) as Hc.
    destruct (after_bind_ok (fs_append h path b) (fun _ => iter (fs_append h path) l) w tt eq_refl) as [Ha Hr].
    rewrite Ha, Hr. change (after (fs_append h path b) w) with (apply (Append (at_path h path) b) w).
    destruct (IH _ _ (changes_at _ _ _ _ Hc)) as [Hr' Hc']. split; auto.
    cbn [concat]. rewrite app_assoc. eapply changes_trans; eauto.
Qed.

(** all steps are at proper places *)
Definition steps_named {A} (x : io A) (w : node) : Prop := Forall (fun s => Forall fname (step_place s)) (fst (x w)).

Lemma steps_named_bind {A B} (x : io A) (f : A -> io B) w : steps_named x w ->
  (forall a, result x w = Ok a -> steps_named (f a) (after x w)) -> steps_named (ibind x f) w.
Proof.
  intros Hx Hf. unfold steps_named. rewrite steps_bind. apply Forall_app. split; auto.
  destruct (result x w) as [a|] eqn:E; [|constructor]. now apply Hf.
Qed.
Lemma steps_named_iter {A} (f : A -> io unit) l : (forall a w, steps_named (f a) w) -> forall w, steps_named (iter f l) w.
Proof.
  intros Hf. induction l as [|a l IH]; intros w; [constructor|]. rewrite iter_cons. apply steps_named_bind; auto.
Qed.
Lemma tree_after {A} (x : io A) w : tree w -> steps_named x w -> tree (after x w).
Proof. intros. now apply tree_steps. Qed.

Lemma named_append h path b w : Forall fname h -> steps_named (fs_append h path b) w.
Proof. intros Hh. constructor; [|constructor]. now apply at_path_fnames. Qed.
Lemma named_create h path w : Forall fname h -> steps_named (fs_create h path) w.
Proof.
  intros Hh. pose proof (at_path_fnames h path Hh). unfold steps_named, fs_create.
  destruct (get w (at_path h path)) as [[c|d|]|[]]; try constructor; auto.
  destruct (get w (removelast (at_path h path))) as [[c|d|]|]; try constructor; auto.
Qed.
Lemma named_iread {A} (f : node -> exc A) w : steps_named (iread f) w.
Proof. constructor. Qed.
Lemma named_iret {A} (a : A) w : steps_named (iret a) w.
Proof. constructor. Qed.
Lemma named_iraise {A} e w : steps_named (@iraise A e) w.
Proof. constructor. Qed.
Lemma prefixes_named p : forall done, Forall fname done -> Forall fname p -> Forall (Forall fname) (prefixes done p).
Proof.
  induction p as [|c p IH]; intros done Hd Hp; [constructor|]. inversion Hp; subst. cbn [prefixes].
  assert (Forall fname (done ++ [c])) by (apply Forall_app; auto). constructor; auto.
Qed.
Lemma missing_named w p l : forall done, Forall fname done -> Forall fname p -> missing w done p = Ok l -> Forall (Forall fname) l.
Proof.
  revert w; induction p as [|c p IH]; intros w done Hd Hp H; cbn [missing] in H.
  - destruct w; try discriminate. apply Ok_inv in H. subst. constructor.
  - destruct w as [b|d|]; try discriminate. inversion Hp; subst. destruct (dget c d).
    + eapply IH; [| |eassumption]; auto. apply Forall_app; auto.
    + apply Ok_inv in H. subst. now apply (prefixes_named (c :: p)).
Qed.
Lemma named_makedirs h path e w : Forall fname h -> steps_named (fs_makedirs h path e) w.
Proof.
  intros Hh. unfold steps_named, fs_makedirs. destruct (missing w [] (at_path h path)) as [l|] eqn:E; [|constructor].
  apply missing_named in E; auto using at_path_fnames. destruct l as [|a l]; [constructor|].
  cbn [fst]. apply Forall_map. exact E.
Qed.
Lemma named_makedir h path w : Forall fname h -> steps_named (fs_makedir h path) w.
Proof.
  intros Hh. unfold steps_named, fs_makedir. destruct (fs_exists w h path); [constructor|]. now apply (named_makedirs h path true w).
Qed.
Lemma named_rm h path w : Forall fname h -> steps_named (fs_rm h path) w.
Proof.
  intros Hh. pose proof (at_path_fnames h path Hh). unfold steps_named, fs_rm.
  destruct (get w (at_path h path)) as [[c|d|]|]; repeat constructor; auto.
Qed.
Lemma named_write_text h path s w : Forall fname h -> steps_named (fs_write_text h path s) w.
Proof.
  intros Hh. unfold fs_write_text. apply steps_named_bind; [now apply named_create|]. intros _ _.
  apply steps_named_bind; [constructor|]. intros b _. now apply named_append.
Qed.

(** * Writing text *)

Lemma write_text_file w h path s b :
  fresh_place w (at_path h path) \/ (exists b, look w (at_path h path) = Some (EFile b)) -> write_text s = Ok b ->
  result (fs_write_text h path s) w = Ok tt /\
  changes w (after (fs_write_text h path s) w) (at_path h path) (Some (EFile b)).
Proof.
  intros H Hb. unfold fs_write_text. pose proof (create_ok w h path H) as Hc.
  destruct (after_bind_ok (fs_create h path) (fun _ => do b <- iread (fun _ => write_text s) ;; fs_append h path b) w tt) as [Ha Hr];
    [unfold result; now rewrite Hc|].
  rewrite Ha, Hr. assert (Hw1 : after (fs_create h path) w = apply (Create (at_path h path)) w) by (unfold after; now rewrite Hc).
  rewrite Hw1. clear Ha Hr Hc Hw1. pose proof (create_changes w _ H) as Hch. set (w1 := apply (Create (at_path h path)) w) in *.
  destruct (after_bind_ok (iread (fun _ => write_text s)) (fun b => fs_append h path b) w1 b) as [Ha Hr]; [exact Hb|].
  rewrite Ha, Hr. split; [reflexivity|]. change (after (iread (fun _ => write_text s)) w1) with w1.
  eapply changes_trans; [exact Hch|].
  exact (append_changes w1 _ b [] (changes_at _ _ _ _ Hch)).
Qed.

(** * fsw_copyfile *)

Lemma copyfile_ok w sh sp dh dp b :
  look w (at_path sh sp) = Some (EFile b) -> at_path sh sp <> at_path dh dp ->
  fresh_place w (at_path dh dp) \/ (exists b, look w (at_path dh dp) = Some (EFile b)) ->
  result (fsw_copyfile sh sp dh dp) w = Ok tt /\
  changes w (after (fsw_copyfile sh sp dh dp) w) (at_path dh dp) (Some (EFile b)).
Proof.
  intros Hs Hne Hd. unfold fsw_copyfile.
  destruct (after_bind_ok (iread (fun w => fs_read w sh sp)) (fun _ => fs_create dh dp ;;
    do b <- iread (fun w => fs_read w sh sp) ;; iter (fs_append dh dp) (blocks BUFLEN (S (List.length b)) b)) w b) as [Ha Hr];
    [now apply fs_read_look|].
  rewrite Ha, Hr, after_iread. clear Ha Hr. pose proof (create_ok w dh dp Hd) as Hc.
  destruct (after_bind_ok (fs_create dh dp) (fun _ =>
    do b <- iread (fun w => fs_read w sh sp) ;; iter (fs_append dh dp) (blocks BUFLEN (S (List.length b)) b)) w tt) as [Ha Hr];
    [unfold result; now rewrite Hc|].
  rewrite Ha, Hr. assert (Hw1 : after (fs_create dh dp) w = apply (Create (at_path dh dp)) w) by (unfold after; now rewrite Hc).
  rewrite Hw1. clear Ha Hr Hc Hw1. pose proof (create_changes w _ Hd) as Hch. set (w1 := apply (Create (at_path dh dp)) w) in *.
  assert (Hs1 : look w1 (at_path sh sp) = Some (EFile b)) by (rewrite (changes_other _ _ _ _ _ Hch) by auto; auto).
  destruct (after_bind_ok (iread (fun w => fs_read w sh sp)) (fun b => iter (fs_append dh dp) (blocks BUFLEN (S (List.length b)) b)) w1 b) as [Ha Hr];
    [now apply fs_read_look|].
  rewrite Ha, Hr, after_iread.
  destruct (append_all w1 dh dp (blocks BUFLEN (S (List.length b)) b) [] (changes_at _ _ _ _ Hch)) as [Hr' Hc']. split; auto.
  rewrite blocks_concat in Hc' by (auto using buflen_pos). eapply changes_trans; eauto.
Qed.

Lemma named_copyfile sh sp dh dp w : Forall fname dh -> steps_named (fsw_copyfile sh sp dh dp) w.
Proof.
  intros Hh. apply steps_named_bind; [constructor|]. intros _ _. apply steps_named_bind; [now apply named_create|]. intros _ _.
  apply steps_named_bind; [constructor|]. intros b _. apply steps_named_iter. intros c w'. now apply named_append.
Qed.

(** * makedirs *)

Lemma prefixes_app done p q : prefixes done (p ++ q) = prefixes done p ++ prefixes (done ++ p) q.
Proof.
  revert done; induction p as [|c p IH]; intros done; [cbn; now rewrite app_nil_r|]. cbn [app prefixes]. rewrite IH, <- app_assoc. reflexivity.
Qed.

(** making the missing directories, one after the other *)
Lemma mkdirs_changes r : forall w p, look w p = Some EDir -> r <> [] -> look w (p ++ [hd [] r]) = None ->
  forall q, look (apply_all (map Mkdir (prefixes p r)) w) q =
    if strip q (p ++ r) then Some EDir else look w q.
Proof.
  induction r as [|c r IH]; intros w p Hp Hr Hno q; [congruence|]. cbn [prefixes map apply_all fold_left hd] in *.
  assert (Hf : fresh_place w (p ++ [c])) by (repeat split; auto; [destruct p; discriminate|now rewrite removelast_last]).
  pose proof (mkdir_changes w (p ++ [c]) Hf) as Hc. set (w1 := apply (Mkdir (p ++ [c])) w) in *.
  change (fold_left (fun w s => apply s w) (map Mkdir (prefixes (p ++ [c]) r)) w1) with (apply_all (map Mkdir (prefixes (p ++ [c]) r)) w1).
  assert (Hpre : forall x, strip q (p ++ [c]) = Some x -> look w1 q = Some EDir).
  { intros x Hx. apply strip_some in Hx. rewrite Hc. destruct (place_eq_dec q (p ++ [c])); auto.
    destruct x as [|y x]; [rewrite app_nil_r in Hx; congruence|].
    destruct (@exists_last _ (y :: x)) as (x' & z & Ex); [discriminate|]. rewrite Ex, app_assoc in Hx. apply app_inj_tail in Hx as [Hx _].
    destruct x' as [|y' x']; [rewrite app_nil_r in Hx; congruence|]. apply (look_above w q y' x'). rewrite <- Hx. congruence. }
  destruct r as [|c' r].
  - cbn [prefixes map apply_all fold_left]. destruct (strip q (p ++ [c])) as [x|] eqn:E; [eauto|].
    rewrite Hc. destruct (place_eq_dec q (p ++ [c])) as [->|]; auto. rewrite strip_self in E. discriminate.
  - rewrite (IH w1 (p ++ [c])).
    + assert (Eq : (p ++ [c]) ++ c' :: r = p ++ c :: c' :: r) by now rewrite <- app_assoc.
      rewrite Eq. destruct (strip q (p ++ c :: c' :: r)) as [x|] eqn:E; [reflexivity|].
      rewrite Hc. destruct (place_eq_dec q (p ++ [c])) as [->|]; auto. exfalso. apply (proj1 (strip_none _ _) E (c' :: r)). now rewrite <- app_assoc.
    + apply (changes_at _ _ _ _ Hc).
    + discriminate.
    + cbn [hd]. rewrite (changes_other _ _ _ _ _ Hc).
      * apply look_below_leaf; [discriminate|]. rewrite Hno. discriminate.
      * intros E. apply (f_equal (@List.length _)) in E. rewrite !app_length in E. cbn in E. lia.
Qed.

(** nothing on the way is in the way *)
Definition dirs_to (w : node) (p : place) : Prop := forall q r, p = q ++ r -> look w q = None \/ look w q = Some EDir.

Lemma missing_split n p done : is_dir n = true -> dirs_to n p ->
  (look n p = Some EDir /\ missing n done p = Ok []) \/
  (exists a r, p = a ++ r /\ r <> [] /\ look n a = Some EDir /\ look n (a ++ [hd [] r]) = None /\ missing n done p = Ok (prefixes (done ++ a) r)).
Proof.
  revert n done; induction p as [|c p IH]; intros n done Hn Hd.
  - left. destruct n; try discriminate. split; reflexivity.
  - destruct n as [b|d|]; try discriminate. cbn [missing]. destruct (dget c d) as [m|] eqn:E.
    + assert (Hm : is_dir m = true).
      { destruct (Hd [c] p eq_refl) as [H|H]; rewrite look_cons, E, look_nil in H; [discriminate|]. apply is_dir_entry. congruence. }
      destruct (IH m (done ++ [c]) Hm) as [[A B]|(a & r & -> & Hr & A & B & C)].
      * intros q r ->. destruct (Hd (c :: q) r eq_refl) as [H|H]; rewrite look_cons, E in H; auto.
      * left. split; auto. now rewrite look_cons, E.
      * right. exists (c :: a), r. cbn [app]. rewrite !look_cons, E. repeat split; auto. rewrite C. now rewrite <- app_assoc.
    + right. exists [], (c :: p). cbn [app hd]. rewrite look_cons, E, app_nil_r. repeat split; auto; discriminate.
Qed.

Lemma look_prefix_dir w p q r : look w p <> None -> p = q ++ r -> r <> [] -> look w q = Some EDir.
Proof. intros H -> Hr. destruct r as [|c r]; [congruence|]. eapply look_above; eauto. Qed.

Theorem makedirs_ok w h path e : look w (at_path h path) = None -> dirs_to w (at_path h path) ->
  result (fs_makedirs h path e) w = Ok tt /\
  (forall q, look (after (fs_makedirs h path e) w) q = if strip q (at_path h path) then Some EDir else look w q).
Proof.
  intros Hno Hd. set (p := at_path h path) in *.
  assert (Hw : is_dir w = true).
  { destruct (Hd [] p eq_refl) as [H|H]; [discriminate|]. rewrite look_nil in H. apply is_dir_entry. congruence. }
  unfold result, after, fs_makedirs. fold p.
  destruct (missing_split w p [] Hw Hd) as [[A B]|(a & r & E & Hr & A & B & C)]; [congruence|].
  rewrite C. cbn [app]. destruct r as [|c r]; [congruence|]. cbn [prefixes].
  change ((a ++ [c]) :: prefixes (a ++ [c]) r) with (prefixes a (c :: r)). cbn [fst snd]. split; auto.
  intros q. rewrite mkdirs_changes; auto. now rewrite E.
Qed.

Theorem makedirs_exist_ok w h path : look w (at_path h path) = Some EDir ->
  fs_makedirs h path true w = ([], Ok tt).
Proof.
  intros H. unfold fs_makedirs. assert (Hw : is_dir w = true).
  { destruct (at_path h path) as [|c p] eqn:E; [rewrite look_nil in H; apply is_dir_entry; congruence|]. rewrite look_cons in H. now destruct w. }
  assert (Hd : dirs_to w (at_path h path)).
  { intros q r E. right. destruct r as [|c r]; [rewrite app_nil_r in E; congruence|]. eapply look_prefix_dir; [|exact E|discriminate]. congruence. }
  destruct (missing_split w _ [] Hw Hd) as [[A B]|(a & r & E & Hr & A & B & C)]; [now rewrite B|]. exfalso.
  destruct r as [|c r]; [congruence|]. cbn [hd] in B.
  assert (Hx : look w (a ++ [c]) <> None); [|apply Hx; exact B].
  destruct r as [|c' r]; [rewrite <- E, H; discriminate|].
  rewrite (look_prefix_dir w (at_path h path) (a ++ [c]) (c' :: r)); [discriminate|rewrite H; discriminate| |discriminate]. rewrite E, <- app_assoc. reflexivity.
Qed.

(** * Paths below a directory *)

Lemma join_nostart l : l <> [] -> Forall fname l -> startswith [slash] (join [slash] l) = false.
Proof.
  intros Hn H. destruct l as [|a l]; [congruence|]. inversion H; subst.
  pose proof (plain_nostart a (fname_plain a H2)) as Hs. destruct l as [|b l]; [exact Hs|].
  rewrite join_cons by discriminate. destruct a as [|x a]; [destruct H2; congruence|]. exact Hs.
Qed.

Lemma path_join_ns a b : startswith [slash] b = false ->
  path_join a b = match last_opt a with None => b | Some c => if N.eqb c slash then a ++ b else a ++ slash :: b end.
Proof. intros H. unfold path_join. now rewrite H. Qed.

Lemma path_join_app p l k : l <> [] -> Forall fname l -> fname k ->
  path_join p (join [slash] (l ++ [k])) = path_join (path_join p (join [slash] l)) k.
Proof.
  intros Hn Hl Hk. destruct (join_last l Hn (fnames_plain l Hl)) as [J1 J2].
  assert (Hs : startswith [slash] (join [slash] (l ++ [k])) = false).
  { apply join_nostart; [destruct l; discriminate|]. apply Forall_app; auto. }
  assert (Hlast : forall q, path_join (q ++ join [slash] l) k = q ++ join [slash] l ++ slash :: k).
  { intros q. rewrite path_join_simple; [now rewrite <- app_assoc|destruct q; [auto|discriminate]| |apply plain_nostart; now apply fname_plain].
    now rewrite last_opt_app2. }
  rewrite (path_join_ns p _ Hs), (path_join_ns p _ (join_nostart l Hn Hl)). rewrite join_snoc by auto.
  destruct (last_opt p) as [c|].
  - destruct (N.eqb c slash).
    + now rewrite Hlast.
    + replace (p ++ slash :: join [slash] l) with ((p ++ [slash]) ++ join [slash] l) by (now rewrite <- app_assoc).
      rewrite Hlast, <- app_assoc. reflexivity.
  - symmetry. apply (Hlast []).
Qed.

Lemma at_path_rel h p rel : rel <> [] -> Forall fname rel -> at_path h (path_join p (join [slash] rel)) = at_path h p ++ rel.
Proof.
  induction rel as [|k rel IH] using rev_ind; [congruence|]. intros _ H. apply Forall_app in H as [H1 H2]. inversion H2; subst.
  destruct rel as [|r0 rel]; [now apply at_path_name|].
  rewrite path_join_app by (auto; discriminate). rewrite at_path_name by auto. rewrite IH by (auto; discriminate). now rewrite app_assoc.
Qed.

Lemma at_path_slashes h p n : at_path h (p ++ repeat slash n) = at_path h p.
Proof.
  induction n as [|n IH]; [now rewrite app_nil_r|]. rewrite <- IH. clear IH.
  assert (E : forall q, at_path h (q ++ [slash]) = at_path h q).
  { intros q. unfold at_path. rewrite split_on_app_gen. change (split_on slash []) with [@nil N]. rewrite app_assoc. apply resolve_app_nil. }
  replace (repeat slash (S n)) with (repeat slash n ++ [slash]) by (clear; induction n; [reflexivity|]; cbn; now f_equal).
  rewrite app_assoc. apply E.
Qed.

Lemma at_path_rstrip h p : at_path h (rstrip_slash p) = at_path h p.
Proof. destruct (rstrip_split p) as [n E]. rewrite E at 2. now rewrite at_path_slashes. Qed.

Lemma rsplit_app p k : ~ In slash k -> (p = [] \/ last_opt p = Some slash) -> rsplit_slash (p ++ k) = (p, k).
Proof.
  intros Hk Hp. assert (Hbase : rsplit_slash k = ([], k)).
  { clear Hp. induction k as [|c k IH]; [reflexivity|]. cbn [rsplit_slash]. rewrite IH by (intros H; apply Hk; right; auto).
    destruct (N.eqb_spec c slash); [subst; exfalso; apply Hk; left; auto|reflexivity]. }
  induction p as [|c p IH]; [exact Hbase|]. cbn [app rsplit_slash].
  destruct p as [|c' p].
  - cbn [app]. rewrite Hbase. destruct Hp as [Hp|Hp]; [discriminate|]. injection Hp as ->. now rewrite N.eqb_refl.
  - rewrite IH; [reflexivity|]. right. destruct Hp as [Hp|Hp]; [discriminate|]. change (c :: c' :: p) with ([c] ++ c' :: p) in Hp.
    now rewrite last_opt_app2 in Hp.
Qed.

Lemma at_path_dirname_gen h p k : ~ In slash k -> (p = [] \/ last_opt p = Some slash) ->
  at_path h (path_dirname (p ++ k)) = at_path h p.
Proof.
  intros Hk Hp. unfold path_dirname, path_split. rewrite rsplit_app by auto. cbn [fst].
  destruct (rstrip_slash p) as [|x q] eqn:E; [reflexivity|]. rewrite <- E. apply at_path_rstrip.
Qed.

Lemma at_path_dirname h p k : fname k -> at_path h (path_dirname (path_join p k)) = at_path h p.
Proof.
  intros Hk. rewrite path_join_name by auto. assert (Hs : ~ In slash k) by apply Hk. destruct (last_opt p) as [c|] eqn:E.
  - destruct (N.eqb_spec c slash).
    + subst. apply at_path_dirname_gen; auto.
    + change (p ++ slash :: k) with (p ++ [slash] ++ k). rewrite app_assoc. rewrite at_path_dirname_gen; auto.
      * apply (at_path_slashes h p 1).
      * right. apply last_opt_app.
  - assert (p = []) as -> by (destruct p as [|y p] using rev_ind; auto; rewrite last_opt_app in E; discriminate).
    rewrite <- (app_nil_l k). apply at_path_dirname_gen; auto.
Qed.

(** * fsw_copydir *)

(** what is where when the files [done] of [src] have been copied to [dst] *)
Definition copied (w : node) (src dst : place) (done : list place) (q : place) : option entry :=
  match strip dst q with
  | Some r =>
      if in_dec place_eq_dec r done then look w (src ++ r)
      else if existsb (fun f => if strip r f then true else false) ([] :: done) then Some EDir else None
  | None => if strip q dst then Some EDir else look w q
  end.

Lemma strip_dst_none dst q : strip dst q = None -> strip q dst = None \/ exists c r, dst = q ++ c :: r.
Proof.
  intros H. destruct (strip q dst) as [[|c r]|] eqn:E; auto.
  - apply strip_some in E. rewrite app_nil_r in E. subst. rewrite strip_self in H. discriminate.
  - apply strip_some in E. eauto.
Qed.

Lemma leaf_not_above n f c r : leaf n f -> leaf n (f ++ c :: r) -> False.
Proof. intros [_ A] [B _]. apply A. eapply look_above; eauto. Qed.

Section Copy.
Context (w : node) (src_h dst_h : place) (src_path dst_path : str) (n : node).
Let src := at_path src_h src_path.
Let dst := at_path dst_h dst_path.
Context (Hw : tree w) (Hsh : Forall fname src_h) (Hdh : Forall fname dst_h).
Context (Hn : get w src = Ok n) (Hnd : is_dir n = true).
Context (Hfresh : look w dst = None) (Hway : dirs_to w dst).
Context (Hfiles : forall f, leaf n f -> exists b, look n f = Some (EFile b)).

Let state (done : list place) (w' : node) : Prop := tree w' /\ forall q, look w' q = copied w src dst done q.

Lemma src_look f : look w (src ++ f) = look n f.
Proof. rewrite look_app, Hn. reflexivity. Qed.

Lemma below_dst r : look w (dst ++ r) = None.
Proof. destruct r as [|c r]; [now rewrite app_nil_r|]. apply look_below_leaf; [discriminate|]. rewrite Hfresh. discriminate. Qed.

(** the source is not touched *)
Lemma src_kept done f b : look n f = Some (EFile b) -> copied w src dst done (src ++ f) = Some (EFile b).
Proof.
  intros Hf. unfold copied. rewrite <- src_look in Hf. destruct (strip dst (src ++ f)) as [r|] eqn:E.
  - apply strip_some in E. rewrite E, below_dst in Hf. discriminate.
  - destruct (strip_dst_none _ _ E) as [-> | (c & r & E')]; auto. exfalso.
    destruct (Hway (src ++ f) (c :: r)) as [H|H]; auto; rewrite Hf in H; discriminate.
Qed.

Lemma copied_root done : ~ In [] done -> copied w src dst done dst = Some EDir.
Proof.
  intros H. unfold copied. rewrite strip_self. destruct (in_dec place_eq_dec [] done); [contradiction|]. reflexivity.
Qed.

Lemma leaves_ne f : leaf n f -> f <> [].
Proof. intros [_ H] ->. apply H. rewrite look_nil. f_equal. now apply is_dir_entry. Qed.

Lemma copied_below done r : copied w src dst done (dst ++ r) =
  if in_dec place_eq_dec r done then look n r
  else if existsb (fun f => if strip r f then true else false) ([] :: done) then Some EDir else None.
Proof. unfold copied. now rewrite strip_app, src_look. Qed.

(** nothing but directories above a file still to be copied *)
Lemma above_todo done rel c : Forall (leaf n) done -> leaf n (rel ++ [c]) -> ~ In (rel ++ [c]) done ->
  forall q r, dst ++ rel = q ++ r -> copied w src dst done q = None \/ copied w src dst done q = Some EDir.
Proof.
  intros Hd Hl Hnot q r E. destruct (strip dst q) as [x|] eqn:Ex.
  - apply strip_some in Ex. subst q. rewrite <- app_assoc in E. apply app_inv_head in E. subst rel. rewrite copied_below.
    destruct (in_dec place_eq_dec x done) as [Hin|].
    + exfalso. rewrite Forall_forall in Hd. specialize (Hd _ Hin). rewrite <- app_assoc in Hl.
      destruct (r ++ [c]) as [|y z] eqn:Ey; [now destruct r|]. exact (leaf_not_above n x y z Hd Hl).
    + destruct (existsb _ _); auto.
  - unfold copied. rewrite Ex. destruct (strip q dst) as [y|] eqn:Ey; auto. exfalso.
    assert (G : forall (a b a' b' : place), a ++ b = a' ++ b' -> strip a a' = None -> strip a' a = None -> False).
    { clear. induction a as [|x a IH]; intros b a' b' E S1 S2; [discriminate|]. destruct a' as [|y a']; [discriminate|].
      cbn [app] in E. injection E as <- E. cbn [strip] in S1, S2. rewrite str_eqb_refl in S1, S2. eapply IH; eauto. }
    eapply (G dst rel q r); eauto.
Qed.

Lemma copied_parent_None done rel c q : Forall (leaf n) done -> leaf n (rel ++ [c]) -> ~ In (rel ++ [c]) done ->
  strip q (dst ++ rel) <> None -> copied w src dst ((rel ++ [c]) :: done) q = Some EDir.
Proof.
  intros Hd Hl Hnot Hq. destruct (strip q (dst ++ rel)) as [r|] eqn:E; [|congruence]. apply strip_some in E.
  assert (Hl' : Forall (leaf n) ((rel ++ [c]) :: done)) by (constructor; auto).
  destruct (strip dst q) as [x|] eqn:Ex.
  - apply strip_some in Ex. subst q. rewrite <- app_assoc in E. apply app_inv_head in E. subst rel. rewrite copied_below.
    destruct (in_dec place_eq_dec x (((x ++ r) ++ [c]) :: done)) as [Hin|].
    + exfalso. destruct Hin as [Hin|Hin].
      * apply (f_equal (@List.length _)) in Hin. rewrite !app_length in Hin. cbn in Hin. lia.
      * rewrite Forall_forall in Hd. specialize (Hd _ Hin). rewrite <- app_assoc in Hl.
        destruct (r ++ [c]) as [|y z] eqn:Ey; [now destruct r|]. exact (leaf_not_above n x y z Hd Hl).
    + cbn [existsb]. rewrite <- app_assoc. rewrite strip_app. destruct (strip x []); reflexivity.
  - destruct (above_todo done rel c Hd Hl Hnot q r E) as [H|H].
    + unfold copied in H. rewrite Ex in H. unfold copied. rewrite Ex. destruct (strip q dst) eqn:Ey; [reflexivity|].
      exfalso. assert (G : forall (a b a' b' : place), a ++ b = a' ++ b' -> strip a a' = None -> strip a' a = None -> False).
      { clear. induction a as [|z a IH]; intros b a' b' E S1 S2; [discriminate|]. destruct a' as [|y a']; [discriminate|].
        cbn [app] in E. injection E as <- E. cbn [strip] in S1, S2. rewrite str_eqb_refl in S1, S2. eapply IH; eauto. }
      eapply (G dst rel q r); eauto.
    + unfold copied in *. now rewrite Ex in *.
Qed.

Lemma copied_other done f q : q <> dst ++ f -> strip q (dst ++ removelast f) = None -> f <> [] ->
  copied w src dst (f :: done) q = copied w src dst done q.
Proof.
  intros Hq Hs Hf. unfold copied. destruct (strip dst q) as [x|] eqn:E; auto. apply strip_some in E. subst q.
  assert (Hx : x <> f) by congruence.
  destruct (in_dec place_eq_dec x (f :: done)) as [[Hin|Hin]|Hnin].
  - congruence.
  - destruct (in_dec place_eq_dec x done); [reflexivity|contradiction].
  - destruct (in_dec place_eq_dec x done) as [Hin|]; [exfalso; apply Hnin; right; auto|].
    assert (E : strip x f = None).
    { destruct (strip x f) as [y|] eqn:Ey; auto. exfalso. apply strip_some in Ey. destruct y as [|z y]; [rewrite app_nil_r in Ey; congruence|].
      destruct (@exists_last _ (z :: y)) as (y' & u & Eu); [discriminate|]. rewrite Eu, app_assoc in Ey. subst f. rewrite removelast_last in Hs.
      apply (proj1 (strip_none _ _) Hs y'). now rewrite app_assoc. }
    cbn [existsb]. now rewrite E.
Qed.

Lemma copy_one_ok done f w' : state done w' -> Forall (leaf n) done -> leaf n f -> ~ In f done ->
  result (copy_one src_h src_path dst_h dst_path (join [slash] f)) w' = Ok tt /\
  state (f :: done) (after (copy_one src_h src_path dst_h dst_path (join [slash] f)) w').
Proof.
  intros [Ht Hst] Hd Hl Hnot. pose proof (leaf_fnames _ _ (tree_get _ _ _ Hw Hn) Hl) as Hff.
  pose proof (leaves_ne _ Hl) as Hne. destruct (Hfiles _ Hl) as [b Hb].
  destruct (@exists_last _ f Hne) as (rel & k & ->). apply Forall_app in Hff as [Hrel Hk]. inversion Hk as [|? ? Hk' _]; subst.
  unfold copy_one. set (dp := path_join dst_path (join [slash] (rel ++ [k]))).
  assert (Hdp : at_path dst_h dp = dst ++ rel ++ [k]) by (apply at_path_rel; [destruct rel; discriminate|apply Forall_app; auto]).
  assert (Hdd : at_path dst_h (path_dirname dp) = dst ++ rel).
  { unfold dp. destruct rel as [|r0 rel]; [cbn [app join]; rewrite at_path_dirname, app_nil_r by auto; reflexivity|].
    rewrite path_join_app by (auto; discriminate). rewrite at_path_dirname by auto. apply at_path_rel; auto; discriminate. }
  assert (Hsp : at_path src_h (path_join src_path (join [slash] (rel ++ [k]))) = src ++ rel ++ [k])
    by (apply at_path_rel; [destruct rel; discriminate|apply Forall_app; auto]).
  set (mk := if negb (str_eqb (path_dirname dp) dst_path) && negb (fs_exists w' dst_h (path_dirname dp)) then fs_makedirs dst_h (path_dirname dp) false else iret tt).
  destruct (after_bind_ok (iread (fun w => Ok (fs_exists w dst_h (path_dirname dp)))) (fun e : bool =>
    (if negb (str_eqb (path_dirname dp) dst_path) && negb e then fs_makedirs dst_h (path_dirname dp) false else iret tt) ;;
    fsw_copyfile src_h (path_join src_path (join [slash] (rel ++ [k]))) dst_h dp) w' (fs_exists w' dst_h (path_dirname dp)) eq_refl) as [Ha Hr].
  rewrite Ha, Hr, after_iread. clear Ha Hr. fold mk.
  assert (Hmk : result mk w' = Ok tt /\ tree (after mk w') /\
    forall q, look (after mk w') q = if strip q (dst ++ rel) then Some EDir else look w' q).
  { assert (Hpar : look w' (dst ++ rel) = None \/ look w' (dst ++ rel) = Some EDir).
    { rewrite Hst. apply (above_todo done rel k Hd Hl Hnot (dst ++ rel) []). now rewrite app_nil_r. }
    assert (Hroot : ~ In [] done) by (intros Hin; rewrite Forall_forall in Hd; now apply (leaves_ne [] (Hd _ Hin))).
    assert (Hskip : look w' (dst ++ rel) = Some EDir -> forall q, look w' q = if strip q (dst ++ rel) then Some EDir else look w' q).
    { intros H q. destruct (strip q (dst ++ rel)) as [x|] eqn:E; auto. apply strip_some in E. destruct x as [|y x]; [rewrite app_nil_r in E; now rewrite <- E|].
      apply (look_above w' q y x). rewrite <- E, H. discriminate. }
    unfold mk. destruct (str_eqb_spec (path_dirname dp) dst_path) as [E|E]; cbn [negb andb].
    - split; [reflexivity|]. split; [auto|]. apply Hskip.
      assert (rel = []) as ->.
      { assert (E2 : dst ++ rel = dst) by (rewrite <- Hdd, E; reflexivity). rewrite <- (app_nil_r dst) in E2 at 2. now apply app_inv_head in E2. }
      rewrite app_nil_r, Hst. now apply copied_root.
    - destruct (fs_exists w' dst_h (path_dirname dp)) eqn:Ee; cbn [negb andb].
      + split; [reflexivity|]. split; [auto|]. apply Hskip. apply fs_exists_look in Ee. rewrite Hdd in Ee. destruct Hpar; [contradiction|auto].
      + apply fs_exists_false in Ee. destruct (makedirs_ok w' dst_h (path_dirname dp) false Ee) as [A B].
        * rewrite Hdd. intros q r Eq. rewrite Hst. eapply above_todo; eauto.
        * rewrite Hdd in B. split; auto. split; auto. apply tree_after; auto. now apply named_makedirs. }
  destruct Hmk as (M1 & M2 & M3).
  destruct (after_bind_ok mk (fun _ => fsw_copyfile src_h (path_join src_path (join [slash] (rel ++ [k]))) dst_h dp) w' tt M1) as [Ha Hr].
  rewrite Ha, Hr. clear Ha Hr. set (w1 := after mk w') in *.
  assert (Hsrc1 : look w1 (src ++ rel ++ [k]) = Some (EFile b)).
  { rewrite M3. destruct (strip (src ++ rel ++ [k]) (dst ++ rel)) as [x|] eqn:E; [|rewrite Hst; now apply src_kept].
    apply strip_some in E. exfalso. destruct (above_todo done rel k Hd Hl Hnot (src ++ rel ++ [k]) x E) as [H|H];
      rewrite (src_kept done (rel ++ [k]) b Hb) in H; discriminate. }
  assert (Hdst1 : fresh_place w1 (dst ++ rel ++ [k])).
  { repeat split.
    - destruct dst; [destruct rel; discriminate|discriminate].
    - rewrite app_assoc, removelast_last, M3, strip_self. reflexivity.
    - rewrite M3. destruct (strip (dst ++ rel ++ [k]) (dst ++ rel)) as [x|] eqn:E.
      + apply strip_some in E. apply (f_equal (@List.length _)) in E. rewrite !app_length in E. cbn in E. lia.
      + rewrite Hst, copied_below. destruct (in_dec place_eq_dec (rel ++ [k]) done); [contradiction|].
        destruct (existsb _ _) eqn:Ex; auto. exfalso. apply existsb_exists in Ex as (f & Hin & Hf).
        destruct (strip (rel ++ [k]) f) as [y|] eqn:Ey; [|discriminate]. apply strip_some in Ey. destruct Hin as [<-|Hin].
        * destruct rel; discriminate.
        * rewrite Forall_forall in Hd. specialize (Hd _ Hin). subst f. destruct y as [|z y]; [rewrite app_nil_r in Hin; contradiction|].
          exact (leaf_not_above n _ z y Hl Hd). }
  assert (Hdiff : src ++ rel ++ [k] <> dst ++ rel ++ [k]).
  { intros E. rewrite E in Hsrc1. destruct Hdst1 as (_ & _ & H). rewrite H in Hsrc1. discriminate. }
  destruct (copyfile_ok w1 src_h (path_join src_path (join [slash] (rel ++ [k]))) dst_h dp b) as [Cr Cc].
  { now rewrite Hsp. } { now rewrite Hsp, Hdp. } { left. now rewrite Hdp. }
  split; [exact Cr|]. split; [apply tree_after; auto; now apply named_copyfile|].
  intros q. rewrite Cc, Hdp. destruct (place_eq_dec q (dst ++ rel ++ [k])) as [->|Hq].
  - rewrite copied_below. destruct (in_dec _ _ _) as [|H]; [symmetry; exact Hb|]. exfalso. apply H. left; auto.
  - rewrite M3. destruct (strip q (dst ++ rel)) as [x|] eqn:Es.
    + symmetry. apply copied_parent_None; auto. congruence.
    + rewrite copied_other; auto. now rewrite removelast_last.
Qed.

Lemma copy_all_ok todo : forall done w', state done w' -> Forall (leaf n) done -> Forall (leaf n) todo -> NoDup (rev todo ++ done) ->
  result (iter (copy_one src_h src_path dst_h dst_path) (map (join [slash]) todo)) w' = Ok tt /\
  state (rev todo ++ done) (after (iter (copy_one src_h src_path dst_h dst_path) (map (join [slash]) todo)) w').
Proof.
  induction todo as [|f todo IH]; intros done w' Hs Hd Ht Hnd'.
  - split; [reflexivity|exact Hs].
  - inversion Ht; subst. cbn [rev] in Hnd'. rewrite <- app_assoc in Hnd'. cbn [app] in Hnd'.
    assert (Hnot : ~ In f done) by (intros H; apply NoDup_remove_2 in Hnd'; apply Hnd'; apply in_app_iff; auto).
    destruct (copy_one_ok done f w' Hs Hd H1 Hnot) as [A B]. cbn [map]. rewrite iter_cons.
    destruct (after_bind_ok (copy_one src_h src_path dst_h dst_path (join [slash] f)) (fun _ => iter (copy_one src_h src_path dst_h dst_path) (map (join [slash]) todo)) w' tt A) as [Ha Hr].
    rewrite Ha, Hr. cbn [rev]. rewrite <- app_assoc. cbn [app]. apply IH; auto.
Qed.

Theorem copydir_ok : walkable src_path ->
  result (fsw_copydir src_h src_path dst_h dst_path) w = Ok tt /\
  tree (after (fsw_copydir src_h src_path dst_h dst_path) w) /\
  forall q, look (after (fsw_copydir src_h src_path dst_h dst_path) w) q = copied w src dst (rev (leaves n)) q.
Proof.
  intros Hwk. unfold fsw_copydir.
  assert (Hsrcdir : look w src = Some EDir) by (rewrite (get_look _ _ _ Hn); f_equal; now apply is_dir_entry).
  rewrite after_read, result_read. rewrite (proj2 (fs_isdir_look w src_h src_path) Hsrcdir).
  rewrite after_read, result_read. rewrite (proj2 (fs_exists_false w dst_h dst_path) Hfresh).
  destruct (makedirs_ok w dst_h dst_path false Hfresh Hway) as [M1 M2].
  rewrite (after_seq _ _ _ _ M1), (result_seq _ _ _ _ M1).
  set (w1 := after (fs_makedirs dst_h dst_path false) w) in *.
  assert (Ht1 : tree w1) by (apply tree_after; auto; now apply named_makedirs).
  fold dst in M2.
  assert (Hw1 : look w1 src = Some EDir).
  { rewrite M2. now destruct (strip src dst). }
  apply look_dir in Hw1 as (d1 & Hd1).
  assert (Hwalk : fsw_walk_files w1 src_h src_path = Ok (map (join [slash]) (leaves (Dir d1)))) by (apply fsw_walk_files_ok; auto).
  rewrite after_read, result_read, Hwalk.
  assert (Hsame : forall f, leaf (Dir d1) f <-> leaf n f).
  { assert (Ha : forall f, look (Dir d1) f = look w1 (src ++ f)) by (intros f; rewrite look_app, Hd1; reflexivity).
    intros f. unfold leaf. rewrite Ha, M2, <- src_look. destruct (strip (src ++ f) dst) as [x|] eqn:E; [|tauto].
    apply strip_some in E. split; [intros [_ H]; congruence|]. intros [H1 H2]. destruct (Hway (src ++ f) x E); congruence. }
  assert (Hst0 : state [] w1).
  { split; auto. intros q. rewrite M2. unfold copied. destruct (strip q dst) as [x|] eqn:E1.
    - destruct (strip dst q) as [r|] eqn:E2; auto. cbn [existsb]. apply strip_some in E1, E2.
      assert (r = []) as ->. { rewrite E2 in E1. rewrite <- app_assoc in E1. rewrite <- (app_nil_r dst) in E1 at 1. apply app_inv_head in E1. symmetry in E1. now apply app_eq_nil in E1. }
      reflexivity.
    - destruct (strip dst q) as [r|] eqn:E2; auto. apply strip_some in E2. subst q. rewrite below_dst. cbn [in_dec existsb].
      destruct (strip r []) eqn:E3; auto. apply strip_some in E3. symmetry in E3. apply app_eq_nil in E3 as [-> _]. rewrite app_nil_r, strip_self in E1. discriminate. }
  destruct (copy_all_ok (leaves (Dir d1)) [] w1 Hst0) as [A [B C]].
  - constructor.
  - apply Forall_forall. intros f Hf. apply Hsame. apply leaves_spec; auto. eapply tree_get; eauto.
  - rewrite app_nil_r. apply NoDup_rev. apply leaves_nodup. eapply tree_get; eauto.
  - split; [exact A|]. split; [exact B|]. intros q. rewrite C, app_nil_r. unfold copied. destruct (strip dst q) as [r|]; auto.
    assert (Hin : forall r, In r (rev (leaves (Dir d1))) <-> In r (rev (leaves n))).
    { intros f. rewrite <- !in_rev. rewrite !leaves_spec by (eauto using tree_get). apply Hsame. }
    destruct (in_dec place_eq_dec r (rev (leaves (Dir d1)))) as [I1|I1], (in_dec place_eq_dec r (rev (leaves n))) as [I2|I2]; auto;
      try (exfalso; apply Hin in I1; contradiction); try (exfalso; apply Hin in I2; contradiction).
    assert (Eex : existsb (fun f => if strip r f then true else false) ([] :: rev (leaves (Dir d1))) = existsb (fun f => if strip r f then true else false) ([] :: rev (leaves n))).
    { apply eq_true_iff_eq. rewrite !existsb_exists. split; intros (f & [Hf|Hf] & Hs); exists f; (split; [|exact Hs]); [left|right|left|right]; auto; now apply Hin. }
    now rewrite Eex.
Qed.
End Copy.
