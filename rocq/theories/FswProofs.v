(** Facts about the functions of ocfl/fsw.py. *)
From Verif Require Import Base Utf8 PathModel TextFile FsModel FsSpec FsProofs FswModel FswSpec.

(** * Path strings *)

Lemma lstrip_noslash s : startswith [slash] s = false -> lstrip_slash s = s.
Proof.
  destruct s as [|c s]; [reflexivity|]. cbn. destruct (N.eqb_spec slash c); [discriminate|].
  destruct (N.eqb_spec c slash); [congruence|reflexivity].
Qed.

Lemma lstrip_start s : startswith [slash] (lstrip_slash s) = false.
Proof.
  induction s as [|c s IH]; [reflexivity|]. cbn [lstrip_slash]. destruct (N.eqb_spec c slash); auto.
  cbn. destruct (N.eqb_spec slash c); [congruence|reflexivity].
Qed.

Lemma lstrip_slash_cons s : lstrip_slash (slash :: s) = lstrip_slash s.
Proof. reflexivity. Qed.

Lemma fname_lstrip k : fname k -> lstrip_slash k = k.
Proof. intros H. apply lstrip_noslash. apply plain_nostart. now apply fname_plain. Qed.

Lemma lstrip_app s t : lstrip_slash s <> [] -> lstrip_slash (s ++ t) = lstrip_slash s ++ t.
Proof.
  induction s as [|c s IH]; [intros H; now destruct H|]. cbn [app lstrip_slash]. destruct (N.eqb c slash); auto.
Qed.

Lemma lstrip_app_nil s t : lstrip_slash s = [] -> lstrip_slash (s ++ t) = lstrip_slash t.
Proof.
  induction s as [|c s IH]; [reflexivity|]. cbn [app lstrip_slash]. destruct (N.eqb c slash); auto. discriminate.
Qed.

Lemma lstrip_split s : exists n, s = repeat slash n ++ lstrip_slash s.
Proof.
  induction s as [|c s [n IH]]; [exists O; reflexivity|]. cbn [lstrip_slash]. destruct (N.eqb_spec c slash).
  - subst. exists (S n). cbn. now rewrite <- IH.
  - exists O. reflexivity.
Qed.

Lemma at_path_lstrip h s : at_path h (lstrip_slash s) = at_path h s.
Proof.
  induction s as [|c s IH]; [reflexivity|]. cbn [lstrip_slash]. destruct (N.eqb_spec c slash); auto.
  subst. now rewrite at_path_slash.
Qed.

Lemma last_lstrip s : lstrip_slash s <> [] -> last_opt (lstrip_slash s) = last_opt s.
Proof.
  intros H. destruct (lstrip_split s) as [n E]. rewrite E at 2. now rewrite last_opt_app2.
Qed.

Lemma fname_last k : fname k -> last_opt k <> Some slash.
Proof. intros (_ & _ & _ & D) H. apply D. now apply last_opt_In. Qed.

Lemma fname_ne k : fname k -> k <> [].
Proof. now intros (A & _). Qed.

Lemma resolve_snoc l k : fname k -> resolve (l ++ [k]) = resolve l ++ [k].
Proof.
  intros (A & B & C & D). unfold resolve. rewrite fold_left_app. cbn [fold_left].
  unfold resolve_step at 1. destruct (str_eqb_spec k []); [congruence|]. destruct (str_eqb_spec k (`".")); [congruence|].
  cbn [orb]. destruct (str_eqb_spec k (`"..")); [congruence|]. reflexivity.
Qed.

Lemma path_join_name s k : fname k ->
  path_join s k = match last_opt s with None => k | Some c => if N.eqb c slash then s ++ k else s ++ slash :: k end.
Proof. intros H. unfold path_join. rewrite plain_nostart by now apply fname_plain. reflexivity. Qed.

Lemma at_path_name h s k : fname k -> at_path h (path_join s k) = at_path h s ++ [k].
Proof.
  intros Hk. rewrite path_join_name by auto. assert (Hs : ~ In slash k) by apply Hk.
  destruct (last_opt s) as [c|] eqn:E.
  - destruct (N.eqb_spec c slash).
    + subst. apply last_opt_some in E as [r ->]. rewrite <- app_assoc. cbn [app]. unfold at_path.
      rewrite !split_on_app_gen. change (split_on slash []) with [@nil N]. rewrite (split_on_single slash k) by auto.
      rewrite !app_assoc. rewrite resolve_snoc, resolve_app_nil by auto. reflexivity.
    + unfold at_path. rewrite split_on_app_gen, (split_on_single slash k) by auto. rewrite app_assoc. now apply resolve_snoc.
  - assert (s = []) as -> by (destruct s as [|x s] using rev_ind; auto; rewrite last_opt_app in E; discriminate).
    unfold at_path. change (split_on slash []) with [@nil N]. rewrite resolve_app_nil.
    rewrite (split_on_single slash k) by auto. now apply resolve_snoc.
Qed.

(** A directory as fsw_walk can deal with it. *)
Lemma lstrip_join s k : walkable s -> fname k ->
  lstrip_slash (path_join s k) = match lstrip_slash s with [] => k | p => p ++ slash :: k end.
Proof.
  intros Hs Hk. unfold walkable in Hs. rewrite path_join_name by auto. pose proof (fname_lstrip k Hk) as Hlk.
  destruct (lstrip_slash s) as [|x p] eqn:E.
  - destruct (last_opt s) as [c|]; auto. destruct (N.eqb c slash).
    + now rewrite lstrip_app_nil.
    + rewrite lstrip_app_nil by auto. cbn [lstrip_slash]. exact Hlk.
  - rewrite <- E in Hs. rewrite last_lstrip in Hs by congruence.
    destruct (last_opt s) as [c|] eqn:El.
    + destruct (N.eqb_spec c slash); [congruence|]. rewrite lstrip_app by congruence. now rewrite E.
    + assert (s = []) as -> by (destruct s as [|y s] using rev_ind; auto; rewrite last_opt_app in El; discriminate). discriminate.
Qed.

Lemma walkable_join s k : walkable s -> fname k -> walkable (path_join s k).
Proof.
  intros Hs Hk. unfold walkable. rewrite lstrip_join by auto. destruct (lstrip_slash s) as [|x p].
  - now apply fname_last.
  - change ((x :: p) ++ slash :: k) with ((x :: p) ++ [slash] ++ k). rewrite app_assoc.
    rewrite last_opt_app2 by (now apply fname_ne). now apply fname_last.
Qed.

Lemma rstrip_noslash s : last_opt s <> Some slash -> rstrip_slash s = s.
Proof.
  intros H. unfold rstrip_slash. rewrite lstrip_noslash; [apply rev_involutive|].
  unfold last_opt in H. destruct (rev s) as [|c r]; [reflexivity|]. cbn. destruct (N.eqb_spec slash c); [congruence|reflexivity].
Qed.

Lemma relpath_split p s : lstrip_slash s <> [] ->
  fsw_relpath (lstrip_slash s ++ slash :: p) s = Ok p.
Proof.
  intros H. unfold fsw_relpath. rewrite (lstrip_noslash (lstrip_slash s ++ slash :: p)).
  2:{ pose proof (lstrip_start s) as G. destruct (lstrip_slash s); [congruence|]. exact G. }
  destruct (lstrip_slash s) as [|c q] eqn:E; [congruence|]. rewrite split_on_app_gen.
  rewrite app_length. destruct (Nat.ltb_spec (length (split_on slash (c :: q)) + length (split_on slash p)) (length (split_on slash (c :: q)))); [lia|].
  rewrite firstn_app, Nat.sub_diag, firstn_all, firstn_O, app_nil_r.
  destruct (list_eq_dec _ _ _); [|congruence].
  rewrite skipn_app, Nat.sub_diag, skipn_all, skipn_O. cbn [app]. now rewrite join_split.
Qed.

Lemma relpath_entry s k : walkable s -> fname k -> fsw_relpath (entry_name (lstrip_slash s) k) s = Ok k.
Proof.
  intros Hs Hk. unfold entry_name. rewrite rstrip_noslash by exact Hs.
  destruct (lstrip_slash s) as [|c q] eqn:E.
  - unfold fsw_relpath. rewrite E. now rewrite fname_lstrip.
  - rewrite <- E. apply relpath_split. congruence.
Qed.

Lemma relpath_self s : lstrip_slash s <> [] -> fsw_relpath s s = Ok [].
Proof.
  intros H. unfold fsw_relpath. destruct (lstrip_slash s) as [|c q] eqn:E; [congruence|].
  rewrite Nat.ltb_irrefl, firstn_all. destruct (list_eq_dec _ _ _); [|congruence]. now rewrite skipn_all.
Qed.

Lemma relpath_unfold x s : lstrip_slash s <> [] -> fsw_relpath x s =
  if Nat.ltb (List.length (split_on slash (lstrip_slash x))) (List.length (split_on slash (lstrip_slash s))) then Raise ValueError
  else if list_eq_dec (list_eq_dec N.eq_dec) (split_on slash (lstrip_slash s)) (firstn (List.length (split_on slash (lstrip_slash s))) (split_on slash (lstrip_slash x)))
       then Ok (join [slash] (skipn (List.length (split_on slash (lstrip_slash s))) (split_on slash (lstrip_slash x))))
       else Raise ValueError.
Proof. intros H. unfold fsw_relpath. now destruct (lstrip_slash s). Qed.

Lemma rstrip_split s : exists n, s = rstrip_slash s ++ repeat slash n.
Proof.
  unfold rstrip_slash. destruct (lstrip_split (rev s)) as [n E]. exists n.
  rewrite <- (rev_involutive s) at 1. rewrite E at 1. rewrite rev_app_distr. f_equal.
  clear. induction n as [|n IH]; [reflexivity|]. cbn. rewrite IH. clear. induction n as [|n IH]; [reflexivity|]. cbn. now f_equal.
Qed.

Lemma rstrip_last s : last_opt (rstrip_slash s) <> Some slash.
Proof.
  unfold rstrip_slash, last_opt. rewrite rev_involutive. pose proof (lstrip_start (rev s)) as G.
  destruct (lstrip_slash (rev s)) as [|c r]; [discriminate|]. intros E. injection E as ->. discriminate.
Qed.

(** fsw_walk cannot deal with a directory written with a slash at its end *)
Lemma relpath_entry_slash s k : ~ walkable s -> fname k -> fsw_relpath (entry_name (lstrip_slash s) k) s = Raise ValueError.
Proof.
  intros Hs Hk. unfold walkable in Hs. pose proof (lstrip_start s) as Hps.
  assert (Hp : last_opt (lstrip_slash s) = Some slash).
  { destruct (last_opt (lstrip_slash s)) as [c|]; [|exfalso; apply Hs; discriminate].
    destruct (N.eq_dec c slash); [congruence|]. exfalso. apply Hs. congruence. }
  assert (Hne : lstrip_slash s <> []) by (intros E; rewrite E in Hp; discriminate).
  rewrite relpath_unfold by auto. remember (lstrip_slash s) as p eqn:Hdef. clear Hdef Hs s.
  destruct (rstrip_split p) as [n En]. pose proof (rstrip_last p) as Hl.
  assert (Hx : rstrip_slash p <> []).
  { intros E. rewrite E in En. cbn in En. destruct n; cbn in En; [congruence|]. rewrite En in Hps. discriminate. }
  unfold entry_name. destruct (rstrip_slash p) as [|c q] eqn:Er; [congruence|].
  assert (Hst : startswith [slash] ((c :: q) ++ slash :: k) = false) by (rewrite En in Hps; exact Hps).
  rewrite (lstrip_noslash _ Hst), split_on_app_gen, (split_on_single slash k) by apply Hk.
  destruct n as [|n]; [cbn in En; rewrite app_nil_r in En; congruence|].
  rewrite app_length. cbn [List.length].
  destruct (Nat.ltb_spec (List.length (split_on slash (c :: q)) + 1) (List.length (split_on slash p))) as [|Hge]; [reflexivity|].
  destruct (list_eq_dec _ _ _) as [E|]; [|reflexivity]. exfalso.
  assert (Hlen : (List.length (split_on slash p) = List.length (split_on slash (c :: q)) + 1)%nat).
  { assert (List.length (split_on slash p) > List.length (split_on slash (c :: q)))%nat; [|lia].
    rewrite En. cbn [repeat]. rewrite split_on_app_gen, app_length.
    pose proof (split_on_nonnil slash (repeat slash n)). destruct (split_on slash (repeat slash n)); [congruence|]. cbn [List.length]. lia. }
  rewrite firstn_all2 in E by (rewrite app_length; cbn [List.length]; lia).
  apply last_opt_some in Hp as [r Hr]. rewrite Hr in E. rewrite split_on_app_gen in E.
  change (split_on slash []) with [@nil N] in E. apply app_inj_tail in E as [_ E]. symmetry in E. now apply (fname_ne k Hk).
Qed.

Lemma relpath_entry_ok s k x : fname k -> fsw_relpath (entry_name (lstrip_slash s) k) s = Ok x -> x = k /\ walkable s.
Proof.
  intros Hk H. destruct (walkable_dec s) as [Hs|Hs].
  - rewrite relpath_entry in H by auto. apply Ok_inv in H. auto.
  - rewrite relpath_entry_slash in H by auto. discriminate.
Qed.

(** * fsw_walk *)

Fixpoint walk_at (keep : keeper) (s : str) (n : node) : list yield :=
  match n with
  | Dir d => (s, (dirs_of d, others_of d)) ::
      (fix go (l : list (str * node)) : list yield :=
         match l with
         | [] => []
         | (k, m) :: r => (if is_dir m && keep s (dirs_of d) (others_of d) k then walk_at keep (path_join s k) m else []) ++ go r
         end) d
  | _ => []
  end.

Lemma walk_at_dir keep s d : walk_at keep s (Dir d) = (s, (dirs_of d, others_of d)) ::
  flat_map (fun kv => walk_at keep (path_join s (fst kv)) (snd kv))
    (filter (fun kv => is_dir (snd kv) && keep s (dirs_of d) (others_of d) (fst kv)) d).
Proof.
  cbn [walk_at]. f_equal. generalize (dirs_of d), (others_of d). intros a b.
  induction d as [|[k m] d IH]; [reflexivity|]. cbn [filter fst snd]. rewrite IH.
  destruct (is_dir m && keep s a b k); reflexivity.
Qed.

Lemma flat_map_of_map {A B C} (f : B -> list C) (g : A -> B) l : flat_map f (map g l) = flat_map (fun x => f (g x)) l.
Proof. induction l as [|x l IH]; [reflexivity|]. cbn [map flat_map]. now rewrite IH. Qed.

Definition total (l : list (str * node)) : nat := fold_right (fun kv a => (size (snd kv) + a)%nat) O l.

Lemma size_dir d : size (Dir d) = S (total d).
Proof. cbn [size]. f_equal. induction d as [|[k m] d IH]; [reflexivity|]. cbn [total fold_right snd]. f_equal. exact IH. Qed.

Lemma total_app a b : total (a ++ b) = (total a + total b)%nat.
Proof. induction a as [|x a IH]; [reflexivity|]. cbn [app total fold_right]. fold (total (a ++ b)). rewrite IH. fold (total a). lia. Qed.

Lemma total_filter f l : (total (filter f l) <= total l)%nat.
Proof. induction l as [|x l IH]; [auto|]. cbn [filter]. destruct (f x); cbn [total fold_right]; fold (total l); fold (total (filter f l)); lia. Qed.

Lemma total_map (f : str -> str) l : total (map (fun kv => (f (fst kv), snd kv)) l) = total l.
Proof. induction l as [|x l IH]; [auto|]. cbn [map total fold_right snd]. f_equal. exact IH. Qed.

Lemma size_get n p m : get n p = Ok m -> (size m <= size n)%nat.
Proof.
  revert n; induction p as [|c p IH]; intros n H; [cbn in H; apply Ok_inv in H; subst; auto|].
  cbn [get] in H. destruct n as [b|d|]; try discriminate. destruct (dget c d) as [x|] eqn:E; [|discriminate].
  apply IH in H. rewrite size_dir. apply dget_In in E. clear IH. induction d as [|y d IHd]; [destruct E|].
  cbn [total fold_right]. fold (total d). destruct E as [->|E]; [cbn [snd]; lia|]. specialize (IHd E). lia.
Qed.

Lemma fname_not_special k : fname k -> str_in k [`".."; `"."; []] = false.
Proof. intros (A & B & C & _). apply str_in_false. intros [E|[E|[E|[]]]]; congruence. Qed.

Lemma walk_entries_cons s n t r x : walk_entries s ((n, t) :: r) = Ok x ->
  exists name df, fsw_relpath n s = Ok name /\ walk_entries s r = Ok df /\
    x = (if str_in name [`".."; `"."; []] then df
         else match t with TDir => (name :: fst df, snd df) | _ => (fst df, name :: snd df) end).
Proof.
  intros H. cbn [walk_entries] in H. destruct (fsw_relpath n s) as [name|]; [|discriminate]. cbn [ebind] in H.
  destruct (walk_entries s r) as [df|]; [|discriminate]. cbn [ebind] in H. apply Ok_inv in H. eauto.
Qed.

Lemma walk_entries_dir s d : walkable s -> Forall fname (keys d) ->
  walk_entries s (map (fun kv => (entry_name (lstrip_slash s) (fst kv), type_of (snd kv))) d) = Ok (dirs_of d, others_of d).
Proof.
  intros Hs. induction d as [|[k m] d IH]; intros Hd; [reflexivity|]. inversion Hd; subst.
  cbn [map fst snd walk_entries]. rewrite relpath_entry by auto. cbn [ebind]. rewrite IH by auto. cbn [ebind].
  rewrite fname_not_special by auto. f_equal. unfold dirs_of, others_of. cbn [filter snd]. destruct m; reflexivity.
Qed.

Lemma walk_entries_inv s d x : Forall fname (keys d) ->
  walk_entries s (map (fun kv => (entry_name (lstrip_slash s) (fst kv), type_of (snd kv))) d) = Ok x ->
  x = (dirs_of d, others_of d) /\ (d = [] \/ walkable s).
Proof.
  revert x; induction d as [|[k m] d IH]; intros x Hd H; [apply Ok_inv in H; auto|]. inversion Hd as [|? ? Hk Hd']; subst.
  cbn [map fst snd] in H. apply walk_entries_cons in H as (name & df & H1 & H2 & ->).
  apply relpath_entry_ok in H1 as [-> Hs]; auto. apply IH in H2 as [-> _]; auto. split; auto.
  rewrite fname_not_special by auto. unfold dirs_of, others_of. cbn [filter snd]. destruct m; reflexivity.
Qed.

(** the directories kept, with what is in them *)
Definition kept (keep : keeper) (s : str) (d : list (str * node)) : list (str * node) :=
  filter (fun kv => is_dir (snd kv) && keep s (dirs_of d) (others_of d) (fst kv)) d.
Lemma kept_names keep s d : filter (keep s (dirs_of d) (others_of d)) (dirs_of d) = map fst (kept keep s d).
Proof.
  unfold kept. generalize (keep s (dirs_of d) (others_of d)). intros f. unfold dirs_of.
  induction d as [|[k m] d IH]; [reflexivity|]. cbn [filter snd fst]. destruct (is_dir m); cbn [map filter fst andb]; [|exact IH].
  destruct (f k); cbn [map fst]; now rewrite IH.
Qed.

Lemma fs_ls_dir w h s d : get w (at_path h s) = Ok (Dir d) ->
  fs_ls w h (lstrip_slash s) = Ok (map (fun kv => (entry_name (lstrip_slash s) (fst kv), type_of (snd kv))) d).
Proof. intros H. unfold fs_ls. now rewrite at_path_lstrip, H. Qed.

Lemma keys_fnames w p d : tree w -> get w p = Ok (Dir d) -> Forall fname (keys d).
Proof. intros Hw H. now apply (dir_names w p d). Qed.

Lemma get_child w p d k m : tree w -> get w p = Ok (Dir d) -> In (k, m) d -> get w (p ++ [k]) = Ok m.
Proof.
  intros Hw H Hin. rewrite get_app, H. cbn [get]. destruct (dir_names w p d Hw H) as [Hn _].
  now rewrite (In_dget _ _ _ Hn Hin).
Qed.

Lemma walk_loop_ok keep w h fuel : tree w -> forall stack,
  Forall (fun sn => walkable (fst sn) /\ get w (at_path h (fst sn)) = Ok (snd sn) /\ is_dir (snd sn) = true) stack ->
  (total stack < fuel)%nat ->
  walk_loop keep fuel w h (map fst stack) = (flat_map (fun sn => walk_at keep (fst sn) (snd sn)) stack, Ok tt).
Proof.
  intros Hw. induction fuel as [|fuel IH]; intros stack Hst Hlt; [lia|].
  destruct stack as [|[s n] stack]; [reflexivity|]. inversion Hst as [|? ? (Hs & Hg & Hd) Hst']; subst.
  cbn [fst snd] in *. destruct n as [b|d|]; try discriminate.
  cbn [map walk_loop fst]. rewrite (fs_ls_dir _ _ _ _ Hg). cbn [ebind].
  pose proof (keys_fnames _ _ _ Hw Hg) as Hk. rewrite walk_entries_dir by auto. rewrite kept_names, map_map.
  assert (E : map (fun x => path_join s (fst x)) (kept keep s d) ++ map fst stack =
    map fst (map (fun kv => (path_join s (fst kv), snd kv)) (kept keep s d) ++ stack)) by (rewrite map_app, map_map; reflexivity).
  rewrite E, IH.
  - rewrite flat_map_app. cbn [flat_map fst snd]. rewrite walk_at_dir. fold (kept keep s d). cbn [app].
    rewrite flat_map_of_map. reflexivity.
  - apply Forall_app. split; auto. apply Forall_forall. intros [s' n'] Hin. apply in_map_iff in Hin as ([k m] & E' & Hin).
    cbn [fst snd] in E'. injection E' as <- <-. apply filter_In in Hin as [Hin Hf]. cbn [fst snd] in *.
    apply andb_true_iff in Hf as [Hf _]. assert (Hfk : fname k) by (rewrite Forall_forall in Hk; apply Hk, (in_map fst _ _ Hin)).
    repeat split; auto; [now apply walkable_join|]. rewrite at_path_name by auto. eapply get_child; eauto.
  - rewrite total_app, total_map. cbn [total fold_right snd] in Hlt. fold (total stack) in Hlt. rewrite size_dir in Hlt.
    pose proof (total_filter (fun kv => is_dir (snd kv) && keep s (dirs_of d) (others_of d) (fst kv)) d). unfold kept. lia.
Qed.

Lemma walkable_slash s : walkable (slash :: s) <-> walkable s.
Proof. reflexivity. Qed.

Lemma fsw_walk_ok keep w h dir n : tree w -> walkable dir -> get w (at_path h dir) = Ok n -> is_dir n = true ->
  fsw_walk keep w h dir = (walk_at keep (if startswith [slash] dir then dir else slash :: dir) n, Ok tt).
Proof.
  intros Hw Hd Hg Hn. unfold fsw_walk.
  set (s := if startswith [slash] dir then dir else slash :: dir).
  change [s] with (map fst [(s, n)]). rewrite walk_loop_ok; auto.
  - cbn [flat_map fst snd]. now rewrite app_nil_r.
  - constructor; auto. cbn [fst snd]. unfold s. destruct (startswith [slash] dir); repeat split; auto.
    now rewrite at_path_slash.
  - cbn [total fold_right snd]. apply size_get in Hg. lia.
Qed.

(** ** It always ends *)

Lemma get_fuel w p : get w p <> Raise OutOfFuel.
Proof.
  revert w; induction p as [|c p IH]; intros w; [discriminate|]. cbn [get]. destruct w; try discriminate.
  destruct (dget c d); [apply IH|discriminate].
Qed.
Lemma relpath_fuel a b : fsw_relpath a b <> Raise OutOfFuel.
Proof.
  unfold fsw_relpath. destruct (lstrip_slash b); [discriminate|]. destruct (Nat.ltb _ _); [discriminate|].
  destruct (list_eq_dec _ _ _); discriminate.
Qed.
Lemma walk_entries_fuel s l : walk_entries s l <> Raise OutOfFuel.
Proof.
  induction l as [|[n t] l IH]; [discriminate|]. cbn [walk_entries]. pose proof (relpath_fuel n s).
  destruct (fsw_relpath n s); cbn [ebind]; [|congruence]. destruct (walk_entries s l); cbn [ebind]; [discriminate|congruence].
Qed.

Lemma walk_loop_ends keep w h fuel : tree w -> forall stack : list (str * node),
  Forall (fun sn => match get w (at_path h (fst sn)) with Ok n => n = snd sn | _ => True end) stack ->
  (total stack < fuel)%nat ->
  snd (walk_loop keep fuel w h (map fst stack)) <> Raise OutOfFuel.
Proof.
  intros Hw. induction fuel as [|fuel IH]; intros stack Hst Hlt; [lia|].
  destruct stack as [|[s n] stack]; [discriminate|]. inversion Hst as [|? ? Hg Hst']; subst.
  cbn [fst snd] in Hg. cbn [map walk_loop fst]. unfold fs_ls. rewrite at_path_lstrip.
  pose proof (get_fuel w (at_path h s)) as Hgf. destruct (get w (at_path h s)) as [n'|] eqn:Eg; cbn [ebind]; [subst n'|cbn [snd]; congruence].
  assert (Hsz : (total stack + size n < S fuel)%nat) by (cbn [total fold_right snd] in Hlt; fold (total stack) in Hlt; lia).
  assert (Hleaf : is_dir n = false -> forall x, walk_entries s [(rstrip_slash (lstrip_slash s), type_of n)] = Ok x -> fst x = []).
  { intros Hn x Hx. apply walk_entries_cons in Hx as (name & df & _ & H2 & ->). apply Ok_inv in H2. subst df.
    destruct (str_in name _); [reflexivity|]. destruct n; try discriminate; reflexivity. }
  destruct n as [b|d|].
  - specialize (Hleaf eq_refl). cbn [ebind].
    pose proof (walk_entries_fuel s [(rstrip_slash (lstrip_slash s), type_of (File b))]) as Hwf.
    destruct (walk_entries s _) as [[dirs files]|]; [|cbn [snd]; congruence]. specialize (Hleaf _ eq_refl). cbn [fst] in Hleaf. subst dirs.
    cbn [filter map app]. assert (IH' := IH stack Hst'). destruct (walk_loop keep fuel w h (map fst stack)) as [ys r]. cbn [snd] in *.
    apply IH'. cbn [size] in Hsz. lia.
  - clear Hleaf. cbn [ebind]. pose proof (keys_fnames _ _ _ Hw Eg) as Hk.
    pose proof (walk_entries_fuel s (map (fun kv => (entry_name (lstrip_slash s) (fst kv), type_of (snd kv))) d)) as Hwf.
    destruct (walk_entries s _) as [x|] eqn:Ew; [|cbn [snd]; congruence]. apply walk_entries_inv in Ew as [-> Hs]; auto.
    rewrite kept_names, map_map.
    assert (E : map (fun x => path_join s (fst x)) (kept keep s d) ++ map fst stack =
      map fst (map (fun kv => (path_join s (fst kv), snd kv)) (kept keep s d) ++ stack)) by (rewrite map_app, map_map; reflexivity).
    rewrite E. set (st := map _ (kept keep s d) ++ stack). assert (IH' := IH st).
    destruct (walk_loop keep fuel w h (map fst st)) as [ys r]. cbn [snd] in *. apply IH'.
    + unfold st. apply Forall_app. split; auto. apply Forall_forall. intros [s' n'] Hin. apply in_map_iff in Hin as ([k m] & E' & Hin).
      cbn [fst snd] in E'. injection E' as <- <-. apply filter_In in Hin as [Hin _]. cbn [fst snd] in *.
      assert (Hfk : fname k) by (rewrite Forall_forall in Hk; apply Hk, (in_map fst _ _ Hin)).
      rewrite at_path_name by auto. now rewrite (get_child _ _ _ _ _ Hw Eg Hin).
    + unfold st. rewrite total_app, total_map. rewrite size_dir in Hsz.
      pose proof (total_filter (fun kv => is_dir (snd kv) && keep s (dirs_of d) (others_of d) (fst kv)) d). unfold kept. lia.
  - specialize (Hleaf eq_refl). cbn [ebind].
    pose proof (walk_entries_fuel s [(rstrip_slash (lstrip_slash s), type_of Other)]) as Hwf.
    destruct (walk_entries s _) as [[dirs files]|]; [|cbn [snd]; congruence]. specialize (Hleaf _ eq_refl). cbn [fst] in Hleaf. subst dirs.
    cbn [filter map app]. assert (IH' := IH stack Hst'). destruct (walk_loop keep fuel w h (map fst stack)) as [ys r]. cbn [snd] in *.
    apply IH'. cbn [size] in Hsz. lia.
Qed.

Lemma fsw_walk_ends keep w h dir : tree w -> snd (fsw_walk keep w h dir) <> Raise OutOfFuel.
Proof.
  intros Hw. unfold fsw_walk. set (s := if startswith [slash] dir then dir else slash :: dir).
  set (n := match get w (at_path h s) with Ok n => n | _ => Other end).
  change [s] with (map fst [(s, n)]). apply walk_loop_ends; auto.
  - constructor; auto. cbn [fst snd]. unfold n. now destruct (get w (at_path h s)).
  - cbn [total fold_right snd]. unfold n. destruct (get w (at_path h s)) as [m|] eqn:E.
    + apply size_get in E. lia.
    + cbn [size]. destruct w; cbn [size]; lia.
Qed.

(** * fsw_walk_files *)

(** the places of all files under a directory *)
Fixpoint leaves (n : node) : list place :=
  match n with
  | Dir d => map (fun k => [k]) (others_of d) ++
      (fix go (l : list (str * node)) : list place :=
         match l with [] => [] | (k, m) :: r => map (cons k) (leaves m) ++ go r end) d
  | _ => []
  end.
Lemma leaves_dir d : leaves (Dir d) = map (fun k => [k]) (others_of d) ++ flat_map (fun kv => map (cons (fst kv)) (leaves (snd kv))) d.
Proof. cbn [leaves]. f_equal. induction d as [|[k m] d IH]; [reflexivity|]. cbn [flat_map fst snd]. now rewrite IH. Qed.

(** [s] is the directory [rel] below [dir] *)
Definition rel_dir (dir s : str) (rel : place) : Prop :=
  walkable s /\ Forall fname rel /\
  lstrip_slash s = match rel with
                   | [] => lstrip_slash dir
                   | _ => match lstrip_slash dir with [] => join [slash] rel | p => p ++ slash :: join [slash] rel end
                   end.

Lemma rel_dir_join dir s rel k : rel_dir dir s rel -> fname k -> rel_dir dir (path_join s k) (rel ++ [k]).
Proof.
  intros (A & B & C) Hk. repeat split.
  - now apply walkable_join.
  - apply Forall_app; auto.
  - rewrite lstrip_join, C by auto. destruct rel as [|r0 rel].
    + cbn [app join]. destruct (lstrip_slash dir); reflexivity.
    + assert (Hj : join [slash] ((r0 :: rel) ++ [k]) = join [slash] (r0 :: rel) ++ slash :: k) by (rewrite join_snoc by discriminate; reflexivity).
      assert (Hne : join [slash] (r0 :: rel) <> []) by (apply join_last; [discriminate|now apply fnames_plain]).
      cbn [app] in Hj |- *. rewrite Hj. destruct (lstrip_slash dir) as [|c p].
      * destruct (join [slash] (r0 :: rel)); [congruence|reflexivity].
      * cbn [app]. rewrite <- app_assoc. reflexivity.
Qed.

Lemma rel_dir_path dir s rel : rel_dir dir s rel -> fsw_relpath s dir = Ok (join [slash] rel).
Proof.
  intros (A & B & C). destruct (lstrip_slash dir) as [|c p] eqn:E.
  - unfold fsw_relpath. rewrite E, C. destruct rel; reflexivity.
  - assert (Hx : fsw_relpath s dir = fsw_relpath (lstrip_slash s) dir).
    { unfold fsw_relpath. now rewrite (lstrip_noslash _ (lstrip_start s)). }
    rewrite Hx, C. destruct rel as [|r0 rel].
    + rewrite <- E. cbn [join]. change (Ok []) with (@Ok str []). transitivity (fsw_relpath dir dir); [|apply relpath_self; congruence].
      unfold fsw_relpath. now rewrite (lstrip_noslash _ (lstrip_start dir)).
    + rewrite <- E. apply relpath_split. congruence.
Qed.

Lemma join_not_dot rel : Forall fname rel -> str_eqb (join [slash] rel) (`".") = false.
Proof.
  intros H. destruct (str_eqb_spec (join [slash] rel) (`".")) as [E|]; auto. exfalso.
  destruct rel as [|a [|b rel]]; [discriminate| |].
  - inversion H as [|? ? Ha]; subst. destruct Ha as (_ & Hd & _). apply Hd. exact E.
  - rewrite join_cons in E by discriminate. inversion H as [|? ? Ha]; subst. destruct Ha as (Hn & _).
    destruct a as [|x [|y a]]; [congruence|discriminate|discriminate].
Qed.

Lemma emap_app {A B} (f : A -> exc B) a b : emap f (a ++ b) = let* x := emap f a in let* y := emap f b in Ok (x ++ y).
Proof.
  induction a as [|x a IH]; cbn [app emap].
  - cbn [ebind]. destruct (emap f b); reflexivity.
  - destruct (f x); [|reflexivity]. cbn [ebind]. rewrite IH. destruct (emap f a); [|reflexivity]. cbn [ebind].
    destruct (emap f b); reflexivity.
Qed.

Lemma others_fnames d : Forall fname (keys d) -> Forall fname (others_of d).
Proof.
  intros H. apply Forall_forall. intros k Hk. rewrite Forall_forall in H. apply H.
  unfold others_of in Hk. apply in_map_iff in Hk as (kv & <- & Hin). apply filter_In in Hin as [Hin _]. now apply in_map.
Qed.

Lemma walk_paths dir n : tree n -> forall s rel, rel_dir dir s rel -> is_dir n = true ->
  exists ll, emap (walk_file_paths dir) (walk_at keep_all s n) = Ok ll /\
    concat ll = map (fun r => join [slash] (rel ++ r)) (leaves n).
Proof.
  induction n as [b| |d IH] using node_ind'; intros Hn s rel Hr Hd; try discriminate.
  pose proof (proj1 (tree_dir d) Hn) as [_ Hs].
  assert (Hk : Forall fname (keys d)) by (apply Forall_forall; intros k Hk; apply in_map_iff in Hk as ([k' m] & <- & Hin); now apply (Hs k' m)).
  rewrite walk_at_dir. cbn [emap]. unfold walk_file_paths at 1. rewrite (rel_dir_path _ _ _ Hr). cbn [ebind].
  rewrite join_not_dot by apply Hr.
  assert (G : forall l, Forall (fun kv => tree (snd kv) -> forall s rel, rel_dir dir s rel -> is_dir (snd kv) = true ->
      exists ll, emap (walk_file_paths dir) (walk_at keep_all s (snd kv)) = Ok ll /\
        concat ll = map (fun r => join [slash] (rel ++ r)) (leaves (snd kv))) l ->
      (forall k m, In (k, m) l -> fname k /\ tree m) ->
      exists ll, emap (walk_file_paths dir) (flat_map (fun kv => walk_at keep_all (path_join s (fst kv)) (snd kv))
         (filter (fun kv => is_dir (snd kv) && keep_all s (dirs_of d) (others_of d) (fst kv)) l)) = Ok ll /\
       concat ll = map (fun r => join [slash] (rel ++ r)) (flat_map (fun kv => map (cons (fst kv)) (leaves (snd kv))) l)).
  { clear IH Hs Hk Hn. induction l as [|[k m] l IHl]; intros HF Hl; [exists []; auto|].
    inversion HF as [|? ? HF1 HF2]; subst. destruct (IHl HF2) as (ll & E1 & E2); [intros; apply Hl; right; auto|].
    destruct (Hl k m (or_introl eq_refl)) as [Hfk Hm]. cbn [filter snd fst]. change (keep_all s (dirs_of d) (others_of d) k) with true. rewrite andb_true_r.
    cbn [flat_map fst snd]. rewrite map_app. destruct (is_dir m) eqn:Em.
    - cbn [flat_map fst snd]. rewrite emap_app. destruct (HF1 Hm (path_join s k) (rel ++ [k])) as (ll1 & F1 & F2); [now apply rel_dir_join|auto|].
      cbn [fst snd] in F1, F2. rewrite F1. cbn [ebind]. rewrite E1. cbn [ebind]. exists (ll1 ++ ll). split; auto.
      rewrite concat_app, F2, E2, map_map. f_equal. apply map_ext. intros r. now rewrite <- app_assoc.
    - rewrite E1. exists ll. split; auto. rewrite E2. destruct m; try discriminate; reflexivity. }
  destruct (G d IH) as (ll & E1 & E2); [exact Hs|]. rewrite E1. cbn [ebind].
  eexists. split; [reflexivity|]. rewrite leaves_dir, map_app. cbn [concat]. rewrite E2. f_equal.
  rewrite map_map. apply map_ext_in. intros k Hin. apply path_join_join; [apply fnames_plain, Hr|].
  apply fname_plain. pose proof (others_fnames d Hk) as Ho. rewrite Forall_forall in Ho. auto.
Qed.

Theorem fsw_walk_files_ok w h dir n : tree w -> walkable dir -> get w (at_path h dir) = Ok n -> is_dir n = true ->
  fsw_walk_files w h dir = Ok (map (join [slash]) (leaves n)).
Proof.
  intros Hw Hd Hg Hn. unfold fsw_walk_files. rewrite (fsw_walk_ok keep_all w h dir n) by auto.
  destruct (walk_paths dir n (tree_get _ _ _ Hw Hg) (if startswith [slash] dir then dir else slash :: dir) []) as (ll & E1 & E2); auto.
  { unfold rel_dir. destruct (startswith [slash] dir); repeat split; auto. }
  rewrite E1. cbn [ebind]. rewrite E2. reflexivity.
Qed.

(** the leaves are the files *)
Lemma is_dir_entry m : is_dir m = true <-> entry_of m = EDir.
Proof. destruct m; cbn; split; congruence. Qed.

Lemma leaves_spec n p : tree n -> is_dir n = true -> (In p (leaves n) <-> leaf n p).
Proof.
  revert p; induction n as [b| |d IH] using node_ind'; intros p Hn Hd; try discriminate.
  pose proof (proj1 (tree_dir d) Hn) as [Hk Hs]. rewrite leaves_dir, in_app_iff, in_map_iff, in_flat_map. split.
  - intros [(k & <- & Hin)|([k m] & Hin & Hp)].
    + unfold others_of in Hin. apply in_map_iff in Hin as ([k' m] & E & Hin). cbn in E; subst k'.
      apply filter_In in Hin as [Hin Hm]. cbn in Hm. unfold leaf. rewrite look_cons.
      rewrite (In_dget _ _ _ Hk Hin), look_nil. destruct m; try discriminate; split; discriminate.
    + cbn [fst snd] in Hp. apply in_map_iff in Hp as (r & <- & Hr). rewrite Forall_forall in IH.
      destruct (Hs _ _ Hin) as [_ Hm]. destruct (is_dir m) eqn:Em; [|destruct m; try discriminate; destruct Hr].
      apply (IH _ Hin r Hm Em) in Hr. unfold leaf in *. now rewrite !look_cons, !(In_dget _ _ _ Hk Hin).
  - intros Hl. destruct p as [|k p]; [destruct Hl as [_ Hl]; now destruct Hl|].
    unfold leaf in Hl. rewrite look_cons in Hl. destruct (dget k d) as [m|] eqn:E; [|destruct Hl as [Hl _]; now destruct Hl].
    apply dget_In in E. destruct p as [|k' p].
    + left. exists k. split; auto. unfold others_of. apply in_map_iff. exists (k, m). split; auto. apply filter_In. split; auto.
      cbn. rewrite look_nil in Hl. destruct m; auto. destruct Hl as [_ Hl]. now destruct Hl.
    + right. exists (k, m). split; auto. cbn [fst snd]. apply in_map. rewrite Forall_forall in IH.
      destruct (Hs _ _ E) as [_ Hm]. apply (IH _ E); auto.
      destruct Hl as [Hl _]. rewrite look_cons in Hl. destruct m; auto; congruence.
Qed.

Lemma NoDup_app_iff {A} (a b : list A) : NoDup (a ++ b) <-> NoDup a /\ NoDup b /\ (forall x, In x a -> ~ In x b).
Proof.
  induction a as [|x a IH]; cbn [app].
  - split; [intros H; repeat split; auto; constructor|tauto].
  - split.
    + intros H. inversion H as [|? ? Hx Hr]; subst. apply IH in Hr as (A1 & A2 & A3). rewrite in_app_iff in Hx.
      repeat split; auto; [constructor; tauto|]. intros y [<-|Hy]; auto.
    + intros (A1 & A2 & A3). inversion A1 as [|? ? Hx Hr]; subst. constructor.
      * rewrite in_app_iff. intros [Hy|Hy]; auto. now apply (A3 x (or_introl eq_refl)).
      * apply IH. repeat split; auto. intros y Hy. apply A3. now right.
Qed.

Lemma leaves_nodup n : tree n -> NoDup (leaves n).
Proof.
  induction n as [b| |d IH] using node_ind'; intros Hn; [constructor|constructor|].
  pose proof (proj1 (tree_dir d) Hn) as [Hk Hs]. rewrite leaves_dir.
  assert (Hne : forall m, ~ In [] (leaves m)).
  { intros m. destruct m as [b|d'|]; [intros []| |intros []]. rewrite leaves_dir, in_app_iff, in_map_iff, in_flat_map.
    intros [(k & E & _)|(kv & _ & E)]; [discriminate|]. apply in_map_iff in E as (r & E & _). discriminate. }
  assert (G : forall l, NoDup (keys l) -> Forall (fun kv => tree (snd kv) -> NoDup (leaves (snd kv))) l -> (forall k m, In (k, m) l -> tree m) ->
    NoDup (map (fun k => [k]) (others_of l) ++ flat_map (fun kv => map (cons (fst kv)) (leaves (snd kv))) l)).
  { clear -Hne. intros l Hl HF Ht. apply NoDup_app_iff. repeat split.
    - apply FinFun.Injective_map_NoDup; [intros a b E; congruence|]. unfold others_of.
      clear -Hl. induction l as [|[k m] l IH]; [constructor|]. inversion Hl; subst. cbn [filter snd]. destruct (negb (is_dir m)); auto.
      cbn [map fst]. constructor; auto. intros Hin. apply in_map_iff in Hin as (kv & E & Hin). apply filter_In in Hin as [Hin _].
      apply H1. rewrite <- E. now apply in_map.
    - induction l as [|[k m] l IH]; [constructor|]. inversion Hl; subst. inversion HF; subst. cbn [flat_map fst snd].
      apply NoDup_app_iff. repeat split.
      + apply FinFun.Injective_map_NoDup; [intros a b E; congruence|]. apply H3. apply (Ht k m). left; auto.
      + apply IH; auto. intros; eapply Ht; right; eauto.
      + intros p Hp Hp'. apply in_map_iff in Hp as (r & <- & _). apply in_flat_map in Hp' as ([k' m'] & Hin & Hp').
        apply in_map_iff in Hp' as (r' & E & _). cbn in E. injection E as -> _. apply H1. apply (in_map fst _ _ Hin).
    - intros p Hp Hp'. apply in_map_iff in Hp as (k & <- & _). apply in_flat_map in Hp' as (kv & _ & Hp').
      apply in_map_iff in Hp' as (r & E & Hr). injection E as _ ->. now apply (Hne _ Hr). }
  apply G; auto. intros k m Hin. now apply (Hs k m).
Qed.

Lemma leaf_get n p : leaf n p <-> exists m, get n p = Ok m /\ is_dir m = false.
Proof.
  unfold leaf, look. split.
  - intros [A B]. destruct (get n p) as [m|]; [|congruence]. exists m. split; auto. destruct m; auto. now destruct B.
  - intros (m & -> & H). destruct m; try discriminate; split; discriminate.
Qed.

Lemma leaf_fnames n p : tree n -> leaf n p -> Forall fname p.
Proof. intros Hn [H _]. eapply look_fnames; eauto. Qed.

Lemma join_fnames_inj p q : Forall fname p -> Forall fname q -> join [slash] p = join [slash] q -> p = q.
Proof.
  intros Hp Hq E. destruct p as [|a p], q as [|b q]; auto.
  - exfalso. assert (join [slash] (b :: q) <> []) by (apply join_last; [discriminate|now apply fnames_plain]). now rewrite <- E in H.
  - exfalso. assert (join [slash] (a :: p) <> []) by (apply join_last; [discriminate|now apply fnames_plain]). now rewrite E in H.
  - rewrite <- (split_fnames (a :: p)), <- (split_fnames (b :: q)), E by (auto; discriminate). reflexivity.
Qed.

(** * fsw_listdir_names *)

Lemma fsw_listdir_names_ok w h dir d : tree w -> walkable dir -> get w (at_path h dir) = Ok (Dir d) ->
  fsw_listdir_names w h dir = Ok (keys d).
Proof.
  intros Hw Hd Hg. unfold fsw_listdir_names. rewrite (fs_ls_dir _ _ _ _ Hg). cbn [ebind].
  pose proof (keys_fnames _ _ _ Hw Hg) as Hk.
  assert (E : emap (fun e : str * ftype => fsw_relpath (fst e) (lstrip_slash dir))
     (map (fun kv => (entry_name (lstrip_slash dir) (fst kv), type_of (snd kv))) d) = Ok (keys d)).
  { clear Hg. induction d as [|[k m] d IH]; [reflexivity|]. inversion Hk; subst. cbn [map emap fst snd].
    assert (Hx : forall x, fsw_relpath x (lstrip_slash dir) = fsw_relpath x dir)
      by (intros x; unfold fsw_relpath; now rewrite (lstrip_noslash _ (lstrip_start dir))).
    rewrite Hx, relpath_entry by auto. cbn [ebind]. rewrite IH by auto. reflexivity. }
  rewrite E. cbn [ebind]. f_equal. clear -Hk. unfold keys in *. induction d as [|[k m] d IH]; [reflexivity|].
  inversion Hk; subst. cbn [map filter fst]. destruct (str_eqb_spec k []); [exfalso; now apply (fname_ne k)|]. cbn [negb]. f_equal. auto.
Qed.

(** * What fsw_walk yields *)

Lemma walk_at_spec keep n : tree n -> forall s y, In y (walk_at keep s n) <->
  exists rel d, reached keep s n rel /\ get n rel = Ok (Dir d) /\ y = (fold_left path_join rel s, (dirs_of d, others_of d)).
Proof.
  induction n as [b| |d IH] using node_ind'; intros Hn s y.
  - cbn [walk_at]. split; [intros []|]. intros (rel & d & Hr & _). destruct rel; destruct Hr.
  - cbn [walk_at]. split; [intros []|]. intros (rel & d & Hr & _). destruct rel; destruct Hr.
  - pose proof (proj1 (tree_dir d) Hn) as [Hk Hs]. rewrite walk_at_dir. cbn [In]. rewrite in_flat_map. rewrite Forall_forall in IH. split.
    + intros [<-|([k m] & Hin & Hy)].
      * exists [], d. repeat split; auto.
      * apply filter_In in Hin as [Hin Hf]. cbn [fst snd] in *. apply andb_true_iff in Hf as [_ Hf].
        destruct (Hs _ _ Hin) as [_ Hm]. apply (IH _ Hin Hm) in Hy as (rel & d' & R & G & ->).
        exists (k :: rel), d'. cbn [reached get fold_left]. rewrite (In_dget _ _ _ Hk Hin). repeat split; auto.
    + intros (rel & d' & R & G & ->). destruct rel as [|k rel].
      * left. cbn in G. apply Ok_inv in G. injection G as ->. reflexivity.
      * right. cbn [reached get fold_left] in *. destruct R as [Hf R]. destruct (dget k d) as [m|] eqn:E; [|discriminate].
        apply dget_In in E. exists (k, m). split.
        -- apply filter_In. split; auto. cbn [fst snd]. rewrite Hf. destruct m; auto; destruct rel; destruct R.
        -- cbn [fst snd]. destruct (Hs _ _ E) as [_ Hm]. apply (IH _ E Hm). eauto.
Qed.

Lemma reached_fnames keep n : tree n -> forall rel s, reached keep s n rel -> Forall fname rel.
Proof.
  intros Hn rel; revert n Hn; induction rel as [|k rel IH]; intros n Hn s H; [constructor|].
  destruct n as [b|d|]; cbn [reached] in H; try contradiction. destruct H as [_ H]. destruct (dget k d) as [m|] eqn:E; [|contradiction].
  apply tree_dir in Hn as [_ Hn]. apply dget_In in E. destruct (Hn _ _ E). constructor; eauto.
Qed.

Lemma at_path_fold h rel : Forall fname rel -> forall s, at_path h (fold_left path_join rel s) = at_path h s ++ rel.
Proof.
  induction rel as [|k rel IH]; intros H s; [now rewrite app_nil_r|]. inversion H; subst. cbn [fold_left].
  rewrite IH, at_path_name by auto. now rewrite <- app_assoc.
Qed.

Lemma fold_join_inj rel rel' s : Forall fname rel -> Forall fname rel' ->
  fold_left path_join rel s = fold_left path_join rel' s -> rel = rel'.
Proof.
  intros H H' E. apply (f_equal (at_path [])) in E. rewrite !at_path_fold in E by auto. now apply app_inv_head in E.
Qed.

Lemma walk_at_nodup keep n : tree n -> forall s, NoDup (map fst (walk_at keep s n)).
Proof.
  induction n as [b| |d IH] using node_ind'; intros Hn s; [constructor|constructor|].
  pose proof (proj1 (tree_dir d) Hn) as [Hk Hs]. rewrite walk_at_dir. cbn [map fst].
  set (F := filter _ d).
  assert (HF : forall k m, In (k, m) F -> fname k /\ tree m /\ (forall s, NoDup (map fst (walk_at keep s m)))).
  { intros k m Hin. apply filter_In in Hin as [Hin _]. destruct (Hs _ _ Hin). rewrite Forall_forall in IH. repeat split; auto; try apply H. now apply (IH _ Hin). }
  assert (HFk : NoDup (keys F)).
  { unfold F. clear -Hk. generalize (fun kv : str * node => is_dir (snd kv) && keep s (dirs_of d) (others_of d) (fst kv)). intros f.
    induction d as [|[k m] d IHd]; [constructor|]. inversion Hk; subst. cbn [filter]. destruct (f (k, m)); auto.
    cbn [keys map fst]. constructor; auto. intros Hin. apply H1. apply in_map_iff in Hin as (kv & E & Hin). apply filter_In in Hin as [Hin _].
    rewrite <- E. now apply in_map. }
  clearbody F. clear IH Hn Hk Hs.
  assert (Hpl : forall k m y, In (k, m) F -> In y (map fst (walk_at keep (path_join s k) m)) -> exists rel, at_path [] y = at_path [] s ++ k :: rel).
  { intros k m y Hin Hy. destruct (HF _ _ Hin) as (Hfk & Hm & _). apply in_map_iff in Hy as (y' & <- & Hy).
    apply (walk_at_spec keep m Hm) in Hy as (rel & d' & R & _ & ->). cbn [fst]. exists rel.
    rewrite at_path_fold by (eapply reached_fnames; eauto). rewrite at_path_name by auto. now rewrite <- app_assoc. }
  constructor.
  - intros Hin. apply in_map_iff in Hin as (y & E & Hin). apply in_flat_map in Hin as ([k m] & Hin & Hy). cbn [fst snd] in Hy.
    destruct (Hpl k m (fst y) Hin) as [rel Hrel]; [now apply in_map|]. rewrite E in Hrel.
    apply (f_equal (@List.length _)) in Hrel. rewrite app_length in Hrel. cbn [List.length] in Hrel. lia.
  - induction F as [|[k m] F IHF]; [constructor|]. cbn [flat_map fst snd]. rewrite map_app. apply NoDup_app_iff. inversion HFk; subst. repeat split.
    + apply (HF k m). left; auto.
    + apply IHF; auto; intros; [eapply HF|eapply Hpl]; try right; eauto.
    + intros y Hy Hy'. destruct (Hpl k m y (or_introl eq_refl) Hy) as [rel Hr]. apply in_map_iff in Hy' as (y' & <- & Hy').
      apply in_flat_map in Hy' as ([k' m'] & Hin & Hy'). cbn [fst snd] in Hy'.
      destruct (Hpl k' m' (fst y') (or_intror Hin)) as [rel' Hr']; [now apply in_map|]. rewrite Hr in Hr'. apply app_inv_head in Hr'.
      injection Hr' as -> _. apply H1. apply (in_map fst _ _ Hin).
Qed.

Lemma dirs_of_spec d k : NoDup (keys d) -> In k (dirs_of d) <-> exists m, dget k d = Some m /\ is_dir m = true.
Proof.
  intros Hk. unfold dirs_of. rewrite in_map_iff. split.
  - intros ([k' m] & E & Hin). cbn in E. subst k'. apply filter_In in Hin as [Hin Hm]. exists m. split; auto. now apply In_dget.
  - intros (m & Hg & Hm). exists (k, m). split; auto. apply filter_In. split; auto. now apply dget_In.
Qed.
Lemma others_of_spec d k : NoDup (keys d) -> In k (others_of d) <-> exists m, dget k d = Some m /\ is_dir m = false.
Proof.
  intros Hk. unfold others_of. rewrite in_map_iff. split.
  - intros ([k' m] & E & Hin). cbn in E. subst k'. apply filter_In in Hin as [Hin Hm]. exists m. split; [now apply In_dget|]. now apply negb_true_iff.
  - intros (m & Hg & Hm). exists (k, m). split; auto. apply filter_In. split; [now apply dget_In|]. now apply negb_true_iff.
Qed.
Lemma NoDup_map_filter (f : str * node -> bool) d : NoDup (keys d) -> NoDup (map fst (filter f d)).
Proof.
  intros Hk. induction d as [|[k m] d IHd]; [constructor|]. inversion Hk; subst. cbn [filter]. destruct (f (k, m)); auto.
  cbn [map fst]. constructor; auto. intros Hin. apply H1. apply in_map_iff in Hin as (kv & E & Hin). apply filter_In in Hin as [Hin _].
  rewrite <- E. now apply in_map.
Qed.
