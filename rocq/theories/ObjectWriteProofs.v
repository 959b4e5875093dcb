(** What writing the inventories and the declaration of an object does. *)
From Verif Require Import Base Utf8 Json JsonTextModel JsonTextSpec JsonFileProofs DigestModel LayoutProofs PathModel TextFile FsModel FsSpec FsProofs
  FswModel FswSpec FswProofs FswCopyProofs FsStepProofs NamasteModel NamasteProofs InventoryModel ValidatorModel ValidatorSpec ValidatorBasicProofs ObjectModel ObjectSpec
  ObjectCopyProofs.

(** * Putting files one list after the other *)

Lemma above_dec (h q : place) (L : list (place * bytes)) :
  (exists r b x, In (r, b) L /\ h ++ r = q ++ x) \/ (forall r b x, In (r, b) L -> h ++ r <> q ++ x).
Proof.
  induction L as [|[r b] L IH]; [right; intros r b x []|]. destruct (strip q (h ++ r)) as [x|] eqn:E.
  - left. exists r, b, x. split; [now left|]. now apply strip_some.
  - destruct IH as [(r' & b' & x & H1 & H2)|IH]; [left; exists r', b', x; split; [now right|auto]|]. right.
    intros r' b' x [F|F]; [|now apply (IH r' b')]. injection F as <- <-. intros G. rewrite G, strip_app in E. discriminate.
Qed.

Lemma room_app w h L1 L2 w1 : room w h (L1 ++ L2) -> placed w h L1 w1 -> room w1 h L2.
Proof.
  intros R (P1 & P2 & P3). pose proof (rm_nodup _ _ _ R) as Hnd. rewrite map_app in Hnd.
  assert (I1 : forall r b, In (r, b) L1 -> In (r, b) (L1 ++ L2)) by (intros; apply in_or_app; auto).
  assert (I2 : forall r b, In (r, b) L2 -> In (r, b) (L1 ++ L2)) by (intros; apply in_or_app; auto).
  assert (Hne : forall r b r' b', In (r, b) L1 -> In (r', b') L2 -> r <> r').
  { intros r b r' b' H1 H2 <-. apply (in_map fst) in H1. apply (in_map fst) in H2. cbn in H1, H2. clear -Hnd H1 H2.
    induction (map fst L1) as [|a l IH]; [destruct H1|]. cbn in Hnd. inversion Hnd; subst. destruct H1 as [->|H1]; auto. apply H3, in_or_app; auto. }
  constructor.
  - intros r b H. apply (rm_names _ _ _ R r b); auto.
  - clear -Hnd. induction (map fst L1); [exact Hnd|]. cbn in Hnd. inversion Hnd; auto.
  - intros r b r' b' x H1 H2. apply (rm_apart _ _ _ R r b r' b'); auto.
  - intros r' b' Hin. rewrite P3; [apply (rm_free _ _ _ R r' b'); auto|]. intros r b x H1 F.
    rewrite <- app_assoc in F. apply app_inv_head in F. assert (x = []) by (apply (rm_apart _ _ _ R r' b' r b x); auto).
    subst x. rewrite app_nil_r in F. now apply (Hne r b r' b').
  - intros r' b' Hin q x Eq. destruct (above_dec h q L1) as [(r & b & y & H1 & Ey)|Hn].
    + destruct y as [|c y].
      * rewrite app_nil_r in Ey. subst q. rewrite <- app_assoc in Eq. apply app_inv_head in Eq.
        exfalso. assert (x = []) by (apply (rm_apart _ _ _ R r b r' b' x); auto). subst x. rewrite app_nil_r in Eq. now apply (Hne r b r' b').
      * right. apply (P2 r b q (c :: y)); auto. discriminate.
    + rewrite P3; auto. apply (rm_dirs _ _ _ R r' b' (I2 _ _ Hin) q x Eq).
Qed.

Lemma placed_app w h L1 L2 w1 w2 : room w h (L1 ++ L2) -> placed w h L1 w1 -> placed w1 h L2 w2 -> placed w h (L1 ++ L2) w2.
Proof.
  intros R Q P. pose proof (room_app _ _ _ _ _ R Q) as R1. split; [|split].
  - intros r b Hin. apply in_app_or in Hin as [Hin|Hin]; [|now apply P]. apply (placed_keep w1 h L2 w2 _ _ R1 P). now apply Q.
  - intros r b q x Hin Eq Hx. apply in_app_or in Hin as [Hin|Hin]; [|exact (proj1 (proj2 P) r b q x Hin Eq Hx)].
    apply (placed_keep w1 h L2 w2 _ _ R1 P). exact (proj1 (proj2 Q) r b q x Hin Eq Hx).
  - intros q Hq. destruct P as (_ & _ & P3). destruct Q as (_ & _ & Q3). rewrite P3, Q3; auto; intros r b x Hin; apply (Hq r b x); apply in_or_app; auto.
Qed.

Lemma room_prefix w h L1 L2 : room w h (L1 ++ L2) -> room w h L1.
Proof.
  intros R. assert (I1 : forall r b, In (r, b) L1 -> In (r, b) (L1 ++ L2)) by (intros; apply in_or_app; auto). destruct R as [a1 a2 a3 a4 a5]. constructor; eauto.
  rewrite map_app in a2. clear -a2. induction (map fst L1) as [|a l IH]; [constructor|]. cbn in a2. inversion a2; subst. constructor; auto.
  intros F. apply H1, in_or_app. auto.
Qed.

Lemma changes_placed w w' h a k b : look w (h ++ a) = Some EDir -> changes w w' (h ++ a ++ [k]) (Some (EFile b)) -> placed w h [(a ++ [k], b)] w'.
Proof.
  intros Hd C. split; [|split].
  - intros r b0 [E|[]]. injection E as <- <-. exact (changes_at _ _ _ _ C).
  - intros r b0 q x [E|[]] Eq Hx. injection E as <- _. destruct (snoc_case x Hx) as (y & z & ->). rewrite !app_assoc in Eq. apply app_inj_tail in Eq as [Eq _].
    rewrite (changes_other _ _ _ _ _ C).
    + destruct y as [|c y]; [rewrite app_nil_r in Eq; now rewrite <- Eq|]. apply (look_prefix_dir w (h ++ a) q (c :: y)); auto; [rewrite Hd|]; discriminate.
    + intros F. apply (f_equal (@List.length _)) in Eq. apply (f_equal (@List.length _)) in F. rewrite !app_length in *. cbn in *. lia.
  - intros q Hq. apply (changes_other _ _ _ _ _ C). intros ->. apply (Hq (a ++ [k]) b []); [now left|]. now rewrite app_nil_r.
Qed.

(** Making a directory that gets a file anyway. *)
Lemma mkdir_placed w w1 w2 h v L : changes w w1 (h ++ [v]) (Some EDir) -> look w (h ++ [v]) = None -> look w h = Some EDir ->
  (exists r b, In (v :: r, b) L /\ r <> []) -> placed w1 h L w2 -> placed w h L w2.
Proof.
  intros C Hno Hh (r & b & Hin & Hr) (P1 & P2 & P3). split; [exact P1|]. split; [exact P2|].
  intros q Hq. rewrite P3 by exact Hq. apply (changes_other _ _ _ _ _ C). intros ->. apply (Hq (v :: r) b r Hin). now rewrite <- app_assoc.
Qed.
Lemma mkdir_room w w1 h v L : changes w w1 (h ++ [v]) (Some EDir) -> (forall b, ~ In ([v], b) L) -> room w h L -> room w1 h L.
Proof.
  intros C Hv [a1 a2 a3 a4 a5]. constructor; auto.
  - intros r b Hin. rewrite (changes_other _ _ _ _ _ C); eauto. intros E. apply app_inv_head in E. subst r. now apply (Hv b).
  - intros r b Hin q x Eq. destruct (place_eq_dec q (h ++ [v])) as [->|Hne]; [right; exact (changes_at _ _ _ _ C)|].
    rewrite (changes_other _ _ _ _ _ C) by auto. now apply (a5 r b Hin q x).
Qed.

Lemma makedir_one w h v : Forall fname h -> fname v -> look w h = Some EDir -> look w (h ++ [v]) = None ->
  result (fs_makedir h v) w = Ok tt /\ changes w (after (fs_makedir h v) w) (h ++ [v]) (Some EDir).
Proof.
  intros Hh Hv Hd Hno. assert (E : at_path h v = h ++ [v]) by (refine (at_path_join h [v] Hh _); auto).
  assert (Hex : fs_exists w h v = false) by (apply fs_exists_false; now rewrite E).
  destruct (makedirs_ok w h v true) as [R1 R2]; rewrite ?E; auto.
  { intros q x Eq. destruct x as [|c x]; [rewrite app_nil_r in Eq; left; now rewrite <- Eq|]. right.
    destruct (snoc_case (c :: x)) as (y & z & Ey); [discriminate|]. rewrite Ey, app_assoc in Eq. apply app_inj_tail in Eq as [Eq _].
    destruct y as [|d y]; [rewrite app_nil_r in Eq; now rewrite <- Eq|]. apply (look_prefix_dir w h q (d :: y)); auto; [rewrite Hd|]; discriminate. }
  unfold result, after, fs_makedir in *. rewrite Hex. split; [exact R1|]. intros q. rewrite R2, E.
  destruct (place_eq_dec q (h ++ [v])) as [->|Hne]; [now rewrite strip_self|]. destruct (strip q (h ++ [v])) as [x|] eqn:Ex; auto.
  apply strip_some in Ex. destruct (snoc_case x) as (y & z & ->); [intros ->; rewrite app_nil_r in Ex; congruence|].
  rewrite app_assoc in Ex. apply app_inj_tail in Ex as [Ex _]. symmetry.
  destruct y as [|d y]; [rewrite app_nil_r in Ex; now rewrite <- Ex|]. apply (look_prefix_dir w h q (d :: y)); auto; [rewrite Hd|]; discriminate.
Qed.

(** * Inventories *)



Lemma fname_inv : fname inv_name.
Proof. repeat split; try discriminate. intros H. vm_compute in H. repeat destruct H as [H|H]; try discriminate; auto. Qed.
Lemma fname_side alg : ~ In slash alg -> fname (side_name alg).
Proof.
  intros Ha. repeat split; try discriminate. intros H. unfold side_name in H. apply in_app_or in H as [H|H]; [|now apply Ha].
  vm_compute in H. repeat destruct H as [H|H]; try discriminate; auto.
Qed.
Lemma side_not_inv alg : side_name alg <> inv_name.
Proof. unfold side_name, inv_name. intros E. apply (f_equal (@List.length _)) in E. rewrite app_length in E. cbn in E. lia. Qed.

Lemma algs_no_slash alg : In alg [`"sha512"; `"sha256"] -> ~ In slash alg.
Proof. intros [<-|[<-|[]]] H; vm_compute in H; repeat destruct H as [H|H]; try discriminate; auto. Qed.
Lemma algs_digest H alg b : In alg [`"sha512"; `"sha256"] -> file_digest H alg b = Ok (H alg b).
Proof. intros Ha. apply file_digest_iff. left. split; auto. destruct Ha as [<-|[<-|[]]]; eexists; constructor. Qed.

Lemma sidecar_write H alg b : hash_ok H -> In alg [`"sha512"; `"sha256"] -> write_text (sidecar_text H alg b) = Ok (sidecar_text H alg b).
Proof.
  intros HH Ha. apply utf8_encode_ascii. unfold sidecar_text. apply Forall_app. split.
  - assert (Hx : exists n, hash_len alg = Some n) by (destruct Ha as [<-|[<-|[]]]; eexists; reflexivity). destruct Hx as [n Hn].
    destruct (HH alg n b Hn) as [_ F]. revert F. apply Forall_impl. intros c Hc. unfold is_lower_hex in Hc.
    repeat (apply orb_true_iff in Hc as [Hc|Hc]); apply andb_true_iff in Hc as [H1 H2]; apply N.leb_le in H1, H2; lia.
  - apply Forall_forall. intros c Hc. vm_compute in Hc. repeat destruct Hc as [Hc|Hc]; try contradiction; subst; reflexivity.
Qed.

Lemma at_path_dir h a k : Forall fname h -> Forall fname a -> fname k -> at_path h (path_join (join [slash] a) k) = h ++ a ++ [k].
Proof. intros Hh Ha Hk. rewrite at_path_name by auto. rewrite at_path_join by auto. now rewrite app_assoc. Qed.

(** [dir] is [] for the root and [v] for a version. Both files are new or replaced. *)
Lemma write_inventory_ok H alg h i a w : hash_ok H -> In alg [`"sha512"; `"sha256"] -> Forall fname h -> Forall fname a ->
  writable (json_of_inventory i) -> look w (h ++ a) = Some EDir ->
  let b := json_dumps (json_of_inventory i) in
  let p := h ++ a ++ [inv_name] in
  let s := h ++ a ++ [side_name alg] in
  (look w p = None \/ exists x, look w p = Some (EFile x)) -> (look w s = None \/ exists x, look w s = Some (EFile x)) ->
  let x := write_inventory_and_sidecar H alg h (Some i) (join [slash] a) in
  result x w = Ok (path_join (join [slash] a) (side_name alg)) /\
  exists w1, changes w w1 p (Some (EFile b)) /\ changes w1 (after x w) s (Some (EFile (sidecar_text H alg b))).
Proof.
  intros HH Halg Hh Ha Hw Hd b p s Hp Hs x.
  assert (Hfs : fname (side_name alg)) by (apply fname_side, algs_no_slash; auto).
  assert (Ep : at_path h (path_join (join [slash] a) INVENTORY_FILENAME) = p) by (apply at_path_dir; auto; exact fname_inv).
  assert (Es : at_path h (path_join (join [slash] a) (INVENTORY_FILENAME ++ `"." ++ alg)) = s) by (exact (at_path_dir h a (side_name alg) Hh Ha Hfs)).
  assert (Hnep : s <> p).
  { unfold s, p. intros E. rewrite !app_assoc in E. apply app_inj_tail in E as [_ E]. now apply (side_not_inv alg). }
  assert (Hfresh : forall k y, (look y (h ++ a) = Some EDir) -> (look y (h ++ a ++ [k]) = None \/ exists z, look y (h ++ a ++ [k]) = Some (EFile z)) ->
    fresh_place y (h ++ a ++ [k]) \/ exists z, look y (h ++ a ++ [k]) = Some (EFile z)).
  { intros k y H1 [H2|H2]; [left|now right]. split; [destruct h; destruct a; discriminate|]. split; auto. now rewrite app_assoc, removelast_last. }
  unfold x, write_inventory_and_sidecar. rewrite after_read, result_read. cbv beta.
  assert (Hex : fs_exists w h (join [slash] a) = true) by (apply fs_exists_look; rewrite at_path_join by auto; rewrite Hd; discriminate).
  rewrite Hex. 
  destruct (write_text_file w h (path_join (join [slash] a) INVENTORY_FILENAME) b b) as [R1 C1].
  { rewrite Ep. now apply Hfresh. }
  { exact (proj1 (json_file_ok _ Hw)). }
  rewrite Ep in C1. set (w1 := after _ w) in C1.
  match goal with |- result (iret tt ;; ?f) w = _ /\ _ => destruct (after_bind_ok (iret tt) (fun _ => f) w tt eq_refl) as [Ea Er] end.
  rewrite Ea, Er. clear Ea Er. change (after (iret tt) w) with w.
  match goal with |- result (?g ;; ?f) w = _ /\ _ => destruct (after_bind_ok g (fun _ => f) w tt R1) as [Ea Er] end.
  rewrite Ea, Er. clear Ea Er. fold b. fold w1.
  rewrite after_read, result_read. cbv beta.
  assert (Ef : fs_digest H alg w1 h (path_join (join [slash] a) INVENTORY_FILENAME) = Ok (H alg b)).
  { unfold fs_digest. assert (Hr : fs_read w1 h (path_join (join [slash] a) INVENTORY_FILENAME) = Ok b) by (apply fs_read_look; rewrite Ep; exact (changes_at _ _ _ _ C1)).
    rewrite Hr. now apply algs_digest. }
  rewrite Ef.
  assert (Hd1 : look w1 (h ++ a) = Some EDir).
  { rewrite (changes_other _ _ _ _ _ C1); auto. unfold p. intros E. apply (f_equal (@List.length _)) in E. rewrite !app_length in E. cbn in E. lia. }
  destruct (write_text_file w1 h (path_join (join [slash] a) (INVENTORY_FILENAME ++ `"." ++ alg)) (sidecar_text H alg b) (sidecar_text H alg b)) as [R2 C2].
  { rewrite Es. unfold s. apply Hfresh; auto. fold s. rewrite (changes_other _ _ _ _ _ C1); auto. }
  { now apply sidecar_write. }
  rewrite Es in C2.
  match goal with |- result (?g ;; ?f) w1 = _ /\ _ => destruct (after_bind_ok g (fun _ => f) w1 tt R2) as [Ea Er] end.
  split; [exact Er|]. exists w1. split; [exact C1|]. rewrite Ea. exact C2.
Qed.

(** The two files of an inventory in [a]. *)
Definition inv_files (H : hashfn) (alg : str) (i : inventory) (a : place) : list (place * bytes) :=
  let b := json_dumps (json_of_inventory i) in
  [(a ++ [inv_name], b); (a ++ [side_name alg], sidecar_text H alg b)].

Lemma two_placed w w1 w2 h a k1 b1 k2 b2 : look w (h ++ a) = Some EDir -> changes w w1 (h ++ a ++ [k1]) (Some (EFile b1)) ->
  changes w1 w2 (h ++ a ++ [k2]) (Some (EFile b2)) -> k1 <> k2 -> placed w h [(a ++ [k1], b1); (a ++ [k2], b2)] w2.
Proof.
  intros Hd C1 C2 Hk.
  assert (Hd1 : look w1 (h ++ a) = Some EDir).
  { rewrite (changes_other _ _ _ _ _ C1); auto. intros E. apply (f_equal (@List.length _)) in E. rewrite !app_length in E. cbn in E. lia. }
  assert (Hp : forall k q x, h ++ a ++ [k] = q ++ x -> x <> [] -> look w2 q = Some EDir).
  { intros k q x Eq Hx. destruct (snoc_case x Hx) as (y & z & ->). rewrite !app_assoc in Eq. apply app_inj_tail in Eq as [Eq _].
    assert (Hne : forall k', q <> h ++ a ++ [k']).
    { intros k' F. apply (f_equal (@List.length _)) in Eq. apply (f_equal (@List.length _)) in F. rewrite !app_length in *. cbn in *. lia. }
    rewrite (changes_other _ _ _ _ _ C2), (changes_other _ _ _ _ _ C1) by apply Hne.
    destruct y as [|c y]; [rewrite app_nil_r in Eq; now rewrite <- Eq|]. apply (look_prefix_dir w (h ++ a) q (c :: y)); auto; [rewrite Hd|]; discriminate. }
  split; [|split].
  - intros r b [E|[E|[]]]; injection E as <- <-; [|exact (changes_at _ _ _ _ C2)].
    rewrite (changes_other _ _ _ _ _ C2); [exact (changes_at _ _ _ _ C1)|]. intros E. rewrite !app_assoc in E. apply app_inj_tail in E as [_ E]. auto.
  - intros r b q x [E|[E|[]]] Eq Hx; injection E as <- _; eapply Hp; eauto.
  - intros q Hq. rewrite (changes_other _ _ _ _ _ C2), (changes_other _ _ _ _ _ C1); auto; intros ->.
    + apply (Hq (a ++ [k1]) b1 []); [now left|]. now rewrite app_nil_r.
    + apply (Hq (a ++ [k2]) b2 []); [right; now left|]. now rewrite app_nil_r.
Qed.

Lemma write_inventory_placed H alg h i a w : hash_ok H -> In alg [`"sha512"; `"sha256"] -> Forall fname h -> Forall fname a ->
  writable (json_of_inventory i) -> look w (h ++ a) = Some EDir ->
  look w (h ++ a ++ [inv_name]) = None -> look w (h ++ a ++ [side_name alg]) = None ->
  let x := write_inventory_and_sidecar H alg h (Some i) (join [slash] a) in
  (exists s, result x w = Ok s) /\ placed w h (inv_files H alg i a) (after x w).
Proof.
  intros HH Halg Hh Ha Hw Hd Hp Hs x. destruct (write_inventory_ok H alg h i a w HH Halg Hh Ha Hw Hd) as [R (w1 & C1 & C2)]; auto.
  split; [eauto|]. eapply two_placed; eauto. intros E. symmetry in E. now apply side_not_inv in E.
Qed.

(** In a new version directory. *)
Lemma write_version_placed H alg h i v w : hash_ok H -> In alg [`"sha512"; `"sha256"] -> Forall fname h -> fname v ->
  writable (json_of_inventory i) -> look w h = Some EDir -> look w (h ++ [v]) = None ->
  let x := write_inventory_and_sidecar H alg h (Some i) v in
  (exists s, result x w = Ok s) /\ placed w h (inv_files H alg i [v]) (after x w).
Proof.
  intros HH Halg Hh Hv Hw Hd Hno x. destruct (makedir_one w h v Hh Hv Hd Hno) as [R1 C1]. set (w1 := after (fs_makedir h v) w) in *.
  assert (Ev : at_path h v = h ++ [v]) by (refine (at_path_join h [v] Hh _); auto).
  assert (Hbelow : forall k, look w1 (h ++ [v] ++ [k]) = None).
  { intros k. rewrite (changes_other _ _ _ _ _ C1).
    - rewrite app_assoc. apply look_below_leaf; [discriminate|]. now apply none_not_dir.
    - intros E. apply (f_equal (@List.length _)) in E. rewrite !app_length in E. cbn in E. lia. }
  destruct (write_inventory_placed H alg h i [v] w1 HH Halg Hh) as [[s Rs] P]; auto; [exact (changes_at _ _ _ _ C1)|].
  change (join [slash] [v]) with v in *.
  assert (E : fst (x w) = fst (fs_makedir h v w) ++ fst (write_inventory_and_sidecar H alg h (Some i) v w1) /\
    result x w = result (write_inventory_and_sidecar H alg h (Some i) v) w1).
  { unfold x, write_inventory_and_sidecar.
    assert (E0 : fs_exists w h v = false) by (apply fs_exists_false; now rewrite Ev).
    assert (E1 : fs_exists w1 h v = true) by (apply fs_exists_look; rewrite Ev, (changes_at _ _ _ _ C1); discriminate).
    rewrite !result_read. cbv beta. rewrite E0, E1.
    match goal with |- fst ((do e <- _ ;; (_ ;; ?f)) w) = _ /\ _ => set (rest := f) end.
    assert (Es : forall y, fst ((do e <- iread (fun w => Ok (fs_exists w h v)) ;; (if e : bool then iret tt else fs_makedir h v) ;; rest) y) =
      fst (((if fs_exists y h v then iret tt else fs_makedir h v) ;; rest) y)).
    { intros y. rewrite steps_bind. reflexivity. }
    rewrite !Es, E0, E1. rewrite !steps_bind, !ibind_result. fold w1. rewrite R1. change (after (iret tt) w1) with w1. cbn [result iret snd fst app]. auto. }
  destruct E as [E1 E2]. split; [exists s; now rewrite E2|]. unfold after. rewrite E1, apply_all_app. fold (after (fs_makedir h v) w). fold w1.
  eapply mkdir_placed; eauto. exists [inv_name], (json_dumps (json_of_inventory i)). split; [now left|discriminate].
Qed.

(** The declaration *)

Lemma write_declaration_ok spec h w : In spec [`"1.0"; `"1.1"] -> Forall fname h -> look w h = Some EDir -> look w (h ++ [decl_name spec]) = None ->
  result (write_object_declaration spec h) w = Ok tt /\
  placed w h [([decl_name spec], decl_text spec)] (after (write_object_declaration spec h) w).
Proof.
  intros Hs Hh Hd Hno. unfold write_object_declaration, namaste_write.
  assert (Hn : fname (decl_name spec)).
  { destruct Hs as [<-|[<-|[]]]; (repeat split; try discriminate; intros H; vm_compute in H; repeat destruct H as [H|H]; try discriminate; auto). }
  assert (Ef : filename (mkNamaste (`"0") (`"ocfl_object_" ++ spec) None) = decl_name spec) by (destruct Hs as [<-|[<-|[]]]; reflexivity).
  cbn [n_content]. rewrite Ef. assert (Ep : at_path h (path_join [] (decl_name spec)) = h ++ [decl_name spec]) by exact (at_path_dir h [] _ Hh (Forall_nil _) Hn).
  destruct (write_text_file w h (path_join [] (decl_name spec)) (decl_text spec) (decl_text spec)) as [R C].
  - left. rewrite Ep. split; [destruct h; discriminate|]. now rewrite removelast_last.
  - destruct Hs as [<-|[<-|[]]]; reflexivity.
  - unfold decl_text in *. rewrite app_assoc in *. split; [exact R|]. rewrite Ep in C. apply (changes_placed w _ h [] (decl_name spec)); [now rewrite app_nil_r|]. exact C.
Qed.
