(** C77: reading and setting what an inventory says. *)
From Verif Require Import Base Unicode Json InventorySpec InventoryModel InventoryAccessModel InventoryOpsSpec InventoryOpsProofs ObjectFactsProofs JsonTextProofs.

(** ** Specification *)

(** From i to i' only the block of version v changes, from b to b'. *)
Definition only_version (v : str) (b b' : vblock) (i i' : inventory) : Prop :=
  i_id i' = i_id i /\ i_type i' = i_type i /\ i_alg i' = i_alg i /\ i_head i' = i_head i /\ i_cdir i' = i_cdir i /\
  i_manifest i' = i_manifest i /\ i_fixity i' = i_fixity i /\ i_other i' = i_other i /\
  exists before behind, i_versions i = Some (before ++ (v, b) :: behind) /\ i_versions i' = Some (before ++ (v, b') :: behind) /\ ~ In v (map fst before).

(** ** Lemmas *)

Lemma dset_split {A} v (b b' : A) d : dget v d = Some b -> exists before behind, d = before ++ (v, b) :: behind /\ dset v b' d = before ++ (v, b') :: behind /\ ~ In v (map fst before).
Proof.
  induction d as [|[k x] d IH]; [discriminate|]. cbn [dget dset]. destruct (str_eqb_spec v k) as [<-|Ne].
  - intros E. injection E as ->. exists [], d. repeat split; auto.
  - intros E. destruct (IH E) as (p & q & -> & -> & N). exists ((k, x) :: p), q. split; [reflexivity|]. split; [reflexivity|]. intros [X|X]; [cbn in X; congruence|exact (N X)].
Qed.
Lemma update_only f v b i : dget v (versions_block i) = Some b -> only_version v b (f b) i (update_version f v i).
Proof.
  intros E. unfold update_version. rewrite E. repeat (split; [reflexivity|]). destruct (dset_split v b (f b) _ E) as (p & q & E1 & E2 & N).
  exists p, q. cbn [set_versions i_versions]. rewrite E2. split; [|auto]. unfold versions_block in E1, E. destruct (i_versions i); [now rewrite <- E1|discriminate E].
Qed.
Lemma version_block i v : is_version i v -> exists b, dget v (versions_block i) = Some b.
Proof.
  intros (vs & b & E & I). unfold versions_block. rewrite E. cbn [or_empty]. destruct (dget v vs) as [b'|] eqn:G; [eauto|]. exfalso. exact (proj1 (dget_None v vs) G (in_map fst _ _ I)).
Qed.
Lemma no_version i v : ~ is_version i v -> dget v (versions_block i) = None.
Proof.
  intros N. destruct (dget v (versions_block i)) as [b|] eqn:E; [|reflexivity]. exfalso. apply N. unfold versions_block in E. destruct (i_versions i) as [vs|] eqn:V; [|discriminate E].
  exists vs, b. split; [exact V|]. now apply dget_In.
Qed.
Lemma only_read v b b' i i' : only_version v b b' i i' -> versiondata i' v = b' /\ forall u, u <> v -> versiondata i' u = versiondata i u.
Proof.
  intros (_ & _ & _ & _ & _ & _ & _ & _ & p & q & E1 & E2 & N). unfold versiondata, versions_block. rewrite E1, E2. cbn [or_empty].
  assert (G : forall u x, dget u (p ++ (v, x) :: q) = match dget u p with Some y => Some y | None => if str_eqb u v then Some x else dget u q end).
  { clear. intros u x. induction p as [|[k y] p IH]; [reflexivity|]. cbn [app dget]. destruct (str_eqb u k); [reflexivity|]. apply IH. }
  split.
  - rewrite G. assert (dget v p = None) as -> by now apply dget_None. now rewrite str_eqb_refl.
  - intros u Hu. rewrite !G. destruct (dget u p); [reflexivity|]. assert (str_eqb u v = false) as -> by now apply str_eqb_neq. reflexivity.
Qed.

(** ** C77 *)

(** Setting an attribute of a version that is there changes just that attribute of that version. *)
Theorem C77_set : forall i v x, is_version i v -> exists b,
  dget v (versions_block i) = Some b /\
  only_version v b (mk_vblock (Some x) (vb_message b) (vb_user b) (vb_state b) (vb_other b)) i (set_created v x i) /\
  only_version v b (mk_vblock (vb_created b) (Some x) (vb_user b) (vb_state b) (vb_other b)) i (set_message v x i) /\
  (forall s, only_version v b (mk_vblock (vb_created b) (vb_message b) (vb_user b) (Some s) (vb_other b)) i (set_state v s i)) /\
  (forall k, exists u i', set_user k v x i = (i', Ok tt) /\
     only_version v b (mk_vblock (vb_created b) (vb_message b) (Some u) (vb_state b) (vb_other b)) i i' /\
     dget k u = Some (JStr x) /\ (forall k', k' <> k -> dget k' u = dget k' (or_empty (vb_user b))) /\ (vb_user b = None -> u = [(k, JStr x)])).
Proof.
  intros i v x V. destruct (version_block i v V) as [b E]. exists b. split; [exact E|]. split; [exact (update_only _ _ _ _ E)|]. split; [exact (update_only _ _ _ _ E)|]. split; [intros s; exact (update_only _ _ _ _ E)|].
  intros k. exists (dset k (JStr x) (or_empty (vb_user b))), (fst (set_user k v x i)). unfold set_user. rewrite E. split; [reflexivity|]. split; [exact (update_only _ _ _ _ E)|].
  split; [apply dget_dset_same|]. split; [intros k' Hk; now apply dget_dset_other|]. intros N. rewrite N. reflexivity.
Qed.
Print Assumptions C77_set.

(** What was set is read again, and nothing else changes for a reader. *)
Theorem C77_read : forall i v x, is_version i v ->
  (created (set_created v x i) v = Some x /\ message (set_created v x i) v = message i v /\ user_name (set_created v x i) v = user_name i v /\ user_address (set_created v x i) v = user_address i v /\ state (set_created v x i) v = state i v) /\
  (message (set_message v x i) v = Some x /\ created (set_message v x i) v = created i v /\ user_name (set_message v x i) v = user_name i v /\ user_address (set_message v x i) v = user_address i v /\ state (set_message v x i) v = state i v) /\
  (let i' := fst (set_user (`"name") v x i) in user_name i' v = Some (JStr x) /\ user_address i' v = user_address i v /\ created i' v = created i v /\ message i' v = message i v /\ state i' v = state i v) /\
  (let i' := fst (set_user (`"address") v x i) in user_address i' v = Some (JStr x) /\ user_name i' v = user_name i v /\ created i' v = created i v /\ message i' v = message i v /\ state i' v = state i v) /\
  (forall u i', u <> v -> In i' [set_created v x i; set_message v x i; fst (set_user (`"name") v x i); fst (set_user (`"address") v x i)] -> versiondata i' u = versiondata i u).
Proof.
  intros i v x V. destruct (C77_set i v x V) as (b & E & C1 & C2 & _ & C4). assert (Eb : versiondata i v = b) by (unfold versiondata; now rewrite E).
  destruct (C4 (`"name")) as (u1 & i1 & E1 & O1 & A1 & B1 & _). destruct (C4 (`"address")) as (u2 & i2 & E2 & O2 & A2 & B2 & _).
  destruct (only_read _ _ _ _ _ C1) as [R1 F1], (only_read _ _ _ _ _ C2) as [R2 F2], (only_read _ _ _ _ _ O1) as [R3 F3], (only_read _ _ _ _ _ O2) as [R4 F4].
  rewrite E1, E2. cbn [fst]. unfold created, message, user_name, user_address, state. rewrite R1, R2, R3, R4, Eb. cbn [vb_created vb_message vb_user vb_state or_empty].
  split; [auto 6|]. split; [auto 6|]. split; [split; [auto|split; [apply B1; discriminate|auto]]|]. split; [split; [auto|split; [apply B2; discriminate|auto]]|].
  intros u i' Hu [<-|[<-|[<-|[<-|[]]]]]; auto.
Qed.
Print Assumptions C77_read.

(** For a version that is not there, what is set is lost without an exception, but for the user,
    where there is a KeyError. *)
Theorem C77_lost : forall i v x s k, ~ is_version i v ->
  set_created v x i = i /\ set_message v x i = i /\ set_state v s i = i /\ set_user k v x i = (i, Raise KeyError) /\
  state_add_if_not_present v i = (i, Raise KeyError) /\ user_add_if_not_present v i = (i, Raise KeyError).
Proof.
  intros i v x s k N. apply no_version in N. unfold set_created, set_message, set_state, update_version, set_user, state_add_if_not_present, user_add_if_not_present. rewrite N. auto 8.
Qed.
Print Assumptions C77_lost.

(** The methods that add a missing block: the block is there afterwards and empty if it was not
    there before; nothing else changes, and a second call changes nothing. *)
Theorem C77_add_if_not_present : forall i v,
  (let '(i', m) := manifest_add_if_not_present i in
   m = manifest i /\ i_manifest i' = Some m /\ manifest_add_if_not_present i' = (i', m) /\
   (i_manifest i <> None -> i' = i) /\ i_id i' = i_id i /\ i_type i' = i_type i /\ i_alg i' = i_alg i /\ i_head i' = i_head i /\ i_cdir i' = i_cdir i /\
   i_versions i' = i_versions i /\ i_fixity i' = i_fixity i /\ i_other i' = i_other i) /\
  (is_version i v -> exists i' s, state_add_if_not_present v i = (i', Ok s) /\ s = state i v /\ state_add_if_not_present v i' = (i', Ok s) /\
     exists b, dget v (versions_block i) = Some b /\ (vb_state b <> None -> i' = i) /\
       (vb_state b = None -> only_version v b (mk_vblock (vb_created b) (vb_message b) (vb_user b) (Some []) (vb_other b)) i i')) /\
  (is_version i v -> exists i' u, user_add_if_not_present v i = (i', Ok u) /\ u = or_empty (vb_user (versiondata i v)) /\ user_add_if_not_present v i' = (i', Ok u) /\
     exists b, dget v (versions_block i) = Some b /\ (vb_user b <> None -> i' = i) /\
       (vb_user b = None -> only_version v b (mk_vblock (vb_created b) (vb_message b) (Some []) (vb_state b) (vb_other b)) i i')).
Proof.
  intros i v. split; [|split].
  - unfold manifest_add_if_not_present, manifest. destruct (i_manifest i) as [m|] eqn:E; cbn; [rewrite E; repeat split; auto|]. repeat split; auto. intros X. now destruct X.
  - intros V. destruct (version_block i v V) as [b E]. unfold state_add_if_not_present. rewrite E. assert (Eb : versiondata i v = b) by (unfold versiondata; now rewrite E). unfold state. rewrite Eb.
    destruct (vb_state b) as [s|] eqn:S.
    + exists i, s. split; [reflexivity|]. split; [reflexivity|]. rewrite E, S. split; [reflexivity|]. exists b. rewrite S. split; [reflexivity|]. split; [auto|discriminate].
    + pose proof (update_only (with_state []) v b i E) as O. exists (set_state v [] i), []. split; [reflexivity|]. split; [reflexivity|].
      assert (D : dget v (versions_block (set_state v [] i)) = Some (with_state [] b)).
      { unfold set_state, update_version. rewrite E. unfold versions_block at 1. cbn [set_versions i_versions or_empty]. apply dget_dset_same. }
      rewrite D. cbn [with_state vb_state]. split; [reflexivity|]. exists b. rewrite S. split; [reflexivity|]. split; [intros X; now destruct X|]. intros _. exact O.
  - intros V. destruct (version_block i v V) as [b E]. unfold user_add_if_not_present. rewrite E. assert (Eb : versiondata i v = b) by (unfold versiondata; now rewrite E). rewrite Eb.
    destruct (vb_user b) as [s|] eqn:S.
    + exists i, s. split; [reflexivity|]. split; [reflexivity|]. rewrite E, S. split; [reflexivity|]. exists b. rewrite S. split; [reflexivity|]. split; [auto|discriminate].
    + set (f := fun b => mk_vblock (vb_created b) (vb_message b) (Some []) (vb_state b) (vb_other b)). pose proof (update_only f v b i E) as O. exists (update_version f v i), []. split; [reflexivity|]. split; [reflexivity|].
      assert (D : dget v (versions_block (update_version f v i)) = Some (f b)).
      { unfold update_version. rewrite E. unfold versions_block at 1. cbn [set_versions i_versions or_empty]. apply dget_dset_same. }
      rewrite D. cbn [f vb_user]. split; [reflexivity|]. exists b. rewrite S. split; [reflexivity|]. split; [intros X; now destruct X|]. intros _. exact O.
Qed.
Print Assumptions C77_add_if_not_present.

(** Inverting the manifest: each content path is there just once, with a digest that has it;
    with the digest that has it if there is only one. *)
Lemma set_all (d : str) (l : list str) m f : dget f (fold_left (fun m f => dset f d m) l m) = if str_in f l then Some d else dget f m.
Proof.
  revert m. induction l as [|a l IH]; intros m; [reflexivity|]. cbn [fold_left]. rewrite IH. unfold str_in. cbn [existsb]. fold (str_in f l). destruct (str_in f l) eqn:E; [now rewrite orb_true_r|]. rewrite orb_false_r.
  destruct (str_eqb_spec f a) as [->|Ne]; [apply dget_dset_same|now apply dget_dset_other].
Qed.
Lemma content_get (b : block) m f : dget f (fold_left (fun files kv => fold_left (fun m f => dset f (fst kv) m) (snd kv) files) b m) =
  match find (fun kv => str_in f (snd kv)) (rev b) with Some kv => Some (fst kv) | None => dget f m end.
Proof.
  revert m. induction b as [|kv b IH]; intros m; [reflexivity|]. cbn [fold_left rev]. rewrite IH, set_all.
  assert (F : forall l l', find (fun kv : str * list str => str_in f (snd kv)) (l ++ l') = match find (fun kv => str_in f (snd kv)) l with Some y => Some y | None => find (fun kv => str_in f (snd kv)) l' end).
  { clear. induction l as [|a l IH]; intros l'; [reflexivity|]. cbn [app find]. destruct (str_in f (snd a)); [reflexivity|apply IH]. }
  rewrite F. destruct (find _ (rev b)); [reflexivity|]. cbn [find]. destruct (str_in f (snd kv)); reflexivity.
Qed.
Lemma nodup_set_all (d : str) (l : list str) (m : dict str) : NoDup (map fst m) -> NoDup (map fst (fold_left (fun m f => dset f d m) l m)).
Proof. revert m. induction l as [|a l IH]; intros m N; [exact N|]. cbn [fold_left]. apply IH. exact (NoDup_dset a d m N). Qed.
Theorem C77_content : forall i,
  NoDup (map fst (content i)) /\
  (forall c d, dget c (content i) = Some d -> stored i d c) /\
  (forall c d, stored i d c -> exists d', dget c (content i) = Some d') /\
  (forall c d, (forall d', stored i d' c -> d' = d) -> (dget c (content i) = Some d <-> stored i d c)) /\
  (forall c, In c (content_paths i) <-> exists d, stored i d c).
Proof.
  intros i.
  assert (St : forall d c, stored i d c <-> exists l, In (d, l) (manifest i) /\ In c l).
  { intros d c. unfold stored, manifest. split; [intros (m & l & -> & H1 & H2); eauto|]. intros (l & H1 & H2). destruct (i_manifest i) as [m|]; [exists m, l; auto|destruct H1]. }
  assert (S1 : forall c d, dget c (content i) = Some d -> stored i d c).
  { intros c d E. unfold content in E. rewrite content_get in E. destruct (find _ _) as [[d' l]|] eqn:F; [|discriminate]. injection E as <-. apply find_some in F as [F1 F2]. cbn [snd] in F2. apply St. exists l. split; [now apply in_rev|now apply str_in_true]. }
  assert (S2 : forall c d, stored i d c -> exists d', dget c (content i) = Some d').
  { intros c d E. apply St in E as (l & H1 & H2). unfold content. rewrite content_get. destruct (find _ _) as [kv|] eqn:F; [eauto|]. exfalso. pose proof (find_none _ _ F (d, l) (proj1 (in_rev _ _) H1)) as X. cbn [snd] in X. apply str_in_true in H2. congruence. }
  split; [|split; [exact S1|split; [exact S2|split]]].
  - unfold content. assert (G : forall (b : block) m, NoDup (map fst m) -> NoDup (map fst (fold_left (fun files kv => fold_left (fun m f => dset f (fst kv) m) (snd kv) files) b m))).
    { induction b as [|kv b IH]; intros m N; [exact N|]. cbn [fold_left]. apply IH. now apply nodup_set_all. }
    apply G. constructor.
  - intros c d U. split; [apply S1|]. intros E. destruct (S2 c d E) as [d' E']. rewrite E'. f_equal. apply U. now apply S1.
  - intros c. unfold content_paths, paths_of. rewrite in_flat_map. split.
    + intros ([d l] & H1 & H2). exists d. apply St. eauto.
    + intros (d & E). apply St in E as (l & H1 & H2). exists (d, l). auto.
Qed.
Print Assumptions C77_content.

(** add_fixity_data adds the path to the digest in the block of the algorithm, which must be
    there. *)
Lemma append_has k x (b : block) d p : block_has (append_to k x b) d p <-> block_has b d p \/ (d = k /\ p = x).
Proof.
  unfold append_to, block_has. destruct (dget k b) as [l|] eqn:E.
  - destruct (dset_split k l (l ++ [x]) b E) as (u & v & -> & -> & _). split.
    + intros (l' & I & Hp). rewrite in_app_iff in I. destruct I as [I|[I|I]].
      * left. exists l'. rewrite in_app_iff. auto.
      * apply pair_equal_spec in I as [<- <-]. rewrite in_app_iff in Hp. destruct Hp as [Hp|[<-|[]]]; [|auto]. left. exists l. rewrite in_app_iff. cbn [In]. auto.
      * left. exists l'. rewrite in_app_iff. cbn [In]. auto.
    + intros [(l' & I & Hp)|[-> ->]].
      * rewrite in_app_iff in I. destruct I as [I|[I|I]]; [exists l'; rewrite in_app_iff; auto| |exists l'; rewrite in_app_iff; cbn [In]; auto].
        apply pair_equal_spec in I as [<- <-]. exists (l ++ [x]). rewrite !in_app_iff. cbn [In]. auto.
      * exists (l ++ [x]). rewrite !in_app_iff. cbn [In]. auto.
  - rewrite dset_new by (now apply dget_None). split.
    + intros (l' & I & Hp). rewrite in_app_iff in I. destruct I as [I|[I|[]]]; [eauto|]. apply pair_equal_spec in I as [<- <-]. destruct Hp as [<-|[]]. auto.
    + intros [(l' & I & Hp)|[-> ->]]; [exists l'; rewrite in_app_iff; auto|]. exists [x]. rewrite in_app_iff. cbn [In]. auto.
Qed.
Theorem C77_fixity : forall i a d c,
  ((exists fx b, i_fixity i = Some fx /\ In (a, b) fx) -> exists i', add_fixity_data a d c i = (i', Ok tt) /\
     (forall a' d' c', fixed i' a' d' c' <-> fixed i a' d' c' \/ (a' = a /\ d' = d /\ c' = c)) /\
     i_id i' = i_id i /\ i_type i' = i_type i /\ i_alg i' = i_alg i /\ i_head i' = i_head i /\ i_cdir i' = i_cdir i /\ i_manifest i' = i_manifest i /\ i_versions i' = i_versions i /\ i_other i' = i_other i) /\
  (~ (exists fx b, i_fixity i = Some fx /\ In (a, b) fx) -> add_fixity_data a d c i = (i, Raise KeyError)).
Proof.
  intros i a d c. unfold add_fixity_data. split.
  - intros (fx & b & E & I). unfold fixity. rewrite E. cbn [or_empty]. destruct (dget a fx) as [b0|] eqn:G; [|exfalso; exact (proj1 (dget_None a fx) G (in_map fst _ _ I))].
    eexists. split; [reflexivity|]. split; [|cbn; auto 9]. intros a' d' c'. unfold fixed. cbn [set_fixity i_fixity]. destruct (dset_split a b0 (append_to d c b0) fx G) as (u & v & Ef & -> & _). rewrite E. split.
    + intros (fx' & b' & X & I' & Hb). injection X as <-. rewrite in_app_iff in I'. destruct I' as [I'|[I'|I']].
      * left. exists fx, b'. rewrite Ef, in_app_iff. auto.
      * apply pair_equal_spec in I' as [<- <-]. apply append_has in Hb as [Hb|[-> ->]]; [|auto]. left. exists fx, b0. rewrite Ef, in_app_iff. cbn [In]. auto.
      * left. exists fx, b'. rewrite Ef, in_app_iff. cbn [In]. auto.
    + intros [(fx' & b' & X & I' & Hb)|(-> & -> & ->)].
      * injection X as <-. rewrite Ef, in_app_iff in I'. destruct I' as [I'|[I'|I']].
        -- eexists. exists b'. split; [reflexivity|]. rewrite in_app_iff. auto.
        -- apply pair_equal_spec in I' as [<- <-]. eexists. exists (append_to d c b0). split; [reflexivity|]. rewrite in_app_iff. cbn [In]. split; [auto|]. apply append_has. auto.
        -- eexists. exists b'. split; [reflexivity|]. rewrite in_app_iff. cbn [In]. auto.
      * eexists. exists (append_to d c b0). split; [reflexivity|]. rewrite in_app_iff. cbn [In]. split; [auto|]. apply append_has. auto.
  - intros N. destruct (dget a (fixity i)) as [b|] eqn:G; [|reflexivity]. exfalso. apply N. unfold fixity in G. destruct (i_fixity i) as [fx|] eqn:E; [|discriminate G]. exists fx, b. split; [reflexivity|]. now apply dget_In.
Qed.
Print Assumptions C77_fixity.

(** An inventory of two versions, one of them without message and user, and fixity of one kind *)
Definition ex_acc : inventory :=
  mk_inventory (Some (`"info:a")) (Some (`"https://ocfl.io/1.1/spec/#inventory")) (Some (`"sha512")) (Some (`"v2")) None
    (Some [(`"d1", [`"v1/content/a"; `"v2/content/b"]); (`"d2", [`"v1/content/c"])])
    (Some [(`"v1", mk_vblock (Some (`"t1")) None None (Some [(`"d1", [`"a"])]) []);
           (`"v2", mk_vblock (Some (`"t2")) (Some (`"m")) (Some [(`"name", JStr (`"n"))]) None [])])
    (Some [(`"md5", [(`"e1", [`"v1/content/a"])])]) [].
Example C77_ex :
  is_version ex_acc (`"v1") /\ ~ is_version ex_acc (`"v3") /\
  user_name (fst (set_user (`"address") (`"v2") (`"mailto:x") ex_acc)) (`"v2") = Some (JStr (`"n")) /\
  content ex_acc = [(`"v1/content/a", `"d1"); (`"v2/content/b", `"d1"); (`"v1/content/c", `"d2")] /\
  fixed (fst (add_fixity_data (`"md5") (`"e1") (`"v2/content/b") ex_acc)) (`"md5") (`"e1") (`"v1/content/a") /\
  state_add_if_not_present (`"v2") ex_acc = (set_state (`"v2") [] ex_acc, Ok []).
Proof.
  split; [do 2 eexists; split; [reflexivity|left; reflexivity]|]. split.
  { intros (vs & b & E & I). injection E as <-. destruct I as [I|[I|[]]]; apply pair_equal_spec in I as [I _]; discriminate I. }
  split; [reflexivity|]. split; [vm_compute; reflexivity|]. split; [|reflexivity].
  destruct (proj1 (C77_fixity ex_acc (`"md5") (`"e1") (`"v2/content/b"))) as (i' & -> & F & _); [do 2 eexists; split; [reflexivity|left; reflexivity]|].
  apply F. left. do 2 eexists. split; [reflexivity|]. split; [left; reflexivity|]. eexists. split; [left; reflexivity|left; reflexivity].
Qed.
