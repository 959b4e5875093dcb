(** The inventories that objects written by this library have: they obey the rules, and they
    are the same after writing and reading (C34-C36). *)
From Coq Require Import Permutation.
From Verif Require Import Base Unicode Regex Utf8 Json PyJson JsonTextModel JsonTextSpec JsonTextProofs JsonFileProofs Log DigestModel
  ObjectUtilsModel ObjectUtilsProofs InventorySpec InventoryValidatorModel InventoryValidatorProofs InventoryRulesProofs
  InventoryModel InventoryOpsSpec InventoryOpsProofs NewVersionModel NewVersionProofs VersionNumberProofs InventoryParseProofs ParseModel
  PathModel FsModel FsSpec FsProofs ObjectModel ObjectSpec.

(** ** Writing sorts *)

Definition sort_block (b : block) : block := isort key_leb b.
Definition sort_user (u : dict json) : dict json := isort key_leb (map (fun kv => (fst kv, sort_json (snd kv))) u).
Definition sort_vblock (b : vblock) : vblock :=
  mk_vblock (vb_created b) (vb_message b) (option_map sort_user (vb_user b)) (option_map sort_block (vb_state b)) [].
Definition sort_values {A} (f : A -> A) (d : dict A) : dict A := isort key_leb (map (fun kv => (fst kv, f (snd kv))) d).
Definition sort_inv (i : inventory) : inventory :=
  mk_inventory (i_id i) (i_type i) (i_alg i) (i_head i) (i_cdir i) (option_map sort_block (i_manifest i))
    (option_map (sort_values sort_vblock) (i_versions i)) (option_map (sort_values sort_block) (i_fixity i)) [].

Lemma sort_strings l : sort_json (json_of_strings l) = json_of_strings l.
Proof. unfold json_of_strings. cbn [sort_json]. rewrite map_map. reflexivity. Qed.
Lemma sort_block_json b : sort_json (json_of_block b) = json_of_block (sort_block b).
Proof.
  unfold json_of_block, entries, sort_block. cbn [sort_json]. f_equal. rewrite map_map. cbn [fst snd].
  rewrite <- (isort_map json_of_strings). f_equal. apply map_ext. intros [k x]. cbn [fst snd]. now rewrite sort_strings.
Qed.

Definition block_dict (b : block) : dict json := map (fun kv => (fst kv, json_of_strings (snd kv))) b.
Lemma json_of_block_eq b : json_of_block b = JObj (block_dict b).
Proof. reflexivity. Qed.
Lemma strings_json l : strings (json_of_strings l) = l.
Proof. unfold json_of_strings, strings. induction l as [|s l IH]; [reflexivity|]. cbn [map flat_map app]. now rewrite IH. Qed.
Lemma listed_block b : listed (block_dict b) = paths_of b.
Proof.
  unfold listed, block_dict, paths_of. induction b as [|[d l] b IH]; [reflexivity|]. cbn [map flat_map fst snd]. now rewrite IH, strings_json.
Qed.
Lemma In_block_dict b d x : In (d, x) (block_dict b) <-> exists l, x = json_of_strings l /\ In (d, l) b.
Proof.
  unfold block_dict. rewrite in_map_iff. split.
  - intros [[k l] [E Hi]]. cbn [fst snd] in E. injection E as <- <-. eauto.
  - intros (l & -> & Hi). exists (d, l). auto.
Qed.
Lemma keys_block_dict b : keys (block_dict b) = keys b.
Proof. apply (keys_map json_of_strings). Qed.
Lemma typed_block b : typed (block_dict b) = b.
Proof.
  unfold typed, block_dict. rewrite map_map. cbn [fst snd]. rewrite <- map_id. apply map_ext. intros [d l]. cbn [fst snd]. now rewrite strings_json.
Qed.
Lemma block_read b : block_of_json (json_of_block b) = Ok b.
Proof.
  rewrite json_of_block_eq, block_of_json_ok; [now rewrite typed_block|]. intros k x Hx. apply In_block_dict in Hx as (l & -> & _). now exists l.
Qed.
Lemma entries_read {A} (g : json -> exc A) (f : A -> json) d : (forall k x, In (k, x) d -> g (f x) = Ok x) -> entries_of_json g (entries f d) = Ok d.
Proof.
  intros Hg. unfold entries. apply entries_ok. induction d as [|[k x] d IH]; constructor; [cbn; split; [auto|]; apply (Hg k); now left|].
  apply IH. intros k' y Hy. apply (Hg k'). now right.
Qed.

Lemma dget_sorted k (d : dict json) : NoDup (keys d) ->
  dget k (isort key_leb (map (fun kv => (fst kv, sort_json (snd kv))) d)) = option_map sort_json (dget k d).
Proof. intros Hn. rewrite <- dget_map. symmetry. apply dget_perm; [now rewrite keys_map|apply isort_perm]. Qed.

(** ** Metadata *)

Definition user_ok (u : dict json) : Prop :=
  NoDup (keys u) /\ (exists n, In (`"name", JStr n) u) /\
  forall k x, In (k, x) u -> In k [`"name"; `"address"] /\ exists s, x = JStr s /\ text s.

Record block_ok (b : vblock) : Prop := {
  bk_created : exists c, vb_created b = Some c /\ r_created as_coded c /\ text c;
  bk_message : forall m, vb_message b = Some m -> text m;
  bk_user : forall u, vb_user b = Some u -> user_ok u;
  bk_other : vb_other b = []
}.

(** ** Paths *)

(** The strings are the paths of distinct files, none of which is in another one. *)
Record good_paths (ps : list str) : Prop := {
  gp_names : forall p, In p ps -> exists r, r <> [] /\ Forall fname r /\ p = join [PathModel.slash] r /\ text p;
  gp_nodup : NoDup ps;
  gp_apart : forall p q, In p ps -> In q ps -> ~ above p q
}.

Definition lower_digest (alg d : str) : Prop := exists n, digest_size alg n /\ List.length d = n /\ Forall lower_hex d.

Record state_good (alg : str) (m st : block) : Prop := {
  sg_keys : NoDup (keys st);
  sg_digests : forall d l, In (d, l) st -> exists c cs, In (d, c :: cs) m;
  sg_paths : good_paths (paths_of st)
}.

Definition content_name (n : nat) (cdir p : str) : Prop :=
  exists v r, In v (names None n) /\ r <> [] /\ Forall fname r /\ (forall c, In c r -> ~ In newline c) /\
    p = join [PathModel.slash] (v :: cdir :: r).

Record sound (alg spec : str) (n : nat) (i : inventory) : Prop := {
  so_id : exists x, i_id i = Some x /\ x <> [] /\ text x;
  so_type : i_type i = Some (`"https://ocfl.io/" ++ spec ++ `"/spec/#inventory");
  so_spec : In spec [`"1.0"; `"1.1"];
  so_alg : i_alg i = Some alg;
  so_algs : In alg [`"sha512"; `"sha256"];
  so_cdir : fname (content_directory_to_use i) /\ text (content_directory_to_use i);
  so_range : (1 <= n)%nat /\ (N.of_nat n <= 99999)%N;
  so_head : i_head i = Some (version_fmt None (N.of_nat n));
  so_other : i_other i = [];
  so_versions : exists vs, i_versions i = Some vs /\ Permutation (keys vs) (names None n);
  so_blocks : forall vs v b, i_versions i = Some vs -> In (v, b) vs ->
    block_ok b /\ exists st, vb_state b = Some st /\ state_good alg (manifest i) st;
  so_manifest : exists m, i_manifest i = Some m;
  so_keys : NoDup (keys (manifest i));
  so_digests : forall d l, In (d, l) (manifest i) -> lower_digest alg d;
  so_paths : good_paths (paths_of (manifest i));
  so_content : forall p, In p (paths_of (manifest i)) -> content_name n (content_directory_to_use i) p;
  so_used : forall d c cs, In (d, c :: cs) (manifest i) -> exists v p, in_state i v d p;
  so_fixity : forall fx, i_fixity i = Some fx -> NoDup (keys fx) /\
    forall a b, In (a, b) fx -> NoDup (keys b) /\ (exists k, digest_size a k) /\
      forall d l, In (d, l) b -> lower_digest a d /\ incl l (paths_of (manifest i))
}.

(** ** The written inventory is the sorted one *)

Ltac names_differ := apply nodup_b_ok; vm_compute; reflexivity.

Section Top.
  Variables (i : inventory) (x t a hd : str) (m : block) (vs : dict vblock).
  Hypothesis (Ei : i_id i = Some x) (Et : i_type i = Some t) (Ea : i_alg i = Some a) (Eh : i_head i = Some hd)
    (Em : i_manifest i = Some m) (Ev : i_versions i = Some vs) (Eo : i_other i = []).

  Definition top : dict json :=
    [(`"id", JStr x); (`"type", JStr t); (`"digestAlgorithm", JStr a); (`"head", JStr hd)] ++
    opt_entry (`"contentDirectory") JStr (i_cdir i) ++
    [(`"manifest", json_of_block m); (`"versions", entries json_of_vblock vs)] ++
    opt_entry (`"fixity") (entries json_of_block) (i_fixity i).

  Lemma top_eq : json_of_inventory i = JObj top.
  Proof using All.
    unfold json_of_inventory, top. rewrite Ei, Et, Ea, Eh, Em, Ev, Eo. cbn [opt_entry app]. now rewrite app_nil_r.
  Qed.
  Lemma top_keys : NoDup (keys top).
  Proof using. unfold top. destruct (i_cdir i), (i_fixity i); cbn [opt_entry app keys map fst]; names_differ. Qed.
End Top.

Lemma dget_vblock b c st : vb_created b = Some c -> vb_state b = Some st -> vb_other b = [] ->
  exists d, json_of_vblock b = JObj d /\ NoDup (keys d) /\
    dget (`"created") d = Some (JStr c) /\ dget (`"message") d = option_map JStr (vb_message b) /\
    dget (`"user") d = option_map JObj (vb_user b) /\ dget (`"state") d = Some (json_of_block st) /\
    incl (keys d) [`"created"; `"message"; `"user"; `"state"].
Proof.
  intros Hc Hs Ho. eexists. split; [reflexivity|]. rewrite Hc, Hs, Ho.
  destruct (vb_message b), (vb_user b); cbn [opt_entry app keys map fst option_map];
    (split; [names_differ|]; repeat (split; [reflexivity|])); intros k Hk; cbn [In] in *; tauto.
Qed.

Lemma without_all ks (d : dict json) : incl (keys d) ks -> without ks d = [].
Proof.
  intros Hi. unfold without. induction d as [|[k x] d IH]; [reflexivity|]. cbn [filter fst].
  assert (E : str_in k ks = true) by (apply str_in_true, Hi; now left). rewrite E. cbn [negb]. apply IH.
  intros k' Hk'. apply Hi. now right.
Qed.

Lemma keys_sorted (d : dict json) ks : incl (keys d) ks -> incl (keys (isort key_leb (map (fun kv => (fst kv, sort_json (snd kv))) d))) ks.
Proof.
  intros Hi k Hk. apply Hi. rewrite <- (keys_map sort_json d). apply (Permutation_in _ (Permutation_sym (keys_isort _)) Hk).
Qed.

Lemma vblock_read b c st : vb_created b = Some c -> vb_state b = Some st -> vb_other b = [] ->
  vblock_of_json (sort_json (json_of_vblock b)) = Ok (sort_vblock b).
Proof.
  intros Hc Hs Ho. destruct (dget_vblock b c st Hc Hs Ho) as (d & -> & Hn & H1 & H2 & H3 & H4 & H5). cbn [sort_json].
  unfold vblock_of_json. cbn [object_of_json ebind]. unfold opt_member. rewrite !dget_sorted, H1, H2, H3, H4 by auto.
  cbn [option_map sort_json string_of_json ebind]. rewrite sort_block_json, block_read.
  rewrite (without_all _ _ (keys_sorted d _ H5)). unfold sort_vblock. rewrite Hc, Hs. cbn [option_map].
  destruct (vb_message b), (vb_user b); reflexivity.
Qed.

Lemma sort_entries {A} (f : A -> json) d (g : A -> A) : (forall k x, In (k, x) d -> sort_json (f x) = f (g x)) ->
  sort_json (entries f d) = entries f (sort_values g d).
Proof.
  intros Hg. unfold entries, sort_values. cbn [sort_json]. f_equal. rewrite map_map. cbn [fst snd]. rewrite <- isort_map. f_equal.
  rewrite map_map. cbn [fst snd]. apply map_ext_in. intros [k x] Hk. cbn [fst snd]. now rewrite (Hg k x Hk).
Qed.
(* the sorted form of a block is not again json_of_vblock of something in the same order *)
Lemma entries_sorted_read {A} (g : json -> exc A) (f : A -> json) (s : A -> A) d :
  (forall k x, In (k, x) d -> g (sort_json (f x)) = Ok (s x)) ->
  entries_of_json g (sort_json (entries f d)) = Ok (sort_values s d).
Proof.
  intros Hg. unfold entries. cbn [sort_json]. rewrite map_map. cbn [fst snd].
  rewrite (isort_map (fun x => sort_json (f x))). unfold sort_values. rewrite (isort_map s). apply entries_ok.
  assert (Hg' : forall k x, In (k, x) (isort key_leb d) -> g (sort_json (f x)) = Ok (s x)).
  { intros k x Hx. apply In_isort in Hx. eauto. }
  clear Hg. induction (isort key_leb d) as [|[k x] l IH]; constructor; [cbn; split; [auto|]; apply (Hg' k); now left|].
  apply IH. intros k' y Hy. apply (Hg' k'). now right.
Qed.

Section Sound.
  Variables (alg spec : str) (n : nat) (i : inventory).
  Hypothesis So : sound alg spec n i.

  Lemma sound_parts : exists x m vs, i_id i = Some x /\ i_manifest i = Some m /\ i_versions i = Some vs /\
    json_of_inventory i = JObj (top i x (`"https://ocfl.io/" ++ spec ++ `"/spec/#inventory") alg (version_fmt None (N.of_nat n)) m vs).
  Proof using So.
    destruct (so_id _ _ _ _ So) as (x & Hx & _). destruct (so_manifest _ _ _ _ So) as [m Hm]. destruct (so_versions _ _ _ _ So) as (vs & Hv & _).
    exists x, m, vs. split; [auto|]. split; [auto|]. split; [auto|]. apply top_eq; auto.
    - exact (so_type _ _ _ _ So).
    - exact (so_alg _ _ _ _ So).
    - exact (so_head _ _ _ _ So).
    - exact (so_other _ _ _ _ So).
  Qed.

  Lemma read_back : inventory_of_json (sort_json (json_of_inventory i)) = Ok (sort_inv i).
  Proof using So.
    destruct sound_parts as (x & m & vs & Hx & Hm & Hv & ->). set (t := `"https://ocfl.io/" ++ _). set (hd := version_fmt None (N.of_nat n)).
    cbn [sort_json]. unfold inventory_of_json. cbn [object_of_json ebind]. unfold opt_member. rewrite !dget_sorted by apply top_keys.
    assert (Ev : entries_of_json vblock_of_json (sort_json (entries json_of_vblock vs)) = Ok (sort_values sort_vblock vs)).
    { apply entries_sorted_read. intros k b Hb. destruct (so_blocks _ _ _ _ So vs k b Hv Hb) as (Bb & st & Hs & _).
      destruct (bk_created _ Bb) as (c & Hc & _). exact (vblock_read b c st Hc Hs (bk_other _ Bb)). }
    assert (Ef : forall fx, entries_of_json block_of_json (sort_json (entries json_of_block fx)) = Ok (sort_values sort_block fx)).
    { intros fx. apply entries_sorted_read. intros k b _. rewrite sort_block_json. apply block_read. }
    assert (G : forall j : dict json -> dict json, without
      [`"id"; `"type"; `"digestAlgorithm"; `"head"; `"contentDirectory"; `"manifest"; `"versions"; `"fixity"]
      (isort key_leb (map (fun kv => (fst kv, sort_json (snd kv))) (top i x t alg hd m vs))) = []).
    { intros _. apply without_all, keys_sorted. unfold top. intros k Hk. destruct (i_cdir i), (i_fixity i); cbn [opt_entry app keys map fst In] in *; tauto. }
    rewrite (G (fun d => d)). clear G. unfold sort_inv. rewrite Hx, (so_type _ _ _ _ So), (so_alg _ _ _ _ So), (so_head _ _ _ _ So), Hm, Hv.
    fold t hd.
    assert (D : forall k y, dget k (top i x t alg hd m vs) = y -> option_map sort_json (dget k (top i x t alg hd m vs)) = option_map sort_json y) by (intros k y <-; reflexivity).
    rewrite (D (`"id") (Some (JStr x)) eq_refl), (D (`"type") (Some (JStr t)) eq_refl), (D (`"digestAlgorithm") (Some (JStr alg)) eq_refl),
      (D (`"head") (Some (JStr hd)) eq_refl).
    assert (Ec : dget (`"contentDirectory") (top i x t alg hd m vs) = option_map JStr (i_cdir i)).
    { unfold top. destruct (i_cdir i), (i_fixity i); reflexivity. }
    assert (Em : dget (`"manifest") (top i x t alg hd m vs) = Some (json_of_block m)).
    { unfold top. destruct (i_cdir i), (i_fixity i); reflexivity. }
    assert (Evs : dget (`"versions") (top i x t alg hd m vs) = Some (entries json_of_vblock vs)).
    { unfold top. destruct (i_cdir i), (i_fixity i); reflexivity. }
    assert (Efx : dget (`"fixity") (top i x t alg hd m vs) = option_map (entries json_of_block) (i_fixity i)).
    { unfold top. destruct (i_cdir i), (i_fixity i); reflexivity. }
    rewrite (D _ _ Ec), (D _ _ Em), (D _ _ Evs), (D _ _ Efx). clear D Ec Em Evs Efx.
    cbn [option_map]. rewrite Ev, sort_block_json, block_read. cbn [sort_json string_of_json ebind].
    destruct (i_cdir i) as [cd|], (i_fixity i) as [fx|]; cbn [option_map sort_json string_of_json ebind]; try rewrite Ef; reflexivity.
  Qed.
End Sound.
