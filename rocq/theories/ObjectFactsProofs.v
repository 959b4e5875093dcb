(** What the written inventory says, as JSON, and what the inventory in memory says are the same. *)
From Coq Require Import Permutation Sorted.
From Verif Require Import Base Unicode Regex Utf8 Json PyJson JsonTextModel JsonTextSpec JsonTextProofs JsonFileProofs Log DigestModel LayoutModel LayoutProofs
  ObjectUtilsModel ObjectUtilsProofs InventorySpec InventoryValidatorModel InventoryValidatorProofs InventoryRulesProofs
  InventoryModel InventoryOpsSpec InventoryOpsProofs NewVersionModel NewVersionProofs NewVersionOpsProofs VersionNumberProofs InventoryParseProofs ParseModel
  ContentPathProofs TextFile PathModel FsModel FsSpec FsProofs FswModel FswSpec FswProofs FswCopyProofs ValidatorSpec ValidatorBasicProofs ObjectModel ObjectSpec ObjectInvProofs ObjectRulesProofs
  ObjectParseProofs ObjectAddProofs ContentNameProofs ObjectGrowProofs ObjectStartProofs.

(** A digest in the state of version v. *)
Definition state_key (i : inventory) (v d : str) : Prop := exists s l, state_block i v s /\ In (d, l) s.
(** The fixity block has the path under the digest. *)
Definition fixed (i : inventory) (a d p : str) : Prop :=
  exists fx b, i_fixity i = Some fx /\ In (a, b) fx /\ block_has b d p.

Lemma member_dict d k y : member (JObj d) k y -> NoDup (keys d) -> dget k d = Some y.
Proof. intros (d' & E & Hi) Hn. injection E as <-. now apply In_dget. Qed.
Lemma member_sorted_inv d k y : NoDup (keys d) -> member (sort_json (JObj d)) k y -> exists x, dget k d = Some x /\ y = sort_json x.
Proof.
  intros Hn (d' & E & Hi). cbn [sort_json] in E. injection E as <-. apply In_dget in Hi.
  - rewrite dget_sorted in Hi by auto. destruct (dget k d) as [x|]; [|discriminate]. injection Hi as <-. eauto.
  - eapply Permutation_NoDup; [apply keys_isort|]. now rewrite keys_map.
Qed.

Lemma in_state_block i v d p : in_state i v d p <-> exists s, state_block i v s /\ block_has s d p.
Proof.
  unfold in_state, state_block, block_has. split.
  - intros (vs & b & st & l & A & B & C & D & E). exists st. split; eauto.
  - intros (st & (vs & b & A & B & C) & l & D & E). exists vs, b, st, l. auto.
Qed.

Section Facts.
  Variables (alg spec : str) (n : nat) (i : inventory).
  Hypothesis So : sound alg spec n i.
  Let j := sort_json (json_of_inventory i).

  Lemma member_top k : exists x m vs,
    let t := top i x (`"https://ocfl.io/" ++ spec ++ `"/spec/#inventory") alg (version_fmt None (N.of_nat n)) m vs in
    i_id i = Some x /\ i_manifest i = Some m /\ i_versions i = Some vs /\
    forall y, member j k y <-> exists x, dget k t = Some x /\ y = sort_json x.
  Proof using So.
    destruct (sound_parts alg spec n i So) as (x & m & vs & Hx & Hm & Hv & Ej). exists x, m, vs.
    cbv zeta. split; [auto|]. split; [auto|]. split; [auto|]. intros y. unfold j. rewrite Ej. split.
    - intros Hy. apply member_sorted_inv in Hy; [auto|apply top_keys].
    - intros (z & Hz & ->). apply member_sorted; [apply top_keys|auto].
  Qed.

  Lemma member_manifest y : member j (`"manifest") y <-> y = JObj (block_dict (sort_block (manifest i))).
  Proof using So.
    destruct (member_top (`"manifest")) as (x & m & vs & Hx & Hm & Hv & E). rewrite E. unfold manifest. rewrite Hm.
    set (t := top _ _ _ _ _ _ _) in *. assert (D : dget (`"manifest") t = Some (json_of_block m)).
    { unfold t, top. destruct (i_cdir i), (i_fixity i); reflexivity. }
    rewrite D. cbn [or_empty]. split.
    - intros (z & Hz & ->). apply Some_inv in Hz. subst z. now rewrite sort_block_json.
    - intros ->. eexists. split; [reflexivity|]. now rewrite sort_block_json.
  Qed.

  Lemma member_head y : member j (`"head") y <-> y = JStr (version_fmt None (N.of_nat n)).
  Proof using So.
    destruct (member_top (`"head")) as (x & m & vs & Hx & Hm & Hv & E). rewrite E.
    set (t := top _ _ _ _ _ _ _) in *. assert (D : dget (`"head") t = Some (JStr (version_fmt None (N.of_nat n)))) by reflexivity.
    rewrite D. split; [intros (z & Hz & ->); apply Some_inv in Hz; now subst z|intros ->; now eexists].
  Qed.

  Lemma state_of_json v st : state_of j v st <-> exists s, state_block i v s /\ st = block_dict (sort_block s).
  Proof using So.
    destruct (member_top (`"versions")) as (x & m & vs & Hx & Hm & Hv & E).
    set (t := top _ _ _ _ _ _ _) in *. assert (D : dget (`"versions") t = Some (entries json_of_vblock vs)).
    { unfold t, top. destruct (i_cdir i), (i_fixity i); reflexivity. }
    assert (S : forall b, In b (map snd vs) -> exists s, vb_state b = Some s /\ forall y, member (sort_json (json_of_vblock b)) (`"state") y <-> y = JObj (block_dict (sort_block s))).
    { intros b Hb. apply in_map_iff in Hb as ([v' b'] & <- & Hb). cbn [snd]. destruct (so_blocks _ _ _ _ So vs v' b' Hv Hb) as (Bb & s & Hs & _).
      exists s. split; [auto|]. destruct (bk_created _ Bb) as (c & Hc & _). destruct (dget_vblock b' c s Hc Hs (bk_other _ Bb)) as (d & -> & Hn & _ & _ & _ & H4 & _).
      intros y. split.
      - intros Hy. apply member_sorted_inv in Hy as (z & Hz & ->); [|auto]. rewrite H4 in Hz. apply Some_inv in Hz. subst z. now rewrite sort_block_json.
      - intros ->. pose proof (member_sorted d _ _ Hn H4) as Ms. now rewrite sort_block_json in Ms. }
    unfold state_of, state_block. rewrite Hv. split.
    - intros (d & b & Hd & Hb & Hs). apply E in Hd as (z & Hz & Hd). rewrite D in Hz. apply Some_inv in Hz. subst z. unfold entries in Hd. cbn [sort_json] in Hd.
      injection Hd as ->. rewrite map_map in Hb. cbn [fst snd] in Hb. apply In_isort, in_map_iff in Hb as ([v' b0] & F & Hb). cbn [fst snd] in F. injection F as -> <-.
      destruct (S b0) as (s & Es & Is); [apply in_map_iff; now exists (v, b0)|]. apply Is in Hs. injection Hs as ->. exists s. split; [|auto]. eauto.
    - intros (s & (vs' & b & Hvs & Hb & Hs) & ->). apply Some_inv in Hvs. subst vs'. destruct (S b) as (s' & Es & Is); [apply in_map_iff; now exists (v, b)|].
      assert (s = s') by (rewrite Hs in Es; now apply Some_inv in Es). subst s'. eexists _, (sort_json (json_of_vblock b)). split; [apply E; eexists; split; [exact D|reflexivity]|].
      split; [|now apply Is]. rewrite map_map. cbn [fst snd]. apply In_isort, in_map_iff. exists (v, b). auto.
  Qed.

  Lemma lists_block b d p : lists (block_dict (sort_block b)) d p <-> block_has b d p.
  Proof using.
    unfold lists, block_has. split.
    - intros (x & Hx & Hp). apply In_block_dict in Hx as (l & -> & Hl). apply (proj1 (In_sort_block _ _)) in Hl. rewrite strings_json in Hp. eauto.
    - intros (l & Hl & Hp). exists (json_of_strings l). rewrite strings_json. split; [|auto]. apply In_block_dict. exists l. split; [auto|]. now apply (proj2 (In_sort_block _ _)).
  Qed.

  Lemma has_path_json v p : has_path j v p <-> in_version i v p.
  Proof using So.
    unfold has_path, in_version. split.
    - intros (st & Hs & Hp). apply state_of_json in Hs as (s & Hs & ->). rewrite listed_block in Hp. apply (proj1 (In_paths_sorted _ _)), In_paths_of in Hp as (d & Hd).
      exists d. apply in_state_block. eauto.
    - intros (d & Hd). apply in_state_block in Hd as (s & Hs & Hd). exists (block_dict (sort_block s)). split; [apply state_of_json; eauto|].
      rewrite listed_block. apply (proj2 (In_paths_sorted _ _)), In_paths_of. eauto.
  Qed.
  Lemma has_digest_json v d : has_digest j v d <-> state_key i v d.
  Proof using So.
    unfold has_digest, state_key. split.
    - intros (st & x & Hs & Hx). apply state_of_json in Hs as (s & Hs & ->). apply In_block_dict in Hx as (l & -> & Hl). apply (proj1 (In_sort_block _ _)) in Hl. eauto.
    - intros (s & l & Hs & Hl). exists (block_dict (sort_block s)), (json_of_strings l). split; [apply state_of_json; eauto|].
      apply In_block_dict. exists l. split; [auto|]. now apply (proj2 (In_sort_block _ _)).
  Qed.
  Lemma content_file_json v p c : content_file j v p c <-> resolves i v p c.
  Proof using So.
    unfold content_file, resolves. split.
    - intros (st & man & d & x & y & Hs & Hm & Hx & Hp & Hy & Hc). apply state_of_json in Hs as (s & Hs & ->). apply member_manifest in Hm. injection Hm as ->.
      exists d. split.
      + apply in_state_block. exists s. split; [auto|]. apply lists_block. now exists x.
      + apply stored_iff, lists_block. now exists y.
    - intros (d & Hd & Hc). apply in_state_block in Hd as (s & Hs & Hd). apply stored_iff in Hc. apply lists_block in Hd as (x & Hx & Hp). apply lists_block in Hc as (y & Hy & Hc).
      exists (block_dict (sort_block s)), (block_dict (sort_block (manifest i))), d, x, y.
      split; [apply state_of_json; eauto|]. split; [now apply member_manifest|auto].
  Qed.
  Lemma lists_manifest d p : lists (f_manifest (facts_of alg spec n i)) d p <-> stored i d p.
  Proof using. unfold facts_of; cbn [f_manifest]. rewrite lists_block, stored_iff. reflexivity. Qed.
  Lemma listed_manifest p : In p (listed (f_manifest (facts_of alg spec n i))) <-> In p (paths_of (manifest i)).
  Proof using. unfold facts_of; cbn [f_manifest]. rewrite listed_block. apply In_paths_sorted. Qed.

  Lemma fixity_json a d p : fixity_lists j a d p -> fixed i a d p.
  Proof using So.
    destruct (member_top (`"fixity")) as (x & m & vs & Hx & Hm & Hv & E).
    set (t := top _ _ _ _ _ _ _) in *. assert (D : dget (`"fixity") t = option_map (entries json_of_block) (i_fixity i)).
    { unfold t, top. destruct (i_cdir i), (i_fixity i); reflexivity. }
    intros (fx & b & Hf & Hb & Hl). apply E in Hf as (z & Hz & Hf). rewrite D in Hz. destruct (i_fixity i) as [fx0|] eqn:Ef; [|discriminate].
    cbn [option_map] in Hz. apply Some_inv in Hz. subst z. rewrite (sort_entries json_of_block fx0 sort_block) in Hf by (intros; apply sort_block_json).
    unfold entries in Hf. injection Hf as ->. apply in_map_iff in Hb as ([a' b0] & F & Hb). cbn [fst snd] in F. injection F as -> <-.
    apply In_sort_values in Hb as (b1 & Hb & ->). exists fx0, b1. split; [auto|]. split; [auto|]. now apply lists_block.
  Qed.
End Facts.
