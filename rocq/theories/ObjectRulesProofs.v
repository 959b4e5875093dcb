(** Sound inventories can be written, obey the rules and are read back (C34-C36). *)
From Coq Require Import Permutation Sorted.
From Verif Require Import Base Unicode Regex Utf8 Json PyJson JsonTextModel JsonTextSpec JsonTextProofs JsonFileProofs Log DigestModel
  ObjectUtilsModel ObjectUtilsProofs InventorySpec InventoryValidatorModel InventoryValidatorProofs InventoryRulesProofs
  InventoryModel InventoryOpsSpec InventoryOpsProofs NewVersionModel NewVersionProofs VersionNumberProofs InventoryParseProofs ParseModel
  PathModel FsModel FsSpec FsProofs ObjectModel ObjectSpec ObjectInvProofs.

(** ** Texts *)

Lemma text_ascii s : Forall (fun c => (c < 128)%N) s -> text s.
Proof.
  induction 1 as [|c s H _ IH]; [exact I|]. cbn [text]. split; [lia|]. split; [|auto]. destruct s; [exact I|].
  unfold high_surrogate. lia.
Qed.
Lemma text_app a b : text a -> text b -> (match b with c :: _ => (c < 128)%N | [] => True end) -> text (a ++ b).
Proof.
  intros Ha Hb Hc. induction a as [|x a IH]; [auto|]. cbn [text app] in *. destruct Ha as (H1 & H2 & H3). split; [auto|]. split; [|auto].
  destruct a as [|y a]; [|auto]. cbn [app]. destruct b; [exact I|]. unfold low_surrogate. lia.
Qed.
Lemma text_join l : Forall text l -> text (join [PathModel.slash] l).
Proof.
  induction 1 as [|a l Ha Hl IH]; [exact I|]. destruct l as [|b l]; [exact Ha|]. rewrite join_cons by discriminate.
  apply text_app; [auto| |cbn; unfold PathModel.slash; lia]. cbn [app text]. split; [unfold PathModel.slash; lia|]. split; [|auto].
  destruct (join [PathModel.slash] (b :: l)); [exact I|]. unfold high_surrogate, PathModel.slash. lia.
Qed.
Lemma text_version n : text (version_fmt None n).
Proof.
  apply text_ascii. cbn [version_fmt]. apply Forall_app. split; [repeat constructor|]. eapply Forall_impl; [|apply str_of_N_digits].
  intros c Hc. apply digit_char in Hc. cbn beta. lia.
Qed.
Lemma text_lit_key k : In k [`"id"; `"type"; `"digestAlgorithm"; `"head"; `"contentDirectory"; `"manifest"; `"versions"; `"fixity"; `"created"; `"message"; `"user"; `"state"; `"name"; `"address"; `"sha512"; `"sha256"; `"sha1"; `"md5"; `"blake2b-512"; `"blake2b-384"; `"blake2b-256"; `"blake2b-160"] -> text k.
Proof.
  intros Hk. apply text_ascii. cbn [In] in Hk.
  repeat (destruct Hk as [<-|Hk]; [repeat (constructor; [vm_compute; reflexivity|]); constructor|]). destruct Hk.
Qed.
Lemma text_alg a k : digest_size a k -> text a.
Proof. intros Hd. apply text_lit_key. destruct Hd; cbn [In]; tauto. Qed.

(** ** Digests *)

Lemma lower_digest_text alg d : lower_digest alg d -> text d.
Proof. intros (n & _ & _ & Hf). apply text_ascii. eapply Forall_impl; [|exact Hf]. intros c Hc. unfold lower_hex in Hc. cbn beta. lia. Qed.
Lemma lower_digest_ok alg d : lower_digest alg d -> r_digest as_coded alg d.
Proof.
  intros (n & Hn & Hl & Hf). exists d. split; [now left|]. left. exists n. split; [auto|]. split; [auto|].
  eapply Forall_impl; [|exact Hf]. unfold lower_hex, hex. intros c Hc. lia.
Qed.
Lemma lower_same alg d d' : lower_digest alg d -> lower_digest alg d' -> same_ci d d' -> d = d'.
Proof.
  intros (n & _ & _ & Hf) (n' & _ & _ & Hf') Hs. induction Hs as [|x y d d' Hxy Hs IH]; [reflexivity|].
  inversion Hf; inversion Hf'; subst. f_equal; [|auto]. unfold same_letter, lower_hex in *. lia.
Qed.
Lemma lower_id s : Forall lower_hex s -> lower s = s.
Proof.
  induction 1 as [|c s Hc _ IH]; [reflexivity|]. unfold lower in *. cbn [map]. rewrite IH. f_equal. unfold lower_hex in Hc. unfold lower_char.
  destruct (_ && _) eqn:E; [|reflexivity]. apply andb_true_iff in E as [E1 E2]. apply N.leb_le in E1, E2. lia.
Qed.

(** ** Paths *)

Lemma names_split r : Forall fname r -> r <> [] -> split_on PathModel.slash (join [PathModel.slash] r) = r.
Proof. intros Hf Hr. apply split_join; [auto|]. rewrite Forall_forall in Hf. intros e He. apply Hf, He. Qed.
Lemma names_join_inj r r' : Forall fname r -> Forall fname r' -> r <> [] -> r' <> [] ->
  join [PathModel.slash] r = join [PathModel.slash] r' -> r = r'.
Proof. intros H1 H2 N1 N2 E. rewrite <- (names_split r), <- (names_split r') by auto. now rewrite E. Qed.
Lemma names_plain r : Forall fname r -> r <> [] -> plain_path (join [PathModel.slash] r).
Proof.
  intros Hf Hr. exists r. split; [apply elements_split; symmetry; now apply names_split|].
  eapply Forall_impl; [|exact Hf]. intros c (H1 & H2 & H3 & _). unfold plain. auto.
Qed.
Lemma slash_cut (a b x y : str) : ~ In slash a -> ~ In slash b -> a ++ slash :: x = b ++ slash :: y -> a = b /\ x = y.
Proof.
  revert b. induction a as [|c a IH]; intros [|d b] Ha Hb E; cbn [app] in E.
  - injection E as ->. auto.
  - injection E as <- _. exfalso. apply Hb. now left.
  - injection E as -> _. exfalso. apply Ha. now left.
  - injection E as -> E. destruct (IH b) as [-> ->]; auto; intros H; [apply Ha|apply Hb]; now right.
Qed.
Lemma first_line_self (s l : str) : ~ In newline s -> first_line s l -> l = s.
Proof.
  intros Hs [_ [->|[r ->]]]; [reflexivity|]. exfalso. apply Hs. apply in_or_app. right. now left.
Qed.
Lemma join_In c l x : In x (join [c] l) -> x = c \/ exists e, In e l /\ In x e.
Proof.
  induction l as [|a l IH]; [intros []|]. destruct l as [|b l]; [intros H; right; exists a; split; [now left|auto]|].
  rewrite join_cons by discriminate. intros H. apply in_app_or in H as [H|H]; [right; exists a; split; [now left|auto]|].
  cbn [app In] in H. destruct H as [->|H]; [now left|]. destruct (IH H) as [->|(e & He & Hx)]; [now left|]. right. exists e. split; [now right|auto].
Qed.
Lemma join_no_newline r : (forall c, In c r -> ~ In newline c) -> ~ In newline (join [PathModel.slash] r).
Proof. intros Hn H. apply join_In in H as [H|(e & He & H)]; [discriminate|]. exact (Hn e He H). Qed.
Lemma join_not_slash r x : Forall fname r -> join [PathModel.slash] r <> x ++ [slash].
Proof.
  intros Hf E. destruct r as [|a r0] using rev_ind; [destruct x; discriminate|]. apply Forall_app in Hf as [_ Ha]. apply Forall_inv in Ha.
  assert (exists y, join [PathModel.slash] (r0 ++ [a]) = y ++ a).
  { destruct r0 as [|b r0]; [exists []; reflexivity|]. rewrite join_snoc by discriminate. exists (join [PathModel.slash] (b :: r0) ++ [PathModel.slash]). now rewrite <- app_assoc. }
  destruct H as [y Hy]. rewrite Hy in E. destruct Ha as (Ha & _ & _ & Hs). destruct a as [|c a] using rev_ind; [congruence|].
  rewrite app_assoc in E. apply app_inj_tail in E as [_ ->]. apply Hs. apply in_or_app. right. now left.
Qed.
Lemma version_fname k : fname (version_fmt None k).
Proof.
  cbn [version_fmt]. split; [discriminate|]. split; [intros E; discriminate E|]. split; [intros E; discriminate E|].
  intros H. apply in_app_or in H as [H|H]; [destruct H as [H|[]]; discriminate|].
  pose proof (str_of_N_digits k) as D. rewrite Forall_forall in D. specialize (D _ H). discriminate.
Qed.
Lemma names_fname n v : In v (names None n) -> fname v.
Proof. intros H. apply In_names in H as (k & _ & ->). apply version_fname. Qed.

(** ** Version directories in any order *)

Lemma sorted_unique {A} (le : A -> A -> bool) l : forall l',
  StronglySorted (fun a b => le a b = true) l -> StronglySorted (fun a b => le a b = true) l' -> Permutation l l' ->
  (forall a b, In a l -> In b l -> le a b = true -> le b a = true -> a = b) -> l = l'.
Proof.
  induction l as [|a l IH]; intros l' Hs Hs' Hp Ha.
  - apply Permutation_nil in Hp. now subst.
  - destruct l' as [|b l']; [apply Permutation_sym, Permutation_nil in Hp; discriminate|].
    apply StronglySorted_inv in Hs as [Hs Hl], Hs' as [Hs' Hl']. rewrite Forall_forall in Hl, Hl'.
    assert (E : a = b).
    { assert (Ia : In a (b :: l')) by (apply (Permutation_in _ Hp); now left).
      assert (Ib : In b (a :: l)) by (apply (Permutation_in _ (Permutation_sym Hp)); now left).
      destruct Ia as [->|Ia]; [auto|]. destruct Ib as [->|Ib]; [auto|]. apply Ha; [now left|now right|auto|auto]. }
    subst b. f_equal. apply IH; auto.
    + now apply Permutation_cons_inv in Hp.
    + intros x y Hx Hy. apply Ha; now right.
Qed.

Lemma directories_perm i m : Permutation (keys (versions_block i)) (names None m) -> (N.of_nat m <= 99999)%N ->
  version_directories i = Ok (names None m).
Proof.
  intros Hk Hw. pose proof Hk as Hk0. unfold version_directories.
  assert (P : forall v, In v (names None m) -> exists k, (k < m)%nat /\ v = version_fmt None (N.of_nat k + 1) /\ parse_version_directory v = Ok (N.of_nat k + 1)%N).
  { intros v Hv. apply In_names in Hv as (k & Hl & ->). exists k. split; [auto|]. split; [auto|]. apply number_parse, fmt_number; [lia|]. cbn. lia. }
  assert (E : exists l, emap (fun v => let* n := parse_version_directory v in Ok (n, v)) (keys (versions_block i)) = Ok l /\
     Permutation l (map (fun k => ((N.of_nat k + 1)%N, version_fmt None (N.of_nat k + 1))) (seq 0 m))).
  { assert (F : forall ks, (forall v, In v ks -> In v (names None m)) -> exists l, emap (fun v => let* n := parse_version_directory v in Ok (n, v)) ks = Ok l /\
        map snd l = ks /\ forall x, In x l -> exists k, x = ((N.of_nat k + 1)%N, version_fmt None (N.of_nat k + 1))).
    { induction ks as [|v ks IH]; intros Hks; [exists []; repeat split; auto; intros x []|]. destruct IH as (l & E & Es & Hl); [intros; apply Hks; now right|].
      destruct (P v (Hks v (or_introl eq_refl))) as (k & _ & Ev & Ep). exists ((N.of_nat k + 1, v)%N :: l). cbn [emap]. rewrite Ep. cbn [ebind]. rewrite E. cbn [ebind].
      split; [reflexivity|]. cbn [map snd]. split; [now rewrite Es|]. intros x [<-|Hx]; [exists k; now rewrite Ev|auto]. }
    destruct (F (keys (versions_block i))) as (l & E & Es & Hl); [intros v; apply Permutation_in, Hk|]. exists l. split; [auto|].
    apply NoDup_Permutation.
    - apply (NoDup_map_inv snd). rewrite Es. eapply Permutation_NoDup; [apply Permutation_sym, Hk|apply names_NoDup].
    - apply FinFun.Injective_map_NoDup; [|apply seq_NoDup]. intros a b E'. injection E' as E' _. lia.
    - intros [a v]. rewrite in_map_iff. split.
      + intros Hx. pose proof (Hl _ Hx) as [k Ek]. injection Ek as -> ->. exists k. split; [auto|]. apply in_seq. split; [lia|].
        assert (Hv : In (version_fmt None (N.of_nat k + 1)) (names None m)). { apply (Permutation_in _ Hk). rewrite <- Es. apply (in_map snd _ _ Hx). }
        apply In_names in Hv as (k' & Hl' & E'). apply version_fmt_inj in E'. lia.
      + intros (k & Ek & Hs). injection Ek as <- <-. apply in_seq in Hs.
        assert (Hv : In (version_fmt None (N.of_nat k + 1)) (map snd l)). { rewrite Es. apply (Permutation_in _ (Permutation_sym Hk)). apply In_names. exists k. split; [lia|auto]. }
        apply in_map_iff in Hv as ([b v'] & E' & Hx). cbn [snd] in E'. subst v'. pose proof (Hl _ Hx) as [k' Ek']. injection Ek' as -> E'. apply str_of_N_inj in E'.
        assert (k = k') by lia. subst k'. exact Hx. }
  destruct E as (l & -> & Pl). cbn [ebind]. f_equal.
  assert (I : isort (fun a b : N * str => (fst a <=? fst b)%N) l = map (fun k => ((N.of_nat k + 1)%N, version_fmt None (N.of_nat k + 1))) (seq 0 m)).
  { apply (sorted_unique (fun a b : N * str => (fst a <=? fst b)%N)).
    - apply isort_sorted; intros; [destruct (N.leb_spec (fst a) (fst b)); auto; right; apply N.leb_le; lia|].
      apply N.leb_le in H, H0. apply N.leb_le. lia.
    - generalize 0%nat. clear. induction m as [|m IH]; intros s; [constructor|]. cbn [seq map]. constructor; [apply IH|].
      apply Forall_forall. intros x Hx. apply in_map_iff in Hx as (k & <- & Hk). apply in_seq in Hk. cbn [fst]. apply N.leb_le. lia.
    - eapply Permutation_trans; [apply Permutation_sym, isort_perm|exact Pl].
    - intros [a x] [b y] Hx Hy E1 E2. cbn [fst] in E1, E2. apply N.leb_le in E1, E2. assert (a = b) by lia. subst b.
      apply In_isort, (Permutation_in _ Pl), in_map_iff in Hx as (k & Ex & _). apply In_isort, (Permutation_in _ Pl), in_map_iff in Hy as (k' & Ey & _).
      injection Ex as Ea <-. injection Ey as Eb <-. assert (k = k') by lia. now subst. }
  rewrite I, map_map. reflexivity.
Qed.

(** ** Sorting keeps what matters *)

Lemma sort_block_perm b : Permutation (sort_block b) b.
Proof. apply Permutation_sym, isort_perm. Qed.
Lemma In_sort_block b x : In x (sort_block b) <-> In x b.
Proof. apply In_isort. Qed.
Lemma paths_sorted b : Permutation (paths_of (sort_block b)) (paths_of b).
Proof. apply Permutation_flat_map, sort_block_perm. Qed.
Lemma In_paths_sorted b p : In p (paths_of (sort_block b)) <-> In p (paths_of b).
Proof. split; apply Permutation_in; [|apply Permutation_sym]; apply paths_sorted. Qed.
Lemma keys_sort_block b : NoDup (keys b) -> NoDup (keys (sort_block b)).
Proof. intros H. eapply Permutation_NoDup; [|exact H]. apply (keys_isort b). Qed.
Lemma In_sort_values {A} (f : A -> A) d k y : In (k, y) (sort_values f d) <-> exists x, In (k, x) d /\ y = f x.
Proof.
  unfold sort_values. rewrite In_isort, in_map_iff. split.
  - intros ([k' x] & E & Hi). cbn [fst snd] in E. injection E as <- <-. eauto.
  - intros (x & Hi & ->). exists (k, x). auto.
Qed.
Lemma keys_sort_values {A} (f : A -> A) d : Permutation (keys (sort_values f d)) (keys d).
Proof. unfold sort_values. eapply Permutation_trans; [apply Permutation_sym, keys_isort|]. now rewrite keys_map. Qed.
Lemma good_paths_perm ps qs : Permutation ps qs -> good_paths ps -> good_paths qs.
Proof.
  intros P [H1 H2 H3]. assert (I : forall p, In p qs -> In p ps) by (intros p; apply Permutation_in, Permutation_sym, P).
  constructor; [auto| |auto]. eapply Permutation_NoDup; eauto.
Qed.
Lemma sort_user_ok u : user_ok u -> user_ok (sort_user u).
Proof.
  intros (H1 & (n & H2) & H3). unfold sort_user. split; [|split].
  - eapply Permutation_NoDup; [apply keys_isort|]. now rewrite keys_map.
  - exists n. apply In_isort. apply in_map_iff. exists (`"name", JStr n). auto.
  - intros k x Hx. apply In_isort, in_map_iff in Hx as ([k' y] & E & Hi). cbn [fst snd] in E. injection E as <- <-. destruct (H3 k' y Hi) as (Hk & s & -> & Ht).
    split; [auto|]. exists s. auto.
Qed.
Lemma sort_vblock_ok b : block_ok b -> block_ok (sort_vblock b).
Proof.
  intros [H1 H2 H3 H4]. constructor; cbn [sort_vblock vb_created vb_message vb_user vb_other]; auto.
  intros u Hu. destruct (vb_user b) as [u0|]; [|discriminate]. injection Hu as <-. apply sort_user_ok. auto.
Qed.

Lemma manifest_sorted i : manifest (sort_inv i) = sort_block (manifest i).
Proof. unfold manifest, sort_inv. cbn [i_manifest]. destruct (i_manifest i); reflexivity. Qed.
Lemma versions_sorted i : versions_block (sort_inv i) = sort_values sort_vblock (versions_block i).
Proof. unfold versions_block, sort_inv. cbn [i_versions]. destruct (i_versions i); reflexivity. Qed.

Lemma in_state_sorted i v d p : in_state (sort_inv i) v d p <-> in_state i v d p.
Proof.
  unfold in_state, sort_inv. cbn [i_versions]. split.
  - intros (vs & b & st & l & Hv & Hb & Hs & Hd & Hp). destruct (i_versions i) as [vs0|]; [|discriminate]. injection Hv as <-.
    apply In_sort_values in Hb as (b0 & Hb & ->). cbn [sort_vblock vb_state] in Hs. destruct (vb_state b0) as [st0|] eqn:E; [|discriminate]. injection Hs as <-.
    apply (proj1 (In_sort_block _ _)) in Hd. exists vs0, b0, st0, l. auto 10.
  - intros (vs & b & st & l & Hv & Hb & Hs & Hd & Hp). rewrite Hv. exists (sort_values sort_vblock vs), (sort_vblock b), (sort_block st), l.
    split; [reflexivity|]. split; [apply In_sort_values; eauto|]. cbn [sort_vblock vb_state]. rewrite Hs. split; [reflexivity|]. split; [now apply (proj2 (In_sort_block _ _))|auto].
Qed.
Lemma stored_sorted i d c : stored (sort_inv i) d c <-> stored i d c.
Proof.
  rewrite !stored_iff, manifest_sorted. unfold block_has. split; intros (l & Hl & Hc); exists l; (split; [|auto]).
  - now apply (proj1 (In_sort_block _ _)).
  - now apply (proj2 (In_sort_block _ _)).
Qed.

Lemma sound_sorted alg spec n i : sound alg spec n i -> sound alg spec n (sort_inv i).
Proof.
  intros So. constructor; try (exact (so_id _ _ _ _ So) || exact (so_type _ _ _ _ So) || exact (so_spec _ _ _ _ So) || exact (so_alg _ _ _ _ So) ||
    exact (so_algs _ _ _ _ So) || exact (so_cdir _ _ _ _ So) || exact (so_range _ _ _ _ So) || exact (so_head _ _ _ _ So)).
  - reflexivity.
  - destruct (so_versions _ _ _ _ So) as (vs & Hv & P). exists (sort_values sort_vblock vs). unfold sort_inv. cbn [i_versions]. rewrite Hv. split; [reflexivity|].
    eapply Permutation_trans; [apply keys_sort_values|exact P].
  - intros vs v b Hv Hb. unfold sort_inv in Hv. cbn [i_versions] in Hv. destruct (i_versions i) as [vs0|] eqn:E; [|discriminate]. injection Hv as <-.
    apply In_sort_values in Hb as (b0 & Hb & ->). destruct (so_blocks _ _ _ _ So vs0 v b0 E Hb) as (Hok & st & Hs & Hg). split; [now apply sort_vblock_ok|].
    exists (sort_block st). cbn [sort_vblock vb_state]. rewrite Hs. split; [reflexivity|]. rewrite manifest_sorted. destruct Hg as [G1 G2 G3]. constructor.
    + now apply keys_sort_block.
    + intros d l Hd. apply (proj1 (In_sort_block _ _)) in Hd. destruct (G2 d l Hd) as (c & cs & Hc). exists c, cs. now apply In_sort_block.
    + eapply good_paths_perm; [apply Permutation_sym, paths_sorted|auto].
  - destruct (so_manifest _ _ _ _ So) as [m Hm]. exists (sort_block m). unfold sort_inv. cbn [i_manifest]. now rewrite Hm.
  - rewrite manifest_sorted. apply keys_sort_block, (so_keys _ _ _ _ So).
  - intros d l. rewrite manifest_sorted, In_sort_block. apply (so_digests _ _ _ _ So).
  - rewrite manifest_sorted. eapply good_paths_perm; [apply Permutation_sym, paths_sorted|apply (so_paths _ _ _ _ So)].
  - intros p. rewrite manifest_sorted, In_paths_sorted. apply (so_content _ _ _ _ So).
  - intros d c cs. rewrite manifest_sorted, In_sort_block. intros Hd. destruct (so_used _ _ _ _ So d c cs Hd) as (v & p & Hs). exists v, p. now apply in_state_sorted.
  - intros fx Hf. unfold sort_inv in Hf. cbn [i_fixity] in Hf. destruct (i_fixity i) as [fx0|] eqn:E; [|discriminate]. injection Hf as <-.
    destruct (so_fixity _ _ _ _ So fx0 E) as [F1 F2]. split; [eapply Permutation_NoDup; [apply Permutation_sym, keys_sort_values|auto]|].
    intros a b Hb. apply In_sort_values in Hb as (b0 & Hb & ->). destruct (F2 a b0 Hb) as (G1 & G2 & G3). split; [now apply keys_sort_block|]. split; [auto|].
    intros d l Hd. apply (proj1 (In_sort_block _ _)) in Hd. destruct (G3 d l Hd) as [K1 K2]. split; [auto|]. intros p Hp. rewrite manifest_sorted. apply In_paths_sorted, K2, Hp.
Qed.

(** ** Writing and the rules *)

Lemma member_sorted d k x : NoDup (keys d) -> dget k d = Some x -> member (sort_json (JObj d)) k (sort_json x).
Proof.
  intros Hn Hd. cbn [sort_json]. eexists. split; [reflexivity|]. apply dget_In. rewrite dget_sorted by auto. now rewrite Hd.
Qed.
Lemma lacks_sorted d k : NoDup (keys d) -> dget k d = None -> lacks (sort_json (JObj d)) k.
Proof.
  intros Hn Hd v (d' & E & Hi). cbn [sort_json] in E. injection E as <-. apply In_dget in Hi.
  - rewrite dget_sorted, Hd in Hi by auto. discriminate.
  - eapply Permutation_NoDup; [apply keys_isort|]. now rewrite keys_map.
Qed.

Lemma text_path r : Forall text r -> text (join [PathModel.slash] r).
Proof. apply text_join. Qed.

Lemma writable_block b : NoDup (keys b) -> (forall d l, In (d, l) b -> text d) -> (forall p, In p (paths_of b) -> text p) -> writable (json_of_block b).
Proof.
  intros Hn Hd Hp. rewrite json_of_block_eq. apply writable_obj. split; [now rewrite keys_block_dict|]. apply Forall_forall. intros [d x] Hx.
  apply In_block_dict in Hx as (l & -> & Hl). cbn [fst snd]. split; [eauto|]. unfold json_of_strings. apply writable_arr. apply Forall_forall.
  intros y Hy. apply in_map_iff in Hy as (s & <- & Hs). cbn [writable]. apply Hp. apply In_paths_of. exists d, l. auto.
Qed.

Definition facts_of (alg spec : str) (n : nat) (i : inventory) : facts := {|
  f_id := or_empty (i_id i);
  f_spec := spec;
  f_alg := alg;
  f_cdir := content_directory_to_use i;
  f_cdir_set := match i_cdir i with Some _ => true | None => false end;
  f_versions := names None n;
  f_manifest := block_dict (sort_block (manifest i))
|}.

Section Rules.
  Variables (alg spec : str) (n : nat) (i : inventory).
  Hypothesis So : sound alg spec n i.

  Lemma state_digest_lower vs v b st d l : i_versions i = Some vs -> In (v, b) vs -> vb_state b = Some st -> In (d, l) st -> lower_digest alg d.
  Proof using So.
    intros Hv Hb Hs Hd. destruct (so_blocks _ _ _ _ So vs v b Hv Hb) as (_ & st' & Hs' & G). rewrite Hs in Hs'. injection Hs' as <-.
    destruct (sg_digests _ _ _ G d l Hd) as (c & cs & Hc). eapply so_digests; eauto.
  Qed.

  Lemma sound_writable : writable (json_of_inventory i).
  Proof using So.
    destruct (sound_parts alg spec n i So) as (x & m & vs & Hx & Hm & Hv & ->).
    destruct (so_id _ _ _ _ So) as (x' & Hx' & _ & Tx). rewrite Hx in Hx'. injection Hx' as <-.
    assert (Em : manifest i = m) by (unfold manifest; now rewrite Hm).
    assert (Wm : writable (json_of_block m)).
    { rewrite <- Em. apply writable_block; [apply (so_keys _ _ _ _ So)| |].
      - intros d l Hd. apply (lower_digest_text alg). eapply so_digests; eauto.
      - intros p Hp. destruct (gp_names _ (so_paths _ _ _ _ So) p Hp) as (r & _ & _ & _ & T). exact T. }
    assert (Wv : writable (entries json_of_vblock vs)).
    { unfold entries. apply writable_obj. destruct (so_versions _ _ _ _ So) as (vs' & Hv' & P). rewrite Hv in Hv'. injection Hv' as <-. split.
      - rewrite keys_map. eapply Permutation_NoDup; [apply Permutation_sym, P|apply names_NoDup].
      - apply Forall_forall. intros [v y] Hy. apply in_map_iff in Hy as ([v' b] & E & Hb). cbn [fst snd] in *. injection E as <- <-. split.
        + assert (In v' (names None n)). { apply (Permutation_in _ P). apply (in_map fst _ _ Hb). }
          apply In_names in H as (k & _ & ->). apply text_version.
        + destruct (so_blocks _ _ _ _ So vs v' b Hv Hb) as (Bb & st & Hs & G). destruct (bk_created _ Bb) as (c & Hc & _ & Tc).
          unfold json_of_vblock. rewrite Hc, Hs, (bk_other _ Bb). cbn [opt_entry].
          assert (W1 : text (`"created")) by (apply text_lit_key; cbn [In]; tauto). assert (W2 : text (`"message")) by (apply text_lit_key; cbn [In]; tauto).
          assert (W3 : text (`"user")) by (apply text_lit_key; cbn [In]; tauto). assert (W4 : text (`"state")) by (apply text_lit_key; cbn [In]; tauto).
          assert (Ws : writable (json_of_block st)).
          { apply writable_block; [apply (sg_keys _ _ _ G)| |].
            - intros d l Hd. apply (lower_digest_text alg). eapply state_digest_lower; eauto.
            - intros p Hp. destruct (gp_names _ (sg_paths _ _ _ G) p Hp) as (r & _ & _ & _ & T). exact T. }
          assert (Wu : forall u, vb_user b = Some u -> writable (JObj u)).
          { intros u Hu. destruct (bk_user _ Bb u Hu) as (U1 & _ & U2). apply writable_obj. split; [auto|]. apply Forall_forall. intros [k z] Hz.
            destruct (U2 k z Hz) as (Hk & s & -> & Ts). cbn [fst snd]. split; [|exact Ts]. apply text_lit_key. cbn [In] in *. tauto. }
          apply writable_obj. assert (Wm' : forall x, vb_message b = Some x -> writable (JStr x)) by exact (bk_message _ Bb).
          destruct (vb_message b) as [ms|], (vb_user b) as [u|]; cbn [opt_entry app];
            (split; [cbn [keys map fst]; names_differ|]; repeat (apply Forall_cons; [cbn [fst snd]; split; [assumption|auto; fail]|]); apply Forall_nil). }
    assert (Wf : forall fx, i_fixity i = Some fx -> writable (entries json_of_block fx)).
    { intros fx Hf. destruct (so_fixity _ _ _ _ So fx Hf) as [F1 F2]. unfold entries. apply writable_obj. split; [now rewrite keys_map|].
      apply Forall_forall. intros [a y] Hy. apply in_map_iff in Hy as ([a' b] & E & Hb). cbn [fst snd] in *. injection E as <- <-.
      destruct (F2 a' b Hb) as (G1 & (k & G2) & G3). split; [exact (text_alg _ _ G2)|]. apply writable_block; [auto| |].
      - intros d l Hd. apply (lower_digest_text a'). apply (G3 d l Hd).
      - intros p Hp. apply In_paths_of in Hp as (d & l & Hl & Hp). apply (G3 d l Hl) in Hp. destruct (gp_names _ (so_paths _ _ _ _ So) p Hp) as (r & _ & _ & _ & T). exact T. }
    assert (Wt : writable (JStr (`"https://ocfl.io/" ++ spec ++ `"/spec/#inventory"))).
    { cbn [writable]. apply text_ascii. destruct (so_spec _ _ _ _ So) as [<-|[<-|[]]]; repeat (constructor; [vm_compute; reflexivity|]); constructor. }
    assert (Wa : writable (JStr alg)).
    { cbn [writable]. apply text_lit_key. pose proof (so_algs _ _ _ _ So) as Ha. cbn [In] in *. tauto. }
    assert (Wh : writable (JStr (version_fmt None (N.of_nat n)))) by apply text_version.
    assert (Wc : forall c, i_cdir i = Some c -> writable (JStr c)).
    { intros c Hc. pose proof (so_cdir _ _ _ _ So) as [_ T]. unfold content_directory_to_use in T. now rewrite Hc in T. }
    apply writable_obj. split; [apply top_keys|]. unfold top.
    assert (K : forall k, In k [`"id"; `"type"; `"digestAlgorithm"; `"head"; `"contentDirectory"; `"manifest"; `"versions"; `"fixity"] -> text k).
    { intros k Hk. apply text_lit_key. cbn [In] in *. tauto. }
    destruct (i_cdir i) as [c|], (i_fixity i) as [fx|]; cbn [opt_entry app];
      repeat (apply Forall_cons; [cbn [fst snd]; split; [apply K; cbn [In]; tauto|auto; fail]|]); apply Forall_nil.
  Qed.
End Rules.

Section Obeys.
  Variables (alg spec : str) (n : nat) (i : inventory).
  Hypothesis So : sound alg spec n i.
  Notation j := (sort_json (json_of_inventory i)).
  Notation f := (facts_of alg spec n i).

  Lemma content_name_ok p : In p (paths_of (manifest i)) -> content_path as_coded f p.
  Proof using So.
    intros Hp. destruct (so_content _ _ _ _ So p Hp) as (v & r & Hv & Hr & Fr & Nr & ->). pose proof (so_cdir _ _ _ _ So) as [Hc _].
    split; [apply Hc|]. exists v, (join [PathModel.slash] r). split; [exact Hv|]. split.
    - cbn [f_cdir facts_of]. rewrite !join_cons by (auto || discriminate). reflexivity.
    - split; [|intros x; now apply join_not_slash]. exists (join [PathModel.slash] r). split; [|now apply names_plain]. split; [now apply join_no_newline|now left].
  Qed.

  Lemma block_distinct a (b : block) : (forall d l, In (d, l) b -> lower_digest a d) -> distinct_digests a (block_dict b).
  Proof using.
    intros Hd. right. intros d1 f1 d2 f2 H1 H2. apply In_block_dict in H1 as (l1 & _ & H1). apply In_block_dict in H2 as (l2 & _ & H2).
    eapply lower_same; eauto.
  Qed.

  Lemma sound_obeys : obeys as_coded j f.
  Proof using So.
    destruct (sound_parts alg spec n i So) as (x & m & vs & Hx & Hm & Hv & Ej).
    set (t := `"https://ocfl.io/" ++ spec ++ `"/spec/#inventory") in *. set (hd := version_fmt None (N.of_nat n)) in *.
    assert (Em : manifest i = m) by (unfold manifest; now rewrite Hm).
    assert (K : NoDup (keys (top i x t alg hd m vs))) by apply top_keys.
    assert (D : forall k y, dget k (top i x t alg hd m vs) = Some y -> member j k (sort_json y)).
    { intros k y Hd. rewrite Ej. now apply member_sorted. }
    assert (L : forall k, dget k (top i x t alg hd m vs) = None -> lacks j k).
    { intros k Hd. rewrite Ej. now apply lacks_sorted. }
    destruct (so_id _ _ _ _ So) as (x' & Hx' & Nx & _). rewrite Hx in Hx'. injection Hx' as <-.
    assert (Ec : dget (`"contentDirectory") (top i x t alg hd m vs) = option_map JStr (i_cdir i)).
    { unfold top. destruct (i_cdir i), (i_fixity i); reflexivity. }
    assert (Emm : dget (`"manifest") (top i x t alg hd m vs) = Some (json_of_block m)).
    { unfold top. destruct (i_cdir i), (i_fixity i); reflexivity. }
    assert (Evs : dget (`"versions") (top i x t alg hd m vs) = Some (entries json_of_vblock vs)).
    { unfold top. destruct (i_cdir i), (i_fixity i); reflexivity. }
    assert (Efx : dget (`"fixity") (top i x t alg hd m vs) = option_map (entries json_of_block) (i_fixity i)).
    { unfold top. destruct (i_cdir i), (i_fixity i); reflexivity. }
    assert (Ml : listed (f_manifest f) = paths_of (sort_block (manifest i))) by apply listed_block.
    assert (Mi : forall p, In p (listed (f_manifest f)) <-> In p (paths_of (manifest i))) by (intros p; rewrite Ml; apply In_paths_sorted).
    split; [split; cbn [f_id facts_of]; rewrite Hx; cbn [or_empty]; [exact (D (`"id") (JStr x) eq_refl)|exact Nx]|].
    split.
    { exists t. split; [exact (D (`"type") (JStr t) eq_refl)|]. split; [|exact (so_spec _ _ _ _ So)]. exists 46%N, []. split; [discriminate|]. rewrite app_nil_r. reflexivity. }
    split; [split; [exact (D (`"digestAlgorithm") (JStr alg) eq_refl)|exact (so_algs _ _ _ _ So)]|].
    split.
    { unfold content_directory_rule. pose proof (so_cdir _ _ _ _ So) as [(C1 & C2 & C3 & C4) _]. cbn [f_cdir f_cdir_set facts_of] in *. unfold content_directory_to_use in *.
      destruct (i_cdir i) as [c|]; [split; [exact (D _ (JStr c) Ec)|]|split; [exact (L _ Ec)|reflexivity]]. split; [exact C4|]. auto. }
    split.
    { split; [|split; [|split; [|split; [|split]]]].
      - pose proof (D _ _ Emm) as Mm. rewrite sort_block_json, json_of_block_eq, <- Em in Mm. exact Mm.
      - intros d y Hy. apply In_block_dict in Hy as (l & -> & Hl). apply (proj1 (In_sort_block _ _)) in Hl. split; [|now exists l].
        apply lower_digest_ok. eapply so_digests; eauto.
      - apply block_distinct. intros d l Hl. apply (proj1 (In_sort_block _ _)) in Hl. eapply so_digests; eauto.
      - intros p Hp. apply content_name_ok, Mi, Hp.
      - rewrite Ml. eapply Permutation_NoDup; [apply Permutation_sym, paths_sorted|apply (gp_nodup _ (so_paths _ _ _ _ So))].
      - intros p q Hp Hq (v' & rest & l & e & Hv' & Eq & Hl & He & E). apply Mi in Hp. apply Mi in Hq.
        apply (gp_apart _ (so_paths _ _ _ _ So) p q Hp Hq). destruct (so_content _ _ _ _ So q Hq) as (v & r & Iv & Hr & Fr & Nr & Eq').
        rewrite !join_cons in Eq' by (auto || discriminate). cbn [app f_cdir facts_of] in *. rewrite Eq in Eq'.
        apply slash_cut in Eq' as [-> Eq']; [|auto|apply (names_fname n), Iv]. apply app_inv_head in Eq'. injection Eq' as ->.
        apply first_line_self in Hl; [|now apply join_no_newline]. subst l. exists e. rewrite <- E. exact Eq. }
    split.
    { exists hd, (names None (n - 1)). split; [exact (D (`"head") (JStr hd) eq_refl)|]. cbn [f_versions facts_of]. pose proof (so_range _ _ _ _ So) as [R1 _].
      destruct n as [|n']; [lia|]. cbn [Nat.sub]. rewrite Nat.sub_0_r, names_S. f_equal. f_equal. unfold hd. f_equal. lia. }
    split.
    { unfold fixity_rule. destruct (i_fixity i) as [fx|] eqn:Ef; [|left; exact (L _ Efx)]. right.
      pose proof (D _ _ Efx) as Mx. exists (map (fun kv => (fst kv, json_of_block (snd kv))) (sort_values sort_block fx)). split.
      { rewrite (sort_entries json_of_block fx sort_block) in Mx; [exact Mx|]. intros k b _. apply sort_block_json. }
      intros a y Hy. apply in_map_iff in Hy as ([a' b] & E & Hb). cbn [fst snd] in E. injection E as <- <-. apply In_sort_values in Hb as (b0 & Hb & ->).
      destruct (so_fixity _ _ _ _ So fx Ef) as [_ F2]. destruct (F2 a' b0 Hb) as (G1 & G2 & G3). split; [left; exact G2|].
      exists (block_dict (sort_block b0)). split; [reflexivity|]. split.
      - intros d z Hz. apply In_block_dict in Hz as (l & -> & Hl). apply (proj1 (In_sort_block _ _)) in Hl. destruct (G3 d l Hl) as [K1 K2].
        split; [now apply lower_digest_ok|]. split; [now exists l|]. rewrite strings_json. intros p Hp. apply Mi, K2, Hp.
      - apply block_distinct. intros d l Hl. apply (proj1 (In_sort_block _ _)) in Hl. apply (G3 d l Hl). }
    exists (isort key_leb (map (fun kv => (fst kv, sort_json (json_of_vblock (snd kv)))) vs)).
    assert (Iv : forall v b, In (v, b) (isort key_leb (map (fun kv => (fst kv, sort_json (json_of_vblock (snd kv)))) vs)) ->
      exists b0, In (v, b0) vs /\ b = sort_json (json_of_vblock b0)).
    { intros v b Hb. apply In_isort, in_map_iff in Hb as ([v' b0] & E & Hb). cbn [fst snd] in E. injection E as <- <-. eauto. }
    assert (Mst : forall v b st, In (v, b) vs -> vb_state b = Some st -> member (sort_json (json_of_vblock b)) (`"state") (JObj (block_dict (sort_block st)))).
    { intros v b st Hb Hs. destruct (so_blocks _ _ _ _ So vs v b Hv Hb) as (Bb & _). destruct (bk_created _ Bb) as (c & Hc & _).
      destruct (dget_vblock b c st Hc Hs (bk_other _ Bb)) as (d & -> & Hn & _ & _ & _ & H4 & _).
      pose proof (member_sorted d _ _ Hn H4) as Ms. now rewrite sort_block_json in Ms. }
    split; [|split].
    - split; [|split].
      + pose proof (D _ _ Evs) as Mv. unfold entries in Mv. cbn [sort_json] in Mv. rewrite map_map in Mv. exact Mv.
      + exists None. split; [apply names_version_sequence; [apply (so_range _ _ _ _ So)|exact I]|]. cbn [f_versions facts_of r_versions as_coded]. rewrite names_length.
        pose proof (so_range _ _ _ _ So). lia.
      + destruct (so_versions _ _ _ _ So) as (vs' & Hv' & P). rewrite Hv in Hv'. injection Hv' as <-. cbn [f_versions facts_of].
        eapply Permutation_trans; [|exact P]. eapply Permutation_trans; [apply Permutation_sym; apply (keys_isort (map (fun kv => (fst kv, sort_json (json_of_vblock (snd kv)))) vs))|].
        rewrite (keys_map (fun b => sort_json (json_of_vblock b))). reflexivity.
    - intros v b Hb. apply Iv in Hb as (b0 & Hb & ->). destruct (so_blocks _ _ _ _ So vs v b0 Hv Hb) as (Bb & st & Hs & [G1 G2 G3]).
      exists (block_dict (sort_block st)). pose proof (Mst v b0 st Hb Hs) as Ms. destruct (bk_created _ Bb) as (c & Hc & Rc & _).
      destruct (dget_vblock b0 c st Hc Hs (bk_other _ Bb)) as (d & Ed & Hn & H1 & H2 & H3 & H4 & _). rewrite Ed in *.
      split; [exists c; split; [exact (member_sorted d _ _ Hn H1)|exact Rc]|]. split.
      { unfold message_rule. destruct (vb_message b0) as [ms|]; [right; exists ms; exact (member_sorted d _ _ Hn H2)|left; exact (lacks_sorted d _ Hn H2)]. }
      split.
      { unfold user_rule. destruct (vb_user b0) as [u|] eqn:Eu; [|left; exact (lacks_sorted d _ Hn H3)]. right. exists (sort_json (JObj u)).
        split; [exact (member_sorted d _ _ Hn H3)|]. destruct (bk_user _ Bb u Eu) as (U1 & (nm & U2) & U3). split.
        - exists nm. apply (member_sorted u (`"name") (JStr nm) U1). now apply In_dget.
        - destruct (dget (`"address") u) as [y|] eqn:Ea; [right|left; now apply lacks_sorted].
          destruct (U3 _ y (dget_In _ _ _ Ea)) as (_ & s & -> & _). exists s. exact (member_sorted u _ _ U1 Ea). }
      split; [exact Ms|].
      assert (Sl : forall p, In p (listed (block_dict (sort_block st))) <-> In p (paths_of st)) by (intros p; rewrite listed_block; apply In_paths_sorted).
      split; [|split; [|split; [|split]]].
      + intros e y Hy. apply In_block_dict in Hy as (l & -> & Hl). apply (proj1 (In_sort_block _ _)) in Hl. split; [|now exists l].
        apply lower_digest_ok. eapply state_digest_lower; eauto.
      + intros e y Hy. apply In_block_dict in Hy as (l & -> & Hl). apply (proj1 (In_sort_block _ _)) in Hl. destruct (G2 e l Hl) as (cp & cs & Hcp).
        exists cp, (map JStr cs). apply In_block_dict. exists (cp :: cs). split; [reflexivity|]. now apply (proj2 (In_sort_block _ _)).
      + intros p Hp. apply Sl in Hp. destruct (gp_names _ G3 p Hp) as (r & Hr & Fr & -> & _). now apply names_plain.
      + rewrite listed_block. eapply Permutation_NoDup; [apply Permutation_sym, paths_sorted|apply (gp_nodup _ G3)].
      + intros p q Hp Hq (e & _ & E). apply Sl in Hp. apply Sl in Hq. apply (gp_apart _ G3 p q Hp Hq). exists e. exact E.
    - intros d p ps Hd. apply In_block_dict in Hd as (l & El & Hl). apply (proj1 (In_sort_block _ _)) in Hl. destruct l as [|c cs]; [discriminate|].
      destruct (so_used _ _ _ _ So d c cs Hl) as (v & lp & vs' & b & st & l' & Hv' & Hb & Hs & Hd & _). rewrite Hv in Hv'. injection Hv' as <-.
      exists v, (sort_json (json_of_vblock b)), (block_dict (sort_block st)), (json_of_strings l'). split.
      { apply In_isort, in_map_iff. exists (v, b). auto. }
      split; [exact (Mst v b st Hb Hs)|]. apply In_block_dict. exists l'. split; [reflexivity|]. now apply (proj2 (In_sort_block _ _)).
  Qed.
End Obeys.
