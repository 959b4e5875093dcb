(** The files of an object that the library has written, and that the validator accepts them (C34, C35). *)
From Coq Require Import Permutation Sorted.
From Verif Require Import Base Unicode Regex Utf8 Json PyJson JsonTextModel JsonTextSpec JsonTextProofs JsonFileProofs Log DigestModel LayoutModel LayoutProofs
  ObjectUtilsModel ObjectUtilsProofs InventorySpec InventoryValidatorModel InventoryValidatorProofs InventoryRulesProofs
  InventoryModel InventoryOpsSpec InventoryOpsProofs NewVersionModel NewVersionProofs NewVersionOpsProofs VersionNumberProofs InventoryParseProofs ParseModel
  ContentPathProofs TextFile PathModel FsModel FsSpec FsProofs FswModel FswSpec FswProofs FswCopyProofs ValidatorSpec ValidatorBasicProofs ObjectModel ObjectSpec ObjectInvProofs ObjectRulesProofs
  ObjectParseProofs ObjectAddProofs ContentNameProofs ObjectGrowProofs ObjectStartProofs ObjectCopyProofs ObjectWriteProofs ObjectSourceProofs ObjectFactsProofs NamasteSpec ValidatorVersionProofs.

(** ** The files below a directory *)

Lemma holds_case w h L r e : holds w h L -> r <> [] -> look w (h ++ r) = Some e ->
  (exists b, e = EFile b /\ In (r, b) L) \/ (e = EDir /\ exists c x b, In (r ++ c :: x, b) L).
Proof.
  intros Hh Hr Hl. destruct (hl_only _ _ _ Hh r e Hr Hl) as ([|c x] & b & Hin).
  - rewrite app_nil_r in Hin. left. exists b. split; [|auto]. rewrite (hl_files _ _ _ Hh _ _ Hin) in Hl. now apply Some_inv in Hl.
  - right. split; [|eauto]. pose proof (hl_files _ _ _ Hh _ _ Hin) as Hf. rewrite app_assoc in Hf.
    assert (Hd : look w (h ++ r) = Some EDir) by (apply (look_above w (h ++ r) c x); congruence). rewrite Hl in Hd. now apply Some_inv in Hd.
Qed.
Lemma holds_above w h L r c x b : holds w h L -> In (r ++ c :: x, b) L -> look w (h ++ r) = Some EDir.
Proof. intros Hh Hin. pose proof (hl_files _ _ _ Hh _ _ Hin) as Hf. rewrite app_assoc in Hf. apply (look_above w (h ++ r) c x). congruence. Qed.

Lemma holds_ext w h L L' : holds w h L -> (forall r b, In (r, b) L <-> In (r, b) L') -> holds w h L'.
Proof.
  intros [H1 H2 H3] E. constructor; [auto| |].
  - intros r b Hin. apply H2, E, Hin.
  - intros r e Hr Hl. destruct (H3 r e Hr Hl) as (x & b & Hin). exists x, b. now apply E.
Qed.

Lemma list_cases {A} (l : list (list str * A)) (q : list str) : (exists r b x, In (r, b) l /\ r = q ++ x) \/ (forall r b x, In (r, b) l -> r <> q ++ x).
Proof.
  induction l as [|[r b] l [(r0 & b0 & x & Hin & E)|IH]]; [right; intros ? ? ? []|left; exists r0, b0, x; split; [now right|auto]|].
  destruct (strip q r) as [x|] eqn:E.
  - left. exists r, b, x. split; [now left|]. now apply strip_some.
  - right. intros r' b' x [F|Hin]; [|eapply IH; eauto]. injection F as <- <-. intros ->. rewrite strip_app in E. discriminate.
Qed.

Lemma placed_holds w h L0 L w' : holds w h L0 -> room w h L -> placed w h L w' -> holds w' h (L0 ++ L).
Proof.
  intros Hh R P. constructor.
  - exact (placed_keep _ _ _ _ _ _ R P (hl_dir _ _ _ Hh)).
  - intros r b Hin. apply in_app_or in Hin as [Hin|Hin]; [|now apply P]. exact (placed_keep _ _ _ _ _ _ R P (hl_files _ _ _ Hh r b Hin)).
  - intros r e Hr Hl. destruct (list_cases L r) as [(r' & b & x & Hin & ->)|Hno].
    + exists x, b. apply in_or_app. now right.
    + destruct P as (_ & _ & P3). rewrite P3 in Hl.
      * destruct (hl_only _ _ _ Hh r e Hr Hl) as (x & b & Hin). exists x, b. apply in_or_app. now left.
      * intros r' b' x Hin E. rewrite <- app_assoc in E. apply app_inv_head in E. exact (Hno r' b' x Hin E).
Qed.
Lemma holds_empty w h : look w h = Some EDir -> (forall r, r <> [] -> look w (h ++ r) = None) -> holds w h [].
Proof. intros Hd Hn. constructor; [auto|intros ? ? []|]. intros r e Hr Hl. rewrite Hn in Hl by auto. discriminate. Qed.

(** A file has been replaced. *)
Lemma replaced_holds w h L w' r b b' L' : holds w h L -> In (r, b) L -> r <> [] -> changes w w' (h ++ r) (Some (EFile b')) ->
  (forall r0 b0, In (r0, b0) L' <-> (r0 = r /\ b0 = b') \/ (r0 <> r /\ In (r0, b0) L)) -> holds w' h L'.
Proof.
  intros Hh Hin Hr C E.
  assert (Hk : forall q, q <> r -> look w' (h ++ q) = look w (h ++ q)).
  { intros q Hq. apply (changes_other _ _ _ _ _ C). intros F. now apply app_inv_head in F. }
  constructor.
  - rewrite <- (app_nil_r h), Hk by congruence. rewrite app_nil_r. apply Hh.
  - intros r0 b0 H0. apply E in H0 as [[-> ->]|[Hne H0]]; [exact (changes_at _ _ _ _ C)|]. rewrite Hk by auto. now apply (hl_files _ _ _ Hh).
  - intros r0 e H0 Hl. destruct (list_eq_dec (list_eq_dec N.eq_dec) r0 r) as [->|Hne].
    + exists [], b'. rewrite app_nil_r. apply E. auto.
    + rewrite Hk in Hl by auto. destruct (hl_only _ _ _ Hh r0 e H0 Hl) as (x & b0 & Hx).
      destruct (list_eq_dec (list_eq_dec N.eq_dec) (r0 ++ x) r) as [F|F].
      * exists x, b'. apply E. auto.
      * exists x, b0. apply E. auto.
Qed.

(** ** Names *)

Lemma vn_inj k k' : vn k = vn k' -> k = k'.
Proof. unfold vn. intros E. apply version_fmt_inj in E. lia. Qed.
Lemma In_vn n v : In v (names None n) <-> exists k, (1 <= k <= n)%nat /\ v = vn k.
Proof.
  rewrite In_names. unfold vn. split.
  - intros (k & Hk & ->). exists (S k). split; [lia|]. f_equal. lia.
  - intros (k & Hk & ->). exists (k - 1)%nat. split; [lia|]. f_equal. lia.
Qed.
Lemma vn_fname k : fname (vn k).
Proof. apply version_fname. Qed.
Lemma vn_starts k : exists r, vn k = 118%N :: r.
Proof. unfold vn, version_fmt. eexists. reflexivity. Qed.
Lemma nth_names n k v : nth_error (names None n) k = Some v -> v = vn (S k).
Proof.
  intros E. unfold names in E. rewrite nth_error_map in E. destruct (nth_error (seq 0 n) k) as [m|] eqn:Em; [|discriminate]. apply Some_inv in E. subst v.
  assert (Hk : (k < List.length (seq 0 n))%nat) by (apply nth_error_Some; congruence). rewrite seq_length in Hk.
  rewrite (nth_error_nth' _ 0%nat) in Em by (rewrite seq_length; auto). apply Some_inv in Em. rewrite seq_nth in Em by auto. subst m. unfold vn. f_equal. lia.
Qed.
Lemma before_vn n k k' : before (names None n) (vn k) (vn k') -> (k < k')%nat.
Proof.
  intros (a & b & c & E).
  assert (A1 : nth_error (names None n) (List.length a) = Some (vn k)).
  { rewrite E, nth_error_app2, Nat.sub_diag by lia. reflexivity. }
  assert (A2 : nth_error (names None n) (List.length a + S (List.length b)) = Some (vn k')).
  { rewrite E, nth_error_app2 by lia. replace (List.length a + S (List.length b) - List.length a)%nat with (S (List.length b)) by lia. cbn [nth_error].
    rewrite nth_error_app2, Nat.sub_diag by lia. reflexivity. }
  apply nth_names, vn_inj in A1. apply nth_names, vn_inj in A2. lia.
Qed.
Lemma before_In vs v v' : before vs v v' -> In v vs /\ In v' vs.
Proof. intros (a & b & c & ->). split; apply in_or_app; right; [now left|]. right. apply in_or_app. right. now left. Qed.

(** ** Digest files *)
Lemma hash_hex H alg b : hash_ok H -> In alg [`"sha512"; `"sha256"] -> Forall lower_hex (H alg b) /\ H alg b <> [].
Proof.
  intros HH Ha. destruct (hash_digest H alg b HH Ha) as [_ (k & Hk & Hl & Hf)]. split; [auto|]. intros E. rewrite E in Hl. cbn in Hl. subst k.
  destruct Ha as [<-|[<-|[]]]; inversion Hk.
Qed.
Lemma lower_hex_word c : lower_hex c -> is_word c = true.
Proof.
  intros Hc. unfold is_word. apply existsb_exists. destruct Hc as [Hc|Hc].
  - exists (48%N, 57%N). split; [now left|]. rewrite andb_true_iff, !N.leb_le. cbn [fst snd]. lia.
  - exists (97%N, 122%N). split; [do 3 right; now left|]. rewrite andb_true_iff, !N.leb_le. cbn [fst snd]. lia.
Qed.
Lemma lower_hex_plain c : lower_hex c -> plain_char c.
Proof. unfold lower_hex, plain_char. lia. Qed.

Lemma sidecar_file_ok H alg b : hash_ok H -> In alg [`"sha512"; `"sha256"] ->
  read_text (sidecar_text H alg b) = Ok (sidecar_text H alg b) /\
  line (sidecar_text H alg b) (sidecar_text H alg b) /\ sidecar_line (sidecar_text H alg b) (H alg b) /\ digest_of H alg b (H alg b).
Proof.
  intros HH Ha. destruct (hash_hex H alg b HH Ha) as [Hf Hn]. unfold sidecar_text. split; [|split; [|split]].
  - apply read_write_plain. apply Forall_app. split; [eapply Forall_impl; [|exact Hf]; apply lower_hex_plain|].
    apply Forall_forall. intros c Hc. vm_compute in Hc. unfold plain_char. repeat destruct Hc as [Hc|Hc]; try contradiction; subst; lia.
  - right. exists (H alg b ++ `" inventory.json"), []. split; [now rewrite <- app_assoc|]. split; [|now rewrite app_nil_r].
    intros Hin. apply in_app_or in Hin as [Hin|Hin]; [|vm_compute in Hin; repeat destruct Hin as [Hin|Hin]; try discriminate; auto].
    rewrite Forall_forall in Hf. specialize (Hf _ Hin). unfold lower_hex in Hf. lia.
  - exists (`" "), [10%N]. split; [auto|]. split; [eapply Forall_impl; [|exact Hf]; apply lower_hex_word|]. split; [discriminate|].
    split; [repeat constructor|]. split; [repeat constructor|]. reflexivity.
  - left. split; [|auto]. destruct Ha as [<-|[<-|[]]]; eexists; constructor.
Qed.

Lemma hash_records H a b : hash_ok H -> (exists k, digest_size a k) -> digest_fits H a b (H a b).
Proof.
  intros HH [k Hk]. assert (L : hash_len a = Some k) by (destruct Hk; reflexivity). destruct (HH a k b L) as [_ Hf].
  exists (H a b). split; [left; split; [eauto|auto]|]. right. split.
  - intros [E|[E|[]]]; subst a; discriminate.
  - clear L. induction (H a b) as [|c l IH]; [constructor|]. inversion Hf as [|? ? Hc Hl]; subst. constructor; [|auto].
    unfold is_lower_hex in Hc. right. split; [|auto]. apply orb_true_iff in Hc as [Hc|Hc]; apply andb_true_iff in Hc as [H1 H2]; apply N.leb_le in H1, H2; lia.
Qed.

(** ** Objects the library has written

    There are n versions; version k was written with the inventory [ivs k], the digest algorithm [alg k] and in the
    version [spec k] of the specification; the content is C. *)
Section Made.
  Variables (H : hashfn) (w : node) (h : place) (sd : str) (n : nat) (alg spec : nat -> str) (ivs : nat -> inventory)
    (C : list (place * bytes)).

  Definition object_files : list (place * bytes) :=
    [([decl_name sd], decl_text sd)] ++ inv_files H (alg n) (ivs n) [] ++
    flat_map (fun k => inv_files H (alg k) (ivs k) [vn k]) (seq 1 n) ++ C.

  Record made : Prop := {
    md_names : Forall fname h;
    md_tree : tree w;
    md_holds : holds w h object_files;
    md_sd : In sd [`"1.0"; `"1.1"];
    md_sound : forall k, (1 <= k <= n)%nat -> sound (alg k) (spec k) k (ivs k);
    md_some : (1 <= n)%nat;
    md_id : forall k, (1 <= k <= n)%nat -> i_id (ivs k) = i_id (ivs n);
    md_cdir : forall k, (1 <= k <= n)%nat -> i_cdir (ivs k) = i_cdir (ivs n);
    md_paths : forall k v p, (1 <= k <= n)%nat -> In v (names None k) -> (in_version (ivs k) v p <-> in_version (ivs n) v p);
    md_resolves : forall k v p c, (1 <= k <= n)%nat -> In v (names None k) -> resolves (ivs k) v p c -> resolves (ivs n) v p c;
    md_keys : forall k v d, (1 <= k <= n)%nat -> In v (names None k) -> alg k = alg n -> (state_key (ivs k) v d <-> state_key (ivs n) v d);
    md_grow : forall k k', (1 <= k)%nat -> (k <= k')%nat -> (k' <= n)%nat -> incl (paths_of (manifest (ivs k))) (paths_of (manifest (ivs k')));
    md_specs : forall k k', (1 <= k)%nat -> (k <= k')%nat -> (k' <= n)%nat -> no_later (spec k) (spec k');
    md_below : forall k, (1 <= k < n)%nat -> no_later (spec k) sd;
    md_apart : content_directory_to_use (ivs n) <> inv_name /\ forall k, (1 <= k <= n)%nat -> content_directory_to_use (ivs n) <> side_name (alg k);
    md_listed : forall p, In p (paths_of (manifest (ivs n))) <-> exists r b, In (r, b) C /\ p = join [PathModel.slash] r;
    md_fnames : forall r b, In (r, b) C -> Forall fname r;
    md_digests : forall k d c, (1 <= k <= n)%nat -> stored (ivs k) d c -> exists r b, In (r, b) C /\ c = join [PathModel.slash] r /\ d = H (alg k) b;
    md_fixity : forall k a d c, (1 <= k <= n)%nat -> fixed (ivs k) a d c -> exists r b, In (r, b) C /\ c = join [PathModel.slash] r /\ d = H a b
  }.
End Made.
