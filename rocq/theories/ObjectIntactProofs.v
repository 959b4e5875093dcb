(** What the library has written is an intact object (C34, C35). *)
From Coq Require Import Permutation Sorted.
From Verif Require Import Base Unicode Regex Utf8 Json PyJson JsonTextModel JsonTextSpec JsonTextProofs JsonFileProofs Log DigestModel LayoutModel LayoutProofs
  ObjectUtilsModel ObjectUtilsProofs InventorySpec InventoryValidatorModel InventoryValidatorProofs InventoryRulesProofs
  InventoryModel InventoryOpsSpec InventoryOpsProofs NewVersionModel NewVersionProofs NewVersionOpsProofs VersionNumberProofs InventoryParseProofs ParseModel
  ContentPathProofs TextFile PathModel FsModel FsSpec FsProofs FswModel FswSpec FswProofs FswCopyProofs ValidatorSpec ValidatorBasicProofs ObjectModel ObjectSpec ObjectInvProofs ObjectRulesProofs
  ObjectParseProofs ObjectAddProofs ContentNameProofs ObjectGrowProofs ObjectStartProofs ObjectCopyProofs ObjectWriteProofs ObjectSourceProofs ObjectFactsProofs NamasteSpec ValidatorVersionProofs ObjectMadeProofs.

Lemma side_not_inv_name a : side_name a <> inv_name.
Proof. unfold side_name, inv_name. intros E. apply (f_equal (@List.length _)) in E. rewrite app_length in E. vm_compute in E. discriminate. Qed.
Lemma vn_not_inv k x : vn k <> `"inventory.json" ++ x.
Proof. destruct (vn_starts k) as [r ->]. discriminate. Qed.
Lemma side_inj a b : side_name a = side_name b -> a = b.
Proof. unfold side_name. intros E. now apply app_inv_head in E. Qed.

Section Intact.
  Variables (H : hashfn) (w : node) (h : place) (sd : str) (n : nat) (alg spec : nat -> str) (ivs : nat -> inventory)
    (C : list (place * bytes)).
  Hypothesis HH : hash_ok H.
  Hypothesis M : made H w h sd n alg spec ivs C.
  Let L := object_files H sd n alg ivs C.
  Let cd := content_directory_to_use (ivs n).
  Let file k := json_dumps (json_of_inventory (ivs k)).
  Let jk k := sort_json (json_of_inventory (ivs k)).
  Let fk k := facts_of (alg k) (spec k) k (ivs k).

  Lemma md_head : sound (alg n) (spec n) n (ivs n).
  Proof using M. apply (md_sound _ _ _ _ _ _ _ _ _ M). pose proof (md_some _ _ _ _ _ _ _ _ _ M). lia. Qed.
  Lemma cd_same k : (1 <= k <= n)%nat -> content_directory_to_use (ivs k) = cd.
  Proof using M. intros Hk. unfold cd, content_directory_to_use. now rewrite (md_cdir _ _ _ _ _ _ _ _ _ M k Hk). Qed.

  Lemma content_shape r b : In (r, b) C -> exists k r', (1 <= k <= n)%nat /\ r' <> [] /\ Forall fname r' /\ r = vn k :: cd :: r'.
  Proof using M.
    intros Hin. assert (Hp : In (join [PathModel.slash] r) (paths_of (manifest (ivs n)))) by (apply (md_listed _ _ _ _ _ _ _ _ _ M); eauto).
    destruct (so_content _ _ _ _ md_head _ Hp) as (v & r' & Hv & Hr & Hf & _ & E). apply In_vn in Hv as (k & Hk & ->). exists k, r'.
    split; [auto|]. split; [auto|]. split; [auto|]. apply names_join_inj; auto.
    - exact (md_fnames _ _ _ _ _ _ _ _ _ M r b Hin).
    - constructor; [apply vn_fname|]. constructor; [apply (so_cdir _ _ _ _ md_head)|auto].
    - intros ->. rewrite (join_cons _ (vn k)) in E by discriminate. destruct (vn_starts k) as [x Hx]. rewrite Hx in E. discriminate.
    - discriminate.
  Qed.

  Inductive in_object : place -> bytes -> Prop :=
  | IO_decl : in_object [decl_name sd] (decl_text sd)
  | IO_inv : in_object [inv_name] (file n)
  | IO_side : in_object [side_name (alg n)] (sidecar_text H (alg n) (file n))
  | IO_vinv k : (1 <= k <= n)%nat -> in_object [vn k; inv_name] (file k)
  | IO_vside k : (1 <= k <= n)%nat -> in_object [vn k; side_name (alg k)] (sidecar_text H (alg k) (file k))
  | IO_content k r b : (1 <= k <= n)%nat -> r <> [] -> Forall fname r -> In (vn k :: cd :: r, b) C -> in_object (vn k :: cd :: r) b.

  Lemma in_object_iff r b : In (r, b) L <-> in_object r b.
  Proof using M.
    unfold L, object_files. rewrite !in_app_iff, in_flat_map. split.
    - intros [[E|[]]|[Hin|[(k & Hk & Hin)|Hin]]].
      + injection E as <- <-. constructor.
      + unfold inv_files in Hin. cbn [app In] in Hin. destruct Hin as [E|[E|[]]]; injection E as <- <-; constructor.
      + apply in_seq in Hk. unfold inv_files in Hin. cbn [app In] in Hin. destruct Hin as [E|[E|[]]]; injection E as <- <-; constructor; lia.
      + destruct (content_shape r b Hin) as (k & r' & Hk & Hr & Hf & ->). now constructor.
    - intros [| | |k Hk|k Hk|k r' b' Hk Hr Hf Hin].
      + left. now left.
      + right. left. unfold inv_files. cbn [app]. now left.
      + right. left. unfold inv_files. cbn [app]. right. now left.
      + right. right. left. exists k. split; [apply in_seq; lia|]. unfold inv_files. cbn [app]. now left.
      + right. right. left. exists k. split; [apply in_seq; lia|]. unfold inv_files. cbn [app]. right. now left.
      + auto.
  Qed.

  Lemma files_there r b : in_object r b -> look w (h ++ r) = Some (EFile b).
  Proof using M. intros Hin. apply (hl_files _ _ _ (md_holds _ _ _ _ _ _ _ _ _ M)). now apply in_object_iff. Qed.
  Lemma there_case r e : r <> [] -> look w (h ++ r) = Some e ->
    (exists b, e = EFile b /\ in_object r b) \/ (e = EDir /\ exists c x b, in_object (r ++ c :: x) b).
  Proof using M.
    intros Hr Hl. destruct (holds_case _ _ _ _ _ (md_holds _ _ _ _ _ _ _ _ _ M) Hr Hl) as [(b & -> & Hin)|(-> & c & x & b & Hin)].
    - left. exists b. split; [auto|]. now apply in_object_iff.
    - right. split; [auto|]. exists c, x, b. now apply in_object_iff.
  Qed.

  Lemma root_file name b : in_object [name] b -> name = decl_name sd \/ name = inv_name \/ name = side_name (alg n).
  Proof using. clear. intros Hin. remember [name] as r eqn:E. destruct Hin; try discriminate; apply (f_equal (hd [])) in E; cbn [hd] in E; subst; auto. Qed.
  Lemma below_root name c x b : in_object (name :: c :: x) b -> exists k, (1 <= k <= n)%nat /\ name = vn k.
  Proof using.
    clear. intros Hin. remember (name :: c :: x) as r eqn:E. destruct Hin; try discriminate; apply (f_equal (hd [])) in E; cbn [hd] in E; subst name; eauto.
  Qed.
  Lemma version_file k c b : in_object [vn k; c] b -> (1 <= k <= n)%nat -> c = inv_name \/ c = side_name (alg k).
  Proof using.
    clear. intros Hin Hk. remember [vn k; c] as r eqn:E. destruct Hin as [| | |k' Hk'|k' Hk'|k' r b Hk' Hr]; try discriminate.
    - apply (f_equal (fun l => hd [] (tl l))) in E. cbn [hd tl] in E. auto.
    - pose proof (f_equal (hd []) E) as E1. apply (f_equal (fun l => hd [] (tl l))) in E. cbn [hd tl] in *. apply vn_inj in E1. subst k'. auto.
    - destruct r; [congruence|discriminate].
  Qed.
  Lemma content_only k r b : in_object (vn k :: cd :: r) b -> cd <> inv_name -> (forall k, (1 <= k <= n)%nat -> cd <> side_name (alg k)) -> In (vn k :: cd :: r, b) C.
  Proof using.
    intros Hin A B. remember (vn k :: cd :: r) as q eqn:E. destruct Hin as [| | |k' Hk'|k' Hk'|k' r' b Hk' Hr Hf Hc]; try discriminate; [| |auto].
    - apply (f_equal (fun l => hd [] (tl l))) in E. cbn [hd tl] in E. congruence.
    - apply (f_equal (fun l => hd [] (tl l))) in E. cbn [hd tl] in E. exfalso. now apply (B k' Hk').
  Qed.

  Lemma inv_at k : (1 <= k <= n)%nat -> inventory_at w h [vn k] (file k) (jk k).
  Proof using M.
    intros Hk. split; [apply files_there; now constructor|]. apply (sound_bytes _ _ _ _ (md_sound _ _ _ _ _ _ _ _ _ M k Hk)).
  Qed.
  Lemma obeys_k k : (1 <= k <= n)%nat -> obeys as_coded (jk k) (fk k).
  Proof using M. intros Hk. apply sound_obeys, (md_sound _ _ _ _ _ _ _ _ _ M k Hk). Qed.
  Lemma sidecar_k check k : (1 <= k <= n)%nat -> sidecar H check w h [vn k] (alg k) (file k).
  Proof using M HH.
    intros Hk. assert (E : look w (h ++ [vn k] ++ [`"inventory.json." ++ alg k]) = Some (EFile (sidecar_text H (alg k) (file k)))).
    { apply files_there. exact (IO_vside k Hk). }
    unfold sidecar, at_root. rewrite E. split; [discriminate|]. intros _.
    destruct (sidecar_file_ok H (alg k) (file k) HH) as (A & B & D & F); [apply (so_algs _ _ _ _ (md_sound _ _ _ _ _ _ _ _ _ M k Hk))|].
    eexists _, _, _, _. split; [reflexivity|]. split; [exact A|]. split; [exact B|]. split; [exact D|exact F].
  Qed.
  Lemma inventory_of_k k j f : (1 <= k <= n)%nat -> inventory_of w h (vn n) (vn k) j f -> (k < n)%nat /\ j = jk k /\ f = fk k.
  Proof using M.
    intros Hk (Hne & b & (Hb & Hj) & Ho). split; [assert (k <> n) by congruence; lia|].
    destruct (inv_at k Hk) as [Hb' Hj']. assert (Eb : b = file k) by (unfold at_root in *; rewrite Hb' in Hb; injection Hb as <-; auto). subst b.
    assert (Ej : j = jk k) by (rewrite Hj' in Hj; now apply Ok_inv in Hj). subst j. split; [auto|].
    eapply facts_unique; [|exact Ho|apply obeys_k; auto]. apply writable_wf, writable_sort, (sound_writable _ _ _ _ (md_sound _ _ _ _ _ _ _ _ _ M k Hk)).
  Qed.
  Lemma sidecar_name_k k name : (1 <= k <= n)%nat -> sidecar_name w h (fk n) (vn n) (vn k) name <-> name = side_name (alg k).
  Proof using M.
    intros Hk. split.
    - intros [(E & _ & ->)|(j & f & Hi & ->)]; [apply vn_inj in E; subst k; reflexivity|]. apply inventory_of_k in Hi as (_ & _ & ->); auto.
    - intros ->. destruct (Nat.eq_dec k n) as [->|Hne].
      + left. split; [auto|]. split; [|reflexivity]. destruct (inv_at n Hk) as [Hb _]. unfold has_inventory. cbn [app] in Hb. congruence.
      + right. exists (jk k), (fk k). split; [|reflexivity]. split; [intros E; apply vn_inj in E; auto|]. exists (file k). split; [now apply inv_at|now apply obeys_k].
  Qed.
  Lemma seen_k k : (1 <= k <= n)%nat -> content_seen w h (fk n) (vn n) (vn k).
  Proof using M.
    intros Hk. destruct (md_apart _ _ _ _ _ _ _ _ _ M) as [A B]. split; [exact A|]. rewrite sidecar_name_k by auto. exact (B k Hk).
  Qed.

  Lemma fits_k a k d c : (exists k, digest_size a k) -> (exists r b, In (r, b) C /\ c = join [PathModel.slash] r /\ d = H a b) -> (1 <= k)%nat -> file_fits H w h a d c.
  Proof using M HH.
    intros Ha (r & b & Hin & -> & ->) _. exists r, b. split; [reflexivity|]. split; [|now apply hash_records].
    destruct (content_shape r b Hin) as (k' & r' & Hk & Hr & Hf & ->). apply files_there. now constructor.
  Qed.

  Theorem made_intact check : intact H check w h sd (file n) (jk n) (fk n) (vn n).
  Proof using M HH.
    pose proof (md_some _ _ _ _ _ _ _ _ _ M) as Hn. assert (Hnn : (1 <= n <= n)%nat) by lia.
    pose proof (md_sd _ _ _ _ _ _ _ _ _ M) as Hsd.
    assert (Sz : forall k, (1 <= k <= n)%nat -> exists z, digest_size (alg k) z).
    { intros k Hk. destruct (so_algs _ _ _ _ (md_sound _ _ _ _ _ _ _ _ _ M k Hk)) as [<-|[<-|[]]]; eexists; constructor. }
    assert (Ev : forall v, In v (f_versions (fk n)) <-> exists k, (1 <= k <= n)%nat /\ v = vn k) by (intros v; apply In_vn).
    constructor.
    - split; [exact Hsd|]. split.
      + intros name. split.
        * intros [Hl (t & ->)]. destruct (look w (h ++ [`"0" ++ `"=" ++ t])) as [e|] eqn:E; [|exfalso; exact (Hl E)].
          apply there_case in E as [(b & _ & Hin)|(_ & c & x & b & Hin)]; [| |discriminate].
          -- apply root_file in Hin as [E|[E|E]]; [exact E|discriminate|discriminate].
          -- cbn [app] in Hin. apply below_root in Hin as (k & _ & E). destruct (vn_starts k) as [y Hy]. rewrite Hy in E. discriminate.
        * intros ->. split; [|eexists; reflexivity]. intros E. pose proof (files_there _ _ IO_decl) as F. unfold decl_name in F. rewrite E in F. discriminate.
      + exists (decl_text sd), (decl_text sd). split; [exact (files_there _ _ IO_decl)|]. split; [destruct Hsd as [<-|[<-|[]]]; reflexivity|].
        exists [], (`"ocfl_object_" ++ sd), [10%N]. split; [destruct Hsd as [<-|[<-|[]]]; reflexivity|]. split; [constructor|]. split; [repeat constructor|].
        destruct Hsd as [<-|[<-|[]]]; repeat constructor.
    - split; [exact (files_there _ _ IO_inv)|]. apply (sound_bytes _ _ _ _ md_head).
    - now apply obeys_k.
    - now apply (member_head _ _ _ _ md_head).
    - change (f_alg (fk n)) with (alg n). assert (E : at_root w h ([] ++ [`"inventory.json." ++ alg n]) = Some (EFile (sidecar_text H (alg n) (file n)))) by exact (files_there _ _ IO_side).
      split; [intros F; discriminate (eq_trans (eq_sym E) F)|].
      intros _. destruct (sidecar_file_ok H (alg n) (file n) HH) as (A & B & D & F); [apply (so_algs _ _ _ _ md_head)|].
      eexists _, _, _, _. split; [exact E|]. split; [exact A|]. split; [exact B|]. split; [exact D|exact F].
    - intros name e He. apply there_case in He as [(b & -> & Hin)|(-> & c & x & b & Hin)]; [| |discriminate].
      + cbn [root_entry]. apply root_file in Hin as [-> | [-> | ->]]; cbn [In]; auto.
      + cbn [root_entry app] in *. left. apply Ev. exact (below_root _ _ _ _ Hin).
    - split; [|split; [|split]].
      + intros _. split; [exact (proj1 (inv_at n Hnn))|]. now apply sidecar_k.
      + intros v Hv Hne _. apply Ev in Hv as (k & Hk & ->). assert (Hkn : (k < n)%nat) by (assert (k <> n) by congruence; lia).
        exists (file k), (jk k), (fk k). pose proof (md_sound _ _ _ _ _ _ _ _ _ M k Hk) as Sk.
        split; [now apply inv_at|]. split; [now apply obeys_k|]. split; [now apply sidecar_k|].
        split; [unfold fk, facts_of; cbn [f_id]; now rewrite (md_id _ _ _ _ _ _ _ _ _ M k Hk)|].
        split; [exact (cd_same k Hk)|]. split; [unfold fk, facts_of; cbn [f_cdir_set]; now rewrite (md_cdir _ _ _ _ _ _ _ _ _ M k Hk)|]. split.
        * split; [|split].
          -- intros u Hu. apply In_vn in Hu as (k' & Hk' & ->). apply Ev. exists k'. split; [lia|auto].
          -- exists (vn n). split; [apply Ev; eauto|]. intros Hu. apply In_vn in Hu as (k' & Hk' & E). apply vn_inj in E. lia.
          -- intros u Hu. split.
             ++ intros p. unfold jk. rewrite (has_path_json _ _ _ _ Sk), (has_path_json _ _ _ _ md_head). exact (md_paths _ _ _ _ _ _ _ _ _ M k u p Hk Hu).
             ++ intros p c. unfold jk. rewrite (content_file_json _ _ _ _ Sk), (content_file_json _ _ _ _ md_head). exact (md_resolves _ _ _ _ _ _ _ _ _ M k u p c Hk Hu).
        * intros Ea u d Hu. unfold jk. rewrite (has_digest_json _ _ _ _ Sk), (has_digest_json _ _ _ _ md_head). exact (md_keys _ _ _ _ _ _ _ _ _ M k u d Hk Hu Ea).
      + intros v v' j j' f f' Hb Hi Hi'. destruct (before_In _ _ _ Hb) as [Hv Hv']. apply Ev in Hv as (k & Hk & ->). apply Ev in Hv' as (k' & Hk' & ->).
        apply before_vn in Hb. apply inventory_of_k in Hi as (_ & -> & ->); [|auto]. apply inventory_of_k in Hi' as (_ & -> & ->); [|auto]. split.
        * intros p Hp. apply listed_manifest in Hp. apply listed_manifest. revert p Hp. apply (md_grow _ _ _ _ _ _ _ _ _ M); lia.
        * apply (md_specs _ _ _ _ _ _ _ _ _ M k k'); lia.
      + intros _ v j f Hv Hi. apply Ev in Hv as (k & Hk & ->). apply inventory_of_k in Hi as (Hlt & -> & ->); [|auto]. apply (md_below _ _ _ _ _ _ _ _ _ M k). lia.
    - intros v Hv. apply Ev in Hv as (k & Hk & ->). split; [|split].
      + pose proof (files_there _ _ (IO_vinv k Hk)) as E. unfold at_root. apply (look_above w (h ++ [vn k]) inv_name []).
        rewrite <- app_assoc. cbn [app]. rewrite E. discriminate.
      + intros c e Hc. apply there_case in Hc as [(b & -> & Hin)|(-> & _)]; [| |discriminate]; [|auto].
        apply version_file in Hin as [-> | ->]; [now left| |auto]. right. left. now rewrite sidecar_name_k.
      + intros _ r Hr Hd. apply (there_case (vn k :: cd :: r)) in Hd as [(b & E & _)|(_ & c & x & b & Hin)]; [discriminate| |discriminate].
        exists c. intros E. assert (F : look w (h ++ (vn k :: cd :: r) ++ c :: x) = Some (EFile b)) by now apply files_there.
        assert (G : h ++ (vn k :: cd :: r) ++ c :: x = (h ++ vn k :: cd :: r ++ [c]) ++ x) by (rewrite <- !app_assoc; cbn [app]; now rewrite <- app_assoc).
        rewrite G in F. destruct x as [|y x]; [rewrite app_nil_r in F; unfold at_root in E; cbn [f_cdir fk facts_of] in E; fold cd in E; congruence|].
        rewrite look_below_leaf in F; [discriminate|discriminate|]. unfold at_root in E. cbn [f_cdir fk facts_of] in E. fold cd in E. congruence.
    - intros p. unfold fk at 1. rewrite (listed_manifest (alg n) (spec n) n (ivs n) p), (md_listed _ _ _ _ _ _ _ _ _ M). split.
      + intros (r & b & Hin & ->). destruct (content_shape r b Hin) as (k & r' & Hk & Hr & Hf & ->). exists (vn k), r'.
        split; [apply Ev; eauto|]. split; [now apply seen_k|]. split; [auto|]. split; [|reflexivity].
        assert (E : look w (h ++ vn k :: cd :: r') = Some (EFile b)) by (apply files_there; now constructor).
        unfold leaf. cbn [f_cdir fk facts_of]. fold cd. rewrite E. split; discriminate.
      + intros (v & r & Hv & _ & Hr & [L1 L2] & ->). apply Ev in Hv as (k & Hk & ->). cbn [f_cdir fk facts_of] in *. fold cd in L1, L2 |- *.
        destruct (look w (h ++ vn k :: cd :: r)) as [e|] eqn:E; [|congruence]. apply there_case in E as [(b & -> & Hin)|(-> & _)]; [|congruence|discriminate].
        exists (vn k :: cd :: r), b. split; [|reflexivity]. destruct (md_apart _ _ _ _ _ _ _ _ _ M) as [A B].
        now apply content_only.
    - intros _. split; [|split].
      + intros d p Hl. apply lists_manifest in Hl. apply (fits_k _ n); [apply (Sz n Hnn)| |auto]. exact (md_digests _ _ _ _ _ _ _ _ _ M n d p Hnn Hl).
      + intros a d p Hl. apply (fixity_json _ _ _ _ md_head) in Hl. apply (fits_k _ n); [| |auto].
        * destruct Hl as (fx & b & Hf & Hb & _). destruct (so_fixity _ _ _ _ md_head fx Hf) as [_ F]. apply (F a b Hb).
        * exact (md_fixity _ _ _ _ _ _ _ _ _ M n a d p Hnn Hl).
      + intros v j f Hv Hi. apply Ev in Hv as (k & Hk & ->). apply inventory_of_k in Hi as (Hlt & -> & ->); [|auto].
        pose proof (md_sound _ _ _ _ _ _ _ _ _ M k Hk) as Sk. split.
        * intros d p Hl _. apply lists_manifest in Hl. apply (fits_k _ n); [apply (Sz k Hk)| |auto]. exact (md_digests _ _ _ _ _ _ _ _ _ M k d p Hk Hl).
        * intros a d p Hl _. apply (fixity_json _ _ _ _ Sk) in Hl. apply (fits_k _ n); [| |auto].
          -- destruct Hl as (fx & b & Hf & Hb & _). destruct (so_fixity _ _ _ _ Sk fx Hf) as [_ F]. apply (F a b Hb).
          -- exact (md_fixity _ _ _ _ _ _ _ _ _ M k a d p Hk Hl).
  Qed.
End Intact.
