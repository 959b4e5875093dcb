(** Parts of the validator that need no knowledge of versions. *)
From Verif Require Import Base Unicode Regex Utf8 Json PyJson Log TextFile JsonTextModel JsonTextSpec DigestModel ObjectUtilsModel LayoutProofs.
From Verif Require Import InventorySpec InventoryValidatorModel InventoryValidatorProofs InventoryRulesProofs InventoryPriorProofs.
From Verif Require Import PathModel FsModel FsSpec FsProofs FswModel FswSpec FswProofs FswCopyProofs NamasteModel NamasteSpec NamasteProofs.
From Verif Require Import ValidatorModel ValidatorSpec.
Open Scope N_scope.

(** ** What is read as JSON has no repeated keys *)

Lemma json_wf_str s : json_wf (JStr s). Proof. exact I. Qed.

Lemma In_dset {A} k (v : A) d k' v' : In (k', v') (dset k v d) -> (k' = k /\ v' = v) \/ In (k', v') d.
Proof.
  induction d as [|[k0 v0] d IH]; cbn [dset].
  - intros [E|[]]. injection E as <- <-. auto.
  - destruct (str_eqb_spec k k0) as [->|].
    + intros [E|Hi]; [injection E as <- <-; auto|right; now right].
    + intros [E|Hi]; [right; now left|]. apply IH in Hi as [|]; auto. right. now right.
Qed.

Lemma dset_wf k v d : json_wf (JObj d) -> json_wf v -> json_wf (JObj (dset k v d)).
Proof.
  rewrite !json_wf_obj. intros [Hn Hf] Hv. split; [now apply NoDup_dset|].
  apply Forall_forall. intros [k' v'] Hi. rewrite Forall_forall in Hf. apply In_dset in Hi as [[-> ->]|Hi]; cbn [snd]; auto.
  apply (Hf (k', v') Hi).
Qed.

Lemma scan_wf fuel :
  (forall s v r, scan_value fuel s = Ok (v, r) -> json_wf v) /\
  (forall s l r, scan_elements fuel s = Ok (l, r) -> Forall json_wf l) /\
  (forall s d d' r, json_wf (JObj d) -> scan_members fuel s d = Ok (d', r) -> json_wf (JObj d')).
Proof.
  induction fuel as [|f [IHv [IHe IHm]]]; [split; [|split]; cbn; discriminate|]. split; [|split].
  - intros s v r E. cbn [scan_value] in E. destruct s as [|c s]; [discriminate|].
    destruct (c =? 34).
    { destruct (scan_string _ _) as [[t q]|]; [|discriminate]. apply Ok_inv in E. injection E as <- _. exact I. }
    destruct (c =? 123).
    { destruct (eat 125 _); [apply Ok_inv in E; injection E as <- _; apply json_wf_obj; split; constructor|].
      apply ebind_ok in E as ([d q] & E1 & E2). apply Ok_inv in E2. injection E2 as <- _.
      refine (IHm _ [] d q _ E1). apply json_wf_obj. split; constructor. }
    destruct (c =? 91).
    { destruct (eat 93 _); [apply Ok_inv in E; injection E as <- _; apply json_wf_arr; constructor|].
      apply ebind_ok in E as ([d q] & E1 & E2). apply Ok_inv in E2. injection E2 as <- _. apply json_wf_arr. eauto. }
    destruct (scan_constant constants (c :: s)) as [[x q]|] eqn:Ec.
    { apply Ok_inv in E. injection E as <- _. assert (G : forall l, Forall (fun kv => json_wf (snd kv)) l ->
        forall x q, scan_constant l (c :: s) = Some (x, q) -> json_wf x).
      { clear. induction 1 as [|[p y] l Hy Hl IH]; cbn [scan_constant]; [discriminate|]. intros x q. destruct (strip_prefix _ _); [|apply IH].
        intros E. injection E as <- _. exact Hy. }
      refine (G constants _ x q Ec). repeat constructor. }
    unfold scan_number in E. destruct (scan_int _) as [[t q]|]; [|discriminate].
    destruct (scan_frac q) as [fr r1]. destruct (scan_exp r1) as [ex r2].
    destruct fr, ex; [destruct (too_long t); [discriminate|]|..]; apply Ok_inv in E; injection E as <- _; exact I.
  - intros s l r E. cbn [scan_elements] in E. apply ebind_ok in E as ([v q] & E1 & E2). apply IHv in E1.
    destruct (eat 93 _); [apply Ok_inv in E2; injection E2 as <- _; auto|].
    destruct (eat 44 _); [|discriminate]. apply ebind_ok in E2 as ([l' q'] & E2 & E3). apply Ok_inv in E3. injection E3 as <- _.
    constructor; eauto.
  - intros s d d' r Hd E. cbn [scan_members] in E. destruct (eat 34 s); [|discriminate].
    destruct (scan_string _ _) as [[k r1]|]; [|discriminate]. destruct (eat 58 _); [|discriminate].
    apply ebind_ok in E as ([v q] & E1 & E2). apply IHv in E1. pose proof (dset_wf k v d Hd E1) as Hd'.
    destruct (eat 125 _); [apply Ok_inv in E2; injection E2 as <- _; auto|].
    destruct (eat 44 _); [|discriminate]. eauto.
Qed.

Lemma json_loads_wf s j : json_loads s = Ok j -> json_wf j.
Proof.
  unfold json_loads. destruct (eat 65279 s); [discriminate|]. intros E. apply ebind_ok in E as ([v r] & E1 & E2).
  apply scan_wf in E1. destruct (skip_ws r); [|discriminate]. apply Ok_inv in E2. now subst.
Qed.
Lemma json_load_wf b j : json_load b = Ok j -> json_wf j.
Proof. unfold json_load. intros E. apply ebind_ok in E as (s & _ & E). now apply json_loads_wf in E. Qed.

(** ** Digests *)

Lemma str_eq_cases (a b : str) : a = b \/ a <> b.
Proof. destruct (str_eqb_spec a b); auto. Qed.

Lemma file_digest_iff H alg b x : file_digest H alg b = Ok x <-> digest_of H alg b x.
Proof.
  unfold file_digest. rewrite !file_digest_blocks_ok by apply BUFSIZE_pos. unfold digest_of. cbn [ebind].
  repeat match goal with
  | |- context [str_eqb alg ?s] => destruct (str_eqb_spec alg s) as [->|];
      [split; [intros E; apply Ok_inv in E; subst x; eauto using digest_size
              |intros [[[? Hn] ->]|[[E ->]|[E ->]]]; [inversion Hn; reflexivity|try discriminate E; reflexivity|try discriminate E; reflexivity]]|]
  end.
    split; [discriminate|]. intros [[[n' Hn] _]|[[E _]|[E _]]]; [|contradiction|contradiction]. inversion Hn; congruence.
Qed.

Lemma records_iff alg d x : str_eqb x (normalized_digest d alg) = true <-> records alg d x.
Proof.
  unfold normalized_digest, records. destruct (str_in alg _) eqn:E.
  - apply str_in_true in E. split; [intros H; apply str_eqb_eq in H; auto|]. intros [[_ ->]|[H _]]; [apply str_eqb_refl|contradiction].
  - apply str_in_false in E. split.
    + intros H. apply str_eqb_eq in H. right. split; auto. subst x. unfold lower.
      induction d as [|a d IH]; cbn [map]; constructor; auto. unfold small_letter, lower_char.
      destruct (N.leb_spec 65 a), (N.leb_spec a 90); cbn [andb]; lia.
    + intros [[H _]|[_ H]]; [contradiction|]. apply str_eqb_eq. unfold lower.
      induction H as [|a c d x Hc Hd IH]; cbn [map]; [reflexivity|]. f_equal; auto. unfold small_letter, lower_char in *.
      destruct (N.leb_spec 65 a), (N.leb_spec a 90); cbn [andb]; lia.
Qed.

(** ** Digest files *)

Lemma space_not_word c : is_space c = true -> is_word c = false.
Proof.
  unfold is_space. intros H. apply existsb_exists in H as (x & Hx & E). apply N.eqb_eq in E. subst x.
  revert c Hx. apply Forall_forall. repeat (apply Forall_cons; [reflexivity|]). apply Forall_nil.
Qed.

Lemma run_unique {A} (P : A -> bool) a b a' b' :
  Forall (fun c => P c = true) a -> Forall (fun c => P c = true) a' ->
  (forall c r, b = c :: r -> P c = false) -> (forall c r, b' = c :: r -> P c = false) ->
  a ++ b = a' ++ b' -> a = a' /\ b = b'.
Proof.
  intros Ha. revert a'. induction Ha as [|c a Hc Ha IH]; intros a' Ha' Hb Hb' E.
  - destruct Ha' as [|c' a' Hc' Ha']; [auto|]. cbn in E. rewrite (Hb _ _ E) in Hc'. discriminate.
  - destruct Ha' as [|c' a' Hc' Ha']; cbn in E.
    + rewrite (Hb' c (a ++ b)) in Hc; [discriminate|auto].
    + injection E as -> E. destruct (IH a' Ha' Hb Hb' E) as [-> ->]. auto.
Qed.

Lemma head_is {A} (P : A -> bool) v a b : a <> [] -> Forall (fun c => P c = v) a -> forall c r, a ++ b = c :: r -> P c = v.
Proof. intros Ha Hf c r E. destruct Hf as [|x a Hx Hf]; [congruence|]. injection E as <- _. auto. Qed.

Definition sidecar_shape (l x nm : str) : Prop :=
  exists sp tl, x <> [] /\ Forall (fun c => is_word c = true) x /\ sp <> [] /\ spaces sp /\
    nm <> [] /\ Forall (fun c => is_space c = false) nm /\ spaces tl /\ l = x ++ sp ++ nm ++ tl.

Lemma words_not_space x : Forall (fun c => is_word c = true) x -> Forall (fun c => is_space c = false) x.
Proof.
  apply Forall_impl. intros c Hc. destruct (is_space c) eqn:E; [|auto]. apply space_not_word in E. congruence.
Qed.
Lemma spaces_not_word x : spaces x -> Forall (fun c => is_word c = false) x.
Proof. apply Forall_impl. apply space_not_word. Qed.

Lemma sidecar_shape_unique l x nm x' nm' : sidecar_shape l x nm -> sidecar_shape l x' nm' -> x = x' /\ nm = nm'.
Proof.
  intros (sp & tl & Hx & Hxw & Hs & Hsp & Hn & Hnn & Ht & E) (sp' & tl' & Hx' & Hxw' & Hs' & Hsp' & Hn' & Hnn' & Ht' & E').
  subst l. apply (run_unique is_word) in E' as [-> E']; auto.
  2:{ eapply head_is; [exact Hs|]. now apply spaces_not_word. }
  2:{ eapply head_is; [exact Hs'|]. now apply spaces_not_word. }
  split; [auto|]. apply (run_unique is_space) in E' as [-> E']; auto.
  2:{ eapply head_is; eauto. }
  2:{ eapply head_is; eauto. }
  apply (run_unique (fun c => negb (is_space c))) in E' as [-> E']; auto.
  - revert Hnn. apply Forall_impl. intros c ->. reflexivity.
  - revert Hnn'. apply Forall_impl. intros c ->. reflexivity.
  - intros c r ->. inversion Ht; subst. now rewrite H1.
  - intros c r ->. inversion Ht'; subst. now rewrite H1.
Qed.

Lemma sidecar_re_shape l x nm :
  (exists m, re_match re_sidecar l = Some m /\ group_or_nil 1 m = x /\ group_or_nil 2 m = nm) <-> sidecar_shape l x nm.
Proof.
  assert (S : forall m, re_match re_sidecar l = Some m -> sidecar_shape l (group_or_nil 1 m) (group_or_nil 2 m)).
  { intros m Em. apply re_match_sound in Em as (y & rest & -> & HD). unfold re_sidecar in HD.
    apply Den_seq in HD as (a & y1 & c1 & -> & Ha & HD). apply Den_grp in Ha as (c1' & -> & Ha).
    apply Den_plus_chr in Ha as (Ha1 & Ha2 & ->).
    apply Den_seq in HD as (b & y2 & c2 & -> & Hb & HD). apply Den_plus_chr in Hb as (Hb1 & Hb2 & ->).
    apply Den_seq in HD as (n & y3 & c3 & -> & Hn & HD). apply Den_grp in Hn as (c3' & -> & Hn).
    apply Den_plus_chr in Hn as (Hn1 & Hn2 & ->).
    apply Den_seq in HD as (t & y4 & c4 & -> & Ht & HD). apply Den_star_chr in Ht as (Ht & ->).
    apply Den_dol in HD as (-> & -> & Hr).
    cbn [group_or_nil group Nat.eqb]. exists b, (t ++ rest). repeat split; auto.
    - revert Hn2. apply Forall_impl. intros c E. now apply negb_true_iff in E.
    - apply Forall_app. split; [exact Ht|]. destruct Hr as [->| ->]; repeat constructor.
    - rewrite app_nil_r, <- !app_assoc. reflexivity. }
  split.
  - intros (m & Em & <- & <-). auto.
  - intros Hs. destruct (re_match re_sidecar l) as [m|] eqn:Em.
    + exists m. split; auto. pose proof (S m eq_refl) as Em'. destruct (sidecar_shape_unique _ _ _ _ _ Em' Hs). auto.
    + exfalso. destruct Hs as (sp & tl & Hx & Hxw & Hs & Hsp & Hn & Hnn & Ht & E).
      assert (D : Den re_sidecar l [] [] [(2%nat, nm); (1%nat, x)]).
      { subst l. unfold re_sidecar. eapply D_seq.
        * apply D_group. apply Den_plus_chr. repeat split; eauto.
        * eapply D_seq; [apply Den_plus_chr; repeat split; eauto|].
          eapply D_seq; [apply D_group, Den_plus_chr; repeat split; eauto|].
          { revert Hnn. apply Forall_impl. intros c ->. reflexivity. }
          rewrite <- (app_nil_r tl). eapply D_seq; [apply Den_star_chr; split; [exact Ht|reflexivity]|].
          apply D_dollar. auto. }
      apply (re_match_complete re_sidecar l l [] _ (eq_sym (app_nil_r l)) D Em).
Qed.

Lemma readline_line s : line s (readline s).
Proof.
  induction s as [|c s IH]; cbn [readline]; [left; auto|].
  destruct (N.eqb_spec c 10) as [->|Hc]; [right; exists [], s; auto|].
  destruct IH as [[E Hn]|(l0 & r & E & Hn & Es)].
  - left. split; [congruence|]. intros [E'|Hi]; [congruence|]. auto.
  - right. exists (c :: l0), r. cbn [app]. repeat split; [congruence| |congruence]. intros [E'|Hi]; [congruence|auto].
Qed.
Lemma line_unique s l l' : line s l -> line s l' -> l = l'.
Proof.
  assert (G : forall a r b r', ~ In 10 a -> ~ In 10 b -> a ++ 10 :: r = b ++ 10 :: r' -> a = b).
  { induction a as [|c a IH]; intros r [|c' b] r' Ha Hb E; cbn in *; auto.
    - injection E as E1 _. exfalso. apply Hb. left. congruence.
    - injection E as E1 _. exfalso. apply Ha. left. congruence.
    - injection E as -> E. f_equal. eapply IH; eauto. }
  intros [[E Hn]|(l0 & r & E & Hn & Es)] [[E' Hn']|(l0' & r' & E' & Hn' & Es')].
  - congruence.
  - subst. exfalso. apply Hn. rewrite !in_app_iff. cbn. auto.
  - subst. exfalso. apply Hn'. rewrite !in_app_iff. cbn. auto.
  - subst l l'. f_equal. rewrite Es in Es'. rewrite <- !app_assoc in Es'. cbn [app] in Es'. eapply G; eauto.
Qed.

Lemma sidecar_line_shape l x : sidecar_line l x <-> sidecar_shape l x (`"inventory.json").
Proof.
  unfold sidecar_line, sidecar_shape. split.
  - intros (sp & tl & Hx & Hw & Hs & Hsp & Ht & E). exists sp, tl. repeat split; auto; [discriminate|].
    repeat constructor.
  - intros (sp & tl & Hx & Hw & Hs & Hsp & _ & _ & Ht & E). exists sp, tl. auto 10.
Qed.

Lemma read_inventory_digest_iff w h f x : read_inventory_digest w h f = Ok x <->
  exists b text l, look w (at_path h f) = Some (EFile b) /\ read_text b = Ok text /\ line text l /\ sidecar_line l x.
Proof.
  unfold read_inventory_digest, fs_read_text. split.
  - intros E. apply ebind_ok in E as (text & E1 & E). apply ebind_ok in E1 as (b & E0 & E1). apply fs_read_look in E0.
    destruct (re_match re_sidecar (readline text)) as [m|] eqn:Em; [|discriminate].
    destruct (str_eqb_spec (group_or_nil 2 m) INVENTORY_FILENAME) as [E2|]; [|discriminate]. apply Ok_inv in E.
    exists b, text, (readline text). repeat split; auto using readline_line. apply sidecar_line_shape, sidecar_re_shape. eauto.
  - intros (b & text & l & E0 & E1 & Hl & Hs). apply fs_read_look in E0. rewrite E0. cbn [ebind]. rewrite E1. cbn [ebind].
    rewrite <- (line_unique _ _ _ (readline_line text) Hl) in Hs.
    apply sidecar_line_shape, sidecar_re_shape in Hs as (m & -> & E2 & E3). rewrite E3, E2, str_eqb_refl. reflexivity.
Qed.

(** The name of the algorithm is found in the file name. *)
Lemma sidecar_name_re s a : ~ In 10 s -> a <> [] -> Forall (fun c => is_word c = true) a ->
  exists m, re_match re_sidecar_name (s ++ `"." ++ a) = Some m /\ group_or_nil 1 m = a.
Proof.
  intros Hs Ha Hw. destruct (re_match re_sidecar_name (s ++ `"." ++ a)) as [m|] eqn:Em.
  - exists m. split; auto. apply re_match_sound in Em as (y & rest & E & HD). unfold re_sidecar_name in HD.
    apply Den_seq in HD as (x1 & y1 & c1 & -> & H1 & HD). apply Den_star_chr in H1 as (H1 & ->).
    apply Den_seq in HD as (x2 & y2 & c2 & -> & H2 & HD). apply Den_chr in H2 as (z & -> & Hz & ->). apply N.eqb_eq in Hz. subst z.
    apply Den_seq in HD as (x3 & y3 & c3 & -> & H3 & HD). apply Den_grp in H3 as (c3' & -> & H3). apply Den_plus_chr in H3 as (H3 & H3' & ->).
    apply Den_dol in HD as (-> & -> & Hr). cbn [group_or_nil group Nat.eqb].
    rewrite app_nil_r in E. rewrite <- !app_assoc in E. cbn [app] in E. change (`"." ++ a) with (46 :: a) in E.
    assert (Hd : forall t, Forall (fun c => is_word c = true) t -> ~ In 46 t).
    { intros t Ht Hi. rewrite Forall_forall in Ht. apply Ht in Hi. discriminate. }
    assert (Hd' : ~ In 46 (x3 ++ rest)).
    { rewrite in_app_iff. intros [Hi|Hi]; [exact (Hd _ H3' Hi)|]. destruct Hr as [->| ->]; cbn in Hi; [tauto|]. destruct Hi as [Hi|[]]. discriminate. }
    assert (G : forall p q p' q' : str, ~ In 46 q -> ~ In 46 q' -> p ++ 46 :: q = p' ++ 46 :: q' -> q = q').
    { clear. intros p q p' q' Hq Hq' E. apply (f_equal (@rev N)) in E. rewrite !rev_app_distr in E. cbn [rev] in E. rewrite <- !app_assoc in E. cbn [app] in E.
      assert (K : forall a r b r' : str, ~ In 46 a -> ~ In 46 b -> a ++ 46 :: r = b ++ 46 :: r' -> a = b).
      { induction a as [|c a IH]; intros r [|c' b] r' Ha Hb E'; cbn in *; auto.
        - injection E' as E1 _. exfalso. apply Hb. left. congruence.
        - injection E' as E1 _. exfalso. apply Ha. left. congruence.
        - injection E' as -> E'. f_equal. eapply IH; eauto. }
      apply K in E; [|rewrite <- in_rev; auto|rewrite <- in_rev; auto]. rewrite <- (rev_involutive q), E. apply rev_involutive. }
    apply (G s a x1 (x3 ++ rest)) in E; auto. destruct Hr as [->| ->]; [now rewrite app_nil_r in E|].
    exfalso. rewrite Forall_forall in Hw. assert (is_word 10 = true) by (apply Hw; rewrite E, in_app_iff; cbn; auto). discriminate.
  - exfalso. assert (D : Den re_sidecar_name (s ++ `"." ++ a) [] [] [(1%nat, a)]).
    { unfold re_sidecar_name. eapply D_seq; [apply Den_star_chr; split; [|reflexivity]|].
      - apply Forall_forall. intros c Hc. unfold is_dot. destruct (N.eqb_spec c 10); [congruence|reflexivity].
      - change (`"." ++ a) with ([46] ++ a). eapply D_seq; [apply D_chr; reflexivity|]. rewrite <- (app_nil_r a) at 1.
        eapply D_seq; [apply D_group, Den_plus_chr; repeat split; auto|]. apply D_dollar. auto. }
    apply (re_match_complete _ _ _ [] _ (eq_sym (app_nil_r _)) D Em).
Qed.

Lemma clean_inventory_digest H c w h f dir alg b u : ~ In 10 f -> In alg [`"sha512"; `"sha256"] ->
  at_path h f = h ++ dir ++ [`"inventory.json"] -> at_path h (f ++ `"." ++ alg) = h ++ dir ++ [`"inventory.json." ++ alg] ->
  at_root w h (dir ++ [`"inventory.json"]) = Some (EFile b) ->
  (clean (validate_inventory_digest H c w h f (JStr alg)) u <-> sidecar H (vc_check_digests c) w h dir alg b).
Proof.
  intros Hf Ha Hp Hp' Hb. unfold at_root in *. unfold validate_inventory_digest, sidecar, at_root. cbv zeta.
  destruct (fs_exists w h (f ++ `"." ++ alg)) eqn:Ex; cbn [negb].
  2:{ apply fs_exists_false in Ex. rewrite Hp' in Ex. rewrite clean_error. split; [tauto|]. intros [E _]. exact (E Ex). }
  apply fs_exists_look in Ex. rewrite Hp' in Ex.
  unfold validate_inventory_digest_match. destruct (vc_check_digests c); cbn [negb].
  2:{ rewrite clean_ret. destruct u. split; [|auto]. intros _. split; [exact Ex|discriminate]. }
  assert (Hw : alg <> [] /\ Forall (fun c => is_word c = true) alg).
  { cbn in Ha. destruct Ha as [<-|[<-|[]]]; (split; [discriminate|repeat constructor]). }
  destruct (sidecar_name_re f alg Hf (proj1 Hw) (proj2 Hw)) as (m & -> & ->).
  set (X := let* recorded := read_inventory_digest w h (f ++ `"." ++ alg) in _).
  assert (HX : X = Ok true <-> exists x, read_inventory_digest w h (f ++ `"." ++ alg) = Ok x /\ digest_of H alg b x).
  { unfold X. split.
    - intros E. apply ebind_ok in E as (x & E1 & E). apply ebind_ok in E as (y & E2 & E). apply Ok_inv, str_eqb_eq in E. subst y.
      exists x. split; auto. unfold fs_digest in E2. apply ebind_ok in E2 as (b' & E2 & E3). apply fs_read_look in E2.
      rewrite Hp, Hb in E2. injection E2 as <-. now apply file_digest_iff.
    - intros (x & -> & E). cbn [ebind]. unfold fs_digest. rewrite (proj2 (fs_read_look w h f b)) by (rewrite Hp; exact Hb). cbn [ebind].
      apply file_digest_iff in E. rewrite E. cbn [ebind]. now rewrite str_eqb_refl. }
  transitivity (X = Ok true).
  { destruct X as [[|]|e]; [rewrite clean_ret; destruct u; tauto|rewrite clean_error; split; [tauto|intros E; apply Ok_inv in E; discriminate]|].
    split; [|discriminate]. destruct e; rewrite ?clean_error, ?clean_raise; tauto. }
  rewrite HX. clear X HX. split.
  - intros (x & E & Hd). apply read_inventory_digest_iff in E as (sb & text & l & E1 & E2 & E3 & E4). rewrite Hp' in E1.
    split; [exact Ex|]. intros _. exists sb, text, l, x. auto 10.
  - intros [_ Hx]. destruct (Hx eq_refl) as (sb & text & l & x & E1 & E2 & E3 & E4 & E5). exists x. split; [|exact E5].
    apply read_inventory_digest_iff. exists sb, text, l. rewrite Hp'. auto.
Qed.

(** ** Declarations *)

Lemma lstrip_spaces a s : spaces a -> lstrip (a ++ s) = lstrip s.
Proof. induction 1 as [|c a Hc Ha IH]; cbn [lstrip app]; [reflexivity|]. now rewrite Hc. Qed.
Lemma lstrip_id s : (forall c r, s = c :: r -> is_space c = false) -> lstrip s = s.
Proof. destruct s as [|c r]; [reflexivity|]. intros H. cbn [lstrip]. now rewrite (H c r eq_refl). Qed.
Lemma lstrip_split s : exists a, s = a ++ lstrip s /\ spaces a /\ forall c r, lstrip s = c :: r -> is_space c = false.
Proof.
  induction s as [|c s (a & E & Ha & Hn)]; cbn [lstrip]; [exists []; repeat split; [constructor|discriminate]|].
  destruct (is_space c) eqn:Ec; [|exists []; repeat split; [constructor|congruence]].
  exists (c :: a). cbn [app]. repeat split; auto; [congruence|constructor; auto].
Qed.
Lemma spaces_rev a : spaces a -> spaces (rev a).
Proof. unfold spaces. rewrite !Forall_forall. intros H c Hc. apply H. now apply in_rev. Qed.

Lemma strip_split s : exists a b, s = a ++ strip_spaces s ++ b /\ spaces a /\ spaces b.
Proof.
  destruct (lstrip_split s) as (a & E & Ha & _). destruct (lstrip_split (rev (lstrip s))) as (b & E' & Hb & _).
  exists a, (rev b). split; [|auto using spaces_rev]. unfold strip_spaces. rewrite <- rev_app_distr, <- E', rev_involutive. exact E.
Qed.
Lemma strip_body a body b : spaces a -> spaces b ->
  (forall c r, body = c :: r -> is_space c = false) -> (forall c r, body = r ++ [c] -> is_space c = false) -> body <> [] ->
  strip_spaces (a ++ body ++ b) = body.
Proof.
  intros Ha Hb Hh Ht Hn. unfold strip_spaces. rewrite lstrip_spaces by auto.
  rewrite (lstrip_id (body ++ b)).
  2:{ intros c r E. destruct body as [|c' body]; [congruence|]. injection E as <- _. eauto. }
  rewrite rev_app_distr, lstrip_spaces by auto using spaces_rev. rewrite lstrip_id; [apply rev_involutive|].
  intros c r E. apply (Ht c (rev r)). rewrite <- (rev_involutive body), E. reflexivity.
Qed.

Lemma F2_length {A B} (P : A -> B -> Prop) l l' : Forall2 P l l' -> List.length l = List.length l'.
Proof. induction 1; cbn; congruence. Qed.

Lemma declares_iff text t : t <> [] -> (List.length t < 40)%nat -> ~ In 95 [hd 95 t; last t 95] ->
  (content_to_tvalue text = t <-> declares text t).
Proof.
  intros Hn Hl He. unfold content_to_tvalue, declares.
  assert (F : forall body, map (fun c => if tvalue_char c then c else 95) body = t <-> Forall2 shown_as body t).
  { clear. intros body. revert t. induction body as [|c body IH]; intros [|x t]; cbn [map]; split; intros H; try discriminate; try (now inversion H); auto.
    - injection H as <- H. constructor; [|now apply IH]. unfold shown_as, tvalue_char. destruct (_ || _); reflexivity.
    - inversion H as [|? ? ? ? Hx Hb]; subst. apply IH in Hb. f_equal; auto. unfold shown_as, tvalue_char in *. destruct (_ || _); auto. }
  split.
  - intros E. destruct (strip_split text) as (a & b & E' & Ha & Hb). exists a, (strip_spaces text), b. repeat split; auto.
    apply F. rewrite <- E. f_equal. symmetry. apply firstn_all2.
    apply (f_equal (@List.length N)) in E. rewrite map_length, firstn_length in E. lia.
  - intros (a & body & b & E & Ha & Hb & HF). pose proof (F2_length _ _ _ HF) as Hlen. rewrite E, strip_body; auto.
    + rewrite firstn_all2 by lia. now apply F.
    + intros c r ->. inversion HF as [|? x ? t' Hx Hr]; subst. cbn [hd In] in He. unfold shown_as in Hx.
      destruct (is_word c || char_in c (`".-:")) eqn:Ec; [|subst x; exfalso; apply He; auto].
      destruct (is_space c) eqn:Es; [|reflexivity]. exfalso. pose proof (space_not_word _ Es) as Hw. rewrite Hw in Ec. cbn [orb] in Ec.
      apply existsb_exists in Ec as (y & Hy & Ey). apply N.eqb_eq in Ey. subst y. cbn in Hy. destruct Hy as [<-|[<-|[<-|[]]]]; discriminate.
    + intros c r ->. apply Forall2_app_inv_l in HF as (t1 & t2 & H1 & H2 & ->). inversion H2 as [|? x ? t' Hx Hr]; subst. inversion Hr; subst.
      rewrite last_last in He. cbn [In] in He. unfold shown_as in Hx.
      destruct (is_word c || char_in c (`".-:")) eqn:Ec; [|subst x; exfalso; apply He; auto].
      destruct (is_space c) eqn:Es; [|reflexivity]. exfalso. pose proof (space_not_word _ Es) as Hw. rewrite Hw in Ec. cbn [orb] in Ec.
      apply existsb_exists in Ec as (y & Hy & Ey). apply N.eqb_eq in Ey. subst y. cbn in Hy. destruct Hy as [<-|[<-|[<-|[]]]]; discriminate.
    + intros ->. inversion HF. congruence.
Qed.

Lemma content_ok_iff n w h : Forall fname h -> fname (filename n) ->
  (content_ok n w h [] = Ok true <-> tvalue n <> [] /\ exists b text, at_root w h [filename n] = Some (EFile b) /\
     read_text b = Ok text /\ content_to_tvalue text = tvalue n).
Proof.
  intros Hh Hf. unfold content_ok, check_content, at_root.
  assert (Hp : at_path h (path_join [] (filename n)) = h ++ [filename n]) by (rewrite at_path_name by auto; now rewrite at_path_nil).
  destruct (str_eqb_spec (tvalue n) []) as [E|Hn]; [split; [discriminate|tauto]|].
  destruct (fs_read_text w h (path_join [] (filename n))) as [text|e] eqn:E.
  - cbn [ebind]. unfold fs_read_text in E. apply ebind_ok in E as (b & E1 & E2). apply fs_read_look in E1. rewrite Hp in E1.
    destruct (str_eqb_spec (tvalue n) (content_to_tvalue text)) as [Et|Et]; cbn [negb].
    + split; [|auto]. intros _. split; auto. exists b, text. auto.
    + split; [discriminate|]. intros (_ & b' & text' & E1' & E2' & E3). rewrite E1 in E1'. injection E1' as <-. congruence.
  - split.
    + destruct e; cbn [ebind]; discriminate.
    + intros (_ & b & text & E1 & E2 & E3). unfold fs_read_text in E. rewrite <- Hp in E1. apply fs_read_look in E1. rewrite E1 in E. cbn [ebind] in E. congruence.
Qed.

Lemma declared_version_iff n v : declared_version n = Some v <-> In v [`"1.0"; `"1.1"] /\ filename n = `"0=ocfl_object_" ++ v.
Proof.
  unfold declared_version. split.
  - intros E. apply find_some in E as [Hi E]. apply str_eqb_eq in E. split; auto.
  - intros [Hi E]. destruct (find _ _) as [v'|] eqn:Ef.
    + apply find_some in Ef as [_ E']. apply str_eqb_eq in E'. rewrite E in E'. apply app_inv_head in E'. now rewrite E'.
    + apply (fun H => find_none _ _ Ef v H) in Hi. rewrite E, str_eqb_refl in Hi. discriminate.
Qed.

Lemma look_fnames_root w h : tree w -> look w h = Some EDir -> Forall fname h.
Proof. intros Hw Hl. apply (look_fnames w); [auto|]. rewrite Hl. discriminate. Qed.

Lemma nodup_single {A} (x : A) l : NoDup l -> (forall y, In y l <-> y = x) -> l = [x].
Proof.
  intros Hn Hi. destruct l as [|a l]; [destruct (proj2 (Hi x) eq_refl)|].
  assert (a = x) as -> by (apply Hi; now left). f_equal. destruct l as [|b l]; [auto|]. exfalso.
  assert (b = x) as -> by (apply Hi; right; now left). inversion Hn; subst. apply H1. now left.
Qed.

Lemma decl_fname v : In v [`"1.0"; `"1.1"] -> fname (`"0=ocfl_object_" ++ v).
Proof. intros [<-|[<-|[]]]; apply fname_b_ok; reflexivity. Qed.

Lemma clean_declarations c w h spec : tree w -> look w h = Some EDir ->
  ((exists namastes, find_namastes w h (`"0") [] 10 = Ok namastes /\ map filename namastes = [`"0=ocfl_object_" ++ spec] /\
      clean (check_declarations c w h namastes) spec) <-> declaration w h spec) /\
  (forall namastes, find_namastes w h (`"0") [] 10 = Ok namastes -> clean (check_declarations c w h namastes) spec ->
     map filename namastes = [`"0=ocfl_object_" ++ spec]).
Proof.
  intros Hw Hl. pose proof (look_fnames_root w h Hw Hl) as Hh. apply look_dir in Hl as (d & Hg).
  assert (Hg' : get w (at_path h []) = Ok (Dir d)) by now rewrite at_path_nil.
  assert (Hwk : walkable []) by (unfold walkable; discriminate).
  pose proof (find_namastes_ok w h d [] (`"0") 10 Hw Hwk Hg') as Hfn. cbv zeta in Hfn.
  set (l := filter (startswith (`"0" ++ `"=")) (keys d)) in *.
  assert (Hin : forall n, In n l <-> tagged w h (`"0") n) by (intros n; apply (names_tagged w h d (`"0") n Hw Hg)).
  assert (Hnd : NoDup l) by (apply NoDup_filter; apply (dir_names w h d Hw Hg)).
  set (ns := map (fun f => mkNamaste (`"0") [] (Some (skipn (List.length (`"0" ++ `"=")) f))) (sorted_strs l)) in *.
  assert (Hns : map filename ns = sorted_strs l).
  { unfold ns. rewrite map_filename. apply skipn_back. apply Forall_forall. intros f Hf. apply In_isort in Hf.
    unfold l in Hf. apply filter_In in Hf. tauto. }
  assert (Hone : forall n, In spec [`"1.0"; `"1.1"] -> filename n = `"0=ocfl_object_" ++ spec ->
     (clean (check_declarations c w h [n]) spec <-> exists b text, at_root w h [`"0=ocfl_object_" ++ spec] = Some (EFile b) /\ read_text b = Ok text /\
      declares text (`"ocfl_object_" ++ spec)) \/ n_d n <> `"0").
  { intros n Hs En. destruct (str_eqb_spec (n_d n) (`"0")) as [Hd|]; [left|auto].
    assert (Ht : tvalue n = `"ocfl_object_" ++ spec).
    { unfold filename in En. rewrite Hd in En. exact (app_inv_head (`"0" ++ `"=") _ _ En). }
    unfold check_declarations. cbn [wfold List.length Nat.ltb Nat.leb]. unfold check_declaration.
    rewrite (proj2 (declared_version_iff n spec)) by auto. rewrite clean_bind.
    assert (Hc : content_ok n w h [] = Ok true <-> exists b text, at_root w h [`"0=ocfl_object_" ++ spec] = Some (EFile b) /\ read_text b = Ok text /\
      declares text (`"ocfl_object_" ++ spec)).
    { rewrite content_ok_iff by (auto; rewrite En; now apply decl_fname). rewrite Ht, En.
      assert (Hde : forall text, content_to_tvalue text = `"ocfl_object_" ++ spec <-> declares text (`"ocfl_object_" ++ spec)).
      { intros text. apply declares_iff; destruct Hs as [<-|[<-|[]]]; cbn; try discriminate; try lia; intros [E|[E|[]]]; discriminate. }
      split.
      - intros (_ & b & text & E1 & E2 & E3). exists b, text. repeat split; auto. now apply Hde.
      - intros (b & text & E1 & E2 & E3). split; [destruct Hs as [<-|[<-|[]]]; discriminate|]. exists b, text. repeat split; auto. now apply Hde. }
    rewrite <- Hc. clear Hc. split.
    - intros (o & H1 & H2). rewrite clean_bind in H1. destruct H1 as (o' & H1 & H3). apply clean_ret in H3. subst o'.
      rewrite clean_bind in H1. destruct H1 as (ok & H1 & H3). apply clean_lift in H1. rewrite clean_bind in H3.
      destruct H3 as ([] & H3 & _). destruct ok; [auto|now apply clean_error in H3].
    - intros E. exists (Some spec). rewrite clean_bind. split; [|rewrite clean_bind_ret; now apply clean_ret].
      exists (Some spec). split; [|now apply clean_ret]. rewrite clean_bind. exists true. split; [now apply clean_lift|].
      rewrite clean_bind_ret. now apply clean_ret. }
  assert (Hsingle : forall namastes, clean (check_declarations c w h namastes) spec ->
     exists n, namastes = [n] /\ In spec [`"1.0"; `"1.1"] /\ filename n = `"0=ocfl_object_" ++ spec).
  { intros namastes Hc. unfold check_declarations in Hc. destruct namastes as [|n r]; [now apply clean_bind_error in Hc|].
    apply clean_bind in Hc as (o & H1 & H2). destruct o as [v|]; [|now apply clean_bind_error in H2].
    apply clean_bind in H2 as ([] & H2 & H3). apply clean_ret in H3. subst v.
    destruct r as [|n' r]; [|cbn [List.length Nat.ltb Nat.leb] in H2; now apply clean_error in H2].
    exists n. split; [auto|]. cbn [wfold] in H1. apply clean_bind in H1 as (o & H1 & H3). apply clean_ret in H3. subst o.
    unfold check_declaration in H1. destruct (declared_version n) as [v|] eqn:Ev; [|now apply clean_bind_error in H1].
    apply clean_bind in H1 as (ok & _ & H1). apply clean_bind in H1 as ([] & _ & H1). apply clean_ret, Some_inv in H1. subst v.
    now apply declared_version_iff. }
  split.
  - split.
    + intros (namastes & Hf & Hm & Hc). destruct (Hsingle _ Hc) as (n & -> & Hs & En). cbn [map] in Hm.
      rewrite Hfn in Hf. destruct (Nat.ltb_spec 10 (List.length l)); [discriminate|]. apply Ok_inv in Hf. rewrite Hf in Hns. cbn [map] in Hns.
      split; [auto|]. split.
      * intros name. rewrite <- Hin. rewrite <- (In_isort str_leb name l). change (isort str_leb l) with (sorted_strs l). rewrite <- Hns, En. cbn [In]. intuition congruence.
      * destruct (Hone n Hs En) as [Ho|Ho]; [now apply Ho|]. exfalso. apply Ho.
        assert (Hi : In n ns) by (rewrite Hf; now left). unfold ns in Hi. apply in_map_iff in Hi as (f & <- & _). reflexivity.
    + intros (Hs & Ht & Hb). assert (El : l = [`"0=ocfl_object_" ++ spec]).
      { apply nodup_single; auto. intros y. rewrite Hin. apply Ht. }
      exists ns. rewrite Hfn, Hns, El. split; [reflexivity|]. split; [reflexivity|].
      rewrite El in Hns. assert (exists n, ns = [n]) as (n & En).
      { destruct ns as [|n [|n' r]]; cbn in Hns; try discriminate; eauto. }
      rewrite En in *. cbn [map sorted_strs isort insert_sorted] in Hns. injection Hns as Hnn.
      destruct (Hone n Hs Hnn) as [Ho|Ho]; [now apply Ho|]. exfalso. apply Ho.
      assert (Hi : In n ns) by (rewrite En; now left). unfold ns in Hi. apply in_map_iff in Hi as (f & <- & _). reflexivity.
  - intros namastes Hf Hc. destruct (Hsingle _ Hc) as (n & -> & Hs & En). cbn [map]. now rewrite En.
Qed.

(** ** The object root *)

Lemma at_path_one h k : Forall fname h -> fname k -> at_path h k = h ++ [k].
Proof. intros Hh Hk. exact (at_path_join h [k] Hh (Forall_cons _ Hk (Forall_nil _))). Qed.

Lemma entry_name_nil k : entry_name [] k = k. Proof. reflexivity. Qed.

Lemma clean_wfold_tt {A} (g : unit -> A -> wexc unit) l u :
  clean (wfold g l tt) u <-> Forall (fun x => clean (g tt x) tt) l.
Proof.
  revert u. induction l as [|x l IH]; intros []; cbn [wfold].
  - rewrite clean_ret. split; auto.
  - rewrite clean_bind, Forall_cons_iff. split.
    + intros [[] [H1 H2]]. split; [auto|]. now apply IH in H2.
    + intros [H1 H2]. exists tt. split; [auto|]. now apply IH.
Qed.

Lemma clean_extensions w h d u : tree w -> Forall fname h -> get w (h ++ [`"extensions"]) = Ok (Dir d) ->
  (clean (validate_extensions_dir w h) u <-> forall k e', at_root w h [`"extensions"; k] = Some e' -> e' = EDir).
Proof.
  intros Hw Hh Hg. unfold validate_extensions_dir. rewrite clean_bind.
  assert (Hf : fname (`"extensions")) by (apply fname_b_ok; reflexivity).
  assert (Hl : fs_ls w h (`"extensions") = Ok (map (fun kv => (entry_name (`"extensions") (fst kv), type_of (snd kv))) d)).
  { unfold fs_ls. rewrite (at_path_one h _ Hh Hf), Hg. reflexivity. }
  assert (Hd : forall k, at_root w h [`"extensions"; k] = option_map entry_of (dget k d)).
  { intros k. unfold at_root. change [`"extensions"; k] with ([`"extensions"] ++ [k]). rewrite app_assoc. now apply look_child. }
  destruct (dir_names w _ d Hw Hg) as (Hnd & _ & _).
  set (g := fun e : str * ftype => match snd e with
     | TDir => if str_in (fst e) registered_extensions then wret tt else wwarning (`"W013")
     | _ => werror (`"E067") end).
  assert (G : clean (wfold (fun _ e => g e) (map (fun kv => (entry_name (`"extensions") (fst kv), type_of (snd kv))) d) tt) u <->
    (forall k e', at_root w h [`"extensions"; k] = Some e' -> e' = EDir)).
  { rewrite (clean_wfold_unit g), Forall_forall. split.
    - intros H k e' He. rewrite Hd in He. destruct (dget k d) as [m|] eqn:E; [|discriminate]. injection He as <-.
      apply dget_In in E. specialize (H (entry_name (`"extensions") k, type_of m)). unfold g in H. cbn [fst snd] in H.
      assert (Hi : clean (match type_of m with TDir => if str_in (entry_name (`"extensions") k) registered_extensions then wret tt else wwarning (`"W013") | _ => werror (`"E067") end) tt).
      { apply H. apply in_map_iff. exists (k, m). auto. }
      destruct m; cbn [type_of] in Hi; try (now apply clean_error in Hi). reflexivity.
    - intros H x Hx. apply in_map_iff in Hx as ([k m] & <- & Hi). cbn [fst snd]. unfold g. cbn [fst snd].
      apply In_dget in Hi; [|auto]. specialize (H k (entry_of m)). rewrite Hd, Hi in H. specialize (H eq_refl).
      destruct m; cbn in H; try discriminate. cbn [type_of]. destruct (str_in _ _); [now apply clean_ret|now apply clean_warning]. }
  rewrite <- G. split.
  - intros (l & H1 & H2). apply clean_lift in H1. rewrite Hl in H1. apply Ok_inv in H1. subst l. exact H2.
  - intros H. eexists. split; [apply clean_lift; exact Hl|exact H].
Qed.

Lemma clean_object_root w h spec f u : tree w -> look w h = Some EDir ->
  (clean (validate_object_root w h spec (JStr (f_alg f)) (f_versions f) [`"0=ocfl_object_" ++ spec]) u <->
   forall name e, at_root w h [name] = Some e -> root_entry w h spec f name e).
Proof.
  intros Hw Hl. pose proof (look_fnames_root w h Hw Hl) as Hh. apply look_dir in Hl as (d & Hg).
  destruct (dir_names w h d Hw Hg) as (Hnd & Hfn & _). unfold validate_object_root.
  cbv zeta. set (g := check_root_entry w h (f_versions f) [`"0=ocfl_object_" ++ spec; INVENTORY_FILENAME; `"inventory.json." ++ f_alg f] [`"0=ocfl_object_" ++ spec]).
  rewrite clean_bind.
  assert (El : fs_ls w h [] = Ok (map (fun kv => (fst kv, type_of (snd kv))) d)).
  { unfold fs_ls. rewrite at_path_nil, Hg by auto. reflexivity. }
  assert (Hd : forall k, at_root w h [k] = option_map entry_of (dget k d)) by (intros k; now apply look_child).
  assert (G : forall k m, dget k d = Some m -> (clean (g tt (k, type_of m)) tt <-> root_entry w h spec f k (entry_of m))).
  { intros k m Hk. unfold g, check_root_entry. destruct m as [b|d'|]; cbn [type_of entry_of root_entry].
    - destruct (str_in k [`"0=ocfl_object_" ++ spec; INVENTORY_FILENAME; `"inventory.json." ++ f_alg f]) eqn:E1; cbn [negb andb].
      + apply str_in_true in E1. rewrite clean_ret. split; [intros _; exact E1|auto].
      + apply str_in_false in E1. destruct (str_in k [`"0=ocfl_object_" ++ spec]) eqn:E2; cbn [negb].
        * apply str_in_true in E2. exfalso. apply E1. destruct E2 as [<-|[]]. now left.
        * rewrite clean_error. split; [tauto|]. intros Hi. exact (E1 Hi).
    - destruct (str_in_spec k (f_versions f)) as [Hv|Hv]; [rewrite clean_ret; tauto|].
      destruct (str_eqb_spec k (`"logs")) as [->|Hlg]; [rewrite clean_ret; tauto|].
      destruct (str_eqb_spec k (`"extensions")) as [->|Hex].
      + rewrite (clean_extensions w h d' tt Hw Hh).
        * split; [intros H; right; right; split; [reflexivity|exact H]|]. intros [H|[H|[_ H]]]; [contradiction|contradiction|exact H].
        * rewrite get_app, Hg. cbn [get]. now rewrite Hk.
      + split; [|intros [H|[H|[H _]]]; contradiction]. destruct (re_match _ _); intros H; now apply clean_error in H.
    - rewrite clean_error. tauto. }
  assert (F : clean (wfold g (map (fun kv => (fst kv, type_of (snd kv))) d) tt) u <->
    (forall name e, at_root w h [name] = Some e -> root_entry w h spec f name e)).
  { rewrite (clean_wfold_tt g), Forall_forall. split.
    - intros H k e He. rewrite Hd in He. destruct (dget k d) as [m|] eqn:E; [|discriminate]. injection He as <-.
      apply G; auto. apply H. apply in_map_iff. exists (k, m). split; [reflexivity|]. now apply dget_In.
    - intros H x Hx. apply in_map_iff in Hx as ([k m] & <- & Hi). apply In_dget in Hi; [|auto]. cbn [fst snd]. apply G; auto.
      apply H. rewrite Hd, Hi. reflexivity. }
  rewrite <- F. clear F G. split.
  - intros (l & H1 & H2). apply clean_lift in H1. rewrite El in H1. apply Ok_inv in H1. subst l. exact H2.
  - intros H. eexists. split; [apply clean_lift; exact El|exact H].
Qed.
