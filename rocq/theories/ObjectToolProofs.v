(** Reading the file with the metadata of the versions (C86). *)
From Coq Require Import Permutation.
From Verif Require Import Base Unicode Regex Utf8 Json PyJson JsonTextModel JsonTextProofs JsonFileProofs DigestModel ObjectUtilsModel ObjectUtilsProofs InventorySpec InventoryValidatorModel InventoryValidatorProofs InventoryRulesProofs
  InventoryModel InventoryOpsSpec InventoryOpsProofs InventoryParseProofs PathModel FsModel FsSpec FsProofs FswModel FswSpec FswProofs FswCopyProofs ValidatorModel ValidatorBasicProofs ObjectModel ObjectSpec MetaSpec MetaProofs BuildProofs RaisesProofs
  BaggerModel RootToolModel ObjectToolModel ObjectToolSpec.

Lemma dget_member d k v : dget k d = Some v -> member (JObj d) k v.
Proof. intros E. exists d. split; [reflexivity|]. now apply dget_In. Qed.
Lemma dget_lacks d k : dget k d = None -> lacks (JObj d) k.
Proof. intros E v (d' & X & Hi). injection X as <-. apply dget_None in E. apply E. apply in_map_iff. exists (k, v). auto. Qed.

Lemma opt_read {A} (g : json -> exc A) k d (T : json -> Prop) : (forall v, T v -> exists y, g v = Ok y) -> if_any (JObj d) k T ->
  exists x, opt_member g k d = Ok x /\ match x with Some y => exists v, member (JObj d) k v /\ g v = Ok y | None => lacks (JObj d) k end.
Proof.
  intros G Hk. unfold opt_member. destruct (dget k d) as [v|] eqn:E; [|exists None; split; [reflexivity|now apply dget_lacks]].
  apply dget_member in E. destruct (G v (Hk v E)) as [y Hy]. exists (Some y). rewrite Hy. split; [reflexivity|eauto].
Qed.
Lemma read_text v : is_text v -> exists y, string_of_json v = Ok y.
Proof. intros [t ->]. cbn. eauto. Qed.
Lemma read_dict {A} (g : json -> exc A) (T : json -> Prop) v : (forall x, T x -> exists y, g x = Ok y) -> dict_of T v -> exists y, entries_of_json g v = Ok y.
Proof.
  intros G (d & -> & Hd). unfold entries_of_json. cbn [object_of_json ebind]. induction d as [|[k x] d IH]; [cbn; eauto|]. cbn [emap fst snd].
  destruct (G x (Hd k x (or_introl eq_refl))) as [y ->]. cbn [ebind]. destruct IH as [l ->]; [intros k' x' Hi; eapply Hd; right; eauto|]. cbn [ebind]. eauto.
Qed.
Lemma read_block v : dict_of string_array v -> exists y, block_of_json v = Ok y.
Proof. apply read_dict. intros x Hx. exists (strings x). now apply strings_of_json_ok. Qed.
Lemma read_object v : dict_of (fun _ => True) v -> exists y, object_of_json v = Ok y.
Proof. intros (d & -> & _). cbn. eauto. Qed.
Lemma string_inv v t : string_of_json v = Ok t -> v = JStr t.
Proof. destruct v; cbn; intros E; try discriminate. now apply Ok_inv in E; subst. Qed.
Lemma object_inv v t : object_of_json v = Ok t -> v = JObj t.
Proof. destruct v; cbn; intros E; try discriminate. now apply Ok_inv in E; subst. Qed.

Lemma read_version b : version_like b -> exists t, vblock_of_json b = Ok t /\
  text_or_none b (`"created") (vb_created t) /\ text_or_none b (`"message") (vb_message t) /\
  match vb_user t with Some u => member b (`"user") (JObj u) | None => lacks b (`"user") end.
Proof.
  intros ((d & -> & _) & Hc & Hm & Hu & Hs). unfold vblock_of_json. cbn [object_of_json ebind].
  destruct (opt_read string_of_json _ _ _ read_text Hc) as (c & -> & C). cbn [ebind]. destruct (opt_read string_of_json _ _ _ read_text Hm) as (m & -> & M). cbn [ebind].
  destruct (opt_read object_of_json _ _ _ read_object Hu) as (u & -> & U). cbn [ebind]. destruct (opt_read block_of_json _ _ _ read_block Hs) as (s & -> & S). cbn [ebind].
  eexists. split; [reflexivity|]. cbn [vb_created vb_message vb_user]. repeat split.
  - destruct c as [c|]; [|exact C]. destruct C as (v & Hv & E). apply string_inv in E. now subst.
  - destruct m as [m|]; [|exact M]. destruct M as (v & Hv & E). apply string_inv in E. now subst.
  - destruct u as [u|]; [|exact U]. destruct U as (v & Hv & E). apply object_inv in E. now subst.
Qed.

Lemma entries_inv {A} (g : json -> exc A) d l : entries_of_json g (JObj d) = Ok l -> Forall2 (fun kv y => fst y = fst kv /\ g (snd kv) = Ok (snd y)) d l.
Proof.
  unfold entries_of_json. cbn [object_of_json ebind]. intros E. apply emap_ok in E. induction E as [|[k x] [k' y] d l E1 E IH]; constructor; auto. cbn [fst snd] in *.
  apply ebind_ok in E1 as (z & E1 & E2). apply Ok_inv in E2. injection E2 as -> ->. auto.
Qed.
Lemma entries_keys {A} (R : json -> A -> Prop) d l : Forall2 (fun kv y => fst y = fst kv /\ R (snd kv) (snd y)) d l -> keys l = keys d.
Proof. induction 1 as [|x y d l [E _] _ IH]; [reflexivity|]. unfold keys in *. cbn [map]. congruence. Qed.
Lemma entries_get {A} (R : json -> A -> Prop) d l k y : Forall2 (fun kv y => fst y = fst kv /\ R (snd kv) (snd y)) d l -> dget k l = Some y -> exists v, dget k d = Some v /\ R v y.
Proof.
  induction 1 as [|[k1 v1] [k2 y2] d l [E R1] _ IH]; [discriminate|]. cbn [fst snd] in *. subst k2. cbn [dget]. destruct (str_eqb k k1); [intros X; injection X as <-; eauto|exact IH].
Qed.

(** JSON like an inventory can be read; what it then says of each version *)
Lemma read_inventory j vs : json_wf j -> inventory_like j -> member j (`"versions") vs -> exists i, inventory_of_json j = Ok i /\
  (forall v, In v (keys (versions_block i)) <-> version_in j v) /\ i_versions i <> None /\
  forall v m, says i v = Some m -> version_says j v m.
Proof.
  intros W ((d & -> & _) & Ht & Hm & Hf & Hv) Mv. unfold inventory_of_json. cbn [object_of_json ebind].
  assert (T : forall k, In k [`"id"; `"type"; `"digestAlgorithm"; `"head"; `"contentDirectory"] -> exists x, opt_member string_of_json k d = Ok x /\ match x with Some y => exists v, member (JObj d) k v /\ string_of_json v = Ok y | None => lacks (JObj d) k end).
  { intros k Hk. exact (opt_read string_of_json _ _ _ read_text (Ht k Hk)). }
  destruct (T (`"id")) as (id & -> & Id); [now left|]. cbn [ebind]. destruct (T (`"type")) as (ty & -> & _); [right; now left|]. cbn [ebind].
  destruct (T (`"digestAlgorithm")) as (al & -> & _); [do 2 right; now left|]. cbn [ebind]. destruct (T (`"head")) as (hd & -> & _); [do 3 right; now left|]. cbn [ebind].
  destruct (T (`"contentDirectory")) as (cd & -> & _); [do 4 right; now left|]. cbn [ebind].
  destruct (opt_read block_of_json _ _ _ read_block Hm) as (man & -> & _). cbn [ebind].
  assert (G1 : forall v, dict_of version_like v -> exists y, entries_of_json vblock_of_json v = Ok y).
  { intros v. apply read_dict. intros x Hx. destruct (read_version x Hx) as (t & E & _). eauto. }
  assert (G2 : forall v, dict_of (dict_of string_array) v -> exists y, entries_of_json block_of_json v = Ok y).
  { intros v. apply read_dict. apply read_block. }
  destruct (opt_read _ _ _ _ G1 Hv) as (bs & -> & Bs). cbn [ebind]. destruct (opt_read _ _ _ _ G2 Hf) as (fx & -> & _).
  cbn [ebind]. eexists. split; [reflexivity|]. destruct bs as [bs|]; [|exfalso; exact (Bs vs Mv)]. unfold says, versions_block. cbn [i_versions or_empty i_id].
  destruct Bs as (vs' & Mv' & E). assert (vs' = vs) by (eapply member_fun; eauto). subst vs'. destruct (Hv vs Mv) as (vd & -> & Vl). pose proof (member_wf _ _ _ W Mv) as Wv.
  pose proof (entries_inv _ _ _ E) as F2. pose proof (entries_keys (fun v t => vblock_of_json v = Ok t) _ _ F2) as K. apply json_wf_obj in Wv as [Nd Wv]. split; [|split; [discriminate|]].
  - intros v. rewrite K. split.
    + intros Hi. apply in_map_iff in Hi as ([v' b] & <- & Hi). exists (JObj vd), b. split; [exact Mv|]. exists vd. auto.
    + intros (vs' & b & M1 & M2). assert (vs' = JObj vd) by (eapply member_fun; eauto). subst vs'. destruct M2 as (d' & X & Hi). injection X as <-. apply in_map_iff. exists (v, b). auto.
  - intros v m S. unfold option_map in S. destruct (dget v bs) as [t|] eqn:Et; [|discriminate]. injection S as <-. unfold read_meta. cbn [i_id]. destruct (entries_get (fun v t => vblock_of_json v = Ok t) _ _ _ _ F2 Et) as (b & Eb & Rb).
    pose proof (dget_In _ _ _ Eb) as Ib. destruct (read_version b (Vl v b Ib)) as (t' & Et' & C & M & U). rewrite Rb in Et'. apply Ok_inv in Et'. subst t'.
    split; [cbn [vm_id]; destruct id as [id|]; [|exact Id]; destruct Id as (x & Hx & Ex); apply string_inv in Ex; now subst|].
    exists (JObj vd), b. split; [exact Mv|]. split; [exists vd; auto|]. cbn [vm_created vm_message vm_name vm_address]. split; [exact C|]. split; [exact M|].
    destruct (vb_user t) as [u|]; [left|right; auto]. exists (JObj u). split; [exact U|]. cbn [or_empty].
    split; [destruct (dget (`"name") u) eqn:En|destruct (dget (`"address") u) eqn:En]; cbn; first [now apply dget_member|now apply dget_lacks].
Qed.

(** What a version says is unique. *)
Lemma member_either j k v : json_wf j -> member j k v -> lacks j k -> False.
Proof. intros _ M L. exact (L v M). Qed.
Lemma text_unique j k x y : json_wf j -> text_or_none j k x -> text_or_none j k y -> x = y.
Proof.
  intros W. destruct x as [x|], y as [y|]; cbn; intros X Y; auto; try (now destruct (X _ Y)); try (now destruct (Y _ X)).
  pose proof (member_fun _ _ _ _ W X Y) as E. now injection E as ->.
Qed.
Lemma json_unique j k x y : json_wf j -> json_or_none j k x -> json_or_none j k y -> x = y.
Proof.
  intros W. destruct x as [x|], y as [y|]; cbn; intros X Y; auto; try (now destruct (X _ Y)); try (now destruct (Y _ X)).
  now rewrite (member_fun _ _ _ _ W X Y).
Qed.
Lemma version_says_unique j v m m' : json_wf j -> version_says j v m -> version_says j v m' -> m = m'.
Proof.
  intros W (I1 & vs & b & V & B & C & M & U) (I1' & vs' & b' & V' & B' & C' & M' & U').
  assert (vs' = vs) by (eapply member_fun; eauto). subst vs'. assert (Wv : json_wf vs) by (eapply member_wf; eauto).
  assert (b' = b) by (eapply member_fun; eauto). subst b'. assert (Wb : json_wf b) by (eapply member_wf; eauto).
  pose proof (text_unique _ _ _ _ W I1 I1') as E1. pose proof (text_unique _ _ _ _ Wb C C') as E2. pose proof (text_unique _ _ _ _ Wb M M') as E3.
  assert (E45 : vm_name m = vm_name m' /\ vm_address m = vm_address m').
  { destruct U as [(u & U1 & U2 & U3)|(L & N1 & N2)], U' as [(u' & U1' & U2' & U3')|(L' & N1' & N2')].
    - assert (u' = u) by (eapply member_fun; eauto). subst u'. assert (Wu : json_wf u) by (eapply member_wf; eauto). split; eapply json_unique; eauto.
    - now destruct (L' u U1).
    - now destruct (L u' U1').
    - split; congruence. }
  destruct E45 as [E4 E5]. destruct m, m'. cbn in *. congruence.
Qed.

(** ** The loop over the versions *)
Lemma directories_perm i vd : version_directories i = Ok vd -> forall v, In v vd <-> In v (keys (versions_block i)).
Proof.
  unfold version_directories. intros E v. apply ebind_ok in E as (nv & E & X). apply Ok_inv in X. subst vd. apply emap_ok in E.
  assert (F : In v (map snd nv) <-> In v (keys (versions_block i))).
  { clear - E. induction E as [|k [n u] ks nv E _ IH]; [tauto|]. apply ebind_ok in E as (m & _ & E). apply Ok_inv in E. injection E as -> ->. cbn [map snd In]. now rewrite IH. }
  rewrite <- F. split; apply Permutation_in; apply Permutation_map; [apply Permutation_sym|]; apply isort_perm.
Qed.
Lemma directories_ok i : (forall v, In v (keys (versions_block i)) -> exists k, taken_for v k) -> exists vd, version_directories i = Ok vd.
Proof.
  intros Hk. unfold version_directories. assert (X : exists nv, emap (fun v => let* n := parse_version_directory v in Ok (n, v)) (keys (versions_block i)) = Ok nv); [|destruct X as [nv ->]; cbn [ebind]; eauto].
  induction (keys (versions_block i)) as [|v l IH]; [cbn; eauto|]. cbn [emap]. destruct (Hk v (or_introl eq_refl)) as [k T]. apply taken_parse in T. rewrite T. cbn [ebind].
  destruct IH as [nv ->]; [intros u Hu; apply Hk; now right|]. cbn [ebind]. eauto.
Qed.

Lemma loop_reads i : i_versions i <> None -> (forall v, In v (keys (versions_block i)) -> exists k, taken_for v k) ->
  exists ms, versions_metadata i = Ok ms /\
    (forall k m, ms k = Some m -> exists v, taken_for v k /\ says i v = Some m) /\
    (forall v k, In v (keys (versions_block i)) -> taken_for v k -> ms k <> None).
Proof.
  intros Some_ Hk. destruct (directories_ok i Hk) as [vd Evd]. pose proof (directories_perm i vd Evd) as Hvd. unfold versions_metadata. rewrite Evd. cbn [ebind].
  assert (Sub : incl vd (keys (versions_block i))) by (intros v Hv; now apply Hvd).
  assert (G : forall l (ms0 : N -> option vmeta), incl l (keys (versions_block i)) -> (forall k m, ms0 k = Some m -> exists v, taken_for v k /\ says i v = Some m) ->
    exists ms, efold (fun (ms : N -> option vmeta) vdir => let* n := parse_version_directory vdir in let* m := from_inventory empty_vmeta i (Some vdir) in Ok (fun k => if (k =? n)%N then Some m else ms k)) l ms0 = Ok ms /\
      (forall k m, ms k = Some m -> exists v, taken_for v k /\ says i v = Some m) /\ (forall k, ms0 k <> None -> ms k <> None) /\ (forall v k, In v l -> taken_for v k -> ms k <> None)).
  { induction l as [|v l IH]; intros ms0 Hl H0; [exists ms0; cbn [efold]; repeat split; auto; intros v k []|]. cbn [efold].
    destruct (Hk v (Hl v (or_introl eq_refl))) as [n Tn]. pose proof Tn as Pn. apply taken_parse in Pn. rewrite Pn. cbn [ebind].
    assert (Sv : exists m, says i v = Some m). { unfold says. assert (Kv : In v (keys (versions_block i))) by (apply Hl; now left). apply In_key_dget in Kv as [b ->]. cbn [option_map]. eauto. }
    destruct Sv as [m Sv]. rewrite from_says, Sv. cbn [ebind].
    destruct (IH (fun k => if (k =? n)%N then Some m else ms0 k)) as (ms & E & A & B & C).
    { intros u Hu. apply Hl. now right. }
    { intros k m' X. destruct (N.eqb_spec k n) as [->|_]; [injection X as <-; eauto|now apply H0]. }
    exists ms. split; [exact E|]. split; [exact A|]. split.
    - intros k Hk0. apply B. destruct (N.eqb_spec k n); [discriminate|exact Hk0].
    - intros u k [<-|Hu] Tk; [|now apply (C u)]. apply B. apply taken_parse in Tk. rewrite Pn in Tk. apply Ok_inv in Tk. subst k. rewrite N.eqb_refl. discriminate. }
  destruct (G vd (fun _ => None) Sub ltac:(discriminate)) as (ms & E & A & _ & C). exists ms. split; [exact E|]. split; [exact A|]. intros v k Hv. apply C. now apply Hvd.
Qed.

(** Reading the file gives what it says. *)
Theorem metadata_read e w a f ms : oa_metadata a = Some f -> metadata_given e w a ms -> exists ms', metadata_from_file e f w = Ok ms' /\ forall k, ms' k = ms k.
Proof.
  unfold metadata_given. intros -> (b & j & Lb & Lj & Ty & (vs & Mv) & S1 & S2 & S3). pose proof (json_load_wf _ _ Lj) as W.
  destruct (read_inventory j vs W Ty Mv) as (i & Ei & Ki & Vi & Si).
  destruct (loop_reads i Vi) as (ms' & E & A & B). { intros v Hv. apply Ki in Hv. destruct (S2 v Hv) as (k & _ & T & _). eauto. }
  exists ms'. split.
  - unfold metadata_from_file. assert (R : fs_read w (if startswith [slash] f then [] else e_cwd e) f = Ok b) by (apply fs_read_look; exact Lb). rewrite R. cbn [ebind]. rewrite Lj. cbn [ebind]. rewrite Ei. cbn [ebind]. exact E.
  - assert (In_ : forall v m, version_says j v m -> version_in j v) by (intros v m (_ & vs' & b' & X & Y & _); exists vs', b'; auto).
    assert (Fwd : forall k m, ms' k = Some m -> ms k = Some m).
    { intros k m Hm. destruct (A k m Hm) as (v & T & S). apply Si in S. pose proof (In_ _ _ S) as Vv. destruct (S2 v Vv) as (k' & m' & T' & M').
      assert (k' = k) by (apply taken_parse in T, T'; rewrite T in T'; now apply Ok_inv in T'). subst k'. destruct (S1 k m' M') as (v' & T2 & Sv').
      assert (v' = v) by (eapply S3; eauto). subst v'. rewrite M'. f_equal. eapply version_says_unique; eauto. }
    intros k. destruct (ms' k) as [m|] eqn:E'; [symmetry; now apply Fwd|]. destruct (ms k) as [m|] eqn:Em; [|reflexivity]. exfalso. destruct (S1 k m Em) as (v & T & S).
    apply (B v k); auto. apply Ki. eauto.
Qed.

(** An inventory that obeys the rules can be used as such a file. *)
Lemma obeys_like j f : json_wf j -> obeys as_coded j f -> inventory_like j.
Proof.
  intros W (Id & (t & Ty & _) & (Al & _) & Cd & (Ma & Md & _) & (hd & bf & Hd & _) & Fx & (vs & (Vs & _) & Bl & _)).
  assert (S : forall k t, member j k (JStr t) -> if_any j k is_text) by (intros k t' M v Mv; rewrite (member_fun _ _ _ _ W Mv M); exists t'; reflexivity).
  split; [destruct Id as [(d & -> & _) _]; exists d; auto|]. split; [|split; [|split]].
  - intros k [<-|[<-|[<-|[<-|[<-|[]]]]]]; [exact (S _ _ (proj1 Id))|exact (S _ _ Ty)|exact (S _ _ Al)|exact (S _ _ Hd)|].
    unfold content_directory_rule in Cd. destruct (f_cdir_set f); [exact (S _ _ (proj1 Cd))|]. intros v Mv. destruct (proj1 Cd v Mv).
  - intros v Mv. rewrite (member_fun _ _ _ _ W Mv Ma). eexists. split; [reflexivity|]. intros d x Hi. exact (proj2 (Md d x Hi)).
  - intros v Mv. destruct Fx as [L|(fx & Mf & Hf)]; [destruct (L v Mv)|]. rewrite (member_fun _ _ _ _ W Mv Mf). exists fx. split; [reflexivity|]. intros a x Hi. destruct (Hf a x Hi) as (_ & bl & -> & Hb & _).
    exists bl. split; [reflexivity|]. intros d y Hy. apply (Hb d y Hy).
  - intros v Mv. rewrite (member_fun _ _ _ _ W Mv Vs). exists vs. split; [reflexivity|]. intros u b Hb. destruct (Bl u b Hb) as (st & (c & Cr & _) & Ms & Us & St & Sd & _).
    assert (Wb : json_wf b) by (eapply member_wf; [exact (member_wf _ _ _ W Vs)|]; exists vs; eauto).
    assert (Sb : forall k t, member b k (JStr t) -> if_any b k is_text) by (intros k t' M x Mx; rewrite (member_fun _ _ _ _ Wb Mx M); exists t'; reflexivity).
    split; [destruct St as (d & -> & _); exists d; auto|]. split; [exact (Sb _ _ Cr)|]. split; [destruct Ms as [L|[m Mm]]; [intros x Mx; destruct (L x Mx)|exact (Sb _ _ Mm)]|]. split.
    + intros x Mx. destruct Us as [L|(u' & Mu & (nm & (d & -> & _)) & _)]; [destruct (L x Mx)|]. rewrite (member_fun _ _ _ _ Wb Mx Mu). exists d. auto.
    + intros x Mx. rewrite (member_fun _ _ _ _ Wb Mx St). exists st. split; [reflexivity|]. intros d y Hy. exact (proj2 (Sd d y Hy)).
Qed.
