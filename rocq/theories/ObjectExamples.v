(** Calls that can be checked by computing, for the examples. *)
From Coq Require Import Permutation Sorted.
From Verif Require Import Base Unicode Regex Utf8 Json PyJson JsonTextModel JsonTextSpec JsonTextProofs JsonFileProofs Log DigestModel LayoutModel LayoutProofs
  ObjectUtilsModel ObjectUtilsProofs InventorySpec InventoryValidatorModel InventoryValidatorProofs InventoryRulesProofs
  InventoryModel InventoryOpsSpec InventoryOpsProofs NewVersionModel NewVersionProofs NewVersionOpsProofs VersionNumberProofs InventoryParseProofs ParseModel
  ContentPathProofs TextFile PathModel FsModel FsSpec FsProofs FswModel FswSpec FswProofs FswCopyProofs ValidatorSpec ValidatorBasicProofs ObjectModel ObjectSpec ObjectInvProofs ObjectRulesProofs
  ObjectParseProofs ObjectAddProofs ContentNameProofs ObjectGrowProofs ObjectStartProofs ObjectCopyProofs ObjectWriteProofs ObjectSourceProofs ObjectFactsProofs NamasteSpec ValidatorVersionProofs ObjectMadeProofs ObjectIntactProofs ObjectExtendProofs FsStepProofs NamasteModel NamasteProofs ObjectStoreProofs ObjectCreateProofs ValidatorModel ValidatorIntactProofs ObjectUpdateProofs ObjectNextProofs ObjectDigestProofs ObjectVersionProofs ObjectExtractProofs ObjectHistoryProofs DatetimeModel.


(** ** What is in a tree *)

Fixpoint listing (n : node) : list (place * entry) :=
  ([], entry_of n) ::
  match n with
  | Dir d => (fix all (d : list (str * node)) : list (place * entry) :=
      match d with [] => [] | (k, m) :: r => map (fun pe => (k :: fst pe, snd pe)) (listing m) ++ all r end) d
  | _ => []
  end.

Lemma listing_dir d p e : In (p, e) (listing (Dir d)) <-> (p = [] /\ e = EDir) \/ exists k m q, In (k, m) d /\ p = k :: q /\ In (q, e) (listing m).
Proof.
  cbn [listing]. split.
  - intros [E|Hi]; [injection E as <- <-; now left|]. right. induction d as [|[k m] d IH]; [destruct Hi|]. apply in_app_or in Hi as [Hi|Hi].
    + apply in_map_iff in Hi as ([q e'] & E & Hi). cbn in E. injection E as <- ->. exists k, m, q. split; [now left|auto].
    + destruct (IH Hi) as (k' & m' & q & H1 & H2 & H3). exists k', m', q. split; [now right|auto].
  - intros [[-> ->]|(k & m & q & Hi & -> & Hq)]; [now left|]. right. induction d as [|[k' m'] d IH]; [destruct Hi|]. apply in_or_app. destruct Hi as [E|Hi].
    + injection E as -> ->. left. apply in_map_iff. exists (q, e). auto.
    + right. auto.
Qed.
Lemma listing_iff n : tree n -> forall p e, In (p, e) (listing n) <-> look n p = Some e.
Proof.
  induction n as [b| |d IH] using node_ind'; intros T p e.
  - cbn. split; [intros [E|[]]; now injection E as <- <-|]. destruct p; cbn; intros E; [|discriminate]. apply Some_inv in E. subst e. now left.
  - cbn. split; [intros [E|[]]; now injection E as <- <-|]. destruct p; cbn; intros E; [|discriminate]. apply Some_inv in E. subst e. now left.
  - rewrite listing_dir. apply tree_dir in T as [Nd T]. rewrite Forall_forall in IH. split.
    + intros [[-> ->]|(k & m & q & Hi & -> & Hq)]; [reflexivity|]. unfold look. cbn [get]. rewrite (In_dget _ _ _ Nd Hi). destruct (T k m Hi) as [_ Tm]. apply (IH _ Hi Tm). exact Hq.
    + destruct p as [|k q]; [cbn; intros E; left; apply Some_inv in E; auto|]. unfold look. cbn [get]. destruct (dget k d) as [m|] eqn:Ek; [|discriminate]. apply dget_In in Ek. intros E.
      right. exists k, m, q. split; [auto|]. split; [auto|]. destruct (T k m Ek) as [_ Tm]. apply (IH _ Ek Tm). exact E.
Qed.

Definition node_at (w : node) (p : place) : node := match get w p with Ok n => n | Raise _ => Other end.
Lemma look_below w p n q : get w p = Ok n -> look w (p ++ q) = look n q.
Proof. revert w. induction p as [|c p IH]; intros w; cbn; [intros E; injection E as <-; reflexivity|]. destruct w; try discriminate. destruct (dget c d) eqn:Ec; [|discriminate]. intros E. unfold look. cbn. rewrite Ec. exact (IH _ E). Qed.
Lemma tree_below w p n : tree w -> get w p = Ok n -> tree n.
Proof.
  revert w. induction p as [|c p IH]; intros w T; cbn; [intros E; injection E as <-; exact T|]. destruct w; try discriminate. destruct (dget c d) eqn:Ec; [|discriminate]. intros E. apply dget_In in Ec. apply tree_dir in T as [_ T]. destruct (T _ _ Ec). eauto.
Qed.

Definition files_in (w : node) (p : place) : list (place * bytes) :=
  flat_map (fun pe => match snd pe with EFile b => [(fst pe, b)] | _ => [] end) (listing (node_at w p)).
Lemma files_in_iff w p es b : tree w -> look w p = Some EDir -> (In (es, b) (files_in w p) <-> look w (p ++ es) = Some (EFile b)).
Proof.
  intros T Hd. unfold files_in, node_at, look in *. destruct (get w p) as [n|] eqn:E; [|discriminate]. pose proof (look_below w p n es E) as L. unfold look in L. rewrite L. clear L.
  pose proof (tree_below w p n T E) as Tn. change (In (es, b) (flat_map (fun pe => match snd pe with EFile b => [(fst pe, b)] | _ => [] end) (listing n)) <-> look n es = Some (EFile b)).
  rewrite <- (listing_iff n Tn), in_flat_map. split.
  - intros ([q e] & Hi & Hb). cbn in Hb. destruct e as [b'| |]; [|destruct Hb|destruct Hb]. destruct Hb as [Hb|[]]. injection Hb as <- <-. exact Hi.
  - intros Hi. exists (es, EFile b). split; [auto|now left].
Qed.

(** ** Checks *)

Definition ascii_b (s : str) : bool := forallb (fun c => (c <? 128)%N) s.
Lemma ascii_text s : ascii_b s = true -> text s.
Proof.
  induction s as [|c s IH]; cbn [ascii_b forallb]; [intros _; exact I|]. rewrite andb_true_iff, N.ltb_lt. intros [Hc Hs]. cbn [text]. split; [lia|]. split; [|now apply IH].
  destruct s; [exact I|]. intros [Hh _]. unfold high_surrogate in Hh. lia.
Qed.
Definition no_newline (s : str) : bool := forallb (fun c => negb (N.eqb c newline)) s.
Definition name_b (norm : option str) (s : str) : bool := ascii_b s && match norm with None => no_newline s | Some _ => match utf8_encode s with Ok _ => true | Raise _ => false end end.
Lemma name_b_ok norm s : name_b norm s = true -> text s /\ match norm with None => ~ In newline s | Some _ => exists bs, utf8_encode s = Ok bs end.
Proof.
  unfold name_b. rewrite andb_true_iff. intros [A B]. split; [now apply ascii_text|]. destruct norm.
  - destruct (utf8_encode s); [eauto|discriminate].
  - unfold no_newline in B. rewrite forallb_forall in B. intros Hi. apply B in Hi. now rewrite N.eqb_refl in Hi.
Qed.

Definition dir_b (w : node) (p : place) : bool := match look w p with Some EDir => true | _ => false end.
Lemma dir_b_ok w p : dir_b w p = true -> look w p = Some EDir.
Proof. unfold dir_b. destruct (look w p) as [[]|]; try discriminate. reflexivity. Qed.

Definition source_b (norm : option str) (w : node) (src : place) : bool :=
  dir_b w src && forallb (fun pe => match snd pe with EOther => false | EDir => true | EFile _ => forallb (name_b norm) (fst pe) end) (listing (node_at w src)).
Lemma source_b_ok norm w src : tree w -> source_b norm w src = true -> source_ok norm w src.
Proof.
  intros T. unfold source_b. rewrite andb_true_iff, forallb_forall. intros [A B]. apply dir_b_ok in A. unfold node_at in B.
  destruct (get w src) as [n|] eqn:E; [|unfold look in A; rewrite E in A; discriminate]. pose proof (tree_below w src n T E) as Tn. constructor; [exact A| |].
  - intros es b L. rewrite (look_below w src n es E) in L. apply (listing_iff n Tn) in L. apply B in L. cbn in L. rewrite forallb_forall in L. apply Forall_forall. intros x Hx. apply name_b_ok. auto.
  - intros es L. rewrite (look_below w src n es E) in L. apply (listing_iff n Tn) in L. apply B in L. discriminate.
Qed.

Definition created_b (s : str) : bool := (match str_to_datetime s with Ok _ => true | Raise _ => false end) && re_found re_created_tz s && re_found re_created_time s && ascii_b s.
Lemma created_b_ok s : created_b s = true -> r_created as_coded s /\ text s.
Proof.
  unfold created_b. rewrite !andb_true_iff. intros [[[A B] C] D]. split; [|now apply ascii_text]. apply created_iff. destruct (str_to_datetime s) eqn:E; [|discriminate]. eauto.
Qed.
Definition text_json (j : json) : bool := match j with JStr s => ascii_b s | _ => false end.
Definition meta_b (now : str) (m : vmeta) : bool :=
  (match vm_created m with Some ((_ :: _) as c) => created_b c | _ => created_b now end) && (match vm_message m with Some x => ascii_b x | None => true end) &&
  (match vm_name m with None => match vm_address m with None => true | Some _ => false end | Some x => text_json x end) &&
  (match vm_address m with None => true | Some x => text_json x end).
Lemma text_json_ok j : text_json j = true -> exists s, j = JStr s /\ text s.
Proof. destruct j; try discriminate. intros E. eexists. split; [reflexivity|now apply ascii_text]. Qed.
Lemma meta_b_ok now m : meta_b now m = true -> meta_ok now m.
Proof.
  unfold meta_b. rewrite !andb_true_iff. intros [[[A B] C] D]. constructor.
  - destruct (vm_created m) as [[|]|]; now apply created_b_ok.
  - intros x E. rewrite E in B. now apply ascii_text.
  - destruct (vm_name m) as [x|]; [now apply text_json_ok|]. now destruct (vm_address m).
  - intros x E. rewrite E in D. now apply text_json_ok.
Qed.

Definition no_url_b (s : str) : bool := forallb (fun c => negb (N.eqb c 58)) s.
Lemma no_url_b_ok s : no_url_b s = true -> no_url s.
Proof. unfold no_url_b. rewrite forallb_forall. intros E a b ->. assert (Hi : In 58%N (a ++ `"://" ++ b)) by (apply in_or_app; right; now left). apply E in Hi. discriminate. Qed.
Definition known_b (t : str) : bool := str_in t [`"sha512"; `"sha256"; `"sha1"; `"md5"; `"blake2b-512"].
Lemma known_b_ok t : known_b t = true -> exists k, digest_size t k.
Proof. intros E. apply str_in_true in E. repeat destruct E as [<-|E]; try (eexists; constructor). destruct E. Qed.

Definition first_b (id alg spec : str) (cdir : option str) (fixity : list str) : bool :=
  negb (str_eqb id []) && ascii_b id && str_in alg [`"sha512"; `"sha256"] && str_in spec [`"1.0"; `"1.1"] &&
  (match cdir with None => true | Some c => fname_b c && ascii_b c end) && forallb known_b fixity.
Lemma first_b_ok id alg spec cdir fixity : first_b id alg spec cdir fixity = true -> first_ok id alg spec cdir fixity.
Proof.
  unfold first_b. rewrite !andb_true_iff. intros [[[[[A B] C] D] E] F]. constructor.
  - split; [|now apply ascii_text]. intros ->. discriminate.
  - now apply str_in_true.
  - now apply str_in_true.
  - intros c ->. apply andb_true_iff in E as [E1 E2]. split; [now apply fname_b_ok|now apply ascii_text].
  - intros t Ht. rewrite forallb_forall in F. auto using known_b_ok.
Qed.

Definition nothing_below (w : node) (h : place) : bool := match get w h with Ok (Dir []) => true | _ => false end.
Lemma nothing_below_ok w h : nothing_below w h = true -> look w h = Some EDir /\ forall r, r <> [] -> look w (h ++ r) = None.
Proof.
  unfold nothing_below. destruct (get w h) as [[|[|]|]|] eqn:E; try discriminate. intros _. split; [unfold look; now rewrite E|]. intros r Hr. rewrite (look_below _ _ _ _ E). destruct r; [congruence|reflexivity].
Qed.
Definition missing (w : node) (h : place) : bool := (match look w h with None => true | Some _ => false end) && dir_b w (removelast h).
Definition place_b (cwd : place) (w : node) (path : str) : bool :=
  no_url_b path && fname_b path && (missing w (dest_of cwd path) || nothing_below w (dest_of cwd path)).
Lemma place_b_ok cwd w path : place_b cwd w path = true -> new_place cwd w path (dest_of cwd path).
Proof.
  unfold place_b, missing. rewrite !andb_true_iff, orb_true_iff, andb_true_iff. intros [[A B] C]. constructor; [now apply no_url_b_ok|reflexivity|]. exists [], path. split; [reflexivity|]. split; [now left|].
  apply fname_b_ok in B. destruct C as [[C D]|C].
  - left. split; [auto|]. split; [|now apply dir_b_ok]. destruct (look w (dest_of cwd path)); [discriminate|reflexivity].
  - right. split; [auto|]. now apply nothing_below_ok.
Qed.

Definition create_b (c : object) (e : env) (w : node) (sp op : str) (m : vmeta) : bool :=
  forallb fname_b (e_cwd e) && (match o_id c with Some id => first_b id (o_alg c) (o_spec c) (o_cdir c) (or_empty (o_fixity c)) | None => false end) &&
  (match o_cdir c with Some cd => negb (str_eqb cd inv_name) && negb (str_eqb cd (side_name (o_alg c))) | None => true end) &&
  meta_b (e_now e) m && (match o_norm c with None => true | Some n => str_in n [`"uri"; `"md5"] end) && no_url_b sp && source_b (o_norm c) w (dest_of (e_cwd e) sp) &&
  (match files_in w (dest_of (e_cwd e) sp) with [] => false | _ => true end) && place_b (e_cwd e) w op.
Lemma norm_b_ok (o : option str) : (match o with None => true | Some n => str_in n [`"uri"; `"md5"] end) = true -> In o [None; Some (`"uri"); Some (`"md5")].
Proof. destruct o as [n|]; [|now left]. intros E. apply str_in_true in E. destruct E as [<-|[<-|[]]]; cbn; auto. Qed.
Lemma create_b_ok c e w sp op m id : tree w -> o_id c = Some id -> create_b c e w sp op m = true -> create_call c e w sp op id m (dest_of (e_cwd e) op).
Proof.
  intros T Hid. unfold create_b. rewrite !andb_true_iff, Hid. intros [[[[[[[[A B] C] D] E] F] G] I] K]. pose proof (source_b_ok _ _ _ T G) as Sk. constructor; auto.
  - apply Forall_forall. intros x Hx. rewrite forallb_forall in A. auto using fname_b_ok.
  - now apply first_b_ok.
  - intros cd Hcd. rewrite Hcd in C. apply andb_true_iff in C as [C1 C2]. split; intros ->; [now rewrite str_eqb_refl in C1|now rewrite str_eqb_refl in C2].
  - now apply meta_b_ok.
  - now apply norm_b_ok.
  - now apply no_url_b_ok.
  - destruct (files_in w (dest_of (e_cwd e) sp)) as [|[es b] l] eqn:Ef; [discriminate|]. exists es, b. apply (files_in_iff w _ es b T (sk_dir _ _ _ Sk)). rewrite Ef. now left.
  - now apply place_b_ok.
Qed.

Definition update_b (c : object) (e : env) (w : node) (sp path : str) (m : vmeta) : bool :=
  negb (o_lax c) && meta_b (e_now e) m && (match o_norm c with None => true | Some n => str_in n [`"uri"; `"md5"] end) && no_url_b sp && no_url_b path && source_b (o_norm c) w (dest_of (e_cwd e) sp).
Lemma update_b_ok c e w sp path m : tree w -> update_b c e w sp path m = true -> update_call c e w sp path m (dest_of (e_cwd e) path).
Proof.
  intros T. unfold update_b. rewrite !andb_true_iff. intros [[[[[A B] C] D] E] F]. constructor; auto.
  - now destruct (o_lax c).
  - now apply meta_b_ok.
  - now apply norm_b_ok.
  - split; now apply no_url_b_ok.
  - now apply source_b_ok.
Qed.
Fixpoint nodup_places (l : list place) : bool :=
  match l with [] => true | p :: r => negb (existsb (fun q => if place_eq_dec p q then true else false) r) && nodup_places r end.
Lemma nodup_places_ok l : nodup_places l = true -> NoDup l.
Proof.
  induction l as [|p l IH]; [constructor|]. cbn. rewrite andb_true_iff, negb_true_iff. intros [A B]. constructor; auto. intros Hi.
  assert (E : existsb (fun q => if place_eq_dec p q then true else false) l = true) by (apply existsb_exists; exists p; split; [auto|]; destruct (place_eq_dec p p); congruence). congruence.
Qed.
Definition files_b (w : node) (p : place) : bool := dir_b w p && nodup_places (map fst (files_in w p)).
Lemma files_b_ok w p : tree w -> files_b w p = true -> files_at w p (files_in w p).
Proof. intros T. unfold files_b. rewrite andb_true_iff. intros [A B]. split; [now apply nodup_places_ok|]. intros es b. apply files_in_iff; auto. now apply dir_b_ok. Qed.
