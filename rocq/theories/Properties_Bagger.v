(** Property C55: metadata of a version written to a BagIt bag and read back. *)
From Coq Require Import List NArith Bool Lia.
From Verif Require Import Base Json PathModel InventoryModel BaggerModel.
Import ListNotations.
Open Scope N_scope.

(** ** What is assumed of the library bagit

    [read_back] says what comes back for a text written to bag-info.txt. *)
Record bagit (read_back : str -> str) (make_bag : dict json -> exc bag) : Prop := {
  (** a bag that was just made is valid *)
  bi_valid : forall tags b, make_bag tags = Ok b -> bag_valid b = true;
  (** a tag given is read again *)
  bi_kept : forall tags b k v, make_bag tags = Ok b -> NoDup (keys tags) -> In (k, JStr v) tags ->
            dget k (bag_info b) = Some (read_back v);
  (** the other tags are the three that make_bag adds by itself *)
  bi_only : forall tags b k v, make_bag tags = Ok b -> dget k (bag_info b) = Some v ->
            In k (keys tags) \/ In k [`"Bagging-Date"; `"Bag-Software-Agent"; `"Payload-Oxum"] }.

(** Metadata of which name and address are texts. *)
Record texts (m : vmeta) (name address : option str) : Prop := {
  tx_name : vm_name m = option_map JStr name;
  tx_address : vm_address m = option_map JStr address }.

Definition no_meta : vmeta := mk_vmeta None None None None None.

(** What can be expected to come back of a text: nothing of none and of the empty one. *)
Definition back (read_back : str -> str) (x : option str) : option str :=
  match x with Some ((_ :: _) as v) => Some (read_back v) | _ => None end.

Lemma dget_not_key {A} k (d : dict A) : ~ In k (keys d) -> dget k d = None.
Proof.
  intro H. destruct (dget k d) eqn:E; [|reflexivity]. exfalso. apply H.
  apply dget_In in E. apply in_map_iff. eexists; split; [|exact E]. reflexivity.
Qed.

(** *** The tags, one by one *)
Inductive tag_of (m : vmeta) (d : bool) : str -> str -> Prop :=
| tg_id x v : vm_id m = Some (x :: v) -> tag_of m d (`"External-Identifier") (x :: v)
| tg_message x v : vm_message m = Some (x :: v) -> tag_of m d (`"External-Description") (x :: v)
| tg_name x v : vm_name m = Some (JStr (x :: v)) -> tag_of m d (`"Contact-Name") (x :: v)
| tg_email v : vm_address m = Some (JStr (`"mailto:" ++ v)) -> tag_of m d (`"Contact-Email") v
| tg_date c r : vm_created m = Some (join [84] (c :: r)) -> ~ In 84 c -> d = true -> tag_of m d (`"Bagging-Date") c.

Lemma mailto_cases (s : str) : (exists e, s = `"mailto:" ++ e) \/ startswith mailto s = false.
Proof. destruct (startswith mailto s) eqn:E; [left; apply startswith_spec in E; exact E|right; reflexivity]. Qed.

Lemma mailto_app e : startswith mailto (`"mailto:" ++ e) = true.
Proof. apply startswith_spec. exists e. reflexivity. Qed.

Lemma head_split c : exists r, c = join [84] (hd [] (split_on 84 c) :: r) /\ ~ In 84 (hd [] (split_on 84 c)).
Proof.
  pose proof (join_split 84 c) as J. pose proof (split_on_noc 84 c) as N.
  destruct (split_on 84 c) as [|a r] eqn:E; [exact (False_ind _ (split_on_nonnil _ _ E))|].
  exists r. split; [symmetry; exact J|]. apply N. left; reflexivity.
Qed.

Lemma head_join c r : ~ In 84 c -> hd [] (split_on 84 (join [84] (c :: r))) = c.
Proof.
  intro N. destruct r as [|b r]; cbn [join].
  - rewrite split_on_single by exact N. reflexivity.
  - cbn [app]. rewrite split_on_app by exact N. reflexivity.
Qed.

Definition tag_list (m : vmeta) (name address : option str) (d : bool) : dict json :=
  match vm_id m with Some ((_ :: _) as i) => [(t_id, JStr i)] | _ => [] end ++
  match vm_message m with Some ((_ :: _) as s) => [(t_message, JStr s)] | _ => [] end ++
  match name with Some ((_ :: _) as s) => [(t_name, JStr s)] | _ => [] end ++
  match address with Some s => if startswith mailto s then [(t_email, JStr (skipn 7 s))] else [] | None => [] end ++
  match vm_created m with Some c => if d then [(t_date, JStr (hd [] (split_on 84 c)))] else [] | None => [] end.

Lemma tags_list m name address d : texts m name address -> (d = true -> vm_created m <> None) ->
  bag_tags m d = Ok (tag_list m name address d).
Proof.
  intros [Hn Ha] Hd. unfold bag_tags, tag_list. rewrite Hn, Ha.
  destruct (vm_id m) as [[|? ?]|]; destruct (vm_message m) as [[|? ?]|]; destruct name as [[|? ?]|];
    destruct address as [[|? ?]|]; cbn [option_map json_set ebind];
    try change (startswith mailto []) with false; cbn iota;
    try (match goal with |- context [startswith mailto ?s] => destruct (startswith mailto s) end);
    destruct d; destruct (vm_created m); try (exfalso; apply Hd; reflexivity); reflexivity.
Qed.

Lemma tag_list_nodup m name address d : NoDup (keys (tag_list m name address d)).
Proof.
  unfold tag_list.
  destruct (vm_id m) as [[|? ?]|]; destruct (vm_message m) as [[|? ?]|]; destruct name as [[|? ?]|];
    destruct address as [s|];
    try (match goal with |- context [startswith mailto ?s] => destruct (startswith mailto s) end);
    destruct (vm_created m); destruct d; cbn [app keys map fst];
    repeat constructor; cbn [In]; intuition discriminate.
Qed.

Lemma tag_list_iff m name address d : texts m name address ->
  forall k v, In (k, v) (tag_list m name address d) <-> exists s, v = JStr s /\ tag_of m d k s.
Proof.
  intros [Hn Ha] k v. unfold tag_list. rewrite !in_app_iff. split.
  - intros [H|[H|[H|[H|H]]]].
    + destruct (vm_id m) as [[|x i]|] eqn:E; try (destruct H as []; fail). destruct H as [H|[]].
      apply pair_equal_spec in H. destruct H as [<- <-]. eexists; split; [reflexivity|]. apply tg_id; exact E.
    + destruct (vm_message m) as [[|x i]|] eqn:E; try (destruct H as []; fail). destruct H as [H|[]].
      apply pair_equal_spec in H. destruct H as [<- <-]. eexists; split; [reflexivity|]. apply tg_message; exact E.
    + destruct name as [[|x i]|]; try (destruct H as []; fail). destruct H as [H|[]].
      apply pair_equal_spec in H. destruct H as [<- <-]. eexists; split; [reflexivity|]. apply tg_name; exact Hn.
    + destruct address as [s|]; [|destruct H]. destruct (mailto_cases s) as [(e & ->)|E].
      * rewrite mailto_app in H. destruct H as [H|[]].
        apply pair_equal_spec in H. destruct H as [<- <-]. exists e. split; [reflexivity|]. apply tg_email; exact Ha.
      * rewrite E in H. destruct H.
    + destruct (vm_created m) as [c|] eqn:E; [|destruct H]. destruct d; [|destruct H]. destruct H as [H|[]].
      apply pair_equal_spec in H. destruct H as [<- <-]. destruct (head_split c) as (r & Hc & N).
      eexists; split; [reflexivity|]. apply (tg_date m true _ r); [rewrite E; f_equal; exact Hc|exact N|reflexivity].
  - intros (s & -> & T). destruct T as [x s E|x s E|x s E|s E|c r E N D].
    + left. rewrite E. left; reflexivity.
    + right; left. rewrite E. left; reflexivity.
    + right; right; left. rewrite Hn in E. destruct name as [n|]; [|discriminate E].
      cbn [option_map] in E. injection E as ->. left; reflexivity.
    + right; right; right; left. rewrite Ha in E. destruct address as [n|]; [|discriminate E].
      assert (n = `"mailto:" ++ s) as -> by (cbn [option_map] in E; congruence).
      rewrite mailto_app. left; reflexivity.
    + right; right; right; right. rewrite E, D. left. do 2 f_equal. exact (head_join c r N).
Qed.

(** ** C55 *)

(** The tags written are exactly: the identifier, message and name if they are there and not
    empty, what follows mailto: in the address, and, if asked for, the creation time up to the
    first T. Only without a creation time there is an exception if the latter is asked for. *)
Theorem C55_tags : forall m name address d, texts m name address -> (d = true -> vm_created m <> None) ->
  exists tags, bag_tags m d = Ok tags /\ NoDup (keys tags) /\
    forall k v, In (k, v) tags <-> exists s, v = JStr s /\ tag_of m d k s.
Proof.
  intros m name address d T D. eexists. split; [apply tags_list; eassumption|].
  split; [apply tag_list_nodup|apply tag_list_iff; exact T].
Qed.

(** Reading a bag: what is given already is kept, everything else is taken from the bag. *)
Record taken (info : dict str) (m m' : vmeta) : Prop := {
  tk_id : forall x v, vm_id m = Some (x :: v) -> vm_id m' = vm_id m;
  tk_created : forall x v, vm_created m = Some (x :: v) -> vm_created m' = vm_created m;
  tk_message : forall x v, vm_message m = Some (x :: v) -> vm_message m' = vm_message m;
  tk_name : forall x v, vm_name m = Some (JStr (x :: v)) -> vm_name m' = vm_name m;
  tk_address : forall x v, vm_address m = Some (JStr (x :: v)) -> vm_address m' = vm_address m;
  tk_bag_id : vm_id m = None -> vm_id m' = dget (`"External-Identifier") info;
  tk_bag_created : vm_created m = None ->
    vm_created m' = option_map (fun t => t ++ `"T00:00:00Z") (dget (`"Bagging-Date") info);
  tk_bag_message : vm_message m = None -> vm_message m' = dget (`"External-Description") info;
  tk_bag_name : vm_name m = None -> vm_name m' = option_map JStr (dget (`"Contact-Name") info);
  tk_bag_address : vm_address m = None ->
    vm_address m' = option_map (fun e => JStr (`"mailto:" ++ e)) (dget (`"Contact-Email") info) }.

Theorem C55_read : forall srcbag b m,
  (forall e, b = Raise e -> bag_as_source srcbag b m = Raise e) /\
  (forall g, b = Ok g -> bag_valid g = false -> bag_as_source srcbag b m = Raise BaggerException) /\
  (forall g, b = Ok g -> bag_valid g = true ->
     exists m', bag_as_source srcbag b m = Ok (m', path_join srcbag (`"data")) /\ taken (bag_info g) m m').
Proof.
  intros srcbag b m. split; [|split].
  - intros e ->. reflexivity.
  - intros g -> V. unfold bag_as_source. cbn [ebind]. rewrite V. reflexivity.
  - intros g -> V. unfold bag_as_source. cbn [ebind]. rewrite V. cbn [negb].
    eexists. split; [reflexivity|].
    split; cbn [vm_id vm_created vm_message vm_name vm_address]; intros;
      match goal with H : _ = _ |- _ => rewrite H end; cbn [str_set json_set or_else]; try reflexivity;
      unfold t_id, t_message, t_name, t_email, t_date; destruct (dget _ (bag_info g)); reflexivity.
Qed.

Lemma read_tag rb make m name address d b :
  bagit rb make -> texts m name address -> bag_extracted_version make m d = Ok b ->
  bag_valid b = true /\
  (forall k s, tag_of m d k s -> dget k (bag_info b) = Some (rb s)) /\
  (forall k, (forall s, ~ tag_of m d k s) -> k <> `"Bagging-Date" -> k <> `"Bag-Software-Agent" ->
     k <> `"Payload-Oxum" -> dget k (bag_info b) = None).
Proof.
  intros B T H. unfold bag_extracted_version in H. apply ebind_ok in H. destruct H as (tags & Ht & H).
  assert (D : d = true -> vm_created m <> None).
  { intros -> E. unfold bag_tags in Ht. rewrite E in Ht. apply ebind_ok in Ht. destruct Ht as (? & _ & Ht). discriminate Ht. }
  rewrite (tags_list _ _ _ _ T D) in Ht. apply Ok_inv in Ht. subst tags.
  split; [exact (bi_valid _ _ B _ _ H)|split].
  - intros k s G. apply (bi_kept _ _ B _ _ _ _ H (tag_list_nodup _ _ _ _)).
    apply (tag_list_iff _ _ _ _ T). exists s. split; [reflexivity|exact G].
  - intros k N K1 K2 K3. destruct (dget k (bag_info b)) as [v|] eqn:E; [|reflexivity]. exfalso.
    destruct (bi_only _ _ B _ _ _ _ H E) as [K|K].
    + apply in_map_iff in K. destruct K as ([k' v'] & E' & K). cbn [fst] in E'. subst k'.
      apply (tag_list_iff _ _ _ _ T) in K. destruct K as (s & _ & G). exact (N s G).
    + cbn [In] in K. intuition congruence.
Qed.

Ltac no_tag := intros s' G; inversion G; congruence.

(** Writing metadata and reading it into empty metadata gives for each value what bagit gives
    back of it; nothing for an empty value; of the address only one that begins with mailto: *)
Theorem C55_partial : forall read_back make_bag m name address d b dst,
  bagit read_back make_bag -> texts m name address ->
  bag_extracted_version make_bag m d = Ok b ->
  exists m', bag_as_source dst (Ok b) no_meta = Ok (m', path_join dst (`"data")) /\
    vm_id m' = back read_back (vm_id m) /\
    vm_message m' = back read_back (vm_message m) /\
    vm_name m' = option_map JStr (back read_back name) /\
    (forall e, address = Some (`"mailto:" ++ e) -> vm_address m' = Some (JStr (`"mailto:" ++ read_back e))) /\
    ((forall e, address <> Some (`"mailto:" ++ e)) -> vm_address m' = None) /\
    (d = true -> forall c r, vm_created m = Some (c ++ 84 :: r) -> ~ In 84 c ->
       vm_created m' = Some (read_back c ++ `"T00:00:00Z")).
Proof.
  intros rb make m name address d b dst B T H.
  destruct (read_tag _ _ _ _ _ _ _ B T H) as (V & Y & N). destruct T as [Tn Ta].
  destruct (proj2 (proj2 (C55_read dst (Ok b) no_meta)) b eq_refl V) as (m' & R & K).
  exists m'. split; [exact R|].
  rewrite (tk_bag_id _ _ _ K eq_refl), (tk_bag_message _ _ _ K eq_refl), (tk_bag_name _ _ _ K eq_refl).
  split; [|split; [|split; [|split; [|split]]]].
  - destruct (vm_id m) as [[|x v]|] eqn:E; cbn [back].
    + apply N; try discriminate. no_tag.
    + apply Y. constructor. exact E.
    + apply N; try discriminate. no_tag.
  - destruct (vm_message m) as [[|x v]|] eqn:E; cbn [back].
    + apply N; try discriminate. no_tag.
    + apply Y. constructor. exact E.
    + apply N; try discriminate. no_tag.
  - destruct name as [[|x v]|]; cbn [option_map] in Tn; cbn [back].
    + rewrite N; try discriminate; [reflexivity|]. no_tag.
    + rewrite (Y _ (x :: v)); [reflexivity|]. constructor. exact Tn.
    + rewrite N; try discriminate; [reflexivity|]. no_tag.
  - intros e E. rewrite E in Ta. rewrite (tk_bag_address _ _ _ K eq_refl), (Y _ e); [reflexivity|].
    constructor. exact Ta.
  - intro E. rewrite (tk_bag_address _ _ _ K eq_refl), N; try discriminate; [reflexivity|].
    intros s G. assert (G1 : vm_address m = Some (JStr (`"mailto:" ++ s))) by (inversion G; assumption).
    rewrite Ta in G1. destruct address as [a|]; [|discriminate G1]. apply (E s). cbn [option_map] in G1.
    apply (f_equal (fun x => match x with Some (JStr y) => y | _ => [] end)) in G1. rewrite <- G1. reflexivity.
  - intros D c r E Nc. rewrite (tk_bag_created _ _ _ K eq_refl), (Y _ c); [reflexivity|].
    destruct (head_split (c ++ 84 :: r)) as (q & Hq & Nq). rewrite split_on_app in Hq, Nq by exact Nc. cbn [hd] in Hq, Nq.
    apply (tg_date m d c q); [|exact Nc|exact D]. rewrite E. f_equal. exact Hq.
Qed.

(** In particular nothing is lost of values that are not empty and that bagit keeps. *)
Theorem C55_round_trip : forall read_back make_bag m name address d b dst,
  bagit read_back make_bag -> texts m name address ->
  (forall v, vm_id m = Some v \/ vm_message m = Some v \/ name = Some v -> v <> [] /\ read_back v = v) ->
  (forall a, address = Some a -> exists e, a = `"mailto:" ++ e /\ read_back e = e) ->
  bag_extracted_version make_bag m d = Ok b ->
  exists created,
    bag_as_source dst (Ok b) no_meta =
      Ok (mk_vmeta (vm_id m) created (vm_message m) (vm_name m) (vm_address m), path_join dst (`"data")).
Proof.
  intros rb make m name address d b dst B T Hv Ha H.
  destruct (C55_partial _ _ _ _ _ _ _ dst B T H) as (m' & R & E1 & E2 & E3 & E4 & E5 & _).
  destruct T as [Tn Ta]. exists (vm_created m'). rewrite R. do 2 f_equal.
  assert (K : forall x, (forall v, x = Some v -> v <> [] /\ rb v = v) -> back rb x = x).
  { intros [[|c v]|] Hx; cbn [back]; try reflexivity.
    - destruct (proj1 (Hx [] eq_refl) eq_refl).
    - rewrite (proj2 (Hx _ eq_refl)). reflexivity. }
  destruct m' as [i' c' s' n' a']. cbn [vm_id vm_created vm_message vm_name vm_address] in *. f_equal.
  - rewrite E1. apply K. intros v Hx. apply Hv. left; exact Hx.
  - rewrite E2. apply K. intros v Hx. apply Hv. right; left; exact Hx.
  - rewrite E3, Tn. f_equal. apply K. intros v Hx. apply Hv. right; right; exact Hx.
  - rewrite Ta. destruct address as [a|].
    + destruct (Ha a eq_refl) as (e & -> & He). rewrite (E4 e eq_refl), He. reflexivity.
    + rewrite E5; [reflexivity|]. intros e. discriminate.
Qed.

(** Creating an object from a bag: the identifier is that of the bag or the one given, which
    must be the same. *)
Theorem C55_create : forall ident m srcbag b ident' m' src,
  create_from_bag ident m srcbag b = Ok (ident', m', src) ->
  bag_as_source srcbag b m = Ok (m', src) /\
  (forall i, vm_id m' = Some i -> ident' = Some i /\ (ident = None \/ ident = Some i)) /\
  (vm_id m' = None -> ident' = ident).
Proof.
  intros ident m srcbag b ident' m' src H. unfold create_from_bag in H. apply ebind_ok in H.
  destruct H as ([m1 s1] & R & H). cbn [fst snd] in H.
  destruct (vm_id m1) as [i|] eqn:E; [destruct ident as [j|]; [destruct (str_eqb_spec j i) as [->|Nj]|]|];
    try discriminate H; apply Ok_inv in H; injection H as <- <- <-; (split; [exact R|]); rewrite E;
    (split; [intros i' Ei; try discriminate Ei; injection Ei as <-; auto|intro Ei; congruence]).
Qed.

(** An identifier given that is not that of the bag is refused. *)
Theorem C55_create_refused : forall m srcbag g i j, vm_id m = None -> bag_valid g = true ->
  dget (`"External-Identifier") (bag_info g) = Some i -> j <> i ->
  create_from_bag (Some j) m srcbag (Ok g) = Raise OtherException.
Proof.
  intros m srcbag g i j Hm V E N. destruct (proj2 (proj2 (C55_read srcbag (Ok g) m)) g eq_refl V) as (m' & R & K).
  unfold create_from_bag. rewrite R. cbn [ebind fst snd]. rewrite (tk_bag_id _ _ _ K Hm), E.
  destruct (str_eqb_spec j i); [congruence|reflexivity].
Qed.

(** *** Names and addresses that are not texts

    In an inventory a name or address can be any value. Those that Python takes as false count
    as not given; floats are left out, see [json_set]. *)
Inductive counts_false : option json -> Prop :=
| cf_none : counts_false None
| cf_null : counts_false (Some JNull)
| cf_false : counts_false (Some (JBool false))
| cf_zero : counts_false (Some (JInt 0))
| cf_text : counts_false (Some (JStr []))
| cf_list : counts_false (Some (JArr []))
| cf_object : counts_false (Some (JObj [])).
Definition no_float (x : option json) : Prop := forall f, x <> Some (JFloat f).

Lemma json_set_iff x : no_float x -> json_set x = false <-> counts_false x.
Proof.
  intro F. split.
  - destruct x as [[|[]|n|f|[|? ?]|[|? ?]|[|? ?]]|]; cbn [json_set]; intro E; try discriminate E; try constructor.
    apply negb_false_iff, BinInt.Z.eqb_eq in E. subst n. constructor.
  - intros []; reflexivity.
Qed.

(** The name is written as it is unless it counts as false; an address that counts as false is as
    good as none; reading replaces exactly the values that count as false, and these only if the
    bag has one. *)
Theorem C55_any_value : forall m, no_float (vm_name m) -> no_float (vm_address m) ->
  (forall d tags v, bag_tags m d = Ok tags -> In (`"Contact-Name", v) tags <-> vm_name m = Some v /\ ~ counts_false (Some v)) /\
  (forall d, counts_false (vm_address m) -> bag_tags m d = bag_tags (mk_vmeta (vm_id m) (vm_created m) (vm_message m) (vm_name m) None) d) /\
  (forall srcbag g m' src, bag_as_source srcbag (Ok g) m = Ok (m', src) ->
     (~ counts_false (vm_name m) -> vm_name m' = vm_name m) /\
     (counts_false (vm_name m) -> vm_name m' = match dget (`"Contact-Name") (bag_info g) with Some t => Some (JStr t) | None => vm_name m end) /\
     (~ counts_false (vm_address m) -> vm_address m' = vm_address m) /\
     (counts_false (vm_address m) -> vm_address m' = match dget (`"Contact-Email") (bag_info g) with Some t => Some (JStr (`"mailto:" ++ t)) | None => vm_address m end)).
Proof.
  intros m Fn Fa. pose proof (json_set_iff _ Fn) as Jn. pose proof (json_set_iff _ Fa) as Ja. split; [|split].
  - intros d tags v E. unfold bag_tags in E. apply ebind_ok in E. destruct E as (t2 & E2 & E).
    assert (W : In (`"Contact-Name", v) tags <-> In (`"Contact-Name", v) t2).
    { destruct d; [destruct (vm_created m); [|discriminate E]|]; apply Ok_inv in E; subst tags; [|reflexivity]. rewrite in_app_iff. cbn [In].
      split; [intros [K|[K|[]]]; [exact K|apply pair_equal_spec in K; destruct K as [K _]; discriminate K]|now left]. }
    rewrite W. clear W E.
    match type of E2 with context [match vm_name m with Some n => if json_set (Some n) then ?t ++ _ else _ | None => _ end] => set (t1 := t) in E2 end.
    assert (N1 : forall v, ~ In (`"Contact-Name", v) t1).
    { subst t1. intros v0 K. destruct (vm_message m) as [[|? ?]|]; destruct (vm_id m) as [[|? ?]|]; cbn [app In] in K;
        repeat match goal with K : _ \/ _ |- _ => destruct K as [K|K] end; try (apply pair_equal_spec in K; destruct K as [K _]; discriminate K); exact K. }
    clearbody t1.
    match type of E2 with context [Ok (?t ++ [(t_email, _)])] => set (t3 := t) in E2 end.
    assert (W : In (`"Contact-Name", v) t2 <-> In (`"Contact-Name", v) t3).
    { destruct (vm_address m) as [a|]; [|apply Ok_inv in E2; now subst t2]. destruct (json_set (Some a)); [|apply Ok_inv in E2; now subst t2].
      destruct a; try discriminate E2. destruct (startswith mailto _); apply Ok_inv in E2; subst t2; [|reflexivity]. rewrite in_app_iff. cbn [In].
      split; [intros [K|[K|[]]]; [exact K|apply pair_equal_spec in K; destruct K as [K _]; discriminate K]|now left]. }
    rewrite W. clear W E2. subst t3. destruct (vm_name m) as [n|]; [|split; [intro K; now apply N1 in K|intros [K _]; discriminate K]].
    destruct (json_set (Some n)) eqn:J.
    + rewrite in_app_iff. cbn [In]. split.
      * intros [K|[K|[]]]; [now apply N1 in K|]. apply pair_equal_spec in K. destruct K as [_ <-]. split; [reflexivity|]. intro C. apply Jn in C. discriminate C.
      * intros [[= <-] _]. right; left. reflexivity.
    + split; [intro K; now apply N1 in K|]. intros [[= <-] C]. now destruct (C (proj1 Jn eq_refl)).
  - intros d C. apply Ja in C. unfold bag_tags. cbn [vm_id vm_created vm_message vm_name vm_address]. destruct (vm_address m) as [a|]; [|reflexivity]. now rewrite C.
  - intros srcbag g m' src E. unfold bag_as_source in E. cbn [ebind] in E. destruct (negb (bag_valid g)); [discriminate E|]. apply Ok_inv in E. injection E as <- _. cbn [vm_name vm_address].
    repeat split; intro C.
    + destruct (json_set (vm_name m)) eqn:J; [reflexivity|]. now destruct (C (proj1 Jn eq_refl)).
    + now rewrite (proj2 Jn C).
    + destruct (json_set (vm_address m)) eqn:J; [reflexivity|]. now destruct (C (proj1 Ja eq_refl)).
    + now rewrite (proj2 Ja C).
Qed.
Print Assumptions C55_any_value.
(** Two names: 0 is dropped, 5 is written as it is, which bagit then has to put into a line. *)
Example C55_any_value_ex :
  bag_tags (mk_vmeta None None None (Some (JInt 0)) (Some (JObj []))) false = Ok [] /\
  bag_tags (mk_vmeta None None None (Some (JInt 5)) (Some JNull)) false = Ok [(`"Contact-Name", JInt 5)] /\
  no_float (Some (JInt 5)) /\ ~ counts_false (Some (JInt 5)).
Proof. repeat split; try reflexivity; [intros f K; discriminate K|intro K; inversion K]. Qed.

(** *** Counterexamples *)

(** An empty message does not come back as an empty message, and an address that is not a mail
    address does not come back, whatever bagit does with texts. *)
Theorem C55_empty_refuted : forall read_back make_bag b dst,
  bagit read_back make_bag ->
  bag_extracted_version make_bag (mk_vmeta None None (Some []) None None) false = Ok b ->
  exists m', bag_as_source dst (Ok b) no_meta = Ok (m', path_join dst (`"data")) /\ vm_message m' = None.
Proof.
  intros rb make b dst B H.
  destruct (C55_partial rb make (mk_vmeta None None (Some []) None None) None None _ _ dst B ltac:(split; reflexivity) H) as (m' & R & _ & E & _).
  exists m'. split; [exact R|exact E].
Qed.

Theorem C55_address_refuted : forall read_back make_bag b dst,
  bagit read_back make_bag ->
  bag_extracted_version make_bag (mk_vmeta None None None None (Some (JStr (`"https://orcid.org/0000-0001-2345-6789")))) false = Ok b ->
  exists m', bag_as_source dst (Ok b) no_meta = Ok (m', path_join dst (`"data")) /\ vm_address m' = None.
Proof.
  intros rb make b dst B H.
  destruct (C55_partial rb make (mk_vmeta None None None None (Some (JStr (`"https://orcid.org/0000-0001-2345-6789")))) None
              (Some (`"https://orcid.org/0000-0001-2345-6789")) _ _ dst B ltac:(split; reflexivity) H) as (m' & R & _ & _ & _ & _ & E & _).
  exists m'. split; [exact R|apply E]. intros e F. apply (f_equal (option_map (hd 0))) in F. discriminate F.
Qed.

(** Metadata of an inventory whose address is not a text ends with an exception. *)
Theorem C55_raises_refuted :
  bag_tags (mk_vmeta None None None None (Some (JInt 1))) false = Raise AttributeError /\
  bag_tags no_meta true = Raise AttributeError.
Proof. split; reflexivity. Qed.

(** *** A bagit for which the hypotheses hold: texts come back without the spaces at their ends
    and without line ends, as in bag-info.txt *)
Fixpoint drop_blank (s : str) : str :=
  match s with c :: s' => if N.leb c 32 then drop_blank s' else s | [] => [] end.
Definition ex_read (s : str) : str :=
  rev (drop_blank (rev (drop_blank (filter (fun c => negb (N.eqb c 10 || N.eqb c 13)) s)))).
Definition ex_text (j : json) : str := match j with JStr s => ex_read s | _ => [] end.
Definition ex_make (tags : dict json) : exc bag :=
  Ok (mk_bag true (map (fun kv => (fst kv, ex_text (snd kv))) tags ++
                   [(`"Bagging-Date", `"2026-11-17"); (`"Payload-Oxum", `"10.2")])).

Lemma dget_app {A} k (d e : dict A) : dget k (d ++ e) = match dget k d with Some v => Some v | None => dget k e end.
Proof. induction d as [|[k' v] d IH]; cbn [app dget]; [reflexivity|]. destruct (str_eqb k k'); [reflexivity|exact IH]. Qed.

Lemma ex_bagit : bagit ex_read ex_make.
Proof.
  split.
  - intros tags b H. apply Ok_inv in H. subst b. reflexivity.
  - intros tags b k v H N I. apply Ok_inv in H. subst b. cbn [bag_info]. rewrite dget_app.
    assert (G : dget k (map (fun kv => (fst kv, ex_text (snd kv))) tags) = Some (ex_read v)).
    { apply In_dget.
      - unfold keys in *. rewrite map_map. cbn [fst]. exact N.
      - apply in_map_iff. exists (k, JStr v). split; [reflexivity|exact I]. }
    rewrite G. reflexivity.
  - intros tags b k v H E. apply Ok_inv in H. subst b. cbn [bag_info] in E. apply dget_In in E.
    apply in_app_iff in E. destruct E as [E|E].
    + left. apply in_map_iff in E. destruct E as (kv & Ek & E). apply (f_equal fst) in Ek. cbn [fst] in Ek. subst k.
      apply in_map. exact E.
    + right. destruct E as [E|[E|[]]]; apply (f_equal fst) in E; cbn [fst] in E; subst k; cbn [In]; auto.
Qed.

Definition ex_bag_meta : vmeta :=
  mk_vmeta (Some (`"info:1")) (Some (`"2024-01-02T03:04:05Z")) (Some (`"first version"))
    (Some (JStr (`"A. Person"))) (Some (JStr (`"mailto:a@example.org"))).

Example ex_bag_round_trip :
  exists b, bag_extracted_version ex_make ex_bag_meta true = Ok b /\
    bag_as_source (`"/tmp/bag") (Ok b) no_meta =
      Ok (mk_vmeta (Some (`"info:1")) (Some (`"2024-01-02T00:00:00Z")) (Some (`"first version"))
            (Some (JStr (`"A. Person"))) (Some (JStr (`"mailto:a@example.org"))), `"/tmp/bag/data").
Proof. eexists. split; vm_compute; reflexivity. Qed.

(** The hypotheses of C55_round_trip for it *)
Example ex_bag_hypotheses :
  bagit ex_read ex_make /\ texts ex_bag_meta (Some (`"A. Person")) (Some (`"mailto:a@example.org")) /\
  (forall v, vm_id ex_bag_meta = Some v \/ vm_message ex_bag_meta = Some v \/ Some (`"A. Person") = Some v ->
     v <> [] /\ ex_read v = v) /\
  (forall a, Some (`"mailto:a@example.org") = Some a -> exists e, a = `"mailto:" ++ e /\ ex_read e = e).
Proof.
  split; [exact ex_bagit|]. split; [split; reflexivity|]. split.
  - intros v [H|[H|H]]; assert (G := f_equal (fun x => match x with Some y => y | None => [] end) H); cbn beta iota in G; subst v;
      (split; [discriminate|vm_compute; reflexivity]).
  - intros a H. assert (G := f_equal (fun x => match x with Some y => y | None => [] end) H). cbn beta iota in G. subst a.
    exists (`"a@example.org"). split; vm_compute; reflexivity.
Qed.

(** With such a bagit a message with a line end comes back changed. *)
Theorem C55_lines_refuted :
  exists b m', bag_extracted_version ex_make (mk_vmeta None None (Some (`"first" ++ 10 :: `"second ")) None None) false = Ok b /\
    bag_as_source (`"bag") (Ok b) no_meta = Ok (m', `"bag/data") /\ vm_message m' = Some (`"firstsecond").
Proof. do 2 eexists. split; [reflexivity|split; vm_compute; reflexivity]. Qed.

(** Metadata given is not replaced. *)
Example ex_bag_override :
  exists b m', bag_extracted_version ex_make ex_bag_meta false = Ok b /\
    bag_as_source (`"bag") (Ok b) (mk_vmeta None None (Some (`"mine")) None None) = Ok (m', `"bag/data") /\
    vm_message m' = Some (`"mine") /\ vm_id m' = Some (`"info:1").
Proof. do 2 eexists. split; [reflexivity|split; [vm_compute; reflexivity|split; vm_compute; reflexivity]]. Qed.

Example ex_bag_create :
  exists b, bag_extracted_version ex_make ex_bag_meta false = Ok b /\
    (exists r, create_from_bag None no_meta (`"bag") (Ok b) = Ok r /\ fst (fst r) = Some (`"info:1")) /\
    create_from_bag (Some (`"other")) no_meta (`"bag") (Ok b) = Raise OtherException.
Proof. eexists. split; [reflexivity|split; [eexists; split; vm_compute; reflexivity|vm_compute; reflexivity]]. Qed.

Print Assumptions C55_tags.
Print Assumptions C55_read.
Print Assumptions C55_partial.
Print Assumptions C55_round_trip.
Print Assumptions C55_create.
Print Assumptions C55_create_refused.
Print Assumptions C55_empty_refuted.
Print Assumptions C55_address_refuted.
Print Assumptions C55_raises_refuted.
Print Assumptions C55_lines_refuted.
