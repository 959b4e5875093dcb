(** C29, C38 and C42, more: which JSON document stands for which inventory. The theorems of
    these properties that name [json_of_inventory] are about the document described here. *)
From Verif Require Import Base Unicode Json InventoryModel ObjectModel.

(** * What is meant *)

(** The member k of the object d stands for the value x, or is not there. *)
Definition member {A} (tells : A -> json -> Prop) (d : dict json) (k : str) (x : option A) : Prop :=
  match x with Some a => exists j, dget k d = Some j /\ tells a j | None => dget k d = None end.
Definition text_json (t : str) (j : json) : Prop := j = JStr t.
Definition object_json (u : dict json) (j : json) : Prop := j = JObj u.
(** manifest, state or fixity block: digests with their paths, in the same order *)
Definition block_json (b : block) (j : json) : Prop := exists d, j = JObj d /\
  Forall2 (fun x y => fst x = fst y /\ snd y = JArr (map JStr (snd x))) b d.
Definition version_json (b : vblock) (j : json) : Prop := exists d, j = JObj d /\
  member text_json d (`"created") (vb_created b) /\ member text_json d (`"message") (vb_message b) /\
  member object_json d (`"user") (vb_user b) /\ member block_json d (`"state") (vb_state b) /\
  forall k, ~ In k [`"created"; `"message"; `"user"; `"state"] -> dget k d = dget k (vb_other b).
Definition all_json {A} (tells : A -> json -> Prop) (l : dict A) (j : json) : Prop := exists d, j = JObj d /\
  Forall2 (fun x y => fst x = fst y /\ tells (snd x) (snd y)) l d.
Definition inventory_names : list str := [`"id"; `"type"; `"digestAlgorithm"; `"head"; `"contentDirectory"; `"manifest"; `"versions"; `"fixity"].
Definition inventory_json (i : inventory) (j : json) : Prop := exists d, j = JObj d /\
  member text_json d (`"id") (i_id i) /\ member text_json d (`"type") (i_type i) /\ member text_json d (`"digestAlgorithm") (i_alg i) /\
  member text_json d (`"head") (i_head i) /\ member text_json d (`"contentDirectory") (i_cdir i) /\ member block_json d (`"manifest") (i_manifest i) /\
  member (all_json version_json) d (`"versions") (i_versions i) /\ member (all_json block_json) d (`"fixity") (i_fixity i) /\
  forall k, ~ In k inventory_names -> dget k d = dget k (i_other i).

(** The members that the library has no use for have other names. *)
Definition other_names (ks : list str) (d : dict json) : Prop := forall k, In k (keys d) -> ~ In k ks.
Definition others_ok (i : inventory) : Prop := other_names inventory_names (i_other i) /\
  forall vs v b, i_versions i = Some vs -> In (v, b) vs -> other_names [`"created"; `"message"; `"user"; `"state"] (vb_other b).

(** * Reading *)
Lemma member_read {A} (f : json -> exc A) (tells : A -> json -> Prop) k d x : (forall j a, f j = Ok a -> tells a j) -> opt_member f k d = Ok x -> member tells d k x.
Proof.
  intros Hf E. unfold opt_member in E. destruct (dget k d) as [j|] eqn:G; [|apply Ok_inv in E; subst x; exact G].
  destruct (f j) as [a|e] eqn:F; [|discriminate E]. apply Ok_inv in E. subst x. exists j. split; [exact G|now apply Hf].
Qed.
Lemma all_read {A} (f : json -> exc A) (tells : A -> json -> Prop) j l : (forall j a, f j = Ok a -> tells a j) -> entries_of_json f j = Ok l -> all_json tells l j.
Proof.
  intros Hf E. unfold entries_of_json, object_of_json in E. destruct j as [| | | | | |d]; try discriminate E. cbn [ebind] in E. exists d. split; [reflexivity|].
  revert l E. induction d as [|[k y] r IH]; intros l E; cbn [emap] in E; [apply Ok_inv in E; subst l; constructor|]. cbn [fst snd] in E.
  destruct (f y) as [a|] eqn:F; [|discriminate E]. cbn [ebind] in E. destruct (emap _ r) as [bs|]; [|discriminate E]. cbn [ebind] in E. apply Ok_inv in E. subst l.
  constructor; [split; [reflexivity|now apply Hf]|now apply IH].
Qed.
Lemma text_read j t : string_of_json j = Ok t -> text_json t j.
Proof. destruct j; try discriminate. intros [= ->]. reflexivity. Qed.
Lemma object_read j t : object_of_json j = Ok t -> object_json t j.
Proof. destruct j; try discriminate. intros [= ->]. reflexivity. Qed.
Lemma texts_read l : forall t, emap string_of_json l = Ok t -> l = map JStr t.
Proof.
  induction l as [|j l IH]; intros t E; cbn [emap] in E; [apply Ok_inv in E; now subst t|]. destruct (string_of_json j) as [s|] eqn:S; [|discriminate E]. cbn [ebind] in E.
  destruct (emap _ l) as [bs|]; [|discriminate E]. cbn [ebind] in E. apply Ok_inv in E. subst t. apply text_read in S. cbn [map]. rewrite S. f_equal. now apply IH.
Qed.
Lemma block_read j b : block_of_json j = Ok b -> block_json b j.
Proof.
  apply (all_read _ (fun l y => y = JArr (map JStr l))). intros y l E. unfold strings_of_json in E. destruct y; try discriminate E. now rewrite (texts_read _ _ E).
Qed.
Lemma other_read ks d k : ~ In k ks -> dget k d = dget k (without ks d).
Proof.
  intro Nk. unfold without. induction d as [|[a j] r IH]; [reflexivity|]. cbn [filter fst]. destruct (str_in a ks) eqn:Ea; cbn [negb dget].
  - destruct (str_eqb_spec k a) as [->|]; [apply str_in_true in Ea; contradiction|exact IH].
  - now rewrite IH.
Qed.
Ltac next E := match type of E with context [opt_member ?f ?k ?d] => let x := fresh "x" in let X := fresh "X" in destruct (opt_member f k d) as [x|] eqn:X; [|discriminate E]; cbn [ebind] in E end.
Lemma version_read j b : vblock_of_json j = Ok b -> version_json b j.
Proof.
  intro E. unfold vblock_of_json in E. destruct (object_of_json j) as [d|] eqn:Ed; [|discriminate E]. apply object_read in Ed. cbn [ebind] in E.
  do 4 next E. apply Ok_inv in E. subst b. exists d. cbn [vb_created vb_message vb_user vb_state vb_other].
  repeat (split; [first [exact Ed | eapply member_read; [|eassumption]; first [exact text_read|exact object_read|exact block_read]]|]). intros k Nk. now apply other_read.
Qed.

Theorem C29_read : forall j i, inventory_of_json j = Ok i -> inventory_json i j.
Proof.
  intros j i E. unfold inventory_of_json in E. destruct (object_of_json j) as [d|] eqn:Ed; [|discriminate E]. apply object_read in Ed. cbn [ebind] in E.
  do 8 next E. apply Ok_inv in E. subst i. exists d. cbn [i_id i_type i_alg i_head i_cdir i_manifest i_versions i_fixity i_other].
  split; [exact Ed|]. do 5 (split; [eapply member_read; [exact text_read|eassumption]|]). split; [eapply member_read; [exact block_read|eassumption]|].
  split; [eapply member_read; [intros ? ?; apply all_read, version_read|eassumption]|]. split; [eapply member_read; [intros ? ?; apply all_read, block_read|eassumption]|].
  intros k Nk. now apply other_read.
Qed.
Print Assumptions C29_read.

(** * Writing *)
Lemma dget_app {A} k (a b : dict A) : dget k (a ++ b) = match dget k a with Some x => Some x | None => dget k b end.
Proof. induction a as [|[x y] a IH]; [reflexivity|]. cbn [app dget]. now destruct (str_eqb k x). Qed.
Lemma dget_opt {A} k k' (f : A -> json) x : dget k (opt_entry k' f x) = if str_eqb k k' then option_map f x else None.
Proof. destruct x; cbn [opt_entry dget]; destruct (str_eqb k k'); reflexivity. Qed.
Lemma dget_other ks d k : other_names ks d -> In k ks -> dget k d = None.
Proof.
  intros O Hk. destruct (dget k d) as [j|] eqn:G; [|reflexivity]. destruct (O k); [|exact Hk]. now apply dget_In_key in G.
Qed.

Lemma member_written {A} (f : A -> json) (tells : A -> json -> Prop) d k x : (forall a, x = Some a -> tells a (f a)) -> dget k d = option_map f x -> member tells d k x.
Proof. intros Hf E. destruct x as [a|]; cbn [option_map] in E; [exists (f a); split; [exact E|now apply Hf]|exact E]. Qed.
Lemma all_written {A} (f : A -> json) (tells : A -> json -> Prop) l : (forall k a, In (k, a) l -> tells a (f a)) -> all_json tells l (entries f l).
Proof.
  intro Hf. eexists. split; [reflexivity|]. induction l as [|[k a] r IH]; cbn [map]; constructor; [split; [reflexivity|apply (Hf k); now left]|]. apply IH. intros k' a' Hi. apply (Hf k'). now right.
Qed.
Lemma block_written b : block_json b (json_of_block b).
Proof. apply (all_written json_of_strings (fun l y => y = JArr (map JStr l))). reflexivity. Qed.
(** the member k of a list of named members, by computation on the names *)
Ltac member_at O := rewrite !dget_app, !dget_opt;
  repeat match goal with |- context [str_eqb ?a ?b] => let r := eval vm_compute in (str_eqb a b) in change (str_eqb a b) with r end; cbv iota;
  match goal with |- context [dget ?k ?d] => rewrite (dget_other _ d k O) by (cbn; tauto) end;
  match goal with |- match option_map _ ?x with _ => _ end = _ => destruct x; reflexivity | |- _ => reflexivity end.
Ltac member_not Nk := rewrite !dget_app, !dget_opt;
  repeat match goal with |- context [str_eqb ?a ?b] => destruct (str_eqb_spec a b); [subst; exfalso; apply Nk; cbn; tauto|] end; reflexivity.
Lemma version_written b : other_names [`"created"; `"message"; `"user"; `"state"] (vb_other b) -> version_json b (json_of_vblock b).
Proof.
  intro O. eexists. split; [reflexivity|].
  split; [apply (member_written JStr); [reflexivity|member_at O]|]. split; [apply (member_written JStr); [reflexivity|member_at O]|].
  split; [apply (member_written JObj); [reflexivity|member_at O]|]. split; [apply (member_written json_of_block); [intros a _; apply block_written|member_at O]|].
  intros k Nk. member_not Nk.
Qed.

Theorem C42_json : forall i, others_ok i -> inventory_json i (json_of_inventory i).
Proof.
  intros i [O Ov]. eexists. split; [reflexivity|].
  do 5 (split; [apply (member_written JStr); [reflexivity|member_at O]|]). split; [apply (member_written json_of_block); [intros a _; apply block_written|member_at O]|].
  split; [apply (member_written (entries json_of_vblock)); [intros vs Ev; apply all_written; intros v b Hb; apply version_written; eapply Ov; eauto|member_at O]|].
  split; [apply (member_written (entries json_of_block)); [intros fx _; apply all_written; intros a b _; apply block_written|member_at O]|].
  intros k Nk. member_not Nk.
Qed.
Print Assumptions C42_json.

(** Inventories that have been read meet the condition. *)
Lemma without_other ks d : other_names ks (without ks d).
Proof.
  intros k Hk Hi. unfold keys, without in Hk. apply in_map_iff in Hk as ([a j] & <- & Hk). apply filter_In in Hk as [_ Hk]. cbn [fst] in *.
  apply str_in_true in Hi. rewrite Hi in Hk. discriminate Hk.
Qed.
Theorem C29_read_others : forall j i, inventory_of_json j = Ok i -> others_ok i.
Proof.
  intros j i E. unfold inventory_of_json in E. destruct (object_of_json j) as [d|]; [|discriminate E]. cbn [ebind] in E.
  do 8 next E. apply Ok_inv in E. subst i. split; [apply without_other|]. cbn [i_versions]. intros vs v b -> Hb.
  match goal with X : opt_member (entries_of_json vblock_of_json) _ _ = _ |- _ => rename X into V end.
  unfold opt_member in V. destruct (dget (`"versions") d) as [y|]; [|discriminate V]. destruct (entries_of_json vblock_of_json y) as [l|] eqn:L; [|discriminate V]. apply Ok_inv in V. injection V as ->.
  unfold entries_of_json in L. destruct (object_of_json y) as [dv|]; [|discriminate L]. cbn [ebind] in L. apply emap_ok in L.
  assert (K : exists z, vblock_of_json z = Ok b).
  { clear -L Hb. induction L as [|[k z] [k' b'] r r' H1 L IH]; [destruct Hb|]. destruct Hb as [Hb|Hb]; [|now apply IH]. injection Hb as -> ->. cbn [fst snd] in H1.
    destruct (vblock_of_json z) as [b0|] eqn:Z; [|discriminate H1]. cbn [ebind] in H1. apply Ok_inv in H1. injection H1 as -> ->. now exists z. }
  destruct K as [z K]. clear -K. unfold vblock_of_json in K. destruct (object_of_json z) as [dz|]; [|discriminate K]. cbn [ebind] in K. do 4 next K. apply Ok_inv in K. subst b. apply without_other.
Qed.
Print Assumptions C29_read_others.

(** A document stands for one inventory only, up to the order of members without use. *)
Definition functional {A} (tells : A -> json -> Prop) : Prop := forall a b j, tells a j -> tells b j -> a = b.
Lemma member_fun {A} (tells : A -> json -> Prop) d k x y : functional tells -> member tells d k x -> member tells d k y -> x = y.
Proof.
  intros F. destruct x as [a|], y as [b|]; cbn [member]; [|..].
  - intros (j & E & T) (j' & E' & T'). f_equal. apply (F a b j); congruence.
  - intros (j & E & _) E'. congruence.
  - intros E (j & E' & _). congruence.
  - reflexivity.
Qed.
Lemma strings_inj l : forall l', map JStr l = map JStr l' -> l = l'.
Proof. induction l as [|a l IH]; intros [|b l'] E; try discriminate E; [reflexivity|]. injection E as -> E. f_equal. now apply IH. Qed.
Lemma all_fun {A} (tells : A -> json -> Prop) (like : A -> A -> Prop) a b j : (forall x y z, tells x z -> tells y z -> like x y) -> all_json tells a j -> all_json tells b j ->
  Forall2 (fun x y => fst x = fst y /\ like (snd x) (snd y)) a b.
Proof.
  intros H (d & -> & F) (d' & E & F'). injection E as <-. revert b F'. induction F as [|x y r r' Q F IH]; intros b F'; inversion F' as [|x' y' s s' Q' F'']; subst; constructor.
  - destruct Q as [Q1 Q2], Q' as [Q1' Q2']. split; [congruence|]. exact (H _ _ _ Q2 Q2').
  - now apply IH.
Qed.
Lemma same_all {A} (a b : list (str * A)) : Forall2 (fun x y => fst x = fst y /\ snd x = snd y) a b -> a = b.
Proof. induction 1 as [|[k x] [k' y] r r' [H1 H2] F IH]; [reflexivity|]. cbn [fst snd] in *. now subst. Qed.
Lemma block_fun : functional block_json.
Proof.
  intros a b j Ha Hb. apply same_all. refine (all_fun (fun l y => y = JArr (map JStr l)) eq a b j _ Ha Hb). intros x y z -> [= E]. now apply strings_inj.
Qed.
Theorem C29_read_unique : forall i i' j, inventory_json i j -> inventory_json i' j ->
  i_id i = i_id i' /\ i_type i = i_type i' /\ i_alg i = i_alg i' /\ i_head i = i_head i' /\ i_cdir i = i_cdir i' /\ i_manifest i = i_manifest i' /\
  (forall vs vs', i_versions i = Some vs -> i_versions i' = Some vs' ->
     Forall2 (fun x y => fst x = fst y /\ vb_created (snd x) = vb_created (snd y) /\ vb_message (snd x) = vb_message (snd y) /\ vb_user (snd x) = vb_user (snd y) /\ vb_state (snd x) = vb_state (snd y)) vs vs') /\
  (i_versions i = None <-> i_versions i' = None) /\ i_fixity i = i_fixity i'.
Proof.
  intros i i' j (d & -> & A1 & A2 & A3 & A4 & A5 & A6 & A7 & A8 & _) (d' & E & B1 & B2 & B3 & B4 & B5 & B6 & B7 & B8 & _). injection E as <-.
  assert (T : functional text_json) by (intros a b j -> [= ->]; reflexivity). assert (U : functional object_json) by (intros a b j -> [= ->]; reflexivity).
  repeat (split; [eapply member_fun; [first [exact T|exact block_fun]|eassumption|eassumption]|]). split; [|split].
  - intros vs vs' Ev Ev'. rewrite Ev in A7. rewrite Ev' in B7. cbn [member] in A7, B7. destruct A7 as (j & G & (l & -> & F)), B7 as (j' & G' & (l' & -> & F')).
    rewrite G in G'. injection G' as <-.
    refine (all_fun version_json (fun x y => vb_created x = vb_created y /\ vb_message x = vb_message y /\ vb_user x = vb_user y /\ vb_state x = vb_state y) vs vs' (JObj l) _ (ex_intro _ l (conj eq_refl F)) (ex_intro _ l (conj eq_refl F'))).
    clear -T U. intros x y z (q & -> & A1 & A2 & A3 & A4 & _) (q' & E & B1 & B2 & B3 & B4 & _). injection E as <-.
    repeat (split; [eapply member_fun; [first [exact T|exact U]|eassumption|eassumption]|]). eapply member_fun; [exact block_fun|eassumption|eassumption].
  - destruct (i_versions i) as [a|], (i_versions i') as [b|]; cbn [member] in A7, B7; split; intro X; try discriminate X; try reflexivity.
    + destruct A7 as (j & G & _). congruence.
    + destruct B7 as (j & G & _). congruence.
  - eapply member_fun; [|exact A8|exact B8]. intros a b j Ha Hb. apply same_all. exact (all_fun block_json eq a b j block_fun Ha Hb).
Qed.
Print Assumptions C29_read_unique.

Example C42_json_ex : exists i,
  let j := JObj [(`"contentDirectory", JStr (`"data")); (`"id", JStr (`"a")); (`"manifest", JObj [(`"d1", JArr [JStr (`"v1/data/x"); JStr (`"v1/data/y")])]);
                 (`"note", JNull); (`"versions", JObj [(`"v1", JObj [(`"message", JStr (`"m")); (`"state", JObj [(`"d1", JArr [JStr (`"p")])])])])] in
  inventory_of_json j = Ok i /\ others_ok i /\ inventory_json i (json_of_inventory i) /\ i_cdir i = Some (`"data") /\ i_other i = [(`"note", JNull)].
Proof.
  eexists. cbv zeta. split; [vm_compute; reflexivity|]. match goal with |- others_ok ?x /\ _ => assert (O : others_ok x) end.
  - split.
    + intros k Hk Hi. apply str_in_true in Hi. destruct Hk as [<-|[]]. vm_compute in Hi. discriminate Hi.
    + intros vs v b [= <-] [[= <- <-]|[]]. intros k [].
  - split; [exact O|]. split; [now apply C42_json|]. split; reflexivity.
Qed.
