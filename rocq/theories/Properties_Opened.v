(** C29, more: what parse_inventory gives is the inventory in the file, with the digests in
    lower case. The theorems that name [parse_inventory] are about the file described here. *)
From Coq Require Import Permutation Lia.
From Verif Require Import Base Unicode Utf8 Json JsonTextModel JsonTextProofs TextFile PathModel FsModel DigestModel InventoryModel InventorySpec InventoryOpsSpec ParseProofs ObjectModel OpenProofs.
From Verif Require Properties_InventoryJson Properties_Inventory.
Import Properties_InventoryJson (inventory_json, C29_read).

(** The same text but for letters from A to Z, which are small now. *)
Definition small_letters (s t : str) : Prop := Forall2 (fun c c' => c' = c \/ ((65 <= c <= 90)%N /\ c' = (c + 32)%N)) s t /\ Forall (fun c => ~ (65 <= c <= 90)%N) t.
(** The same entries in any order, but for the case of the digests. *)
Definition same_entries (b b' : block) : Prop := exists l, Permutation b' l /\ Forall2 (fun x y => small_letters (fst x) (fst y) /\ snd y = snd x) b l.

Lemma lower_small s : small_letters s (lower s).
Proof.
  split; induction s as [|c s IH]; cbn [lower map]; constructor; auto; unfold lower_char; destruct (65 <=? c)%N eqn:A, (c <=? 90)%N eqn:B; cbn [andb];
    rewrite ?N.leb_le, ?N.leb_gt in *; auto; lia.
Qed.
Lemma strings_of l : strings (JArr (map JStr l)) = l.
Proof. cbn [strings]. induction l as [|a l IH]; [reflexivity|]. cbn. now f_equal. Qed.
Lemma entries_small b d : Forall2 (fun (x : str * list str) (y : str * json) => fst x = fst y /\ snd y = JArr (map JStr (snd x))) b d ->
  Forall2 (fun x y => small_letters (fst x) (fst y) /\ snd y = snd x) b (map (fun kv => (lower (fst kv), strings (snd kv))) d).
Proof. induction 1 as [|[k l] [k' j] r r' [H1 H2] F IH]; cbn [map]; constructor; auto. cbn [fst snd] in *. subst. split; [apply lower_small|apply strings_of]. Qed.

Theorem C29_opened : forall w h i s, parse_inventory w h = Ok (i, s) ->
  exists b inv i0, fs_read w h (`"inventory.json") = Ok b /\ json_load b = Ok inv /\ inventory_json i0 inv /\ same_rest i0 i /\
    (forall m, i_manifest i0 = Some m -> same_entries m (manifest i)) /\
    (forall vs v vb st, i_versions i0 = Some vs -> In (v, vb) vs -> vb_state vb = Some st -> same_entries st (state i v)).
Proof.
  intros w h i s E. destruct (parse_opened _ _ _ _ E) as (inv & i0 & f & O). destruct (oa_file _ _ _ _ _ _ _ O) as (b & Rb & Jb).
  pose proof (oa_opened _ _ _ _ _ _ _ O) as P. pose proof (C29_read _ _ (oa_read _ _ _ _ _ _ _ O)) as J. exists b, inv, i0. split; [exact Rb|]. split; [exact Jb|]. split; [exact J|]. split; [apply (op_rest _ _ _ P)|].
  destruct J as (d & -> & _ & _ & _ & _ & _ & Jm & Jv & _). split.
  - intros m Em. rewrite Em in Jm. destruct Jm as (j & G & (dm & -> & F)). exists (map (fun kv => (lower (fst kv), strings (snd kv))) dm). split; [|now apply entries_small].
    apply (op_manifest _ _ _ P). exists d. split; [reflexivity|]. now apply dget_In.
  - intros vs v vb st Ev Hv Es. rewrite Ev in Jv. destruct Jv as (j & G & (dv & -> & F)).
    assert (K : exists y, In (v, y) dv /\ Properties_InventoryJson.version_json vb y).
    { clear -F Hv. induction F as [|x [k y] r r' [H1 H2] F IH]; [destruct Hv|]. destruct Hv as [->|Hv]; [|destruct (IH Hv) as (z & Hz & Vz); exists z; split; [now right|exact Vz]].
      cbn [fst snd] in *. subst k. exists y. split; [now left|exact H2]. }
    destruct K as (y & Hy & (dy & -> & _ & _ & _ & Js & _)). rewrite Es in Js. destruct Js as (js & Gs & (ds & -> & Fs)).
    exists (map (fun kv => (lower (fst kv), strings (snd kv))) ds). split; [|now apply entries_small].
    apply (op_state _ _ _ P). exists dv, (JObj dy). split; [exists d; split; [reflexivity|now apply dget_In]|]. split; [exact Hy|]. exists dy. split; [reflexivity|now apply dget_In].
Qed.
Print Assumptions C29_opened.
(** An object whose inventory has digests in capitals *)
Definition caps_world : node := Dir [(`"o", Dir [(`"inventory.json", File (match write_text (json_dumps Properties_Inventory.caps_inv) with Ok b => b | Raise _ => [] end))])].
Example C29_opened_ex : exists i s, parse_inventory caps_world [`"o"] = Ok (i, s) /\ map fst (manifest i) = [repeat 97%N 64] /\
  exists b inv i0, fs_read caps_world [`"o"] (`"inventory.json") = Ok b /\ json_load b = Ok inv /\ inventory_json i0 inv /\ exists m, i_manifest i0 = Some m /\ map fst m = [repeat 65%N 64] /\ same_entries m (manifest i).
Proof.
  destruct (parse_inventory caps_world [`"o"]) as [[i s]|] eqn:E; [|exfalso; revert E; vm_compute; discriminate].
  exists i, s. split; [reflexivity|]. assert (M : map fst (manifest i) = [repeat 97%N 64]) by (revert E; vm_compute; intros [= <- <-]; reflexivity). split; [exact M|].
  destruct (C29_opened _ _ _ _ E) as (b & inv & i0 & R & J & I0 & _ & Sm & _). exists b, inv, i0. split; [exact R|]. split; [exact J|]. split; [exact I0|].
  assert (Eb : json_load b = Ok inv /\ fs_read caps_world [`"o"] (`"inventory.json") = Ok b) by auto. clear -Eb I0 Sm. destruct Eb as [Eb Rb].
  assert (Ej : inv = sort_json Properties_Inventory.caps_inv) by (revert Rb; vm_compute; intros [= <-]; revert Eb; vm_compute; congruence). subst inv.
  destruct I0 as (d & Ed & _ & _ & _ & _ & _ & Jm & _). vm_compute in Ed. injection Ed as <-. destruct (i_manifest i0) as [m|]; [|vm_compute in Jm; discriminate Jm].
  exists m. split; [reflexivity|]. split; [|now apply Sm]. destruct Jm as (j & G & (dm & -> & F)). vm_compute in G. injection G as <-.
  inversion F as [|[k l] y r r' [H1 _] F']; subst. inversion F'; subst. cbn [fst] in H1. subst k. reflexivity.
Qed.
