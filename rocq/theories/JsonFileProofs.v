(** JSON files: writing, reading, and that reading any file ends. *)
From Coq Require Import Permutation Sorted.
From Verif Require Import Base Utf8 Json JsonTextModel JsonTextSpec JsonTextProofs TextFile.
Open Scope N_scope.

Lemma newlines_plain s : Forall (fun c => c <> 13) s -> newlines s = s.
Proof.
  induction 1 as [|c s Hc _ IH]; [reflexivity|]. cbn [newlines]. destruct (N.eqb_spec c 13); [contradiction|]. now rewrite IH.
Qed.
Lemma plain_no_cr s : Forall plain_char s -> Forall (fun c => c <> 13) s.
Proof. apply Forall_impl. intros c [H|H]; lia. Qed.
Lemma plain_ascii s : Forall plain_char s -> Forall (fun c => c < 128) s.
Proof. apply Forall_impl. intros c [H|H]; lia. Qed.

Lemma read_write_plain s : Forall plain_char s -> write_text s = Ok s /\ read_text s = Ok s.
Proof.
  intros H. assert (E : write_text s = Ok s) by now apply utf8_encode_ascii, plain_ascii. split; auto.
  unfold read_text. rewrite (utf8_roundtrip s s E). now rewrite newlines_plain by now apply plain_no_cr.
Qed.

Lemma json_file_ok j : writable j -> json_file j = Ok (json_dumps j) /\ json_load (json_dumps j) = Ok (sort_json j).
Proof.
  intros Hw. pose proof (print_plain true j Hw 0) as Hp. destruct (read_write_plain _ Hp) as [H1 H2].
  split; [exact H1|]. unfold json_load. fold (json_dumps j) in H2. rewrite H2. cbn [ebind]. now apply json_loads_dumps.
Qed.

Lemma str_leb_before a : forall b, str_leb a b = true -> a <> b -> before a b.
Proof.
  induction a as [|x a IH]; intros [|y b] H Hn; try congruence; try discriminate; [apply before_end|].
  cbn [str_leb] in H. destruct (N.ltb_spec x y); [now apply before_here|]. destruct (N.ltb_spec y x); [discriminate|].
  assert (x = y) by lia. subst. apply before_later. apply IH; congruence.
Qed.
Lemma isort_keys_before {A} (d : dict A) : NoDup (keys d) -> StronglySorted before (keys (isort key_leb d)).
Proof.
  intros Hn. assert (Hn' : NoDup (keys (isort key_leb d))) by (eapply Permutation_NoDup; [apply keys_isort|auto]).
  pose proof (isort_key_sorted d) as H. revert Hn'. induction H as [|a l Hl IH Ha]; intros Hn'; [constructor|].
  cbn [keys map] in *. inversion Hn' as [|? ? H1 H2]; subst. constructor; [now apply IH|].
  rewrite Forall_forall in *. intros k Hk. apply in_map_iff in Hk as (kv & <- & Hk). apply str_leb_before.
  - now apply Ha.
  - intros E. apply H1. rewrite E. now apply in_map.
Qed.
Lemma keys_sorted_sort j : json_wf j -> keys_sorted (sort_json j).
Proof.
  induction j as [| | | | |l IH|d IH] using json_ind'; intros Hw; try (constructor; fail); cbn [sort_json]; constructor.
  - apply json_wf_arr in Hw. rewrite Forall_forall in *. intros x Hx. apply in_map_iff in Hx as (y & <- & Hy). auto.
  - apply json_wf_obj in Hw as [Hn _]. apply isort_keys_before. now rewrite keys_map.
  - apply json_wf_obj in Hw as [_ Hw]. rewrite Forall_forall in *. intros x Hx. apply In_isort in Hx.
    apply in_map_iff in Hx as (y & <- & Hy). apply IH; auto.
Qed.

Lemma same_json_sym j : forall j', same_json j j' -> same_json j' j.
Proof.
  induction j as [| | | | |l IH|d IH] using json_ind'; intros j' Hs; inversion Hs as [| | | | |l1 l2 Hl|d1 d2 H1 H2]; subst; constructor.
  - clear Hs. induction Hl; [constructor|]. inversion IH; subst. constructor; auto.
  - intros k. symmetry. apply H1.
  - intros k v v' E1 E2. rewrite Forall_forall in IH. pose proof (dget_In _ _ _ E2) as Hi. apply (IH _ Hi). eapply H2; eauto.
Qed.

Lemma unicode_is_text s : unicode s -> text s.
Proof.
  induction 1 as [|c s Hc Hs IH]; [exact I|]. cbn [text]. split; [lia|]. split; [|auto]. destruct s; [exact I|].
  unfold high_surrogate, low_surrogate. lia.
Qed.

Lemma json_load_cases b :
  match json_load b with Ok j => json_wf j | Raise e => e = JSONDecodeError \/ e = ValueError \/ e = UnicodeDecodeError end.
Proof.
  unfold json_load, read_text. destruct (utf8_decode b) as [s|]; cbn [ebind]; [|auto].
  pose proof (json_loads_cases (newlines s)) as H. destruct (json_loads (newlines s)); tauto.
Qed.

Lemma json_binary_ok j : writable j -> write_text (json_print false 0 j) = Ok (json_print false 0 j) /\
  json_load_binary (json_print false 0 j) = Ok j.
Proof.
  intros Hw. pose proof (print_plain false j Hw 0) as Hp. destruct (read_write_plain _ Hp) as [H1 H2]. split; [exact H1|].
  unfold json_load_binary. pose proof (print_head false j Hw 0) as Hh. destruct Hh as (c & r & E & _). rewrite E in *.
  assert (Hne : forall x y, plain_char x -> (y = 255 \/ y = 254 \/ y = 0 \/ y = 239) -> (x =? y) = false /\ (y =? x) = false).
  { intros x y Hx Hy. split; apply N.eqb_neq; destruct Hx as [Hx|Hx]; lia. }
  assert (E1 : starts_utf16_32 (c :: r) = false).
  { inversion Hp as [|? ? Hc Hr]; subst. unfold starts_utf16_32. cbn [startswith].
    rewrite (proj2 (Hne c 255 Hc ltac:(auto))), (proj2 (Hne c 254 Hc ltac:(auto))), (proj2 (Hne c 0 Hc ltac:(auto))). cbn [andb orb].
    destruct r as [|x r]; [reflexivity|]. inversion Hr as [|? ? Hx Hr']; subst.
    rewrite (proj1 (Hne c 0 Hc ltac:(auto))), (proj1 (Hne x 0 Hx ltac:(auto))). destruct r as [|? [|? ?]]; reflexivity. }
  rewrite E1. assert (E2 : startswith [239; 187; 191] (c :: r) = false).
  { inversion Hp as [|? ? Hc Hr]; subst. cbn [startswith]. now rewrite (proj2 (Hne c 239 Hc ltac:(auto))). }
  rewrite E2. rewrite (utf8_roundtrip _ _ H1). rewrite <- E. now apply json_loads_print.
Qed.
