(** C56: JSON data, in particular inventories, survives being written and read. *)
From Coq Require Import Permutation Sorted.
From Verif Require Import Base Utf8 Json JsonTextModel JsonTextSpec JsonTextProofs TextFile JsonFileProofs.
Open Scope N_scope.

(** What is written is read back with the same value for every key at every level, and the
    keys of every object in the file are in order. *)
Theorem C56_round_trip : forall j, writable j -> exists b j', json_file j = Ok b /\ json_load b = Ok j' /\ same_json j' j /\ keys_sorted j'.
Proof.
  intros j Hw. destruct (json_file_ok j Hw) as [H1 H2]. pose proof (writable_wf j Hw). exists (json_dumps j), (sort_json j).
  repeat split; auto using same_sort, keys_sorted_sort.
Qed.
Print Assumptions C56_round_trip.

(** Any Unicode text is covered. *)
Theorem C56_unicode : forall s, unicode s -> exists b, json_file (JStr s) = Ok b /\ json_load b = Ok (JStr s).
Proof. intros s Hs. destruct (json_file_ok (JStr s)) as [H1 H2]; [now apply unicode_is_text|]. eauto. Qed.
Print Assumptions C56_unicode.

(** Equal data gives identical files, whatever the order of the members. *)
Theorem C56_identical_files : forall j j', json_wf j -> json_wf j' -> same_json j j' -> json_file j = json_file j'.
Proof. intros j j' H H' Hs. unfold json_file. now rewrite (json_dumps_same j j'). Qed.
Print Assumptions C56_identical_files.

(** And only equal data does. *)
Theorem C56_different_files : forall j j', writable j -> writable j' -> json_file j = json_file j' -> sort_json j = sort_json j'.
Proof.
  intros j j' H H' E. destruct (json_file_ok j H) as [E1 L1], (json_file_ok j' H') as [E2 L2]. rewrite E1, E2 in E.
  apply Ok_inv in E. rewrite E in *. congruence.
Qed.
Print Assumptions C56_different_files.

(** Printable ASCII and newlines are all that is in the file: it can be read in any
    encoding that extends ASCII. *)
Theorem C56_ascii : forall j b, writable j -> json_file j = Ok b -> Forall (fun c => 32 <= c <= 126 \/ c = 10) b.
Proof. intros j b Hw E. destruct (json_file_ok j Hw) as [E1 _]. assert (b = json_dumps j) by congruence. subst. exact (print_plain true j Hw 0). Qed.
Print Assumptions C56_ascii.

(** Reading any file ends, with data in which no key is repeated or one of three errors. *)
Theorem C56_reading_total : forall b,
  match json_load b with Ok j => json_wf j | Raise e => e = JSONDecodeError \/ e = ValueError \/ e = UnicodeDecodeError end.
Proof. exact json_load_cases. Qed.
Print Assumptions C56_reading_total.

(** The configuration of a layout (layout.py:233), which is written in the order it has and
    read in binary mode. *)
Theorem C56_unsorted_round_trip : forall j, writable j -> exists b, write_text (json_print false 0 j) = Ok b /\ json_load_binary b = Ok j.
Proof. intros j Hw. destruct (json_binary_ok j Hw). eauto. Qed.
Print Assumptions C56_unsorted_round_trip.

Definition ex_json : json :=
  JObj [(`"versions", JObj [(`"v1", JObj [(`"message", JStr [233; 65536; 10; 34; 92; 55357; 32]); (`"created", JStr [])])]);
        (`"id", JStr (`"a")); (`"list", JArr [JInt (-20); JArr []; JObj []; JNull; JBool false; JFloat (`"-1.5e+10")])].
Example C56_ex : writable ex_json /\ ~ keys_sorted ex_json /\ unicode [233; 65536; 10; 34; 92].
Proof.
  split; [|split].
  - assert (T : forall s, Forall (fun c => c < 55296) s -> text s).
    { intros s Hs. apply unicode_is_text. eapply Forall_impl; [|exact Hs]. intros c Hc. now left. }
    assert (N2 : forall a b : str, a <> b -> NoDup [a; b]) by (intros a b Hab; repeat constructor; cbn; intuition congruence).
    apply writable_obj. split; [repeat constructor; cbn; intuition discriminate|].
    repeat apply Forall_cons; try apply Forall_nil; (split; [apply T; repeat constructor|]); cbn [snd].
    + apply writable_obj. split; [repeat constructor; cbn; tauto|]. repeat apply Forall_cons; try apply Forall_nil.
      split; [apply T; repeat constructor|]. cbn [snd]. apply writable_obj. split; [apply N2; discriminate|].
      repeat apply Forall_cons; try apply Forall_nil; (split; [apply T; repeat constructor|]); cbn [snd]; [|exact I].
      cbn [writable text]. unfold high_surrogate, low_surrogate. repeat split; lia.
    + apply T. repeat constructor.
    + apply writable_arr. repeat apply Forall_cons; try apply Forall_nil; try exact I.
      * change (20 < 10 ^ 4300)%Z. apply Z.lt_le_trans with (10 ^ 2)%Z; [reflexivity|]. apply Z.pow_le_mono_r; lia.
      * split; [constructor|exact I].
      * right. right. right. exists [45], [49], [46; 53], [101; 43; 49; 48]. repeat split; auto.
        { right. exists 49, []. repeat split; auto; lia. }
        { right. exists [53]. repeat split; auto; [discriminate|]. repeat constructor; lia. }
        { right. exists 101, [43], [49; 48]. repeat split; auto; [discriminate|]. repeat constructor; lia. }
        { left. discriminate. }
  - intros H. inversion H as [| | | | | |? Hs _]; subst. inversion Hs as [|? ? _ Hf]; subst. inversion Hf as [|? ? Hb _]; subst.
    inversion Hb; subst. match goal with H : _ < _ |- _ => vm_compute in H; discriminate end.
  - repeat constructor; lia.
Qed.

(** Not all Python strings: a high surrogate directly before a low one comes back as one
    character. *)
Theorem C56_surrogates_refuted : exists s b, json_file (JStr s) = Ok b /\ json_load b <> Ok (JStr s) /\ exists t, json_load b = Ok (JStr t).
Proof.
  exists [55296; 56320]. eexists. split; [vm_compute; reflexivity|]. split; [vm_compute; discriminate|]. eexists. vm_compute. reflexivity.
Qed.
Print Assumptions C56_surrogates_refuted.

(** Not all integers: json.dump and json.load refuse more than 4300 digits; the writer is
    left out of this model, the reader raises ValueError, which is no JSONDecodeError. *)
Theorem C56_long_integer_refuted : exists b, json_load b = Raise ValueError.
Proof.
  exists (repeat 49 (N.to_nat 4301)). vm_compute. reflexivity.
Qed.
Print Assumptions C56_long_integer_refuted.
