(** The JSON writer and reader: what is written is read back. *)
From Coq Require Import Permutation Sorted.
From Verif Require Import Base Utf8 Json JsonTextModel JsonTextSpec.
Open Scope N_scope.

Lemma writable_arr l : writable (JArr l) <-> Forall writable l.
Proof.
  cbn [writable]. induction l as [|x l IH]; [split; auto|]. split.
  - intros [H1 H2]. constructor; auto. now apply IH.
  - intros H. inversion H; subst. split; auto. now apply IH.
Qed.
Lemma writable_obj d : writable (JObj d) <-> NoDup (keys d) /\ Forall (fun kv => text (fst kv) /\ writable (snd kv)) d.
Proof.
  cbn [writable].
  assert (G : (fix go (d : list (str * json)) : Prop :=
         match d with [] => True | kv :: r => (text (fst kv) /\ writable (snd kv)) /\ go r end) d
         <-> Forall (fun kv => text (fst kv) /\ writable (snd kv)) d).
  { induction d as [|x d IH]; [split; auto|]. split.
    - intros [H1 H2]. constructor; auto. now apply IH.
    - intros H. inversion H; subst. split; auto. now apply IH. }
  now rewrite G.
Qed.

(** ** Characters and strings *)

Lemma hexval_hexd n : n < 16 -> hexval (hexd n) = Some n.
Proof.
  intros H. unfold hexd. destruct (N.ltb_spec n 10); unfold hexval.
  - destruct (N.leb_spec 48 (48 + n)); [|lia]. destruct (N.leb_spec (48 + n) 57); [|lia]. cbn [andb]. f_equal. lia.
  - destruct (N.leb_spec 48 (87 + n)); [|lia]. destruct (N.leb_spec (87 + n) 57); [lia|].
    destruct (N.leb_spec 97 (87 + n)); [|lia]. destruct (N.leb_spec (87 + n) 102); [|lia]. cbn [andb]. f_equal. lia.
Qed.

Lemma hex_split n : n < 65536 -> n / 4096 mod 16 * 4096 + n / 256 mod 16 * 256 + n / 16 mod 16 * 16 + n mod 16 = n.
Proof.
  intros H. pose proof (N.div_mod' n 16). pose proof (N.div_mod' (n / 16) 16). pose proof (N.div_mod' (n / 256) 16).
  rewrite N.div_div in H1, H2 by discriminate. change (16 * 16) with 256 in H1. change (256 * 16) with 4096 in H2.
  assert (n / 4096 < 16) by (apply N.div_lt_upper_bound; lia). rewrite (N.mod_small (n / 4096)) by auto.
  revert H0 H1 H2. generalize (n mod 16), (n / 16 mod 16), (n / 256 mod 16), (n / 4096), (n / 256), (n / 16). intros. lia.
Qed.

Lemma hex4_escape n r : n < 65536 ->
  hex4 (hexd (n / 4096 mod 16) :: hexd (n / 256 mod 16) :: hexd (n / 16 mod 16) :: hexd (n mod 16) :: r) = Some (n, r).
Proof.
  intros H. unfold hex4. rewrite !hexval_hexd by (apply N.mod_lt; discriminate). now rewrite hex_split.
Qed.

Lemma eat_same c r : eat c (c :: r) = Some r.
Proof. unfold eat. now rewrite N.eqb_refl. Qed.
Lemma eat_other c x r : x <> c -> eat c (x :: r) = None.
Proof. intros H. unfold eat. destruct (N.eqb_spec x c); congruence. Qed.

Lemma is_high_spec c : reflect (high_surrogate c) (is_high c).
Proof.
  apply iff_reflect. unfold is_high, high_surrogate. rewrite andb_true_iff, !N.leb_le. tauto.
Qed.
Lemma is_low_spec c : reflect (low_surrogate c) (is_low c).
Proof.
  apply iff_reflect. unfold is_low, low_surrogate. rewrite andb_true_iff, !N.leb_le. tauto.
Qed.

(** What follows a lone high surrogate is not a low surrogate. *)
Definition no_low (t : str) : Prop :=
  match (match eat 92 t with Some q => eat 117 q | None => None end) with
  | None => True
  | Some r => exists c q, hex4 r = Some (c, q) /\ is_low c = false
  end.

Lemma scan_unicode_low n r : n < 65536 -> (high_surrogate n -> no_low r) ->
  scan_unicode (hexd (n / 4096 mod 16) :: hexd (n / 256 mod 16) :: hexd (n / 16 mod 16) :: hexd (n mod 16) :: r) = Some (n, r).
Proof.
  intros H Hn. unfold scan_unicode. rewrite hex4_escape by auto.
  destruct (is_high_spec n) as [Hh|]; [|reflexivity]. specialize (Hn Hh). unfold no_low in Hn.
  destruct (match eat 92 r with Some q => eat 117 q | None => None end); [|reflexivity].
  destruct Hn as (c & q & E & E2). now rewrite E, E2.
Qed.

Lemma pair_split c : 65536 <= c < 1114112 ->
  let h := 55296 + (c - 65536) / 1024 in let l := 56320 + (c - 65536) mod 1024 in
  h < 65536 /\ l < 65536 /\ high_surrogate h /\ low_surrogate l /\ 65536 + (h - 55296) * 1024 + (l - 56320) = c.
Proof.
  intros H h l. pose proof (N.div_mod' (c - 65536) 1024). pose proof (N.mod_lt (c - 65536) 1024 ltac:(discriminate)) as Hm.
  assert (Hd : (c - 65536) / 1024 < 1024) by (apply N.div_lt_upper_bound; lia).
  unfold high_surrogate, low_surrogate, h, l. clear h l. revert H0 Hm Hd.
  generalize ((c - 65536) / 1024), ((c - 65536) mod 1024). intros. lia.
Qed.

Lemma u_escape_app n r : u_escape n ++ r =
  92 :: 117 :: hexd (n / 4096 mod 16) :: hexd (n / 256 mod 16) :: hexd (n / 16 mod 16) :: hexd (n mod 16) :: r.
Proof. reflexivity. Qed.

Opaque N.div N.modulo hexd u_escape.

Lemma scan_char c f r : c < 1114112 -> (high_surrogate c -> no_low r) ->
  scan_string (S f) (json_char c ++ r) =
  match scan_string f r with Some (t, q) => Some (c :: t, q) | None => None end.
Proof.
  intros Hc Hn. unfold json_char.
  destruct (N.eqb_spec c 34); [subst; reflexivity|].
  destruct (N.eqb_spec c 92); [subst; reflexivity|].
  destruct (N.eqb_spec c 8); [subst; reflexivity|].
  destruct (N.eqb_spec c 12); [subst; reflexivity|].
  destruct (N.eqb_spec c 10); [subst; reflexivity|].
  destruct (N.eqb_spec c 13); [subst; reflexivity|].
  destruct (N.eqb_spec c 9); [subst; reflexivity|].
  destruct ((32 <=? c) && (c <=? 126)) eqn:E.
  { apply andb_true_iff in E as [E1 E2]. apply N.leb_le in E1, E2. cbn [app scan_string].
    destruct (N.eqb_spec c 34); [congruence|]. destruct (N.eqb_spec c 92); [congruence|].
    destruct (N.ltb_spec c 32); [lia|]. reflexivity. }
  destruct (N.ltb_spec c 65536).
  { rewrite u_escape_app. cbn [scan_string]. change (92 =? 34) with false. change (92 =? 92) with true. cbv iota.
    unfold scan_escape. change (117 =? 117) with true. cbv iota. now rewrite scan_unicode_low by auto. }
  destruct (pair_split c) as (Hh & Hl & H1 & H2 & H3); [lia|].
  set (h := 55296 + (c - 65536) / 1024) in *. set (l := 56320 + (c - 65536) mod 1024) in *.
  rewrite <- app_assoc, !u_escape_app. cbn [scan_string]. change (92 =? 34) with false. change (92 =? 92) with true. cbv iota.
  unfold scan_escape. change (117 =? 117) with true. cbv iota. unfold scan_unicode. rewrite hex4_escape by auto.
  destruct (is_high_spec h); [|tauto]. rewrite !eat_same. rewrite hex4_escape by auto.
  destruct (is_low_spec l); [|tauto]. now rewrite H3.
Qed.

Lemma no_low_text d r q : d < 1114112 -> ~ low_surrogate d -> no_low (json_char d ++ q) /\ (no_low (34 :: r)).
Proof.
  intros Hd Hl. split; [|reflexivity]. unfold json_char, no_low.
  destruct (N.eqb_spec d 34); [reflexivity|].
  destruct (N.eqb_spec d 92); [reflexivity|].
  destruct (N.eqb_spec d 8); [reflexivity|].
  destruct (N.eqb_spec d 12); [reflexivity|].
  destruct (N.eqb_spec d 10); [reflexivity|].
  destruct (N.eqb_spec d 13); [reflexivity|].
  destruct (N.eqb_spec d 9); [reflexivity|].
  destruct ((32 <=? d) && (d <=? 126)).
  { cbn [app]. rewrite eat_other by auto. reflexivity. }
  destruct (N.ltb_spec d 65536).
  { rewrite u_escape_app, !eat_same. exists d, q. split; [now apply hex4_escape|]. destruct (is_low_spec d); tauto. }
  destruct (pair_split d) as (Hh & _ & H1 & _ & _); [lia|].
  rewrite <- app_assoc, u_escape_app, !eat_same. do 2 eexists. split; [apply hex4_escape; auto|].
  match goal with |- is_low ?x = false => destruct (is_low_spec x) as [K|]; [|reflexivity] end.
  unfold high_surrogate, low_surrogate in *. lia.
Qed.

Lemma scan_string_ok s : text s -> forall f r, (List.length s < f)%nat ->
  scan_string f (flat_map json_char s ++ 34 :: r) = Some (s, r).
Proof.
  induction s as [|c s IH]; intros Ht f r Hf; (destruct f as [|f]; [cbn [List.length] in Hf; lia|]).
  - reflexivity.
  - destruct Ht as (Hc & Hp & Ht). cbn [flat_map]. rewrite <- app_assoc, scan_char; auto.
    + rewrite IH; auto. cbn [List.length] in Hf. lia.
    + intros Hh. destruct s as [|d s]; [reflexivity|]. cbn [flat_map]. rewrite <- app_assoc. apply no_low_text; auto.
      * destruct Ht; auto.
Qed.

Transparent u_escape.
Lemma flat_map_length_le (s : str) : (List.length s <= List.length (flat_map json_char s))%nat.
Proof.
  induction s as [|c s IH]; simpl; [lia|]. rewrite app_length.
  assert (1 <= List.length (json_char c))%nat; [|lia]. unfold json_char.
  repeat match goal with |- context [if ?b then _ else _] => destruct b end; try (cbn; lia);
    try rewrite app_length; unfold u_escape; cbn; lia.
Qed.
Opaque u_escape.

Lemma json_string_read s r : text s ->
  match eat 34 (json_string s ++ r) with
  | Some q => scan_string (S (List.length q)) q
  | None => None
  end = Some (s, r).
Proof.
  intros H. unfold json_string. cbn [app]. rewrite eat_same, <- app_assoc. cbn [app].
  apply scan_string_ok; auto. rewrite app_length. cbn [List.length]. pose proof (flat_map_length_le s). lia.
Qed.

(** ** Numbers *)

(** What comes after a value: end of text, a comma, a newline or a closing bracket. *)
Definition delim (r : str) : Prop :=
  match r with [] => True | c :: _ => c = 44 \/ c = 10 \/ c = 93 \/ c = 125 end.

Definition no_digit (r : str) : Prop := match r with c :: _ => is_ascii_digit c = false | [] => True end.

Lemma take_digits_app d r : Forall (fun c => is_ascii_digit c = true) d -> no_digit r -> take_digits (d ++ r) = (d, r).
Proof.
  intros Hd Hr. induction Hd as [|c d Hc _ IH]; cbn [app take_digits].
  - destruct r as [|c r]; [reflexivity|]. simpl in Hr. simpl. now rewrite Hr.
  - now rewrite Hc, IH.
Qed.

Lemma digit_char c : is_ascii_digit c = true <-> 48 <= c <= 57.
Proof. unfold is_ascii_digit. rewrite andb_true_iff, !N.leb_le. tauto. Qed.
Lemma digit_Forall d : Forall (fun c => 48 <= c <= 57) d <-> Forall (fun c => is_ascii_digit c = true) d.
Proof. split; apply Forall_impl; intros c; apply digit_char. Qed.

Lemma delim_no_digit r : delim r -> no_digit r.
Proof.
  destruct r as [|c r]; simpl; auto. intros [->|[->|[->| ->]]]; reflexivity.
Qed.
Lemma delim_eat c r : delim r -> c <> 44 -> c <> 10 -> c <> 93 -> c <> 125 -> eat c r = None.
Proof.
  destruct r as [|x r]; simpl; auto. intros H ? ? ? ?. destruct (N.eqb_spec x c); intuition congruence.
Qed.
Lemma delim_frac r : delim r -> scan_frac r = ([], r).
Proof. intros H. unfold scan_frac. rewrite delim_eat; auto; discriminate. Qed.
Lemma delim_exp r : delim r -> scan_exp r = ([], r).
Proof. destruct r as [|x r]; simpl; auto. intros [->|[->|[->| ->]]]; reflexivity. Qed.

(** The integer part *)
Definition int_part (ip : str) : Prop :=
  ip = [48] \/ exists c r, ip = c :: r /\ 49 <= c <= 57 /\ Forall (fun c => 48 <= c <= 57) r.
Lemma scan_int_ok sign ip r : (sign = [] \/ sign = [45]) -> int_part ip -> no_digit r ->
  scan_int (sign ++ ip ++ r) = Some (sign ++ ip, r).
Proof.
  intros Hs Hi Hr.
  assert (G : forall sg, match ip ++ r with
    | [] => None
    | c :: q => if c =? 48 then Some (sg ++ [48], q)
                else if (49 <=? c) && (c <=? 57) then let '(d, q') := take_digits (ip ++ r) in Some (sg ++ d, q') else None
    end = Some (sg ++ ip, r)).
  { intros sg. destruct Hi as [->|(c & q & -> & Hc & Hq)]; [reflexivity|]. cbn [app].
    destruct (N.eqb_spec c 48); [lia|]. destruct (N.leb_spec 49 c); [|lia]. destruct (N.leb_spec c 57); [|lia]. cbn [andb].
    change (c :: q ++ r) with ((c :: q) ++ r). rewrite take_digits_app; auto.
    constructor; [apply digit_char; lia|now apply digit_Forall]. }
  unfold scan_int. destruct Hs as [->| ->]; cbn [app].
  - assert (E : eat 45 (ip ++ r) = None).
    { destruct Hi as [->|(c & q & -> & Hc & _)]; [reflexivity|]. cbn [app]. apply eat_other. lia. }
    rewrite E. exact (G []).
  - rewrite eat_same. exact (G [45]).
Qed.

Lemma int_part_N n : int_part (str_of_N n).
Proof.
  destruct (N.eq_dec n 0) as [->|Hn]; [left; reflexivity|]. right.
  destruct (str_of_N_head n ltac:(lia)) as (c & r & E & Hc). exists c, r.
  pose proof (str_of_N_digits n) as Hd. rewrite E in Hd. inversion Hd as [|x l Hx Hl]; subst. apply digit_char in Hx.
  split; auto. split; [lia|]. now apply digit_Forall.
Qed.

Lemma str_of_Z_form z : exists sign, (sign = [] \/ sign = [45]) /\ str_of_Z z = sign ++ str_of_N (Z.to_N (Z.abs z)) /\
  int_value (str_of_Z z) = z /\ drop_sign (str_of_Z z) = str_of_N (Z.to_N (Z.abs z)).
Proof.
  unfold str_of_Z, int_value, drop_sign. destruct (Z.ltb_spec z 0).
  - exists [45]. split; [auto|]. rewrite eat_same, digits_val_str_of_N. replace (Z.abs z) with (- z)%Z by lia. repeat split; auto. lia.
  - exists []. split; [auto|]. replace (Z.abs z) with z by lia. split; [reflexivity|].
    destruct (int_part_N (Z.to_N z)) as [E|(c & r & E & Hc & _)]; rewrite E.
    + rewrite eat_other by discriminate. rewrite <- E, digits_val_str_of_N. split; auto. lia.
    + rewrite eat_other by lia. rewrite <- E, digits_val_str_of_N. split; auto. lia.
Qed.

Lemma scan_number_int z r : (Z.abs z < 10 ^ 4300)%Z -> delim r -> scan_number (str_of_Z z ++ r) = Ok (JInt z, r).
Proof.
  intros Hz Hr. destruct (str_of_Z_form z) as (sign & Hs & E & Hv & Ht). unfold scan_number.
  rewrite E at 1. rewrite <- app_assoc, scan_int_ok; auto using int_part_N, delim_no_digit.
  rewrite delim_frac, delim_exp by auto. rewrite <- E, Hv. unfold too_long. rewrite Ht.
  destruct (N.ltb_spec 4300 (N.of_nat (List.length (str_of_N (Z.to_N (Z.abs z)))))) as [Hl|]; [|reflexivity].
  exfalso. assert (K : (List.length (str_of_N (Z.to_N (Z.abs z))) <= N.to_nat 4300)%nat).
  { apply str_of_N_length; [lia|]. rewrite N2Nat.id. apply N2Z.inj_lt. rewrite Z2N.id by lia.
    rewrite N2Z.inj_pow. exact Hz. }
  lia.
Qed.

Lemma scan_frac_ok fr r : (fr = [] \/ exists d, fr = 46 :: d /\ digits d) -> no_digit r -> (fr = [] -> eat 46 r = None) ->
  scan_frac (fr ++ r) = (fr, r).
Proof.
  intros [->|(d & -> & Hd & Hf)] Hr Hn; unfold scan_frac.
  - cbn [app]. now rewrite Hn.
  - cbn [app]. rewrite eat_same, take_digits_app; auto; [|now apply digit_Forall]. destruct d; [congruence|reflexivity].
Qed.
Lemma scan_exp_ok ex r : (ex = [] \/ exists e sg d, ex = e :: sg ++ d /\ (e = 101 \/ e = 69) /\ (sg = [] \/ sg = [43] \/ sg = [45]) /\ digits d) ->
  delim r -> scan_exp (ex ++ r) = (ex, r).
Proof.
  intros [->|(e & sg & d & -> & He & Hs & Hd & Hf)] Hr.
  - now apply delim_exp.
  - cbn [app]. unfold scan_exp. rewrite <- app_assoc.
    assert (Ee : (e =? 101) || (e =? 69) = true) by (destruct He as [->| ->]; reflexivity). rewrite Ee.
    assert (Es : match sg ++ d ++ r with
                 | c :: q => if (c =? 43) || (c =? 45) then ([c], q) else ([], sg ++ d ++ r)
                 | [] => ([], sg ++ d ++ r) end = (sg, d ++ r)).
    { destruct Hs as [->|[->| ->]]; try reflexivity. cbn [app]. destruct d as [|c d]; [congruence|]. cbn [app].
      inversion Hf; subst. destruct (N.eqb_spec c 43); [lia|]. destruct (N.eqb_spec c 45); [lia|]. reflexivity. }
    rewrite Es, take_digits_app; auto using delim_no_digit; [|now apply digit_Forall]. destruct d; [congruence|reflexivity].
Qed.

Lemma scan_constant_num s : (match s with c :: _ => 48 <= c <= 57 | [] => True end) -> scan_constant constants s = None.
Proof.
  destruct s as [|c s]; [reflexivity|]. intros H. unfold constants, scan_constant, strip_prefix. cbn [lit ascii_code startswith].
  repeat match goal with |- context [N.eqb ?a c] => destruct (N.eqb_spec a c); [subst; exfalso; destruct H as [H1 H2]; vm_compute in H1, H2; congruence|] end.
  reflexivity.
Qed.
Lemma scan_constant_neg c s : 48 <= c <= 57 -> scan_constant constants (45 :: c :: s) = None.
Proof.
  intros H. unfold constants, scan_constant, strip_prefix. cbn [lit ascii_code startswith].
  repeat match goal with |- context [N.eqb ?a 45] => change (N.eqb a 45) with false || change (N.eqb a 45) with true end. cbn [andb].
  match goal with |- context [N.eqb ?a c] => destruct (N.eqb_spec a c); [subst; exfalso; destruct H as [H1 H2]; vm_compute in H1, H2; congruence|] end.
  reflexivity.
Qed.

Lemma int_part_head ip : int_part ip -> exists c r, ip = c :: r /\ 48 <= c <= 57.
Proof. intros [->|(c & r & -> & H & _)]; [exists 48, []; split; [auto|lia]|exists c, r; split; [auto|lia]]. Qed.

(** A text that starts like a number is read as a number. *)
Lemma scan_value_number f sign ip r : (sign = [] \/ sign = [45]) -> int_part ip ->
  scan_value (S f) (sign ++ ip ++ r) = scan_number (sign ++ ip ++ r).
Proof.
  intros Hs Hi. destruct (int_part_head ip Hi) as (c & q & -> & Hc). destruct Hs as [->| ->]; cbn [app scan_value].
  - destruct (N.eqb_spec c 34); [lia|]. destruct (N.eqb_spec c 123); [lia|]. destruct (N.eqb_spec c 91); [lia|].
    rewrite scan_constant_num; [reflexivity|auto].
  - change (45 =? 34) with false. change (45 =? 123) with false. change (45 =? 91) with false. cbv iota.
    rewrite scan_constant_neg; auto.
Qed.

Lemma scan_value_int f z r : (Z.abs z < 10 ^ 4300)%Z -> delim r -> scan_value (S f) (str_of_Z z ++ r) = Ok (JInt z, r).
Proof.
  intros Hz Hr. destruct (str_of_Z_form z) as (sign & Hs & E & _ & _).
  rewrite <- scan_number_int with (r := r) by auto. rewrite E, <- app_assoc. apply scan_value_number; auto using int_part_N.
Qed.

Lemma scan_value_float f t r : float_text t -> delim r -> scan_value (S f) (t ++ r) = Ok (JFloat t, r).
Proof.
  intros [->|[->|[->|H]]] Hr; [reflexivity|reflexivity|reflexivity|].
  destruct H as (sign & ip & fr & ex & -> & Hs & Hi & Hf & He & Hn).
  rewrite <- !app_assoc. rewrite scan_value_number by auto. unfold scan_number.
  assert (Nd : no_digit (ex ++ r)).
  { destruct He as [->|(e & sg & d & -> & [->| ->] & _)]; [now apply delim_no_digit|reflexivity|reflexivity]. }
  assert (Nd2 : no_digit (fr ++ ex ++ r)).
  { destruct Hf as [->|(d & -> & _)]; [exact Nd|reflexivity]. }
  rewrite scan_int_ok by auto. rewrite scan_frac_ok; auto.
  - rewrite scan_exp_ok by auto. destruct fr as [|a fr], ex as [|b ex]; try (rewrite <- app_assoc; reflexivity).
    destruct Hn; congruence.
  - intros _. destruct He as [->|(e & sg & d & -> & [->| ->] & _)]; [|reflexivity|reflexivity].
    cbn [app]. apply delim_eat; auto; discriminate.
Qed.

(** ** Values *)

Lemma skip_ws_head c r : is_ws c = false -> skip_ws (c :: r) = c :: r.
Proof. intros H. simpl. now rewrite H. Qed.
Lemma skip_ws_newline n r : skip_ws (newline n ++ r) = skip_ws r.
Proof. unfold newline. cbn [app skip_ws]. change (is_ws 10) with true. cbv iota. induction (2 * n)%nat; simpl; auto. Qed.

(** The first character of a value *)
Definition value_head (s : str) : Prop :=
  exists c r, s = c :: r /\ is_ws c = false /\ c <> 93 /\ c <> 125 /\ c <> 44.

Lemma print_head sorted j : writable j -> forall lvl, value_head (json_print sorted lvl j).
Proof.
  intros Hw lvl. destruct j as [|b|z|t|s|l|d]; cbn [json_print].
  - do 2 eexists. split; [reflexivity|]. repeat split; discriminate.
  - destruct b; do 2 eexists; (split; [reflexivity|]; repeat split; discriminate).
  - destruct (str_of_Z_form z) as (sign & Hs & E & _ & _).
    destruct (int_part_head _ (int_part_N (Z.to_N (Z.abs z)))) as (c & r & E2 & Hc). rewrite E, E2.
    destruct Hs as [->| ->]; cbn [app]; do 2 eexists; (split; [reflexivity|]).
    + repeat split; try lia. unfold is_ws.
      destruct (N.eqb_spec c 32), (N.eqb_spec c 9), (N.eqb_spec c 10), (N.eqb_spec c 13); try lia; reflexivity.
    + repeat split; discriminate.
  - destruct Hw as [->|[->|[->|H]]]; try (do 2 eexists; split; [reflexivity|]; repeat split; discriminate).
    destruct H as (sign & ip & fr & ex & -> & Hs & Hi & _). destruct (int_part_head ip Hi) as (c & r & -> & Hc).
    destruct Hs as [->| ->]; cbn [app]; do 2 eexists; (split; [reflexivity|]).
    + repeat split; try lia. unfold is_ws.
      destruct (N.eqb_spec c 32), (N.eqb_spec c 9), (N.eqb_spec c 10), (N.eqb_spec c 13); try lia; reflexivity.
    + repeat split; discriminate.
  - do 2 eexists. split; [reflexivity|]. repeat split; discriminate.
  - unfold wrap. destruct (map _ l); do 2 eexists; (split; [reflexivity|]; repeat split; discriminate).
  - unfold wrap. destruct (map _ _); do 2 eexists; (split; [reflexivity|]; repeat split; discriminate).
Qed.

Lemma value_head_skip s r : value_head s -> skip_ws (s ++ r) = s ++ r.
Proof. intros (c & q & -> & H & _). cbn [app]. now apply skip_ws_head. Qed.
Lemma value_head_eat s r x : value_head s -> x = 93 \/ x = 125 \/ x = 44 -> eat x (s ++ r) = None.
Proof. intros (c & q & -> & _ & H1 & H2 & H3) Hx. cbn [app]. apply eat_other. intuition congruence. Qed.

(** Reading back without sorting *)
Definition reads_back (j : json) : Prop :=
  forall lvl f r, delim r -> (List.length (json_print false lvl j) < f)%nat ->
    scan_value f (json_print false lvl j ++ r) = Ok (j, r).

Lemma join_cons2 (sep : str) a b l : join sep (a :: b :: l) = a ++ sep ++ join sep (b :: l).
Proof. reflexivity. Qed.

Lemma delim_newline n r : delim (newline n ++ r).
Proof. right. left. reflexivity. Qed.

Lemma scan_elements_ok lvl l : Forall (fun j => writable j /\ reads_back j) l -> l <> [] -> forall lvl' f r,
  (List.length (join (44%N :: newline lvl) (map (json_print false lvl) l)) + 1 < f)%nat ->
  scan_elements f (join (44 :: newline lvl) (map (json_print false lvl) l) ++ newline lvl' ++ 93 :: r) = Ok (l, r).
Proof.
  induction 1 as [|x l [Hw Hx] Hl IH]; [congruence|]. intros _ lvl' f r Hf.
  destruct f as [|f]; [lia|]. cbn [scan_elements]. destruct l as [|y l].
  - cbn [map join] in *. rewrite Hx by (try apply delim_newline; lia). cbn [ebind].
    rewrite skip_ws_newline, (skip_ws_head 93) by reflexivity. now rewrite eat_same.
  - cbn [map] in *. rewrite join_cons2 in *. rewrite !app_length in Hf. cbn [List.length] in Hf.
    rewrite <- !app_assoc. rewrite Hx; [|left; reflexivity|lia]. cbn [ebind app].
    rewrite (skip_ws_head 44) by reflexivity. rewrite (eat_other 93) by discriminate. rewrite eat_same.
    rewrite skip_ws_newline. inversion Hl as [|? ? [Hyw _] _]; subst.
    assert (Hs : forall q, skip_ws (join (44 :: newline lvl) (json_print false lvl y :: map (json_print false lvl) l) ++ q) =
                 join (44 :: newline lvl) (json_print false lvl y :: map (json_print false lvl) l) ++ q).
    { intros q. pose proof (print_head false y Hyw lvl) as Hh. destruct l as [|z l]; cbn [map].
      - cbn [join]. now apply value_head_skip.
      - rewrite join_cons2, <- !app_assoc. now apply value_head_skip. }
    rewrite Hs. rewrite IH; [reflexivity|discriminate|cbn [map]; lia].
Qed.

Definition member_text (lvl : nat) (kv : str * json) : str :=
  json_string (fst kv) ++ `": " ++ json_print false lvl (snd kv).

Lemma dset_new {A} k (v : A) d : ~ In k (keys d) -> dset k v d = d ++ [(k, v)].
Proof.
  induction d as [|[k' v'] d IH]; simpl; auto. intros H. destruct (str_eqb_spec k k'); [subst; tauto|]. f_equal. apply IH. tauto.
Qed.

Lemma scan_members_ok lvl l : Forall (fun kv => text (fst kv) /\ writable (snd kv) /\ reads_back (snd kv)) l -> l <> [] ->
  forall d lvl' f r, NoDup (keys (d ++ l)) ->
  (List.length (join (44%N :: newline lvl) (map (member_text lvl) l)) + 1 < f)%nat ->
  scan_members f (join (44 :: newline lvl) (map (member_text lvl) l) ++ newline lvl' ++ 125 :: r) d = Ok (d ++ l, r).
Proof.
  induction 1 as [|[k v] l (Hk & Hw & Hv) Hl IH]; [congruence|]. intros _ d lvl' f r Hn Hf.
  destruct f as [|f]; [lia|]. cbn [scan_members]. cbn [fst snd] in *.
  assert (Hnew : ~ In k (keys d)).
  { unfold keys in *. rewrite map_app in Hn. cbn [map] in Hn. intros Hi. apply NoDup_remove_2 in Hn. apply Hn, in_app_iff. now left. }
  assert (G : forall q, match eat 34 (member_text lvl (k, v) ++ q) with
     | Some r0 => scan_string (S (List.length r0)) r0 | None => None end = Some (k, `": " ++ json_print false lvl v ++ q)).
  { intros q. unfold member_text. cbn [fst snd]. rewrite <- !app_assoc. now apply json_string_read. }
  assert (K : forall q, delim q -> (List.length (json_print false lvl v) < f)%nat ->
     (match eat 34 (member_text lvl (k, v) ++ q) with
      | Some r0 =>
          match scan_string (S (List.length r0)) r0 with
          | Some (k0, r1) =>
              match eat 58 (skip_ws r1) with
              | Some r2 =>
                  let* (v0, r3) := scan_value f (skip_ws r2) in
                  match eat 125 (skip_ws r3), eat 44 (skip_ws r3) with
                  | Some q0, _ => Ok (dset k0 v0 d, q0)
                  | None, Some q0 => scan_members f (skip_ws q0) (dset k0 v0 d)
                  | None, None => Raise JSONDecodeError
                  end
              | None => Raise JSONDecodeError
              end
          | None => Raise JSONDecodeError
          end
      | None => Raise JSONDecodeError
      end) =
      match eat 125 (skip_ws q), eat 44 (skip_ws q) with
      | Some q0, _ => Ok (d ++ [(k, v)], q0)
      | None, Some q0 => scan_members f (skip_ws q0) (d ++ [(k, v)])
      | None, None => Raise JSONDecodeError
      end).
  { intros q Hq Hlen. specialize (G q). destruct (eat 34 (member_text lvl (k, v) ++ q)) as [r0|]; [|discriminate].
    rewrite G. change (`": ") with [58; 32]. cbn [app]. rewrite (skip_ws_head 58) by reflexivity. rewrite eat_same.
    cbn [skip_ws]. change (is_ws 32) with true. cbv iota. rewrite (value_head_skip _ q (print_head false v Hw lvl)).
    rewrite Hv by auto. cbn [ebind]. rewrite dset_new by auto. reflexivity. }
  destruct l as [|[k2 v2] l].
  - cbn [map join] in *. unfold member_text in Hf. cbn [fst snd] in Hf. rewrite !app_length in Hf.
    rewrite K by (try apply delim_newline; cbn [List.length lit] in Hf; lia).
    rewrite skip_ws_newline, (skip_ws_head 125) by reflexivity. now rewrite eat_same.
  - cbn [map] in *. rewrite join_cons2 in *. rewrite !app_length in Hf. cbn [List.length] in Hf.
    rewrite <- !app_assoc. rewrite K.
    2:{ left; reflexivity. }
    2:{ unfold member_text in Hf at 1. cbn [fst snd] in Hf. rewrite !app_length in Hf. cbn [List.length lit] in Hf. lia. }
    cbn [app]. rewrite (skip_ws_head 44) by reflexivity. rewrite (eat_other 125) by discriminate. rewrite eat_same.
    rewrite skip_ws_newline.
    assert (Hs : forall q, skip_ws (join (44 :: newline lvl) (member_text lvl (k2, v2) :: map (member_text lvl) l) ++ q) =
                 join (44 :: newline lvl) (member_text lvl (k2, v2) :: map (member_text lvl) l) ++ q).
    { intros q. destruct l as [|z l]; reflexivity. }
    rewrite Hs. rewrite IH; [now rewrite <- app_assoc|discriminate|now rewrite <- app_assoc|cbn [map]; lia].
Qed.

Lemma print_reads_back j : writable j -> reads_back j.
Proof.
  induction j as [|b|z|t|s|l IH|d IH] using json_ind'; intros Hw lvl f r Hr Hf; (destruct f as [|f]; [lia|]).
  - reflexivity.
  - destruct b; reflexivity.
  - now apply scan_value_int.
  - now apply scan_value_float.
  - pose proof (json_string_read s r Hw) as G. cbn [json_print]. cbn [scan_value]. unfold json_string in *. cbn [app] in *.
    rewrite eat_same in G. change (34 =? 34) with true. cbv iota. now rewrite G.
  - apply writable_arr in Hw. cbn [json_print] in *. unfold wrap in *. destruct l as [|x l].
    + reflexivity.
    + cbn [map] in *. change (json_print false (S lvl) x :: map (json_print false (S lvl)) l) with (map (json_print false (S lvl)) (x :: l)) in *.
      cbn [app scan_value]. change (91 =? 34) with false. change (91 =? 123) with false. change (91 =? 91) with true. cbv iota.
      rewrite <- !app_assoc. rewrite skip_ws_newline.
      assert (Hh : value_head (join (44 :: newline (S lvl)) (map (json_print false (S lvl)) (x :: l)))).
      { inversion Hw; subst. destruct (print_head false x H1 (S lvl)) as (c & q & E & Hc). destruct l as [|y l]; cbn [map join].
        - exists c, q. auto.
        - exists c. eexists. rewrite E. split; [reflexivity|auto]. }
      rewrite value_head_skip by auto. rewrite value_head_eat by auto.
      change ([93] ++ r) with (93 :: r). rewrite scan_elements_ok; [reflexivity| |discriminate|].
      * rewrite Forall_forall in *. intros y Hy. split; auto.
      * cbn [List.length] in Hf. rewrite !app_length in Hf. cbn [List.length newline app] in Hf. lia.
  - apply writable_obj in Hw as [Hn Hw]. cbn [json_print] in *. unfold sort_items in *. rewrite map_map in *. cbn [fst snd] in *.
    change (map (fun x : str * json => json_string (fst x) ++ `": " ++ json_print false (S lvl) (snd x)) d) with (map (member_text (S lvl)) d) in *.
    unfold wrap in *. destruct d as [|x d].
    + reflexivity.
    + cbn [map] in *. change (member_text (S lvl) x :: map (member_text (S lvl)) d) with (map (member_text (S lvl)) (x :: d)) in *.
      cbn [app scan_value]. change (123 =? 34) with false. change (123 =? 123) with true. cbv iota.
      rewrite <- !app_assoc. rewrite skip_ws_newline.
      assert (Hh : value_head (join (44 :: newline (S lvl)) (map (member_text (S lvl)) (x :: d)))).
      { destruct d as [|y d]; do 2 eexists; (split; [reflexivity|]; repeat split; discriminate). }
      rewrite value_head_skip by auto. rewrite value_head_eat by auto.
      change ([125] ++ r) with (125 :: r). rewrite scan_members_ok; [reflexivity| |discriminate|exact Hn|].
      * rewrite Forall_forall in *. intros y Hy. specialize (Hw y Hy) as [H1 H2]. split; [auto|]. split; auto.
      * cbn [List.length] in Hf. rewrite !app_length in Hf. cbn [List.length newline app] in Hf. lia.
Qed.

(** ** Sorting *)

Lemma insert_sorted_map {A B} (f : A -> B) x l :
  insert_sorted key_leb (fst x, f (snd x)) (map (fun kv : str * A => (fst kv, f (snd kv))) l) =
  map (fun kv => (fst kv, f (snd kv))) (insert_sorted key_leb x l).
Proof.
  induction l as [|y l IH]; simpl; auto. unfold key_leb at 1 3. cbn [fst].
  destruct (str_leb (fst x) (fst y)); simpl; [reflexivity|]. now rewrite IH.
Qed.
Lemma isort_map {A B} (f : A -> B) l :
  isort key_leb (map (fun kv : str * A => (fst kv, f (snd kv))) l) = map (fun kv => (fst kv, f (snd kv))) (isort key_leb l).
Proof. induction l as [|x l IH]; [reflexivity|]. simpl. rewrite IH. apply insert_sorted_map. Qed.

Fixpoint sort_json (j : json) : json :=
  match j with
  | JArr l => JArr (map sort_json l)
  | JObj d => JObj (isort key_leb (map (fun kv => (fst kv, sort_json (snd kv))) d))
  | _ => j
  end.

Lemma print_sort j : forall lvl, json_print true lvl j = json_print false lvl (sort_json j).
Proof.
  induction j as [| | | | |l IH|d IH] using json_ind'; intros lvl; try reflexivity.
  - cbn [json_print sort_json]. f_equal. rewrite map_map. apply map_ext_in. rewrite Forall_forall in IH. auto.
  - cbn [json_print sort_json]. f_equal. f_equal. unfold sort_items.
    rewrite <- (isort_map (json_print false (S lvl))). f_equal. rewrite map_map. cbn [fst snd]. apply map_ext_in.
    rewrite Forall_forall in IH. intros kv Hk. now rewrite IH.
Qed.

Lemma keys_map {A B} (f : A -> B) d : keys (map (fun kv : str * A => (fst kv, f (snd kv))) d) = keys d.
Proof. unfold keys. now rewrite map_map. Qed.
Lemma keys_isort {A} (d : dict A) : Permutation (keys d) (keys (isort key_leb d)).
Proof. apply Permutation_map, isort_perm. Qed.

Lemma writable_sort j : writable j -> writable (sort_json j).
Proof.
  induction j as [| | | | |l IH|d IH] using json_ind'; intros Hw; auto.
  - apply writable_arr in Hw. cbn [sort_json]. apply writable_arr. rewrite Forall_forall in *.
    intros x Hx. apply in_map_iff in Hx as (y & <- & Hy). auto.
  - apply writable_obj in Hw as [Hn Hw]. cbn [sort_json]. apply writable_obj. split.
    + eapply Permutation_NoDup; [apply keys_isort|]. now rewrite keys_map.
    + rewrite Forall_forall in *. intros kv Hk. apply In_isort in Hk. apply in_map_iff in Hk as (y & <- & Hy).
      destruct (Hw y Hy). split; auto. now apply IH.
Qed.

Lemma writable_wf j : writable j -> json_wf j.
Proof.
  induction j as [| | | | |l IH|d IH] using json_ind'; intros Hw; try exact I.
  - apply json_wf_arr. apply writable_arr in Hw. rewrite Forall_forall in *. auto.
  - apply json_wf_obj. apply writable_obj in Hw as [Hn Hw]. split; auto. rewrite Forall_forall in *. intros kv Hk.
    apply IH; auto. now apply Hw.
Qed.

Lemma dget_map {A B} (f : A -> B) k d :
  dget k (map (fun kv : str * A => (fst kv, f (snd kv))) d) = option_map f (dget k d).
Proof. induction d as [|[k' v] d IH]; simpl; auto. destruct (str_eqb k k'); auto. Qed.
Lemma dget_perm {A} k (d d' : dict A) : NoDup (keys d) -> Permutation d d' -> dget k d = dget k d'.
Proof.
  intros Hn Hp. assert (Hn' : NoDup (keys d')) by (eapply Permutation_NoDup; [apply Permutation_map; eauto|auto]).
  destruct (dget k d) as [v|] eqn:E.
  - apply dget_In in E. symmetry. apply In_dget; auto. eapply Permutation_in; eauto.
  - symmetry. apply dget_None in E. apply dget_None. intros Hi. apply E. eapply Permutation_in; [|exact Hi].
    apply Permutation_sym, Permutation_map, Hp.
Qed.

Lemma same_sort j : json_wf j -> same_json (sort_json j) j.
Proof.
  induction j as [| | | | |l IH|d IH] using json_ind'; intros Hw; try (constructor; fail); cbn [sort_json]; constructor.
  - apply json_wf_arr in Hw. induction l as [|x l IHl]; [constructor|]. inversion IH; inversion Hw; subst. constructor; auto.
  - intros k. rewrite <- (keys_map sort_json d). split; apply Permutation_in; [apply Permutation_sym|]; apply keys_isort.
  - apply json_wf_obj in Hw as [Hn Hw]. intros k v v' H1 H2.
    assert (E : dget k (isort key_leb (map (fun kv => (fst kv, sort_json (snd kv))) d)) = option_map sort_json (dget k d)).
    { rewrite <- dget_map. symmetry. apply dget_perm; [now rewrite keys_map|apply isort_perm]. }
    rewrite E in H1. rewrite H2 in H1. injection H1 as <-. apply dget_In in H2. rewrite Forall_forall in *.
    apply (IH (k, v') H2). apply (Hw (k, v') H2).
Qed.

(** Sorted lists with the same entries are equal. *)
Lemma sorted_same_keys {A} (a b : dict A) :
  StronglySorted (fun x y => key_leb x y = true) a -> StronglySorted (fun x y => key_leb x y = true) b ->
  NoDup (keys a) -> NoDup (keys b) -> (forall k, dget k a = dget k b) -> a = b.
Proof.
  revert b. induction a as [|[k v] a IH]; intros b Sa Sb Na Nb E.
  - destruct b as [|[k' v'] b]; auto. specialize (E k'). simpl in E. rewrite str_eqb_refl in E. discriminate.
  - destruct b as [|[k' v'] b].
    { specialize (E k). simpl in E. rewrite str_eqb_refl in E. discriminate. }
    inversion Sa as [|? ? Sa' Fa]; subst. inversion Sb as [|? ? Sb' Fb]; subst.
    cbn [keys map fst] in Na, Nb. inversion Na as [|? ? Na1 Na2]; subst. inversion Nb as [|? ? Nb1 Nb2]; subst.
    assert (Hk : k = k').
    { assert (Ha : In k (keys ((k', v') :: b))).
      { apply dget_In_key with (v := v). rewrite <- E. simpl. now rewrite str_eqb_refl. }
      assert (Hb : In k' (keys ((k, v) :: a))).
      { apply dget_In_key with (v := v'). rewrite E. simpl. now rewrite str_eqb_refl. }
      destruct Ha as [Ha|Ha]; [auto|]. destruct Hb as [Hb|Hb]; [auto|]. rewrite Forall_forall in Fa, Fb.
      apply in_map_iff in Ha as ([k1 v1] & <- & Ha). apply in_map_iff in Hb as ([k2 v2] & <- & Hb).
      apply Fb in Ha. apply Fa in Hb. apply str_leb_antisym; auto. }
    subst k'. pose proof (E k) as Ek. simpl in Ek. rewrite str_eqb_refl in Ek. injection Ek as <-. f_equal. apply IH; auto.
    intros q. specialize (E q). simpl in E. destruct (str_eqb_spec q k); auto. subst.
    transitivity (@None A); [now apply dget_None|symmetry; now apply dget_None].
Qed.

Lemma isort_key_sorted {A} (d : dict A) : StronglySorted (fun x y => key_leb x y = true) (isort key_leb d).
Proof.
  apply isort_sorted; unfold key_leb; intros; [apply str_leb_total|eapply str_leb_trans; eauto].
Qed.

Lemma sort_same j : json_wf j -> forall j', json_wf j' -> same_json j j' -> sort_json j = sort_json j'.
Proof.
  induction j as [| | | | |l IH|d IH] using json_ind'; intros Hw j' Hw' Hs; inversion Hs as [| | | | |l1 l2 Hl|d1 d2 H1 H2]; subst; auto.
  - apply json_wf_arr in Hw, Hw'. cbn [sort_json]. f_equal. clear Hs. induction Hl; [reflexivity|].
    inversion IH; inversion Hw; inversion Hw'; subst. cbn [map]. f_equal; auto.
  - apply json_wf_obj in Hw as [Hn Hw], Hw' as [Hn' Hw']. cbn [sort_json]. f_equal.
    assert (N1 : NoDup (keys (map (fun kv : str * json => (fst kv, sort_json (snd kv))) d))) by now rewrite keys_map.
    assert (N2 : NoDup (keys (map (fun kv : str * json => (fst kv, sort_json (snd kv))) d2))) by now rewrite keys_map.
    apply sorted_same_keys; auto using isort_key_sorted.
    + eapply Permutation_NoDup; [apply keys_isort|auto].
    + eapply Permutation_NoDup; [apply keys_isort|auto].
    + intros k. rewrite <- (dget_perm k _ _ N1 (isort_perm _ _)), <- (dget_perm k _ _ N2 (isort_perm _ _)).
      rewrite !dget_map. destruct (dget k d) as [v|] eqn:E1, (dget k d2) as [v'|] eqn:E2; auto.
      * cbn [option_map]. f_equal. specialize (H2 k v v' E1 E2). apply dget_In in E1, E2. rewrite Forall_forall in *.
        apply (IH (k, v) E1); [apply (Hw (k, v) E1)|apply (Hw' (k, v') E2)|auto].
      * exfalso. apply dget_None in E2. apply E2, H1. eapply dget_In_key; eauto.
      * exfalso. apply dget_None in E1. apply E1, H1. eapply dget_In_key; eauto.
Qed.

(** ** Reading any text *)

Lemma some_pair {A B} (a c : A) (b d : B) : Some (a, b) = Some (c, d) -> c = a /\ d = b.
Proof. now intros [= -> ->]. Qed.
Lemma ok_pair {A B} (a c : A) (b d : B) : Ok (a, b) = Ok (c, d) -> c = a /\ d = b.
Proof. now intros [= -> ->]. Qed.

Lemma eat_some c s r : eat c s = Some r -> s = c :: r.
Proof. destruct s as [|x s]; simpl; [discriminate|]. destruct (N.eqb_spec x c); [|discriminate]. congruence. Qed.

Lemma skip_ws_length s : (List.length (skip_ws s) <= List.length s)%nat.
Proof. induction s as [|c s IH]; simpl; [lia|]. destruct (is_ws c); simpl; lia. Qed.

Lemma hex4_length s c r : hex4 s = Some (c, r) -> (List.length r < List.length s)%nat.
Proof.
  destruct s as [|a [|b [|x [|d s]]]]; simpl; try discriminate.
  destruct (hexval a), (hexval b), (hexval x), (hexval d); try discriminate. intros H. apply some_pair in H as [? ?]; subst. lia.
Qed.
Lemma scan_unicode_length s c r : scan_unicode s = Some (c, r) -> (List.length r < List.length s)%nat.
Proof.
  unfold scan_unicode. destruct (hex4 s) as [[x q]|] eqn:E; [|discriminate]. apply hex4_length in E.
  destruct (is_high x).
  - destruct (eat 92 q) as [q1|] eqn:E1.
    + destruct (eat 117 q1) as [q2|] eqn:E2.
      * destruct (hex4 q2) as [[y q3]|] eqn:E3; [|discriminate]. apply hex4_length in E3. apply eat_some in E1, E2. subst.
        cbn [List.length] in *. destruct (is_low y); intros H; apply some_pair in H as [? ?]; subst; simpl in *; lia.
      * intros H; apply some_pair in H as [? ?]; subst; auto.
    + intros H; apply some_pair in H as [? ?]; subst; auto.
  - intros H; apply some_pair in H as [? ?]; subst; auto.
Qed.
Lemma scan_escape_length s c r : scan_escape s = Some (c, r) -> (List.length r < List.length s)%nat.
Proof.
  destruct s as [|x s]; simpl; [discriminate|].
  destruct (x =? 117); [intros H; apply scan_unicode_length in H; lia|].
  repeat match goal with |- context [if ?b then _ else _] => destruct b end;
    try discriminate; intros H; apply some_pair in H as [? ?]; subst; lia.
Qed.
Lemma scan_string_length f : forall s t r, scan_string f s = Some (t, r) -> (List.length r < List.length s)%nat.
Proof.
  induction f as [|f IH]; intros s t r; simpl; [discriminate|]. destruct s as [|c s]; [discriminate|].
  destruct (c =? 34). { intros H; apply some_pair in H as [? ?]; subst; simpl; lia. }
  destruct (c =? 92).
  - destruct (scan_escape s) as [[x q]|] eqn:E; [|discriminate]. apply scan_escape_length in E.
    destruct (scan_string f q) as [[t' r']|] eqn:E2; [|discriminate]. apply IH in E2.
    intros H; apply some_pair in H as [? ?]; subst; simpl; lia.
  - destruct (c <? 32); [discriminate|]. destruct (scan_string f s) as [[t' r']|] eqn:E2; [|discriminate]. apply IH in E2.
    intros H; apply some_pair in H as [? ?]; subst; simpl; lia.
Qed.

Lemma take_digits_length s d r : take_digits s = (d, r) -> (List.length r <= List.length s)%nat.
Proof.
  revert d r. induction s as [|c s IH]; simpl; intros d r H.
  - injection H as <- <-. simpl. lia.
  - destruct (is_ascii_digit c).
    + destruct (take_digits s) as [d' r'] eqn:E. injection H as <- <-. specialize (IH _ _ eq_refl). lia.
    + injection H as <- <-. simpl. lia.
Qed.
Lemma scan_int_length s t r : scan_int s = Some (t, r) -> (List.length r < List.length s)%nat.
Proof.
  unfold scan_int.
  assert (G : forall sg q, match q with
    | [] => None
    | c :: q0 => if c =? 48 then Some (sg ++ [48], q0)
       else if (49 <=? c) && (c <=? 57) then let '(d, q') := take_digits q in Some (sg ++ d, q') else None
    end = Some (t, r) -> (List.length r < List.length q)%nat).
  { intros sg q. destruct q as [|c q]; [discriminate|]. destruct (N.eqb_spec c 48).
    { intros H; apply some_pair in H as [? ?]; subst; simpl; lia. }
    destruct ((49 <=? c) && (c <=? 57)) eqn:E; [|discriminate].
    assert (Hd : is_ascii_digit c = true).
    { apply andb_true_iff in E as [E1 E2]. apply N.leb_le in E1, E2. apply digit_char. lia. }
    cbn [take_digits]. rewrite Hd. destruct (take_digits q) as [d' r'] eqn:E2. apply take_digits_length in E2.
    intros H; apply some_pair in H as [? ?]; subst. simpl. lia. }
  destruct (eat 45 s) as [q|] eqn:E; intros H; apply G in H; [apply eat_some in E; subst; simpl; lia|auto].
Qed.
Lemma scan_frac_length s t r : scan_frac s = (t, r) -> (List.length r <= List.length s)%nat.
Proof.
  unfold scan_frac. destruct (eat 46 s) as [q|] eqn:E.
  - apply eat_some in E. subst. destruct (take_digits q) as [[|x d] r'] eqn:E2; intros H; injection H as <- <-; [simpl; lia|].
    apply take_digits_length in E2. simpl. lia.
  - intros H; injection H as <- <-; lia.
Qed.
Lemma scan_exp_length s t r : scan_exp s = (t, r) -> (List.length r <= List.length s)%nat.
Proof.
  unfold scan_exp. destruct s as [|e s]; [intros H; injection H as <- <-; lia|].
  destruct ((e =? 101) || (e =? 69)); [|intros H; injection H as <- <-; lia].
  assert (G : forall sg q, (List.length q <= List.length s)%nat -> match take_digits q with
     | ([], _) => ([], e :: s) | (d, q0) => (e :: sg ++ d, q0) end = (t, r) -> (List.length r <= List.length (e :: s))%nat).
  { intros sg q Hq. destruct (take_digits q) as [[|x d] r'] eqn:E2; intros H; injection H as <- <-; [simpl; lia|].
    apply take_digits_length in E2. simpl. lia. }
  destruct s as [|c s]; [apply (G [] []); lia|]. destruct ((c =? 43) || (c =? 45)); [apply (G [c] s); simpl; lia|apply (G [] (c :: s)); lia].
Qed.
Lemma scan_number_length s j r : scan_number s = Ok (j, r) -> (List.length r < List.length s)%nat /\ json_wf j.
Proof.
  unfold scan_number. destruct (scan_int s) as [[t q]|] eqn:E; [|discriminate]. apply scan_int_length in E.
  destruct (scan_frac q) as [fr q1] eqn:E1. apply scan_frac_length in E1.
  destruct (scan_exp q1) as [ex q2] eqn:E2. apply scan_exp_length in E2.
  destruct fr as [|a fr], ex as [|b ex].
  1: destruct (too_long t); [discriminate|].
  all: intros H; apply ok_pair in H as [? ?]; subst; split; [lia|exact I].
Qed.
Lemma scan_number_raise s e : scan_number s = Raise e -> e = JSONDecodeError \/ e = ValueError.
Proof.
  unfold scan_number. destruct (scan_int s) as [[t q]|] eqn:E; [|intros [= <-]; auto].
  destruct (scan_frac q) as [fr q1]. destruct (scan_exp q1) as [ex q2].
  destruct fr, ex; try discriminate. destruct (too_long t); [intros [= <-]; auto|discriminate].
Qed.
Lemma scan_constant_length s j r : scan_constant constants s = Some (j, r) -> (List.length r < List.length s)%nat /\ json_wf j.
Proof.
  assert (G : forall l, Forall (fun pv => fst pv <> [] /\ json_wf (snd pv)) l ->
              scan_constant l s = Some (j, r) -> (List.length r < List.length s)%nat /\ json_wf j).
  { induction l as [|[p v] l IH]; [discriminate|]. intros Hf. inversion Hf as [|? ? [Hp Hv] Hl]; subst. cbn [scan_constant].
    unfold strip_prefix. destruct (startswith p s) eqn:E.
    - intros H; apply some_pair in H as [? ?]; subst. split; auto. apply startswith_spec in E as [q ->].
      cbn [fst] in Hp. destruct p as [|c p]; [congruence|]. rewrite skipn_length, app_length. cbn [List.length]. lia.
    - intros H. now apply IH. }
  apply G. repeat constructor; discriminate.
Qed.

Definition good {A} (P : A -> Prop) (s : str) (x : exc (A * str)) : Prop :=
  match x with
  | Ok (v, r) => (List.length r < List.length s)%nat /\ P v
  | Raise e => e = JSONDecodeError \/ e = ValueError
  end.

Lemma dset_Forall {A} (P : A -> Prop) k v (d : dict A) : P v -> Forall (fun kv => P (snd kv)) d -> Forall (fun kv => P (snd kv)) (dset k v d).
Proof.
  intros Hv. induction 1 as [|[k' v'] d H Hd IH]; simpl; [repeat constructor; auto|]. destruct (str_eqb k k'); constructor; auto.
Qed.

Lemma good_shorter {A} (P : A -> Prop) s s' x : good P s x -> (List.length s <= List.length s')%nat -> good P s' x.
Proof. unfold good. destruct x as [[v r]|e]; auto. intros [H1 H2] H; split; auto; lia. Qed.

Lemma good_bind {A B} (P : A -> Prop) (Q : B -> Prop) s s' (x : exc (A * str)) (f : A * str -> exc (B * str)) :
  good P s x ->
  (forall v r, (List.length r < List.length s)%nat -> P v -> good Q s' (f (v, r))) -> good Q s' (ebind x f).
Proof. destruct x as [[v r]|e]; simpl; [|auto]. intros [H1 H2] K. apply K; auto. Qed.

Lemma scan_good f :
  (forall s, (2 * List.length s < f)%nat -> good json_wf s (scan_value f s)) /\
  (forall s, (2 * List.length s + 1 < f)%nat -> good (Forall json_wf) s (scan_elements f s)) /\
  (forall s d, (2 * List.length s + 1 < f)%nat -> NoDup (keys d) -> Forall (fun kv => json_wf (snd kv)) d ->
     good (fun d => NoDup (keys d) /\ Forall (fun kv => json_wf (snd kv)) d) s (scan_members f s d)).
Proof.
  induction f as [|f (IHv & IHe & IHm)]; [repeat split; intros; lia|]. split; [|split].
  - intros s Hf. destruct s as [|c r]; [simpl; auto|]. cbn [scan_value]. cbn [List.length] in Hf.
    destruct (N.eqb_spec c 34).
    { destruct (scan_string _ r) as [[t q]|] eqn:E; [|simpl; auto]. apply scan_string_length in E. simpl. split; [lia|exact I]. }
    pose proof (skip_ws_length r) as Hs.
    destruct (N.eqb_spec c 123).
    { destruct (eat 125 (skip_ws r)) as [q|] eqn:E.
      { apply eat_some in E. rewrite E in Hs. simpl in *. split; [lia|]. split; [constructor|exact I]. }
      apply (good_bind (fun d => NoDup (keys d) /\ Forall (fun kv => json_wf (snd kv)) d) _ (skip_ws r)).
      - apply IHm; [lia|constructor|constructor].
      - intros v q Hq [Hn Hv]. cbn [good]. split; [cbn [List.length] in *; lia|]. apply json_wf_obj. auto. }
    destruct (N.eqb_spec c 91).
    { destruct (eat 93 (skip_ws r)) as [q|] eqn:E.
      { apply eat_some in E. rewrite E in Hs. simpl in *. split; [lia|]. exact I. }
      apply (good_bind (Forall json_wf) _ (skip_ws r)).
      - apply IHe; lia.
      - intros v q Hq Hv. cbn [good]. split; [cbn [List.length] in *; lia|]. apply json_wf_arr. auto. }
    destruct (scan_constant constants (c :: r)) as [[v q]|] eqn:E.
    { apply scan_constant_length in E. exact E. }
    destruct (scan_number (c :: r)) as [[v q]|e] eqn:E2; [apply scan_number_length in E2; exact E2|].
    apply scan_number_raise in E2. exact E2.
  - intros s Hf. cbn [scan_elements]. apply (good_bind json_wf _ s); [apply IHv; lia|].
    intros v r Hr Hv. pose proof (skip_ws_length r) as Hs. destruct (eat 93 (skip_ws r)) as [q|] eqn:E.
    { apply eat_some in E. rewrite E in Hs. simpl in *. split; [lia|]. auto. }
    destruct (eat 44 (skip_ws r)) as [q|] eqn:E2; [|simpl; auto]. apply eat_some in E2. rewrite E2 in Hs. cbn [List.length] in Hs.
    pose proof (skip_ws_length q) as Hq. apply (good_bind (Forall json_wf) _ (skip_ws q)); [apply IHe; lia|].
    intros l q' Hq' Hl. cbn [good]. split; [lia|]. auto.
  - intros s d Hf Hn Hd. cbn [scan_members]. destruct (eat 34 s) as [r|] eqn:E; [|simpl; auto]. apply eat_some in E. subst s.
    cbn [List.length] in Hf. destruct (scan_string _ r) as [[k r1]|] eqn:E1; [|simpl; auto]. apply scan_string_length in E1.
    pose proof (skip_ws_length r1) as H1. destruct (eat 58 (skip_ws r1)) as [r2|] eqn:E2; [|simpl; auto].
    apply eat_some in E2. rewrite E2 in H1. cbn [List.length] in H1. pose proof (skip_ws_length r2) as H2.
    apply (good_bind json_wf _ (skip_ws r2)); [apply IHv; lia|]. intros v r3 Hr3 Hv. pose proof (skip_ws_length r3) as H3.
    assert (N1 : NoDup (keys (dset k v d))) by now apply NoDup_dset.
    assert (F1 : Forall (fun kv => json_wf (snd kv)) (dset k v d)) by now apply dset_Forall.
    destruct (eat 125 (skip_ws r3)) as [q|] eqn:E3.
    { apply eat_some in E3. rewrite E3 in H3. cbn [List.length] in H3. cbn [good List.length]. split; [lia|auto]. }
    destruct (eat 44 (skip_ws r3)) as [q|] eqn:E4; [|simpl; auto]. apply eat_some in E4. rewrite E4 in H3. cbn [List.length] in H3.
    pose proof (skip_ws_length q) as Hq. eapply good_shorter; [apply IHm; auto; lia|]. cbn [List.length]. lia.
Qed.

Lemma json_loads_cases s :
  match json_loads s with Ok j => json_wf j | Raise e => e = JSONDecodeError \/ e = ValueError end.
Proof.
  unfold json_loads. destruct (eat 65279 s); [auto|].
  pose proof (proj1 (scan_good (S (2 * List.length (skip_ws s)))) (skip_ws s) ltac:(lia)) as G.
  destruct (scan_value (S (2 * List.length (skip_ws s))) (skip_ws s)) as [[v r]|e]; cbn [ebind good] in *; [|auto].
  destruct G as [_ G]. destruct (skip_ws r); auto.
Qed.

(** ** The text written is printable ASCII and newlines *)

Definition plain_char (c : N) : Prop := 32 <= c <= 126 \/ c = 10.

Ltac plain := repeat (apply Forall_cons; [try (left; first [lia | vm_compute; split; discriminate])|]); try apply Forall_nil.
Transparent hexd u_escape.
Lemma hexd_plain n : n < 16 -> plain_char (hexd n).
Proof. intros H. unfold hexd. destruct (N.ltb_spec n 10); left; lia. Qed.
Lemma u_escape_plain n : Forall plain_char (u_escape n).
Proof. unfold u_escape. plain; apply hexd_plain, N.mod_lt; discriminate. Qed.
Lemma json_char_plain c : Forall plain_char (json_char c).
Proof.
  unfold json_char.
  repeat match goal with |- Forall _ (if c =? ?b then _ else _) => destruct (c =? b); [plain|] end.
  destruct ((32 <=? c) && (c <=? 126)) eqn:E.
  { apply andb_true_iff in E as [E1 E2]. apply N.leb_le in E1, E2. plain. }
  destruct (c <? 65536); [apply u_escape_plain|]. apply Forall_app. split; apply u_escape_plain.
Qed.
Lemma json_string_plain s : Forall plain_char (json_string s).
Proof.
  unfold json_string. constructor; [left; lia|]. apply Forall_app. split; [|plain].
  induction s as [|c s IH]; simpl; [constructor|]. apply Forall_app. split; [apply json_char_plain|auto].
Qed.
Lemma newline_plain n : Forall plain_char (newline n).
Proof. unfold newline. constructor; [now right|]. apply Forall_forall. intros x Hx. apply repeat_spec in Hx. subst. left. lia. Qed.
Lemma join_plain sep l : Forall plain_char sep -> Forall (Forall plain_char) l -> Forall plain_char (join sep l).
Proof.
  intros Hs. induction 1 as [|x l Hx Hl IH]; [constructor|]. destruct l as [|y l]; [auto|].
  rewrite join_cons2. repeat (apply Forall_app; split; auto).
Qed.
Lemma wrap_plain o c n l : plain_char o -> plain_char c -> Forall (Forall plain_char) l -> Forall plain_char (wrap o c n l).
Proof.
  intros Ho Hc Hl. unfold wrap. destruct l as [|x l]; [plain; auto|]. constructor; auto.
  apply Forall_app. split; [apply newline_plain|]. apply Forall_app. split.
  - apply join_plain; auto. constructor; [left; lia|apply newline_plain].
  - apply Forall_app. split; [apply newline_plain|plain; auto].
Qed.
Lemma digit_plain s : Forall (fun c => 48 <= c <= 57) s -> Forall plain_char s.
Proof. apply Forall_impl. intros c H. left. lia. Qed.
Lemma str_of_N_plain n : Forall plain_char (str_of_N n).
Proof.
  eapply Forall_impl; [|apply str_of_N_digits]. intros c H. left. revert H. simpl. unfold is_ascii_digit.
  rewrite andb_true_iff, !N.leb_le. lia.
Qed.
Lemma float_plain t : float_text t -> Forall plain_char t.
Proof.
  intros [->|[->|[->|(sg & ip & fr & ex & -> & Hs & Hi & Hf & He & _)]]];
    try (plain).
  apply Forall_app; split; [|apply Forall_app; split; [|apply Forall_app; split]].
  - destruct Hs as [->| ->]; plain.
  - destruct Hi as [->|(c & r & -> & Hc & Hr)]; [plain|]. constructor; [left; lia|]. now apply digit_plain.
  - destruct Hf as [->|(d & -> & Hd)]; [constructor|]. constructor; [left; lia|]. now apply digit_plain, Hd.
  - destruct He as [->|(e & s & d & -> & He & Hsg & Hd)]; [constructor|]. constructor; [left; lia|].
    apply Forall_app. split; [|now apply digit_plain, Hd]. destruct Hsg as [->|[->| ->]]; plain.
Qed.

Lemma print_plain b j : writable j -> forall n, Forall plain_char (json_print b n j).
Proof.
  induction j as [|v|z|t|s|l IH|d IH] using json_ind'; intros Hw n.
  - plain.
  - destruct v; plain.
  - cbn [json_print]. unfold str_of_Z. destruct (z <? 0)%Z; [constructor; [left; lia|]|]; apply str_of_N_plain.
  - now apply float_plain.
  - apply json_string_plain.
  - apply writable_arr in Hw. cbn [json_print]. apply wrap_plain; try (left; lia). rewrite Forall_forall in *.
    intros x Hx. apply in_map_iff in Hx as (y & <- & Hy). auto.
  - apply writable_obj in Hw as [_ Hw]. cbn [json_print]. apply wrap_plain; try (left; lia). rewrite Forall_forall in *.
    intros x Hx. apply in_map_iff in Hx as (y & <- & Hy).
    assert (Hy' : In y (map (fun kv : str * json => (fst kv, json_print b (S n) (snd kv))) d)).
    { unfold sort_items in Hy. destruct b; [now apply In_isort in Hy|auto]. }
    apply in_map_iff in Hy' as (kv & <- & Hk). cbn [fst snd]. apply Forall_app. split; [apply json_string_plain|].
    apply Forall_app. split; [plain|]. apply IH; auto. now apply Hw.
Qed.

(** ** The whole round trip *)

Lemma json_loads_print j : writable j -> json_loads (json_print false 0 j) = Ok j.
Proof.
  intros Hw. unfold json_loads. pose proof (print_head false j Hw 0) as Hh.
  assert (E : eat 65279 (json_print false 0 j) = None).
  { pose proof (print_plain false j Hw 0) as Hp. destruct (json_print false 0 j) as [|c q]; [reflexivity|].
    inversion Hp as [|? ? Hc _]; subst. apply eat_other. intros ->. destruct Hc as [Hc|Hc]; [lia|discriminate]. }
  rewrite E. pose proof (value_head_skip _ [] Hh) as Hs. rewrite app_nil_r in Hs. rewrite Hs.
  pose proof (print_reads_back j Hw 0%nat (S (2 * List.length (json_print false 0 j))) []) as G. rewrite app_nil_r in G.
  rewrite G; [reflexivity|exact I|lia].
Qed.
Lemma json_loads_dumps j : writable j -> json_loads (json_dumps j) = Ok (sort_json j).
Proof.
  intros Hw. unfold json_dumps. rewrite print_sort. apply json_loads_print. now apply writable_sort.
Qed.
Lemma json_dumps_same j j' : json_wf j -> json_wf j' -> same_json j j' -> json_dumps j = json_dumps j'.
Proof. intros H H' Hs. unfold json_dumps. rewrite !print_sort. now rewrite (sort_same j H j' H' Hs). Qed.
