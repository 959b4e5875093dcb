(** Specification of OCFL inventories for C22-C29, written from the rules of the OCFL
    specification (sections 3.5 and 3.6) and not from the validator. *)
From Coq Require Import Permutation.
From Verif Require Import Base Unicode Json DatetimeSpec.

(** ** JSON *)

(** j is an object with the member k : v. *)
Definition member (j : json) (k : str) (v : json) : Prop := exists d, j = JObj d /\ In (k, v) d.
Definition lacks (j : json) (k : str) : Prop := forall v, ~ member j k v.

(** ** Paths *)

Definition slash : N := 47%N.
Definition newline : N := 10%N.

(** [elements p es]: the text p is es joined by slashes. *)
Inductive elements : str -> list str -> Prop :=
| E_last e : ~ In slash e -> elements e [e]
| E_more e p es : ~ In slash e -> elements p es -> elements (e ++ slash :: p) (e :: es).

Definition plain (e : str) : Prop := e <> [] /\ e <> `"." /\ e <> `"..".

(** A relative path that cannot leave the directory it is relative to. *)
Definition plain_path (p : str) : Prop := exists es, elements p es /\ Forall plain es.

(** a is a directory above b. *)
Definition above (a b : str) : Prop := exists r, b = a ++ slash :: r.

(** All strings listed by a block such as {"digest": ["path", ...], ...}. *)
Definition strings (j : json) : list str :=
  match j with JArr l => flat_map (fun x => match x with JStr s => [s] | _ => [] end) l | _ => [] end.
Definition listed (block : dict json) : list str := flat_map (fun kv => strings (snd kv)) block.
Definition string_array (j : json) : Prop := exists l, j = JArr (map JStr l).

(** ** Digests *)

Definition hex (c : N) : Prop := (48 <= c <= 57)%N \/ (97 <= c <= 102)%N \/ (65 <= c <= 70)%N.
Definition lower_hex (c : N) : Prop := (48 <= c <= 57)%N \/ (97 <= c <= 102)%N.

(** Number of hexadecimal digits of a digest. *)
Inductive digest_size : str -> nat -> Prop :=
| DS_sha512 : digest_size (`"sha512") 128
| DS_sha256 : digest_size (`"sha256") 64
| DS_sha1 : digest_size (`"sha1") 40
| DS_md5 : digest_size (`"md5") 32
| DS_b512 : digest_size (`"blake2b-512") 128
| DS_b384 : digest_size (`"blake2b-384") 96
| DS_b256 : digest_size (`"blake2b-256") 64
| DS_b160 : digest_size (`"blake2b-160") 40.

Definition hex_digest (alg d : str) : Prop := exists n, digest_size alg n /\ List.length d = n /\ Forall hex d.

(** The abbreviated digests used in the examples of the specification text. *)
Definition example_digest (alg d : str) : Prop :=
  In alg [`"sha512-spec-ex"; `"sha256-spec-ex"] /\
  exists a b, d = a ++ `"..." ++ b /\ List.length a = 6%nat /\ List.length b = 3%nat /\
    Forall lower_hex a /\ Forall lower_hex b.

(** Equal up to the case of the letters A-Z. *)
Definition same_letter (x y : N) : Prop :=
  x = y \/ (65 <= x <= 90)%N /\ y = (x + 32)%N \/ (65 <= y <= 90)%N /\ x = (y + 32)%N.
Definition same_ci (a b : str) : Prop := Forall2 same_letter a b.

(** No two keys denote the same digest. The abbreviated digests are case sensitive. *)
Definition distinct_digests (alg : str) (block : dict json) : Prop :=
  In alg [`"sha512-spec-ex"; `"sha256-spec-ex"] \/
  forall d1 f1 d2 f2, In (d1, f1) block -> In (d2, f2) block -> same_ci d1 d2 -> d1 = d2.

(** ** Version names *)

Definition ascii_digit (c : N) : Prop := (48 <= c <= 57)%N.
Fixpoint value (ds : str) (acc : N) : N :=
  match ds with [] => acc | c :: r => value r (10 * acc + (c - 48))%N end.

(** [version_name w n s]: s names version n, without padding (None) or with w digits
    starting with a zero. *)
Definition version_name (w : option nat) (n : N) (s : str) : Prop :=
  exists ds, s = `"v" ++ ds /\ ds <> [] /\ Forall ascii_digit ds /\ value ds 0 = n /\
    match w with
    | None => hd_error ds <> Some 48%N
    | Some w => List.length ds = w /\ hd_error ds = Some 48%N
    end.

(** The names are those of versions 1 to n in order, in one form. *)
Definition version_sequence (w : option nat) (vs : list str) : Prop :=
  vs <> [] /\ forall i s, nth_error vs i = Some s -> version_name w (N.of_nat i + 1) s.

(** ** Date and time: RFC 3339 *)

Definition digits2 (n : Z) (s : str) : Prop :=
  exists a b, s = [a; b] /\ ascii_digit a /\ ascii_digit b /\ n = Z.of_N (value s 0).
Definition digits4 (n : Z) (s : str) : Prop :=
  List.length s = 4%nat /\ Forall ascii_digit s /\ n = Z.of_N (value s 0).

Inductive rfc3339_zone : str -> Prop :=
| RZ_z c : In c [`"Z"; `"z"] -> rfc3339_zone c
| RZ_num sg hh mm a b : In sg [`"+"; `"-"] -> digits2 hh a -> digits2 mm b -> (hh <= 23)%Z -> (mm <= 59)%Z ->
    rfc3339_zone (sg ++ a ++ `":" ++ b).

(** [leap]: is a second 60 written; [early]: is it the year 0000; [small]: are lower case
    t or z used. *)
Inductive rfc3339 (leap early small : bool) : str -> Prop :=
| RFC y m d sy sm sd t hh mi ss sh smi s2 frac tz :
    digits4 y sy -> digits2 m sm -> digits2 d sd ->
    (exists n, month_length y m n /\ 1 <= d <= n)%Z ->
    In t [`"T"; `"t"] ->
    digits2 hh sh -> digits2 mi smi -> digits2 ss s2 ->
    (hh <= 23)%Z -> (mi <= 59)%Z -> (ss <= 59 \/ ss = 60)%Z ->
    (frac = [] \/ exists ds, ds <> [] /\ Forall ascii_digit ds /\ frac = `"." ++ ds) ->
    rfc3339_zone tz ->
    (leap = true <-> ss = 60%Z) -> (early = true <-> y = 0%Z) ->
    (small = true <-> t = `"t" \/ tz = `"z") ->
    rfc3339 leap early small
      (sy ++ `"-" ++ sm ++ `"-" ++ sd ++ t ++ sh ++ `":" ++ smi ++ `":" ++ s2 ++ frac ++ tz).

(** ** The rules *)

(** Places where the validator and the specification differ are parameters. *)
Record reading := {
  r_type : str -> str -> Prop;              (* value of "type", specification version *)
  r_digest : str -> str -> Prop;            (* algorithm, text of a digest *)
  r_content : str -> Prop;                  (* a content path after version and content directory *)
  r_content_above : str -> str -> str -> Prop;  (* content directory; path, path in conflict *)
  r_logical_above : str -> str -> Prop;
  r_created : str -> Prop;
  r_content_directory : str -> Prop;
  r_versions : option nat -> N -> Prop      (* width, number of versions *)
}.

Record facts := {
  f_id : str;
  f_spec : str;
  f_alg : str;
  f_cdir : str;
  f_cdir_set : bool;
  f_versions : list str;
  f_manifest : dict json
}.

Section Rules.
  Variable R : reading.
  Variable inv : json.
  Variable f : facts.

  Definition id_rule : Prop := member inv (`"id") (JStr (f_id f)) /\ f_id f <> [].

  Definition type_rule : Prop :=
    exists t, member inv (`"type") (JStr t) /\ r_type R t (f_spec f) /\ In (f_spec f) [`"1.0"; `"1.1"].

  Definition algorithm_rule : Prop :=
    member inv (`"digestAlgorithm") (JStr (f_alg f)) /\ In (f_alg f) [`"sha512"; `"sha256"].

  Definition content_directory_rule : Prop :=
    if f_cdir_set f
    then member inv (`"contentDirectory") (JStr (f_cdir f)) /\ r_content_directory R (f_cdir f)
    else lacks inv (`"contentDirectory") /\ f_cdir f = `"content".

  (** path is version/content-directory/rest for an existing version *)
  Definition content_path (p : str) : Prop :=
    f_cdir f <> [] /\
    exists v rest, In v (f_versions f) /\ p = v ++ slash :: f_cdir f ++ slash :: rest /\ r_content R rest.

  Definition manifest_rule : Prop :=
    member inv (`"manifest") (JObj (f_manifest f)) /\
    (forall d x, In (d, x) (f_manifest f) -> r_digest R (f_alg f) d /\ string_array x) /\
    distinct_digests (f_alg f) (f_manifest f) /\
    (forall p, In p (listed (f_manifest f)) -> content_path p) /\
    NoDup (listed (f_manifest f)) /\
    (forall p q, In p (listed (f_manifest f)) -> In q (listed (f_manifest f)) -> ~ r_content_above R (f_cdir f) p q).

  Definition versions_rule (vs : dict json) : Prop :=
    member inv (`"versions") (JObj vs) /\
    (exists w, version_sequence w (f_versions f) /\ r_versions R w (N.of_nat (List.length (f_versions f)))) /\
    Permutation (map fst vs) (f_versions f).

  Definition head_rule : Prop :=
    exists h before, member inv (`"head") (JStr h) /\ f_versions f = before ++ [h].

  Definition created_rule (b : json) : Prop := exists c, member b (`"created") (JStr c) /\ r_created R c.
  Definition message_rule (b : json) : Prop := lacks b (`"message") \/ exists m, member b (`"message") (JStr m).
  Definition user_rule (b : json) : Prop :=
    lacks b (`"user") \/
    exists u, member b (`"user") u /\ (exists n, member u (`"name") (JStr n)) /\
      (lacks u (`"address") \/ exists a, member u (`"address") (JStr a)).

  Definition state_rule (st : dict json) : Prop :=
    (forall d x, In (d, x) st -> r_digest R (f_alg f) d /\ string_array x) /\
    (forall d x, In (d, x) st -> exists p ps, In (d, JArr (JStr p :: ps)) (f_manifest f)) /\
    (forall p, In p (listed st) -> plain_path p) /\
    NoDup (listed st) /\
    (forall p q, In p (listed st) -> In q (listed st) -> ~ r_logical_above R p q).

  Definition block_rule (b : json) (st : dict json) : Prop :=
    created_rule b /\ message_rule b /\ user_rule b /\ member b (`"state") (JObj st) /\ state_rule st.

  (** Every manifest entry with a content path is used by the state of some version. *)
  Definition used_rule (vs : dict json) : Prop :=
    forall d p ps, In (d, JArr (p :: ps)) (f_manifest f) ->
      exists v b st x, In (v, b) vs /\ member b (`"state") (JObj st) /\ In (d, x) st.

  Definition fixity_rule : Prop :=
    lacks inv (`"fixity") \/
    exists fx, member inv (`"fixity") (JObj fx) /\
      forall alg x, In (alg, x) fx ->
        ((exists n, digest_size alg n) \/ In alg [`"sha512-spec-ex"; `"sha256-spec-ex"]) /\
        exists block, x = JObj block /\
          (forall d y, In (d, y) block -> r_digest R alg d /\ string_array y /\ incl (strings y) (listed (f_manifest f))) /\
          distinct_digests alg block.

  Definition obeys : Prop :=
    id_rule /\ type_rule /\ algorithm_rule /\ content_directory_rule /\ manifest_rule /\ head_rule /\ fixity_rule /\
    exists vs, versions_rule vs /\ (forall v b, In (v, b) vs -> exists st, block_rule b st) /\ used_rule vs.
End Rules.

(** The rules of the specification. The specification leaves the number of versions and
    the width of their names open; the abbreviated digests are an addition of this
    implementation (for fixity blocks only). *)
Definition by_the_book : reading := {|
  r_type t v := t = `"https://ocfl.io/" ++ v ++ `"/spec/#inventory";
  r_digest alg d := hex_digest alg d \/ example_digest alg d;
  r_content := plain_path;
  r_content_above _ := above;
  r_logical_above := above;
  r_created c := exists leap early small, rfc3339 leap early small c;
  r_content_directory c := c <> [] /\ ~ In slash c /\ c <> `"." /\ c <> `"..";
  r_versions w n := match w with None => True | Some w => (2 <= w)%nat /\ (n < 10 ^ N.of_nat (w - 1))%N end
|}.

(** The part of a text before its first newline. *)
Definition first_line (s l : str) : Prop :=
  ~ In newline l /\ (s = l \/ exists r, s = l ++ newline :: r).

(** The rules as the validator reads them: the differences are that
    - "type" may contain any character for the dot of "ocfl.io" and any text at the end;
    - a newline may follow a digest or a date and time;
    - a content path is only checked up to the first newline (but must not end in a slash);
    - paths are only compared with the directory just above other paths;
    - digits of any script may be used for date and time, but not the year 0000, leap
      seconds or lower case letters;
    - the content directory may be empty if there are no content paths;
    - there are at most 999999 versions, and at most 10 digits in a padded name. *)
Definition as_coded : reading := {|
  r_type t v := exists c r, c <> newline /\ t = `"https://ocfl" ++ c :: `"io/" ++ v ++ `"/spec/#inventory" ++ r;
  r_digest alg d := exists e, (d = e \/ d = e ++ [newline]) /\ (hex_digest alg e \/ example_digest alg e);
  r_content rest := (exists l, first_line rest l /\ plain_path l) /\ forall r, rest <> r ++ [slash];
  r_content_above cdir p q :=
    exists v rest l e, ~ In slash v /\ q = v ++ slash :: cdir ++ slash :: rest /\ first_line rest l /\
      ~ In slash e /\ v ++ slash :: cdir ++ slash :: l = p ++ slash :: e;
  r_logical_above p q := exists e, ~ In slash e /\ q = p ++ slash :: e;
  r_created c :=
    exists x sx hh mi ss sh smi s2 frac off tz nl,
      c = sx ++ `"T" ++ sh ++ `":" ++ smi ++ `":" ++ s2 ++ frac ++ tz ++ nl /\
      date_text x sx /\ valid_date x /\ num2 hh sh /\ num2 mi smi /\ num2 ss s2 /\ valid_time hh mi ss /\
      (frac = [] \/ exists ds, all_digits ds /\ frac = `"." ++ ds) /\
      tz_text off tz /\ tz <> [] /\ (nl = [] \/ nl = [newline]);
  r_content_directory c := ~ In slash c /\ c <> `"." /\ c <> `"..";
  r_versions w n :=
    match w with
    | None => (n <= 999999)%N
    | Some w => (2 <= w <= 10)%nat /\ (n < 10 ^ N.of_nat (w - 1))%N
    end
|}.

(** ** What an inventory says about one of its versions *)

Definition state_of (inv : json) (v : str) (st : dict json) : Prop :=
  exists vs b, member inv (`"versions") (JObj vs) /\ In (v, b) vs /\ member b (`"state") (JObj st).

(** The logical path p is in version v. *)
Definition has_path (inv : json) (v p : str) : Prop := exists st, state_of inv v st /\ In p (listed st).

(** The digest d is in the state of version v. *)
Definition has_digest (inv : json) (v d : str) : Prop := exists st x, state_of inv v st /\ In (d, x) st.

(** In version v the content of the logical path p is in the file c. *)
Definition content_file (inv : json) (v p c : str) : Prop :=
  exists st man d x y, state_of inv v st /\ member inv (`"manifest") (JObj man) /\
    In (d, x) st /\ In p (strings x) /\ In (d, y) man /\ In c (strings y).

(** The inventory [prior] describes a proper initial part of the history in [root]. *)
Definition earlier_part (prior root : json) (fp fr : facts) : Prop :=
  incl (f_versions fp) (f_versions fr) /\ (exists v, In v (f_versions fr) /\ ~ In v (f_versions fp)) /\
  forall v, In v (f_versions fp) ->
    (forall p, has_path prior v p <-> has_path root v p) /\
    (forall p c, content_file prior v p c -> content_file root v p c).

(** ** Readings between the two *)

(** The text s is a string or key anywhere in j. *)
Inductive text_in (s : str) : json -> Prop :=
| TI_str : text_in s (JStr s)
| TI_arr l x : In x l -> text_in s x -> text_in s (JArr l)
| TI_key d v : In (s, v) d -> text_in s (JObj d)
| TI_val d k v : In (k, v) d -> text_in s v -> text_in s (JObj d).

(** The rules of the specification with the limits of the validator: no leap second, year
    0000 or small letters in dates; at most 999999 versions, names of at most 10 digits;
    no content path whose first line is not a path. *)
Definition within_limits : reading := {|
  r_type := r_type by_the_book;
  r_digest := r_digest by_the_book;
  r_content rest := plain_path rest /\ exists l, first_line rest l /\ plain_path l;
  r_content_above := r_content_above by_the_book;
  r_logical_above := r_logical_above by_the_book;
  r_created := rfc3339 false false false;
  r_content_directory := r_content_directory by_the_book;
  r_versions w n :=
    match w with None => (n <= 999999)%N | Some w => (2 <= w <= 10)%nat /\ (n < 10 ^ N.of_nat (w - 1))%N end
|}.

(** The rules of the specification except that paths are only compared with the directory
    just above other paths. *)
Definition next_directory_only : reading := {|
  r_type := r_type by_the_book;
  r_digest := r_digest by_the_book;
  r_content := r_content by_the_book;
  r_content_above := r_content_above as_coded;
  r_logical_above := r_logical_above as_coded;
  r_created := r_created by_the_book;
  r_content_directory := r_content_directory by_the_book;
  r_versions := r_versions by_the_book
|}.

(** ** Inventories of the expected shape (for C27)

    There is a manifest, version blocks are objects, and arrays of paths hold strings; all
    else is free. *)
Definition is_string (j : json) : Prop := exists s, j = JStr s.
Definition arrays_of_strings (block : dict json) : Prop := forall k l, In (k, JArr l) block -> Forall is_string l.
Definition well_shaped (inv : json) : Prop :=
  (exists d, inv = JObj d) /\
  (exists man, member inv (`"manifest") man) /\
  (forall man, member inv (`"manifest") (JObj man) -> arrays_of_strings man) /\
  (forall vs v b, member inv (`"versions") (JObj vs) -> In (v, b) vs ->
     (exists d, b = JObj d) /\ (forall st, member b (`"state") (JObj st) -> arrays_of_strings st)) /\
  (forall fx alg block, member inv (`"fixity") (JObj fx) -> In (alg, JObj block) fx -> arrays_of_strings block).
