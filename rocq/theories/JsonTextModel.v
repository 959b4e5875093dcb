(** Python's json.dump(data, fh, sort_keys=True, indent=2) and json.load(fh), as text.

    Used by inventory.py:490-500 (as_json, write_json), storage_root.py:211-214 (ocfl_layout.json), layout.py:211-235
    (config.json, not sorted) and everywhere json.load is called. Models CPython's json
    package, not a function of /repo. Simplifications: a float is its text (two texts of the
    same float are two values); the limit on nesting (RecursionError) is left out. *)
From Verif Require Import Base Json.
Open Scope N_scope.

(** ** Writing *)

Definition hexd (n : N) : N := if n <? 10 then 48 + n else 87 + n.
(** '\\u{0:04x}'.format(n) *)
Definition u_escape (n : N) : str :=
  [92; 117; hexd (n / 4096 mod 16); hexd (n / 256 mod 16); hexd (n / 16 mod 16); hexd (n mod 16)].

(** json.encoder.py_encode_basestring_ascii, one character *)
Definition json_char (c : N) : str :=
  if c =? 34 then [92; 34]
  else if c =? 92 then [92; 92]
  else if c =? 8 then [92; 98]
  else if c =? 12 then [92; 102]
  else if c =? 10 then [92; 110]
  else if c =? 13 then [92; 114]
  else if c =? 9 then [92; 116]
  else if (32 <=? c) && (c <=? 126) then [c]
  else if c <? 65536 then u_escape c
  else u_escape (55296 + (c - 65536) / 1024) ++ u_escape (56320 + (c - 65536) mod 1024).
Definition json_string (s : str) : str := 34 :: flat_map json_char s ++ [34].

(** int.__repr__ *)
Definition str_of_Z (z : Z) : str :=
  if (z <? 0)%Z then 45 :: str_of_N (Z.to_N (- z)) else str_of_N (Z.to_N z).

(** '\n' + ' ' * (indent * level) *)
Definition newline (level : nat) : str := 10 :: repeat 32 (2 * level).

(** [open] + newline + items separated by "," newline + newline + [close] *)
Definition wrap (o c : N) (level : nat) (items : list str) : str :=
  match items with
  | [] => [o; c]
  | _ => o :: newline (S level) ++ join (44 :: newline (S level)) items ++ newline level ++ [c]
  end.

Definition key_leb {A} (a b : str * A) : bool := str_leb (fst a) (fst b).
Definition sort_items {A} (sorted : bool) (d : dict A) : dict A := if sorted then isort key_leb d else d.

(** json.encoder._make_iterencode with indent=2 *)
Fixpoint json_print (sorted : bool) (level : nat) (j : json) : str :=
  match j with
  | JNull => `"null"
  | JBool b => if b then `"true" else `"false"
  | JInt z => str_of_Z z
  | JFloat t => t
  | JStr s => json_string s
  | JArr l => wrap 91 93 level (map (json_print sorted (S level)) l)
  | JObj d =>
      wrap 123 125 level
        (map (fun kv => json_string (fst kv) ++ `": " ++ snd kv)
           (sort_items sorted (map (fun kv => (fst kv, json_print sorted (S level) (snd kv))) d)))
  end.
Definition json_dumps (j : json) : str := json_print true 0 j.

(** ** Reading *)

Definition is_ws (c : N) : bool := (c =? 32) || (c =? 9) || (c =? 10) || (c =? 13).
Fixpoint skip_ws (s : str) : str :=
  match s with c :: r => if is_ws c then skip_ws r else s | [] => [] end.

Definition hexval (c : N) : option N :=
  if (48 <=? c) && (c <=? 57) then Some (c - 48)
  else if (97 <=? c) && (c <=? 102) then Some (c - 87)
  else if (65 <=? c) && (c <=? 70) then Some (c - 55)
  else None.
(** four hex digits *)
Definition hex4 (s : str) : option (N * str) :=
  match s with
  | a :: b :: c :: d :: r =>
      match hexval a, hexval b, hexval c, hexval d with
      | Some x, Some y, Some z, Some w => Some (x * 4096 + y * 256 + z * 16 + w, r)
      | _, _, _, _ => None
      end
  | _ => None
  end.
Definition is_high (c : N) : bool := (55296 <=? c) && (c <=? 56319).
Definition is_low (c : N) : bool := (56320 <=? c) && (c <=? 57343).

(** The rest after the character [c] *)
Definition eat (c : N) (s : str) : option str :=
  match s with x :: r => if x =? c then Some r else None | [] => None end.

(** After \u: one character, of two escapes if they are a surrogate pair *)
Definition scan_unicode (s : str) : option (N * str) :=
  match hex4 s with
  | None => None
  | Some (c, r) =>
      if is_high c then
        match (match eat 92 r with Some q => eat 117 q | None => None end) with
        | Some r2 =>
            match hex4 r2 with
            | None => None
            | Some (c2, r3) => if is_low c2 then Some (65536 + (c - 55296) * 1024 + (c2 - 56320), r3) else Some (c, r)
            end
        | None => Some (c, r)
        end
      else Some (c, r)
  end.

(** After a backslash *)
Definition scan_escape (s : str) : option (N * str) :=
  match s with
  | [] => None
  | c :: r =>
      if c =? 117 then scan_unicode r
      else if c =? 34 then Some (34, r)
      else if c =? 92 then Some (92, r)
      else if c =? 47 then Some (47, r)
      else if c =? 98 then Some (8, r)
      else if c =? 102 then Some (12, r)
      else if c =? 110 then Some (10, r)
      else if c =? 114 then Some (13, r)
      else if c =? 116 then Some (9, r)
      else None
  end.

(** json.decoder.scanstring (strict): after the opening quote. One unit of fuel per
    character. None: JSONDecodeError. *)
Fixpoint scan_string (fuel : nat) (s : str) : option (str * str) :=
  match fuel with
  | O => None
  | S f =>
      match s with
      | [] => None
      | c :: r =>
          if c =? 34 then Some ([], r)
          else if c =? 92 then
            match scan_escape r with
            | None => None
            | Some (x, r') => match scan_string f r' with Some (t, q) => Some (x :: t, q) | None => None end
            end
          else if c <? 32 then None
          else match scan_string f r with Some (t, q) => Some (c :: t, q) | None => None end
      end
  end.

Fixpoint take_digits (s : str) : str * str :=
  match s with
  | c :: r => if is_ascii_digit c then let '(d, q) := take_digits r in (c :: d, q) else ([], s)
  | [] => ([], [])
  end.

(** json.scanner NUMBER_RE: (-?(?:0|[1-9]\d* ))(\.\d+)?([eE][-+]?\d+)? *)
Definition scan_int (s : str) : option (str * str) :=
  let '(sign, r) := match eat 45 s with Some r => ([45], r) | None => ([], s) end in
  match r with
  | c :: q =>
      if c =? 48 then Some (sign ++ [48], q)
      else if (49 <=? c) && (c <=? 57) then let '(d, q') := take_digits r in Some (sign ++ d, q')
      else None
  | [] => None
  end.
Definition scan_frac (s : str) : str * str :=
  match eat 46 s with
  | Some r => match take_digits r with ([], _) => ([], s) | (d, q) => (46 :: d, q) end
  | None => ([], s)
  end.
Definition scan_exp (s : str) : str * str :=
  match s with
  | e :: r =>
      if (e =? 101) || (e =? 69) then
        let '(sign, r') := match r with
                           | c :: q => if (c =? 43) || (c =? 45) then ([c], q) else ([], r)
                           | [] => ([], r)
                           end in
        match take_digits r' with ([], _) => ([], s) | (d, q) => (e :: sign ++ d, q) end
      else ([], s)
  | [] => ([], s)
  end.

Definition int_value (t : str) : Z :=
  match eat 45 t with Some d => (- Z.of_N (digits_val d))%Z | None => Z.of_N (digits_val t) end.
Definition drop_sign (t : str) : str := match eat 45 t with Some d => d | None => t end.
(** int(text): ValueError above sys.get_int_max_str_digits() = 4300 digits *)
Definition too_long (t : str) : bool :=
  4300 <? N.of_nat (List.length (drop_sign t)).

(** A number, NaN, Infinity or -Infinity *)
Definition scan_number (s : str) : exc (json * str) :=
  match scan_int s with
  | None => Raise JSONDecodeError
  | Some (t, r) =>
      let '(fr, r1) := scan_frac r in
      let '(ex, r2) := scan_exp r1 in
      match fr, ex with
      | [], [] => if too_long t then Raise ValueError else Ok (JInt (int_value t), r2)
      | _, _ => Ok (JFloat (t ++ fr ++ ex), r2)
      end
  end.

Definition strip_prefix (p s : str) : option str :=
  if startswith p s then Some (skipn (List.length p) s) else None.

(** The constants of json.scanner.scan_once *)
Definition constants : list (str * json) :=
  [ (`"null", JNull); (`"true", JBool true); (`"false", JBool false);
    (`"NaN", JFloat (`"NaN")); (`"Infinity", JFloat (`"Infinity")); (`"-Infinity", JFloat (`"-Infinity")) ].
Fixpoint scan_constant (l : list (str * json)) (s : str) : option (json * str) :=
  match l with
  | [] => None
  | (p, v) :: l' => match strip_prefix p s with Some r => Some (v, r) | None => scan_constant l' s end
  end.

(** json.scanner.scan_once, json.decoder.JSONArray and JSONObject. One unit of fuel per
    call; proved sufficient. A repeated key replaces the value. *)
Fixpoint scan_value (fuel : nat) (s : str) : exc (json * str) :=
  match fuel with
  | O => Raise OutOfFuel
  | S f =>
      match s with
      | [] => Raise JSONDecodeError
      | c :: r =>
          if c =? 34 then
            match scan_string (S (List.length r)) r with Some (t, q) => Ok (JStr t, q) | None => Raise JSONDecodeError end
          else if c =? 123 then
            match eat 125 (skip_ws r) with
            | Some q => Ok (JObj [], q)
            | None => let* (d, q) := scan_members f (skip_ws r) [] in Ok (JObj d, q)
            end
          else if c =? 91 then
            match eat 93 (skip_ws r) with
            | Some q => Ok (JArr [], q)
            | None => let* (l, q) := scan_elements f (skip_ws r) in Ok (JArr l, q)
            end
          else match scan_constant constants s with
               | Some (v, q) => Ok (v, q)
               | None => scan_number s
               end
      end
  end
with scan_elements (fuel : nat) (s : str) : exc (list json * str) :=
  match fuel with
  | O => Raise OutOfFuel
  | S f =>
      let* (v, r) := scan_value f s in
      match eat 93 (skip_ws r), eat 44 (skip_ws r) with
      | Some q, _ => Ok ([v], q)
      | None, Some q => let* (l, q') := scan_elements f (skip_ws q) in Ok (v :: l, q')
      | None, None => Raise JSONDecodeError
      end
  end
with scan_members (fuel : nat) (s : str) (d : dict json) : exc (dict json * str) :=
  match fuel with
  | O => Raise OutOfFuel
  | S f =>
      match eat 34 s with
      | Some r =>
          match scan_string (S (List.length r)) r with
          | None => Raise JSONDecodeError
          | Some (k, r1) =>
              match eat 58 (skip_ws r1) with
              | Some r2 =>
                  let* (v, r3) := scan_value f (skip_ws r2) in
                  match eat 125 (skip_ws r3), eat 44 (skip_ws r3) with
                  | Some q, _ => Ok (dset k v d, q)
                  | None, Some q => scan_members f (skip_ws q) (dset k v d)
                  | None, None => Raise JSONDecodeError
                  end
              | None => Raise JSONDecodeError
              end
          end
      | None => Raise JSONDecodeError
      end
  end.

(** json.loads(s): a leading BOM and text after the value are errors *)
Definition json_loads (s : str) : exc json :=
  match eat 65279 s with
  | Some _ => Raise JSONDecodeError
  | None =>
      let s1 := skip_ws s in
      let* (v, r) := scan_value (S (2 * List.length s1)) s1 in
      match skip_ws r with [] => Ok v | _ => Raise JSONDecodeError end
  end.

Example json_text_1 :
  let j := JObj [(`"b", JArr [JInt 1; JInt (-20); JNull]); (`"a", JObj [(`"x", JStr [233; 65536; 10; 34; 92])]); (`"c", JArr []); (`"d", JFloat (`"-1.5e+10"))] in
  json_dumps j = `"{
  ""a"": {
    ""x"": ""\u00e9\ud800\udc00\n\""\\""
  },
  ""b"": [
    1,
    -20,
    null
  ],
  ""c"": [],
  ""d"": -1.5e+10
}" /\ json_loads (json_dumps j) = Ok (JObj [(`"a", JObj [(`"x", JStr [233; 65536; 10; 34; 92])]); (`"b", JArr [JInt 1; JInt (-20); JNull]); (`"c", JArr []); (`"d", JFloat (`"-1.5e+10"))]).
Proof. vm_compute. split; reflexivity. Qed.
