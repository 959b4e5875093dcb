(** Model of ocfl/layout*.py: mapping from identifiers to object paths. *)
From Verif Require Import Base Unicode Regex Utf8 Json PathModel DigestModel.

(** * Extension 0002 *)

(** ocfl/layout_0002_flat_direct.py:20-37 identifier_to_path *)
Definition flat_direct_path (identifier : str) : exc str :=
  if str_in identifier [[]; `"."; `".."] || char_in slash identifier
  then Raise LayoutException else Ok identifier.

(** * Extension 0003 *)

Definition hex_lower_digit (n : N) : N := if (n <? 10)%N then (48 + n)%N else (87 + n)%N.
Definition hex_upper_digit (n : N) : N := if (n <? 10)%N then (48 + n)%N else (55 + n)%N.
Definition hex_lower (b : N) : str := [hex_lower_digit (b / 16); hex_lower_digit (b mod 16)].
Definition hex_upper (b : N) : str := [hex_upper_digit (b / 16); hex_upper_digit (b mod 16)].

Definition percent : N := 37.

(** ocfl/layout_0003_hash_and_id_n_tuple.py:14-20 _percent_encode, for one character *)
Definition percent_encode (c : N) : exc str :=
  let* c_bytes := utf8_encode [c] in
  Ok (concat (map (fun b => percent :: hex_lower b) c_bytes)).

(** [A-Za-z0-9-_] of ocfl/layout_0003_hash_and_id_n_tuple.py:27 *)
Definition is_ascii_alnum (c : N) : bool :=
  is_ascii_digit c || ((65 <=? c)%N && (c <=? 90)%N) || ((97 <=? c)%N && (c <=? 122)%N).
Definition encap_safe (c : N) : bool := is_ascii_alnum c || (c =? 45)%N || (c =? 95)%N.

Fixpoint encap_encode (object_id : str) : exc str :=
  match object_id with
  | [] => Ok []
  | c :: r =>
      let* e := if encap_safe c then Ok [c] else percent_encode c in
      let* d := encap_encode r in
      Ok (e ++ d)
  end.

(** ocfl/layout_0003_hash_and_id_n_tuple.py:23-33 _get_encapsulation_directory *)
Definition get_encapsulation_directory (object_id digest : str) : exc str :=
  let* d := encap_encode object_id in
  if (100 <? List.length d)%nat then Ok (firstn 100 d ++ `"-" ++ digest) else Ok d.

(** digest[i * tuple_size : i * tuple_size + tuple_size] for i = 0 .. number_of_tuples-1,
    with tuple_size, number_of_tuples >= 0 *)
Definition digest_tuples (digest : str) (tuple_size number_of_tuples : nat) : list str :=
  map (fun i => firstn tuple_size (skipn (i * tuple_size) digest)) (seq 0 number_of_tuples).

(** ocfl/layout_0003_hash_and_id_n_tuple.py:36-46 _id_to_path *)
Definition id_to_path (H : hashfn) (identifier digest_algorithm : str)
  (tuple_size number_of_tuples : nat) : exc str :=
  let* digest0 := string_digest H identifier digest_algorithm in
  let digest := lower digest0 in
  let path := fold_left path_join (digest_tuples digest tuple_size number_of_tuples) [] in
  let* encapsulation_directory := get_encapsulation_directory identifier digest in
  Ok (path_join path encapsulation_directory).

(** * Layout.encode / Layout.decode (ocfl/layout.py:113-133): urllib quote_plus, unquote_plus *)

(** Characters urllib.parse.quote never quotes. *)
Definition quote_safe (b : N) : bool :=
  is_ascii_alnum b || (b =? 95)%N || (b =? 46)%N || (b =? 45)%N || (b =? 126)%N.

Definition quote_byte (b : N) : str :=
  if quote_safe b then [b] else if (b =? 32)%N then [43%N] else percent :: hex_upper b.

(** urllib.parse.quote_plus(string) *)
Definition quote_plus (s : str) : exc str :=
  let* b := utf8_encode s in Ok (concat (map quote_byte b)).

Definition hex_value (c : N) : option N :=
  if is_ascii_digit c then Some (c - 48)%N
  else if (97 <=? c)%N && (c <=? 102)%N then Some (c - 87)%N
  else if (65 <=? c)%N && (c <=? 70)%N then Some (c - 55)%N
  else None.

(** urllib.parse.unquote_to_bytes of an ASCII string *)
Fixpoint unquote_to_bytes (s : str) : bytes :=
  match s with
  | [] => []
  | c :: r =>
      if (c =? percent)%N then
        match r with
        | h :: ((l :: r') as t) =>
            match hex_value h, hex_value l with
            | Some a, Some b => (a * 16 + b)%N :: unquote_to_bytes r'
            | _, _ => c :: unquote_to_bytes r
            end
        | _ => c :: unquote_to_bytes r
        end
      else c :: unquote_to_bytes r
  end.

(** urllib.parse.unquote_plus. Simplification: None stands for the cases where
    Python would substitute U+FFFD for invalid UTF-8 or where the input has
    non-ASCII characters. *)
Definition unquote_plus (s : str) : option str :=
  utf8_decode (unquote_to_bytes (map (fun c => if (c =? 43)%N then 32%N else c) s)).

(** ocfl/layout_nnnn_flat_quoted.py:15-34 identifier_to_path *)
Definition flat_quoted_path (identifier : str) : exc str :=
  match identifier with
  | [] => Raise LayoutException
  | _ => quote_plus identifier
  end.

(** * Tuple tree *)

(** The segments of ocfl/layout_nnnn_tuple_tree.py:105-110. tuple_size >= 1; fuel is
    the length of the identifier, which is proved sufficient. *)
Fixpoint tuple_segments (fuel : nat) (tuple_size : nat) (id_remains : str) : list str :=
  match fuel with
  | O => [id_remains]
  | S f =>
      if (tuple_size <? List.length id_remains)%nat
      then firstn tuple_size id_remains :: tuple_segments f tuple_size (skipn tuple_size id_remains)
      else [id_remains]
  end.

(** ocfl/layout_nnnn_tuple_tree.py:86-113 identifier_to_path; [id_encode] is the
    function of the external pairtree library and is left abstract. *)
Definition tuple_tree_path (id_encode : str -> str) (tuple_size : nat) (identifier : str) : exc str :=
  match identifier with
  | [] => Raise LayoutException
  | _ =>
      let identifier := id_encode identifier in
      let segments := tuple_segments (List.length identifier) tuple_size identifier ++ [identifier] in
      Ok (path_join_list segments)
  end.

(** * UUID quadtree *)

Definition is_uuid_char (c : N) : bool := is_digit c || ((97 <=? c)%N && (c <=? 102)%N).
Definition re_quad (n : nat) : re := RGroup n (rrep 4 (RChr is_uuid_char)).
Definition re_uuid : re :=
  RSeq (re_quad 1) (RSeq (re_quad 2) (RSeq (rlit (`"-")) (RSeq (re_quad 3) (RSeq (rlit (`"-"))
  (RSeq (re_quad 4) (RSeq (rlit (`"-")) (RSeq (re_quad 5) (RSeq (rlit (`"-"))
  (RSeq (re_quad 6) (RSeq (re_quad 7) (RSeq (re_quad 8) RDollar))))))))))).

(** ocfl/layout_nnnn_uuid_quadtree.py:68-91 identifier_to_path; raises plain Exception *)
Definition uuid_quadtree_path (prefix identifier : str) : exc str :=
  if startswith prefix identifier then
    let identifier := skipn (List.length prefix) identifier in
    match re_match re_uuid identifier with
    | None => Raise OtherException
    | Some m =>
        let g n := match group n m with Some s => s | None => [] end in
        Ok (path_join_list [g 1; g 2; g 3; g 4; g 5; g 6; g 7; g 8]%nat)
    end
  else Raise OtherException.

(** * Layout objects and their configuration *)

(** A layout instance with its parameters (attributes set by __init__ and by the
    check_* methods). *)
Inductive layout :=
| L0002
| L0003 (digest_algorithm : str) (tuple_size number_of_tuples : Z)
| LFlatQuoted
| LTupleTree (tuple_size : Z)
| LUuid (prefix : str).

(** The default instances (the __init__ methods). *)
Definition layout_0003_default : layout := L0003 (`"sha256") 3 3.
Definition layout_tuple_tree_default : layout := LTupleTree 2.
Definition layout_uuid_default : layout := LUuid (`"urn:uuid:").

(** self.NAME of each class *)
Definition layout_name (l : layout) : str :=
  match l with
  | L0002 => `"0002-flat-direct-storage-layout"
  | L0003 _ _ _ => `"0003-hash-and-id-n-tuple-storage-layout"
  | LFlatQuoted => `"nnnn-flat-quoted-storage-layout"
  | LTupleTree _ => `"nnnn-tuple-tree-layout"
  | LUuid _ => `"nnnn-uuid-quadtree"
  end.

(** ocfl/layout_registry.py:18-69 *)
Definition layout_registry : dict layout :=
  [ (`"0002-flat-direct-storage-layout", L0002); (`"0002", L0002); (`"flat-direct", L0002);
    (`"0003-hash-and-id-n-tuple-storage-layout", layout_0003_default); (`"0003", layout_0003_default);
    (`"nnnn-flat-quoted-storage-layout", LFlatQuoted); (`"flat-quoted", LFlatQuoted);
    (`"nnnn-tuple-tree", layout_tuple_tree_default); (`"nnnn-uuid-quadtree", layout_uuid_default) ].
Definition get_layout (name : str) : exc layout :=
  match dget name layout_registry with Some l => Ok l | None => Raise OtherException end.
Definition layout_is_supported (name : str) : bool := dmem name layout_registry.

(** The config properties (ocfl/layout.py:65-73, layout_0003:162-168,
    tuple_tree:33-37, uuid_quadtree:23-27) *)
Definition layout_config (l : layout) : option json :=
  match l with
  | L0002 | LFlatQuoted => None
  | L0003 a ts nt => Some (JObj [ (`"extensionName", JStr (layout_name l)); (`"digestAlgorithm", JStr a);
                                  (`"tupleSize", JInt ts); (`"numberOfTuples", JInt nt) ])
  | LTupleTree ts => Some (JObj [ (`"extensionName", JStr (layout_name l)); (`"tupleSize", JInt ts) ])
  | LUuid p => Some (JObj [ (`"extensionName", JStr (layout_name l)); (`"prefix", JStr p) ])
  end.

(** config.get(key): None if absent. JSON null and absent are both None. *)
Definition config_get (k : str) (config : dict json) : json :=
  match dget k config with Some v => v | None => JNull end.

(** ocfl/layout_0003_hash_and_id_n_tuple.py:65-90 check_digest_algorithm: returns the value *)
Definition check_digest_algorithm (H : hashfn) (value : json) : exc str :=
  match value with
  | JStr s =>
      match string_digest H (`"dummy_data") s with
      | Ok _ => Ok s
      | Raise ValueError => Raise LayoutException
      | Raise e => Raise e
      end
  | _ => Raise LayoutException (* None, or string_digest raises ValueError for any non-string *)
  end.

(** check_tuple_size / check_number_of_tuples (layout_0003:92-139) and check_tuple_size
    of the tuple tree (39-62): an int (bool included) from lo to hi.
    Simplification: True/False are stored as 1/0, which Python considers equal. *)
Definition check_int_range (lo hi : Z) (value : json) : exc Z :=
  match json_int value with
  | None => Raise LayoutException
  | Some z => if (z <? lo)%Z || (hi <? z)%Z then Raise LayoutException else Ok z
  end.

(** ocfl/layout_nnnn_uuid_quadtree.py:29-44 check_prefix *)
Definition check_prefix (value : json) : exc str :=
  match value with
  | JStr [] => Raise LayoutException
  | JStr s => Ok s
  | _ => Raise LayoutException
  end.

(** ocfl/layout_0003_hash_and_id_n_tuple.py:141-160 check_full_config *)
Definition check_full_config_0003 (H : hashfn) (a : str) (ts nt : Z) : exc unit :=
  if ((ts =? 0)%Z && negb (nt =? 0)%Z) || (negb (ts =? 0)%Z && (nt =? 0)%Z)
  then Raise LayoutException
  else
    let* d := string_digest H (`"dummy_data") a in
    if (Z.of_nat (List.length d) <? ts * nt)%Z then Raise LayoutException else Ok tt.

(** ocfl/layout.py:181-209 check_and_set_layout_params with the checks of each class.
    For layouts without parameters PARAMS is None and [None.items()] raises
    AttributeError. Returns the updated layout. *)
Definition check_and_set_layout_params (H : hashfn) (l : layout) (config : dict json)
  (require_extension_name : bool) : exc layout :=
  let* _ := match dget (`"extensionName") config with
            | None => if require_extension_name then Raise LayoutException else Ok tt
            | Some v => if json_eq_str v (layout_name l) then Ok tt else Raise LayoutException
            end in
  match l with
  | L0002 | LFlatQuoted => Raise AttributeError
  | L0003 _ _ _ =>
      let* a := check_digest_algorithm H (config_get (`"digestAlgorithm") config) in
      let* ts := check_int_range 0 32 (config_get (`"tupleSize") config) in
      let* nt := check_int_range 0 32 (config_get (`"numberOfTuples") config) in
      let* _ := check_full_config_0003 H a ts nt in
      Ok (L0003 a ts nt)
  | LTupleTree _ =>
      let* ts := check_int_range 2 6 (config_get (`"tupleSize") config) in
      Ok (LTupleTree ts)
  | LUuid _ =>
      let* p := check_prefix (config_get (`"prefix") config) in
      Ok (LUuid p)
  end.

(** identifier_to_path by layout *)
Definition identifier_to_path (H : hashfn) (id_encode : str -> str) (l : layout) (identifier : str) : exc str :=
  match l with
  | L0002 => flat_direct_path identifier
  | L0003 a ts nt => id_to_path H identifier a (Z.to_nat ts) (Z.to_nat nt)
  | LFlatQuoted => flat_quoted_path identifier
  | LTupleTree ts => tuple_tree_path id_encode (Z.to_nat ts) identifier
  | LUuid p => uuid_quadtree_path p identifier
  end.
