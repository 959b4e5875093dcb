(** Model of ocfl/digest.py. The hash functions of hashlib are a parameter [H]. *)
From Verif Require Import Base Unicode Regex Utf8.

(** hashlib: name of the algorithm and the bytes -> hex digest. *)
Definition hashfn := str -> bytes -> str.

Definition is_lower_hex (c : N) : bool := is_ascii_digit c || ((97 <=? c)%N && (c <=? 102)%N).
Definition is_upper_hex (c : N) : bool := ((65 <=? c)%N && (c <=? 70)%N).
Definition is_hex (c : N) : bool := is_lower_hex c || is_upper_hex c.

(** Length in hex characters of the digests of hashlib used by the code. *)
Definition hash_len (alg : str) : option nat :=
  if str_eqb alg (`"sha512") then Some 128%nat
  else if str_eqb alg (`"sha256") then Some 64%nat
  else if str_eqb alg (`"sha1") then Some 40%nat
  else if str_eqb alg (`"md5") then Some 32%nat
  else if str_eqb alg (`"blake2b-512") then Some 128%nat
  else if str_eqb alg (`"blake2b-384") then Some 96%nat
  else if str_eqb alg (`"blake2b-256") then Some 64%nat
  else if str_eqb alg (`"blake2b-160") then Some 40%nat
  else None.

(** What is assumed of hashlib where the output format matters. *)
Definition hash_ok (H : hashfn) : Prop :=
  forall alg n b, hash_len alg = Some n ->
    List.length (H alg b) = n /\ Forall (fun c => is_lower_hex c = true) (H alg b).

(** ocfl/digest.py:6 BUFSIZE *)
Definition BUFSIZE : nat := N.to_nat 65536.

(** ocfl/digest.py:9-18 _file_digest: [iter(lambda: fh.read(BUFSIZE), b"")], updating
    the digester with each block. The digester is modelled by the bytes it has
    been given so far (hashlib: update(a); update(b) is update(a + b)). One unit of
    fuel per block and one for the final empty read; the fuel is proved enough. *)
Fixpoint read_blocks (bufsize : nat) (fuel : nat) (rest : bytes) (digester : bytes) : exc bytes :=
  match fuel with
  | O => Raise OutOfFuel
  | S f =>
      match firstn bufsize rest with
      | [] => Ok digester
      | b => read_blocks bufsize f (skipn bufsize rest) (digester ++ b)
      end
  end.
Definition file_digest_blocks (H : hashfn) (bufsize : nat) (alg : str) (content : bytes) : exc str :=
  let* b := read_blocks bufsize (S (List.length content)) content [] in Ok (H alg b).

(** d[:n] + "..." + d[-3:] *)
Definition truncated (n : nat) (d : str) : str :=
  firstn n d ++ `"..." ++ skipn (List.length d - 3) d.

(** ocfl/digest.py:21-68 file_digest, for a file with the given content *)
Definition file_digest (H : hashfn) (digest_type : str) (content : bytes) : exc str :=
  if str_eqb digest_type (`"sha512") then file_digest_blocks H BUFSIZE (`"sha512") content
  else if str_eqb digest_type (`"sha256") then file_digest_blocks H BUFSIZE (`"sha256") content
  else if str_eqb digest_type (`"sha1") then file_digest_blocks H BUFSIZE (`"sha1") content
  else if str_eqb digest_type (`"md5") then file_digest_blocks H BUFSIZE (`"md5") content
  else if str_eqb digest_type (`"blake2b-512") then file_digest_blocks H BUFSIZE (`"blake2b-512") content
  else if str_eqb digest_type (`"blake2b-160") then file_digest_blocks H BUFSIZE (`"blake2b-160") content
  else if str_eqb digest_type (`"blake2b-256") then file_digest_blocks H BUFSIZE (`"blake2b-256") content
  else if str_eqb digest_type (`"blake2b-384") then file_digest_blocks H BUFSIZE (`"blake2b-384") content
  else if str_eqb digest_type (`"sha512-spec-ex") then
    let* d := file_digest_blocks H BUFSIZE (`"sha512") content in Ok (truncated 15 d)
  else if str_eqb digest_type (`"sha256-spec-ex") then
    let* d := file_digest_blocks H BUFSIZE (`"sha256") content in Ok (truncated 6 d)
  else Raise ValueError.

(** ocfl/digest.py:71-91 string_digest *)
Definition string_digest (H : hashfn) (txt : str) (digest_type : str) : exc str :=
  let* b := utf8_encode txt in
  if str_eqb digest_type (`"sha512") then Ok (H (`"sha512") b)
  else if str_eqb digest_type (`"sha256") then Ok (H (`"sha256") b)
  else if str_eqb digest_type (`"sha1") then Ok (H (`"sha1") b)
  else if str_eqb digest_type (`"md5") then Ok (H (`"md5") b)
  else Raise ValueError.

(** ocfl/digest.py:94-105 DIGEST_REGEXES *)
Definition re_hex (n : nat) : re := RSeq (rrep n (RChr is_hex)) RDollar.
Definition re_spec_ex : re :=
  RSeq (rrep 6 (RChr is_lower_hex)) (RSeq (rlit (`"...")) (RSeq (rrep 3 (RChr is_lower_hex)) RDollar)).
Definition DIGEST_REGEXES : dict re :=
  [ (`"sha512", re_hex 128); (`"sha256", re_hex 64); (`"sha1", re_hex 40); (`"md5", re_hex 32);
    (`"blake2b-512", re_hex 128); (`"blake2b-384", re_hex 96); (`"blake2b-256", re_hex 64);
    (`"blake2b-160", re_hex 40); (`"sha512-spec-ex", re_spec_ex); (`"sha256-spec-ex", re_spec_ex) ].

(** ocfl/digest.py:108-121 digest_regex *)
Definition digest_regex (digest_type : str) : exc re :=
  match dget digest_type DIGEST_REGEXES with
  | Some r => Ok r
  | None => Raise ValueError
  end.

(** str.lower(). Simplification: only ASCII letters are lowered; a digest with
    other letters can only occur with lax_digests and an unknown algorithm. *)
Definition lower_char (c : N) : N := if (65 <=? c)%N && (c <=? 90)%N then (c + 32)%N else c.
Definition lower (s : str) : str := map lower_char s.

(** ocfl/digest.py:124-136 normalized_digest *)
Definition normalized_digest (digest digest_type : str) : str :=
  if str_in digest_type [`"sha512-spec-ex"; `"sha256-spec-ex"] then digest else lower digest.
