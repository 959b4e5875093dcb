(** Model of _fsw_s3_urlparse of ocfl/fsw.py, with urllib.parse.parse_qs and unquote. *)
From Verif Require Import Base Utf8 Json PathModel DigestModel LayoutModel.
Open Scope N_scope.

(** str.split(c, 1): the parts before and after the first c, or None if there is none *)
Fixpoint split_once (c : N) (s : str) : option (str * str) :=
  match s with
  | [] => None
  | x :: r => if x =? c then Some ([], r) else option_map (fun ab => (x :: fst ab, snd ab)) (split_once c r)
  end.

Section Decoding.
  (** bytes.decode("utf-8", "replace") of bytes that are no UTF-8: any text *)
  Variable bad : bytes -> str.

  Definition decode_replace (b : bytes) : str := match utf8_decode b with Some s => s | None => bad b end.

  (** urllib.parse.unquote: the longest runs of ASCII characters are decoded, all other
      characters are kept. [run] is the run before s. *)
  Fixpoint unquote_runs (run s : str) : str :=
    match s with
    | [] => decode_replace (unquote_to_bytes run)
    | c :: r => if c <? 128 then unquote_runs (run ++ [c]) r
                else decode_replace (unquote_to_bytes run) ++ c :: unquote_runs [] r
    end.
  Definition unquote (s : str) : str := if char_in percent s then unquote_runs [] s else s.
  (** name.replace("+", " "), unquote(name) *)
  Definition unquote_field (s : str) : str := unquote (map (fun c => if c =? 43 then 32 else c) s).

  (** urllib.parse.parse_qsl(qs) *)
  Definition parse_field (f : str) : list (str * str) :=
    match split_once 61 f with
    | None | Some (_, []) => []
    | Some (n, v) => [(unquote_field n, unquote_field v)]
    end.
  Definition parse_qsl (qs : str) : list (str * str) := flat_map parse_field (split_on 38 qs).

  (** {k: v[0] for k, v in parse_qs(qs).items()} *)
  Definition first_values (l : list (str * str)) : dict str :=
    fold_left (fun d kv => if dmem (fst kv) d then d else dset (fst kv) (snd kv) d) l [].

  (** ocfl/fsw.py:52-68 _fsw_s3_urlparse *)
  Definition s3_urlparse (url_path : str) : str * dict str :=
    match split_once 63 url_path with
    | None => (url_path, [])
    | Some (path, qs) => (path, first_values (parse_qsl qs))
    end.
End Decoding.
