(** Text mode of Python files: open(path, "w") and open(path, "r").

    Models CPython's io.TextIOWrapper, not a function of /repo. Simplification: the encoding
    is UTF-8 (fsspec passes none, so it is the one of the locale) and os.linesep is "\n". *)
From Verif Require Import Base Utf8 Json JsonTextModel.
Open Scope N_scope.

(** Universal newlines: "\r\n" and "\r" are read as "\n" *)
Fixpoint newlines (s : str) : str :=
  match s with
  | [] => []
  | c :: r =>
      if c =? 13 then
        10 :: match r with
              | d :: r' => if d =? 10 then newlines r' else newlines r
              | [] => []
              end
      else c :: newlines r
  end.

(** fh.write(s), and fh.read() *)
Definition write_text (s : str) : exc bytes := utf8_encode s.
Definition read_text (b : bytes) : exc str :=
  match utf8_decode b with Some s => Ok (newlines s) | None => Raise UnicodeDecodeError end.

(** json.load of a file open in text mode *)
Definition json_load (b : bytes) : exc json := let* s := read_text b in json_loads s.

(** json.loads(bytes), json/__init__.py: detect_encoding and decode. Only UTF-8, with or
    without a byte order mark; UTF-16 and UTF-32 are left out (OtherException). Unlike
    text mode, "surrogatepass" reads the encodings of surrogates; they are left out as well
    (UnicodeDecodeError). *)
Definition starts_utf16_32 (b : bytes) : bool :=
  startswith [255; 254] b || startswith [254; 255] b || startswith [0; 0; 254; 255] b ||
  match b with
  | [x; y] => (x =? 0) || (y =? 0)
  | x :: y :: _ :: _ :: _ => (x =? 0) || (y =? 0)
  | _ => false
  end.
Definition json_load_binary (b : bytes) : exc json :=
  if starts_utf16_32 b then Raise OtherException
  else
    let b' := if startswith [239; 187; 191] b then skipn 3 b else b in
    match utf8_decode b' with Some s => json_loads s | None => Raise UnicodeDecodeError end.

(** Writing data: inventory.py:494-500 write_json with a file open for writing *)
Definition json_file (j : json) : exc bytes := write_text (json_dumps j).
