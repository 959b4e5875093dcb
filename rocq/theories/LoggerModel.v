(** Model of ocfl/validation_logger.py: messages and counts. *)
From Verif Require Import Base Unicode.
Open Scope N_scope.

(** An entry of validation-errors.json. *)
Record vcode := mkVcode { vc_params : option (list str); vc_description : option (dict str) }.

(** ocfl/validation_logger.py:44-79 __init__; what accumulates is the last four. *)
Record logger := mkLogger {
  lg_warnings : bool; lg_errors : bool; lg_spec : str; lg_lang : str; lg_data : dict vcode;
  lg_codes : dict str; lg_messages : list str; lg_num_errors : N; lg_num_warnings : N }.

(** s % tuple(args) of strings. Simplification: of the conversions only %s and %% are
    modelled, all others are taken as not supported (ValueError). *)
Fixpoint percent_format (s : str) (args : list str) : exc str :=
  match s with
  | [] => match args with [] => Ok [] | _ => Raise TypeError end
  | c :: r =>
      if c =? 37 then
        match r with
        | d :: r' =>
            if d =? 115 then
              match args with
              | [] => Raise TypeError
              | a :: args' => let* t := percent_format r' args' in Ok (a ++ t)
              end
            else if d =? 37 then let* t := percent_format r' args in Ok (37 :: t)
            else Raise ValueError
        | [] => Raise ValueError
        end
      else let* t := percent_format r args in Ok (c :: t)
  end.

(** ocfl/validation_logger.py:105-114 *)
Definition lang_desc (lang severity : str) (desc : dict str) : str :=
  match dget lang desc with
  | Some d => d
  | None =>
      match dget (`"en") desc with
      | Some d => d
      | None =>
          match sorted_strs (keys desc) with
          | k :: _ => match dget k desc with Some d => d | None => [] end
          | [] => `"Unknown " ++ severity ++ `" without a description"
          end
      end
  end.

(** ocfl/validation_logger.py:115-123. [args_text] is str(args). *)
Definition fill (params : option (list str)) (args : dict str) (args_text d : str) : exc str :=
  match params with
  | None => Ok d
  | Some l =>
      match percent_format d (map (fun p => match dget p args with Some v => v | None => `"???" end) l) with
      | Raise TypeError => Ok (d ++ `" " ++ args_text)
      | r => r
      end
  end.

(** ocfl/validation_logger.py:128-130, the link to the specification *)
Definition spec_link (spec code : str) : str :=
  match code with
  | c :: a :: b :: d :: _ =>
      if (c =? 69) || (c =? 87) then
        match digit_value a, digit_value b, digit_value d with
        | Some x, Some y, Some z =>
            if x * 100 + y * 10 + z <? 200
            then `" (see https://ocfl.io/" ++ spec ++ `"/spec/#" ++ [c; a; b; d] ++ `")" else []
        | _, _, _ => []
        end
      else []
  | _ => []
  end.

(** ocfl/validation_logger.py:104-127 *)
Definition message (g : logger) (code : str) (is_error : bool) (args : dict str) (args_text : str) : exc str :=
  let severity := if is_error then `"error" else `"warning" in
  let unknown := `"Unknown " ++ severity ++ `": " ++ code ++ `" - params (" ++ args_text ++ `")" in
  match dget code (lg_data g) with
  | Some v =>
      match vc_description v with
      | Some desc =>
          let* d := fill (vc_params v) args args_text (lang_desc (lg_lang g) severity desc) in
          Ok (`"[" ++ code ++ `"] " ++ d)
      | None => Ok unknown
      end
  | None => Ok unknown
  end.

(** ocfl/validation_logger.py:85-143 log, error and warning *)
Definition log (g : logger) (code : str) (is_error : bool) (args : dict str) (args_text : str) : exc logger :=
  let* m := message g code is_error args args_text in
  let m := m ++ spec_link (lg_spec g) code in
  let keep := (is_error && lg_errors g) || (negb is_error && lg_warnings g) in
  Ok (mkLogger (lg_warnings g) (lg_errors g) (lg_spec g) (lg_lang g) (lg_data g)
        (dset code m (lg_codes g)) (if keep then lg_messages g ++ [m] else lg_messages g)
        (if is_error then lg_num_errors g + 1 else lg_num_errors g)
        (if is_error then lg_num_warnings g else lg_num_warnings g + 1)).

(** One call of error() or warning(). *)
Record call := mkCall { c_code : str; c_error : bool; c_args : dict str; c_text : str }.
Definition log_call (g : logger) (c : call) : exc logger := log g (c_code c) (c_error c) (c_args c) (c_text c).

(** ocfl/validation_logger.py:145-150 status_str *)
Definition status_str (g : logger) (prefix : str) : str :=
  removelast (fold_left (fun s m => s ++ prefix ++ m ++ [10]) (sorted_strs (lg_messages g)) []).
