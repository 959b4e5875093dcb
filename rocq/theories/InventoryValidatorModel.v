(** Model of ocfl/inventory_validator.py, on the values json.load returns. *)
From Verif Require Import Base Unicode Regex Json PyJson Log ObjectUtilsModel DigestModel DatetimeModel.

(** ocfl/constants.py:6-15 *)
Definition SPEC_VERSIONS_SUPPORTED : list str := [`"1.0"; `"1.1"].
Definition DEFAULT_SPEC_VERSION : str := `"1.1".
Definition DEFAULT_CONTENT_DIRECTORY : str := `"content".

(** s.add(x) for a set of strings; kept in order of insertion *)
Definition set_add (x : str) (s : list str) : list str := if str_in x s then s else s ++ [x].

(** Attributes of an InventoryValidator (57-96) after validation. digest_algorithm is
    any JSON value with lax_digests. *)
Record iv := mk_iv {
  iv_id : option str;
  iv_spec_version : str;
  iv_digest_algorithm : json;
  iv_content_directory : str;
  iv_content_directory_set : bool;
  iv_all_versions : list str;
  iv_manifest_files : option (dict str);
  iv_unnormalized_digests : option (list str);
  iv_head : str
}.

(** The regex ^.*$ *)
Definition re_any : re := RSeq (RStar rdot) RDollar.

(** digest_regex(digest_type) (ocfl/digest.py:108-121) for any value: TypeError if
    unhashable, ValueError if not a key *)
Definition digest_regex_j (alg : json) : exc re :=
  match alg with
  | JStr s => digest_regex s
  | JArr _ | JObj _ => Raise TypeError
  | _ => Raise ValueError
  end.

(** normalized_digest(digest, digest_type) (ocfl/digest.py:124-136) for any digest_type *)
Definition norm_digest (alg : json) (digest : str) : str :=
  match alg with JStr s => normalized_digest digest s | _ => lower digest end.

(** inventory_validator.py:518-526 _digest_regex *)
Definition iv_digest_regex (lax : bool) (alg : json) : wexc re :=
  match digest_regex_j alg with
  | Ok r => wret r
  | Raise ValueError =>
      (if lax then wret tt else werror (`"E026a")) ;! wret re_any
  | Raise e => wraise e
  end.

(** inventory_validator.py:557  ^(v\d+)/([^/]+)/(.+) *)
Definition re_content_path : re :=
  RSeq (RGroup 1 (RSeq (rlit (`"v")) (rplus rdigit)))
   (RSeq (rlit (`"/")) (RSeq (RGroup 2 (rplus (RChr (fun c => negb (N.eqb c 47)))))
    (RSeq (rlit (`"/")) (RGroup 3 (rplus rdot))))).

Definition bad_element (e : str) : bool := str_in e [`""; `"."; `".."].

(** inventory_validator.py:547-575 _check_content_path; returns the result and the two sets *)
Definition check_content_path (content_directory path : str) (content_paths content_directories : list str)
  : wexc (bool * list str * list str) :=
  let fail code := werror code ;! wret (false, content_paths, content_directories) in
  if startswith (`"/") path || endswith (`"/") path then fail (`"E100")
  else
    match re_match re_content_path path with
    | None => fail (`"E042a")
    | Some m =>
        if negb (str_eqb (group_or_nil 2 m) content_directory) then fail (`"E042c")
        else
          let elements := split_on 47 (group_or_nil 3 m) in
          if existsb bad_element elements then fail (`"E099")
          else if str_in path content_paths then fail (`"E101a")
          else wret (true, set_add path content_paths,
                     set_add (join (`"/") ([group_or_nil 1 m; group_or_nil 2 m] ++ removelast elements))
                             content_directories)
    end.

(** Local variables of _validate_manifest *)
Record mstate := mk_mstate {
  ms_files : dict str;       (* manifest_files *)
  ms_ok : list str;          (* manifest_files_correct_format *)
  ms_unnorm : list str;      (* unnormalized_digests *)
  ms_digests : list str;     (* manifest_digests *)
  ms_paths : list str;       (* content_paths *)
  ms_dirs : list str         (* content_directories *)
}.

(** The exception raised when a value that is not a str is used as a path: as a dict
    key or set member if it is unhashable, else by path.startswith *)
Definition not_a_path (j : json) : exn := if hashable j then AttributeError else TypeError.

(** inventory_validator.py:292-295, one file of a digest *)
Definition manifest_file (cd nd : str) (s : mstate) (file : json) : wexc mstate :=
  match file with
  | JStr f =>
      let! (ok, paths, dirs) := check_content_path cd f (ms_paths s) (ms_dirs s) in
      wret (mk_mstate (dset f nd (ms_files s)) (if ok then ms_ok s ++ [f] else ms_ok s)
                      (ms_unnorm s) (ms_digests s) paths dirs)
  | _ => wraise (not_a_path file)
  end.

(** inventory_validator.py:278-295, one digest of the manifest *)
Definition manifest_digest (lax : bool) (alg : json) (cd : str) (s : mstate) (kv : str * json) : wexc mstate :=
  let '(digest, files) := kv in
  let! r := iv_digest_regex lax alg in
  match re_match r digest with
  | None => werror (`"E025b") ;! wret s
  | Some _ =>
      match files with
      | JArr l =>
          let nd := norm_digest alg digest in
          let! digests := (if str_in nd (ms_digests s) then werror (`"E096") ;! wret (ms_digests s)
                           else wret (ms_digests s ++ [nd])) in
          wfold (manifest_file cd nd) l
            (mk_mstate (ms_files s) (ms_ok s) (set_add digest (ms_unnorm s)) digests (ms_paths s) (ms_dirs s))
      | _ => werror (`"E092") ;! wret s
      end
  end.

(** The check for conflicts (297-299, 490-492) *)
Definition check_conflicts (code : str) (paths dirs : list str) : wexc unit :=
  wfold (fun _ d => if str_in d paths then werror code else wret tt) dirs tt.

(** inventory_validator.py:256-300 _validate_manifest: (manifest_files,
    manifest_files_correct_format, unnormalized_digests) *)
Definition validate_manifest (lax : bool) (alg : json) (cd : str) (manifest : json)
  : wexc (dict str * list str * list str) :=
  match manifest with
  | JObj d =>
      let! s := wfold (manifest_digest lax alg cd) d (mk_mstate [] [] [] [] [] []) in
      check_conflicts (`"E101b") (ms_paths s) (ms_dirs s) ;!
      wret (ms_files s, ms_ok s, ms_unnorm s)
  | _ => werror (`"E041c") ;! wret ([], [], [])
  end.

(** inventory_validator.py:346-348, one file of a fixity digest *)
Definition fixity_file (manifest_files : option (dict str)) (_ : unit) (file : json) : wexc unit :=
  match manifest_files with
  | None => wraise TypeError
  | Some mf =>
      match file with
      | JStr f => if dmem f mf then wret tt else werror (`"E057d")
      | _ => if hashable file then werror (`"E057d") else wraise TypeError
      end
  end.

(** inventory_validator.py:330-348, one digest of a fixity algorithm block *)
Definition fixity_digest (manifest_files : option (dict str)) (regex : re) (known : bool) (alg : str)
  (seen : list str) (kv : str * json) : wexc (list str) :=
  let '(digest, files) := kv in
  match re_match regex digest with
  | None => werror (`"E057b") ;! wret seen
  | Some _ =>
      match files with
      | JArr l =>
          let nd := if known then normalized_digest digest alg else digest in
          let! seen' := (if str_in nd seen then werror (`"E097") ;! wret seen else wret (seen ++ [nd])) in
          wfold (fixity_file manifest_files) l tt ;! wret seen'
      | _ => werror (`"E057c") ;! wret seen
      end
  end.

(** inventory_validator.py:314-348, one algorithm of the fixity block *)
Definition fixity_algorithm (lax : bool) (manifest_files : option (dict str)) (_ : unit) (kv : str * json) : wexc unit :=
  let '(alg, block) := kv in
  let go regex known :=
    match block with
    | JObj d => wfold (fixity_digest manifest_files regex known alg) d [] ;! wret tt
    | _ => werror (`"E057a")
    end in
  match digest_regex alg with
  | Ok regex => go regex true
  | Raise _ => if lax then go re_any false else werror (`"E056b")
  end.

(** inventory_validator.py:302-348 _validate_fixity *)
Definition validate_fixity (lax : bool) (spec_version : str) (fixity : json) (manifest_files : option (dict str)) : wexc unit :=
  match fixity with
  | JObj d => wfold (fixity_algorithm lax manifest_files) d tt
  | _ => werror (if str_eqb spec_version (`"1.0") then `"E056a" else `"E111")
  end.

(** fmt % n for "v%d" (None) and "v%0wd" (Some w), n >= 0 *)
Definition version_fmt (w : option nat) (n : N) : str :=
  match w with
  | None => `"v" ++ str_of_N n
  | Some w => `"v" ++ zero_pad w (str_of_N n)
  end.

(** inventory_validator.py:387-401: the loop for n in range(2, max_version_num + 1).
    One unit of fuel per version key and one more, proved sufficient. *)
Fixpoint version_loop (fuel : nat) (w : option nat) (max : N) (versions : dict json) (n : N) (acc : list str)
  : wexc (list str) :=
  if (max <? n)%N then
    (if (max <? N.of_nat (List.length versions))%N then werror (`"E011") else wret tt) ;! wret acc
  else
    match fuel with
    | O => wraise OutOfFuel
    | S f =>
        let v := version_fmt w n in
        if dmem v versions then version_loop f w max versions (n + 1) (acc ++ [v])
        else (if (N.of_nat (List.length versions) =? n - 1)%N then wret tt else werror (`"E010")) ;! wret acc
    end.

(** inventory_validator.py:350-401 _validate_version_sequence *)
Definition validate_version_sequence (versions : json) : wexc (list str) :=
  match versions with
  | JObj d =>
      match d with
      | [] => werror (`"E008") ;! wret []
      | _ =>
          let fuel := S (List.length d) in
          if dmem (`"v1") d then version_loop fuel None 999999 d 2 [`"v1"]
          else
            match find (fun n => dmem (version_fmt (Some n) 1) d) (seq 2 9) with
            | None => werror (`"E009") ;! wret []
            | Some w =>
                wwarning (`"W001") ;!
                version_loop fuel (Some w) (10 ^ N.of_nat (w - 1) - 1) d 2 [version_fmt (Some w) 1]
            end
      end
  | _ => werror (`"E044") ;! wret []
  end.

(** inventory_validator.py:528-545 _check_logical_path; returns the two sets *)
Definition check_logical_path (path : str) (s : list str * list str) : wexc (list str * list str) :=
  let '(logical_paths, logical_directories) := s in
  if startswith (`"/") path || endswith (`"/") path then werror (`"E053") ;! wret s
  else
    let elements := split_on 47 path in
    if existsb bad_element elements then werror (`"E052") ;! wret s
    else wret (set_add path logical_paths, set_add (join (`"/") (removelast elements)) logical_directories).

(** inventory_validator.py:479-483, one path of a digest *)
Definition state_path (s : list str * list str) (path : json) : wexc (list str * list str) :=
  match path with
  | JStr p => if str_in p (fst s) then werror (`"E095a") ;! wret s else check_logical_path p s
  | _ => wraise (not_a_path path)
  end.

(** inventory_validator.py:473-488, one digest of the state *)
Definition state_digest (digest_re : re) (alg : json) (unnormalized_digests : option (list str))
  (s : (list str * list str) * list str) (kv : str * json) : wexc ((list str * list str) * list str) :=
  let '(digest, paths) := kv in
  match re_match digest_re digest with
  | None => werror (`"E050d") ;! wret s
  | Some _ =>
      match paths with
      | JArr l =>
          let! sets := wfold state_path l (fst s) in
          match unnormalized_digests with
          | None => wraise TypeError
          | Some u =>
              (if str_in digest u then wret tt else werror (`"E050f")) ;!
              wret (sets, snd s ++ [norm_digest alg digest])
          end
      | _ => werror (`"E050e") ;! wret s
      end
  end.

(** inventory_validator.py:459-493 _validate_state_block: the list of digests *)
Definition validate_state_block (lax : bool) (alg : json) (state : json) (unnormalized_digests : option (list str))
  : wexc (list str) :=
  match state with
  | JObj d =>
      let! r := iv_digest_regex lax alg in
      let! s := wfold (state_digest r alg unnormalized_digests) d (([], []), []) in
      check_conflicts (`"E095b") (fst (fst s)) (snd (fst s)) ;!
      wret (snd s)
  | _ => werror (`"E050c") ;! wret []
  end.

(** inventory_validator.py:428  (Z|[+-]\d\d:\d\d)$  and 430  T\d\d:\d\d:\d\d *)
Definition re_created_tz : re :=
  RSeq (RGroup 1 (RAlt (rlit (`"Z"))
    (RSeq (RChr (fun c => (c =? 43)%N || (c =? 45)%N)) (RSeq rdd (RSeq (rlit (`":")) rdd))))) RDollar.
Definition re_created_time : re :=
  RSeq (rlit (`"T")) (RSeq rdd (RSeq (rlit (`":")) (RSeq rdd (RSeq (rlit (`":")) rdd)))).
Definition re_found (r : re) (s : str) : bool := match re_search r s with Some _ => true | None => false end.

(** inventory_validator.py:420-433 the created value of a version block *)
Definition validate_created (version : json) : wexc unit :=
  let! c := wlift (py_in (`"created") version) in
  if negb c then werror (`"E048")
  else
    let! created := wlift (py_getitem (`"created") version) in
    match created with
    | JStr s =>
        match str_to_datetime s with
        | Ok _ =>
            (if re_found re_created_tz s then wret tt else werror (`"E049a")) ;!
            (if re_found re_created_time s then wret tt else werror (`"E049b"))
        | Raise ValueError => werror (`"E049c")
        | Raise e => wraise e
        end
    | _ => werror (`"E049d")
    end.

(** inventory_validator.py:438-441 message *)
Definition validate_message (version : json) : wexc unit :=
  let! c := wlift (py_in (`"message") version) in
  if negb c then wwarning (`"W007a")
  else
    let! m := wlift (py_getitem (`"message") version) in
    match m with JStr _ => wret tt | _ => werror (`"E094") end.

(** inventory_validator.py:455  \w{3,6}: *)
Definition re_address : re := RSeq (rrange 3 6 rword) (rlit (`":")).

(** inventory_validator.py:442-456 user *)
Definition validate_user (version : json) : wexc unit :=
  let! c := wlift (py_in (`"user") version) in
  if negb c then wwarning (`"W007b")
  else
    let! u := wlift (py_getitem (`"user") version) in
    match u with
    | JObj d =>
        (match dget (`"name") d with Some (JStr _) => wret tt | _ => werror (`"E054b") end) ;!
        match dget (`"address") d with
        | None => wwarning (`"W008")
        | Some (JStr a) => match re_match re_address a with Some _ => wret tt | None => wwarning (`"W009") end
        | Some _ => werror (`"E054c")
        end
    | _ => werror (`"E054a")
    end.

(** inventory_validator.py:418-456, one version *)
Definition validate_version (lax : bool) (alg : json) (unnormalized_digests : option (list str))
  (versions : dict json) (digests_used : list str) (v : str) : wexc (list str) :=
  match dget v versions with
  | None => wraise KeyError
  | Some version =>
      validate_created version ;!
      (let! c := wlift (py_in (`"state") version) in
       let! used := (if c then
                       let! st := wlift (py_getitem (`"state") version) in
                       validate_state_block lax alg st unnormalized_digests
                     else werror (`"E048c") ;! wret []) in
       validate_message version ;!
       validate_user version ;!
       wret (digests_used ++ used))
  end.

(** inventory_validator.py:403-457 _validate_versions *)
Definition validate_versions (lax : bool) (alg : json) (unnormalized_digests : option (list str))
  (versions : json) (all_versions : list str) : wexc (list str) :=
  match versions with
  | JObj d => wfold (validate_version lax alg unnormalized_digests d) all_versions []
  | _ => wret [] (* all_versions is empty then *)
  end.

(** inventory_validator.py:495-505 __check_content_paths_map_to_versions *)
Definition check_content_paths_map_to_versions (manifest_files all_versions : list str) : wexc unit :=
  wfold (fun _ path => if str_in (hd [] (split_on 47 path)) all_versions then wret tt else werror (`"E042b"))
    manifest_files tt.

(** inventory_validator.py:507-516 _check_digests_present_and_used *)
Definition check_digests_present_and_used (manifest_files : dict str) (digests_used : list str) : wexc unit :=
  let in_manifest := map snd manifest_files in
  (if forallb (fun d => str_in d in_manifest) digests_used then wret tt else werror (`"E050a")) ;!
  (if forallb (fun d => str_in d digests_used) in_manifest then wret tt else werror (`"E107")).

(** inventory_validator.py:124  [a-z][a-z\d\+\-\.]*:.+ with IGNORECASE, under which [a-z]
    also matches U+0130, U+0131, U+017F and U+212A *)
Definition re_uri : re :=
  let letter c := ((65 <=? c) && (c <=? 90))%N || ((97 <=? c) && (c <=? 122))%N || (c =? 304)%N || (c =? 305)%N || (c =? 383)%N || (c =? 8490)%N in
  RSeq (RChr letter)
   (RSeq (RStar (RChr (fun c => letter c || is_digit c || (c =? 43)%N || (c =? 45)%N || (c =? 46)%N)))
    (RSeq (rlit (`":")) (rplus rdot))).

(** inventory_validator.py:117-128 id *)
Definition validate_id (inventory : json) : wexc (option str) :=
  let! c := wlift (py_in (`"id") inventory) in
  if c then
    let! i := wlift (py_getitem (`"id") inventory) in
    match i with
    | JStr [] => werror (`"E037a") ;! wret None
    | JStr s =>
        (match re_match re_uri s with Some _ => wret tt | None => wwarning (`"W005") end) ;! wret (Some s)
    | _ => werror (`"E037a") ;! wret None
    end
  else werror (`"E036a") ;! wret None.

(** inventory_validator.py:138  https://ocfl.io/(\d+.\d)/spec/#inventory *)
Definition re_type : re :=
  RSeq (rlit (`"https://ocfl")) (RSeq rdot (RSeq (rlit (`"io/"))
   (RSeq (RGroup 1 (RSeq (rplus rdigit) (RSeq rdot rdigit))) (rlit (`"/spec/#inventory"))))).

(** inventory_validator.py:129-145 type; returns the spec version *)
Definition validate_type (force : option str) (spec : str) (inventory : json) : wexc str :=
  let! c := wlift (py_in (`"type") inventory) in
  if negb c then werror (`"E036b") ;! wret spec
  else
    let! t := wlift (py_getitem (`"type") inventory) in
    match t with
    | JStr s =>
        let forced_wrong :=
          match force with
          | Some ((_ :: _) as f) => negb (str_eqb s (`"https://ocfl.io/" ++ f ++ `"/spec/#inventory"))
          | _ => false
          end in
        if forced_wrong then werror (`"E038a") ;! wret spec
        else
          match re_match re_type s with
          | None => werror (`"E038b") ;! wret spec
          | Some m =>
              if str_in (group_or_nil 1 m) SPEC_VERSIONS_SUPPORTED then wret (group_or_nil 1 m)
              else werror (`"E038c") ;! wret spec
          end
    | _ => werror (`"E038d") ;! wret spec
    end.

(** inventory_validator.py:146-157 digestAlgorithm; None means "return False" *)
Definition validate_digest_algorithm (lax : bool) (inventory : json) : wexc (option json) :=
  let default := JStr (`"sha512") in
  let! c := wlift (py_in (`"digestAlgorithm") inventory) in
  if negb c then werror (`"E036c") ;! wret (Some default)
  else
    let! a := wlift (py_getitem (`"digestAlgorithm") inventory) in
    if json_eq_str a (`"sha512") then wret (Some default)
    else if lax then wret (Some a)
    else if json_eq_str a (`"sha256") then wwarning (`"W004") ;! wret (Some a)
    else werror (`"E025a") ;! wret None.

(** inventory_validator.py:158-167 contentDirectory: (value, set) *)
Definition validate_content_directory (inventory : json) : wexc (str * bool) :=
  let default := (DEFAULT_CONTENT_DIRECTORY, false) in
  let! c := wlift (py_in (`"contentDirectory") inventory) in
  if negb c then wret default
  else
    let! cd := wlift (py_getitem (`"contentDirectory") inventory) in
    match cd with
    | JStr s =>
        if char_in 47 s then werror (`"E017") ;! wret default
        else if str_in s [`"."; `".."] then werror (`"E018") ;! wret default
        else wret (s, true)
    | _ => werror (`"E017") ;! wret default
    end.

(** inventory_validator.py:168-184: manifest, versions and head. Returns the attributes,
    manifest_files_correct_format and digests_used. *)
Definition validate_blocks (lax : bool) (id : option str) (spec : str) (alg : json) (cd : str * bool) (inventory : json)
  : wexc (iv * option (list str) * list str) :=
  let! c := wlift (py_in (`"manifest") inventory) in
  let! m := (if c then
               let! man := wlift (py_getitem (`"manifest") inventory) in
               let! r := validate_manifest lax alg (fst cd) man in wret (Some r)
             else werror (`"E041a") ;! wret None) in
  let mf := match m with Some (f, _, _) => Some f | None => None end in
  let correct := match m with Some (_, k, _) => Some k | None => None end in
  let unnorm := match m with Some (_, _, u) => Some u | None => None end in
  let! c := wlift (py_in (`"versions") inventory) in
  let! (all_versions, digests_used) :=
    (if c then
       let! vs := wlift (py_getitem (`"versions") inventory) in
       let! all := validate_version_sequence vs in
       let! used := validate_versions lax alg unnorm vs all in
       wret (all, used)
     else werror (`"E041b") ;! wret ([], [])) in
  let! c := wlift (py_in (`"head") inventory) in
  let! head :=
    (if negb c then werror (`"E036d") ;! wret (`"UNKNOWN")
     else match last_opt all_versions with
          | None => wret (`"UNKNOWN")
          | Some h =>
              let! hv := wlift (py_getitem (`"head") inventory) in
              (if json_eq_str hv h then wret tt else werror (`"E040")) ;! wret h
          end) in
  wret (mk_iv id spec alg (fst cd) (snd cd) all_versions mf unnorm head, correct, digests_used).

(** inventory_validator.py:194-200: the checks after the version sequence is known *)
Definition validate_rest (lax : bool) (st : iv) (correct : option (list str)) (digests_used : list str) (inventory : json)
  : wexc unit :=
  (match correct with
   | Some k => check_content_paths_map_to_versions k (iv_all_versions st)
   | None => wret tt
   end) ;!
  (match iv_manifest_files st with
   | Some mf => check_digests_present_and_used mf digests_used
   | None => wret tt
   end) ;!
  (let! c := wlift (py_in (`"fixity") inventory) in
   if c then
     let! f := wlift (py_getitem (`"fixity") inventory) in
     validate_fixity lax (iv_spec_version st) f (iv_manifest_files st)
   else wret tt).

(** The body of validate (inventory_validator.py:117-200): the attributes and whether it
    ran to the end (false: one of the two early "return False"). *)
Definition validate_body (lax : bool) (default_spec_version : str) (force : option str) (inventory : json)
  : wexc (iv * bool) :=
  let spec0 := match force with Some f => f | None => default_spec_version end in
  let! id := validate_id inventory in
  let! spec := validate_type force spec0 inventory in
  let! alg := validate_digest_algorithm lax inventory in
  match alg with
  | None => wret (mk_iv id spec (JStr (`"sha512")) DEFAULT_CONTENT_DIRECTORY false [] None None (`"UNKNOWN"), false)
  | Some alg =>
      let! cd := validate_content_directory inventory in
      let! (st, correct, digests_used) := validate_blocks lax id spec alg cd inventory in
      match iv_all_versions st with
      | [] => wret (st, false)
      | _ => validate_rest lax st correct digests_used inventory ;! wret (st, true)
      end
  end.

(** inventory_validator.py:98-202 validate: the attributes and the result. The check of
    191-192 adds E008 when it stops for lack of versions and nothing was logged. *)
Definition iv_validate (lax : bool) (default_spec_version : str) (force : option str) (inventory : json)
  : wexc (iv * bool) :=
  match validate_body lax default_spec_version force inventory with
  | (log, Ok (st, true)) => (log, Ok (st, no_errors log))
  | (log, Ok (st, false)) => (if no_errors log then log ++ [LError (`"E008")] else log, Ok (st, false))
  | (log, Raise e) => (log, Raise e)
  end.

(** ** validate_as_prior_version

    Both inventories are "assumed to have been checked"; a value of a type that the checks
    exclude is OtherException here. *)

Definition str_list (j : json) : exc (list str) :=
  match j with
  | JArr l => emap (fun x => match x with JStr s => Ok s | _ => Raise OtherException end) l
  | _ => Raise OtherException
  end.

(** inventory["versions"][version]["state"] *)
Definition version_state (inventory : json) (version : str) : exc (dict json) :=
  let* vs := py_getitem (`"versions") inventory in
  let* b := py_getitem version vs in
  let* st := py_getitem (`"state") b in
  match st with JObj d => Ok d | _ => Raise OtherException end.

(** inventory_validator.py:36-51 _get_logical_path_map *)
Definition get_logical_path_map (inventory : json) (version : str) : exc (dict (list str)) :=
  let* state := version_state inventory version in
  let* man := py_getitem (`"manifest") inventory in
  match man with
  | JObj manifest =>
      efold (fun (file_map : dict (list str)) (kv : str * json) =>
               match dget (fst kv) manifest with
               | None => Ok file_map
               | Some files =>
                   let* content := str_list files in
                   let* paths := str_list (snd kv) in
                   Ok (fold_left (fun m f => dset f content m) paths file_map)
               end) state []
  | _ => Raise OtherException
  end.

(** inventory_validator.py:577-600 _compare_states_for_version. The digests are visited in
    the order of the blocks (the order of a set in Python). *)
Definition compare_states_for_version (inventory prior_inventory : json) (version : str) : wexc unit :=
  let! self_state := wlift (version_state inventory version) in
  let! prior_state := wlift (version_state prior_inventory version) in
  wfold (fun _ digest =>
           if negb (dmem digest prior_state) then werror (`"E066d")
           else if negb (dmem digest self_state) then werror (`"E066e") else wret tt)
    (keys self_state ++ keys prior_state) tt.

(** a < b for sets of strings *)
Definition proper_subset (a b : list str) : bool :=
  forallb (fun x => str_in x b) a && negb (forallb (fun x => str_in x a) b).
Definition subset (a b : list str) : bool := forallb (fun x => str_in x b) a.

Definition same_algorithm (a b : json) : bool :=
  match a, b with JStr x, JStr y => str_eqb x y | _, _ => false end.

(** inventory["versions"][version], which must have get *)
Definition version_block (inventory : json) (version : str) : exc (dict json) :=
  let* vs := py_getitem (`"versions") inventory in
  let* b := py_getitem version vs in
  match b with JObj d => Ok d | _ => Raise AttributeError end.

(** inventory_validator.py:246-251: warnings about metadata that differs *)
Definition compare_metadata (inventory prior_inventory : json) (version : str) : wexc unit :=
  let! prior_version := wlift (version_block prior_inventory version) in
  let! self_version := wlift (version_block inventory version) in
  wfold (fun _ key => if py_eq (py_get key prior_version) (py_get key self_version) then wret tt else wwarning (`"W011"))
    [`"created"; `"message"; `"user"] tt.

(** inventory_validator.py:221-251, one version *)
Definition prior_version_check (inventory : json) (self : iv) (prior_inventory : json) (prior : iv)
  (_ : unit) (version : str) : wexc unit :=
  (if same_algorithm (iv_digest_algorithm prior) (iv_digest_algorithm self)
   then compare_states_for_version inventory prior_inventory version else wret tt) ;!
  ((let! prior_map := wlift (get_logical_path_map prior_inventory version) in
   let! self_map := wlift (get_logical_path_map inventory version) in
   let only_in_prior := negb (subset (keys prior_map) (keys self_map)) in
   let only_in_self := negb (subset (keys self_map) (keys prior_map)) in
   if only_in_prior || only_in_self then
     (if only_in_prior then werror (`"E066b") else wret tt) ;!
     (if only_in_self then werror (`"E066b") else wret tt)
   else
     wfold (fun _ kv => match dget (fst kv) self_map with
                        | None => wraise KeyError
                        | Some content => if subset (snd kv) content then wret tt else werror (`"E066c")
                        end) prior_map tt) ;!
   compare_metadata inventory prior_inventory version).

(** inventory_validator.py:204-254 validate_as_prior_version *)
Definition validate_as_prior_version (inventory : json) (self : iv) (prior_inventory : json) (prior : iv) : wexc bool :=
  match (if negb (proper_subset (iv_all_versions prior) (iv_all_versions self)) then werror (`"E066a")
         else wfold (prior_version_check inventory self prior_inventory prior) (iv_all_versions prior) tt) with
  | (log, Ok _) => (log, Ok (no_errors log))
  | (log, Raise e) => (log, Raise e)
  end.
