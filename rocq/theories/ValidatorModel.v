(** Model of ocfl/validator.py for objects on a local file system.

    The validator only reads, so the file system [w] is an argument and no result. Log
    entries are codes (Log.v). *)
From Verif Require Import Base Unicode Regex Utf8 Json PyJson Log TextFile PathModel FsModel FswModel NamasteModel DigestModel ObjectUtilsModel.
From Verif Require Import InventoryValidatorModel.
Open Scope N_scope.

(** ocfl/validator.py:31-85 __init__: the options that are used. force_spec_version is
    stored but used nowhere. [sizes] are the sizes the operating system gives for what is
    not a file. *)
Record vconf := mkVconf { vc_check_digests : bool; vc_lax_digests : bool; vc_default_spec : str; vc_sizes : place -> N }.

(** ocfl/constants.py:3 *)
Definition INVENTORY_FILENAME : str := `"inventory.json".

(** os.path.relpath(path, start), for paths that do not leave the current directory by ".." *)
Fixpoint os_rel (p s : place) : place :=
  match p, s with
  | a :: p', b :: s' => if str_eqb a b then os_rel p' s' else repeat (`"..") (List.length s) ++ p
  | _, _ => repeat (`"..") (List.length s) ++ p
  end.
Definition os_relpath (path start : str) : str :=
  match os_rel (resolve (split_on slash path)) (resolve (split_on slash start)) with
  | [] => `"."
  | l => join [slash] l
  end.

(** ocfl/validator.py:138-144, the version of one declaration file *)
Definition declared_version (n : namaste) : option str :=
  find (fun v => str_eqb (filename n) (`"0=ocfl_object_" ++ v)) SPEC_VERSIONS_SUPPORTED.

(** a > b for strings *)
Definition str_gt (a b : str) : bool := negb (str_leb a b).

(** ocfl/validator.py:137-150, one declaration file *)
Definition check_declaration (w : node) (h : place) (spec : option str) (n : namaste) : wexc (option str) :=
  match declared_version n with
  | None => werror (`"E006") ;! wret spec
  | Some v =>
      if (match spec with None => true | Some s => str_gt v s end) then
        let! ok := wlift (content_ok n w h []) in
        (if (ok : bool) then wret tt else werror (`"E007")) ;! wret (Some v)
      else wret spec
  end.

(** ocfl/validator.py:131-157: the version of the specification *)
Definition check_declarations (c : vconf) (w : node) (h : place) (namastes : list namaste) : wexc str :=
  match namastes with
  | [] => werror (`"E003a") ;! wret (vc_default_spec c)
  | _ =>
      let! spec := wfold (check_declaration w h) namastes None in
      match spec with
      | None => werror (`"E003c") ;! wret (vc_default_spec c)
      | Some v => (if Nat.ltb 1 (List.length namastes) then werror (`"E003b") else wret tt) ;! wret v
      end
  end.

(** ocfl/validator.py:184-215 validate_inventory, without force_spec_version. None stands for
    ValidatorAbortException, which only this function raises and only validate_object
    catches: after None nothing more is done. *)
Definition validate_inventory (c : vconf) (w : node) (h : place) (inv_file spec : str) : wexc (option (json * iv)) :=
  match (let* b := fs_read w h inv_file in json_load b) with
  | Raise FileNotFoundError | Raise JSONDecodeError => werror (`"E033") ;! wret None
  | Raise e => wraise e
  | Ok inventory =>
      let! (st, _) := iv_validate (vc_lax_digests c) spec None inventory in
      wret (Some (inventory, st))
  end.

(** the first line of a text, with its newline *)
Fixpoint readline (s : str) : str :=
  match s with [] => [] | x :: r => if x =? 10 then [10] else x :: readline r end.

(** ocfl/validator.py:517  (\w+)\s+(\S+)\s*$ *)
Definition re_sidecar : re :=
  RSeq (RGroup 1 (rplus rword)) (RSeq (rplus rspace) (RSeq (RGroup 2 (rplus rnspace)) (RSeq (RStar rspace) RDollar))).

(** ocfl/validator.py:504-522 read_inventory_digest. Simplification: the whole file is
    decoded, not only the block that has the first line. *)
Definition read_inventory_digest (w : node) (h : place) (inv_digest_file : str) : exc str :=
  let* text := fs_read_text w h inv_digest_file in
  match re_match re_sidecar (readline text) with
  | None => Raise ValueError
  | Some m => if str_eqb (group_or_nil 2 m) INVENTORY_FILENAME then Ok (group_or_nil 1 m) else Raise ValueError
  end.

(** ocfl/validator.py:234  .*\.(\w+)$ *)
Definition re_sidecar_name : re := RSeq (RStar rdot) (RSeq (rchar 46) (RSeq (RGroup 1 (rplus rword)) RDollar)).

(** file_digest(filename, digest_type, fs) *)
Definition fs_digest (H : hashfn) (w : node) (h : place) (path alg : str) : exc str :=
  let* b := fs_read w h path in file_digest H alg b.

(** ocfl/validator.py:225-244 validate_inventory_digest_match. UnicodeDecodeError and
    UnicodeEncodeError are ValueErrors. *)
Definition validate_inventory_digest_match (H : hashfn) (c : vconf) (w : node) (h : place) (inv_file inv_digest_file : str) : wexc unit :=
  if negb (vc_check_digests c) then wret tt
  else
    match re_match re_sidecar_name inv_digest_file with
    | None => werror (`"E058b")
    | Some m =>
        match (let* recorded := read_inventory_digest w h inv_digest_file in
               let* actual := fs_digest H w h inv_file (group_or_nil 1 m) in
               Ok (str_eqb actual recorded)) with
        | Ok true => wret tt
        | Ok false => werror (`"E060")
        | Raise ValueError | Raise UnicodeDecodeError => werror (`"E061")
        | Raise e => wraise e
        end
    end.

(** ocfl/validator.py:217-223 validate_inventory_digest *)
Definition validate_inventory_digest (H : hashfn) (c : vconf) (w : node) (h : place) (inv_file : str) (alg : json) : wexc unit :=
  match alg with
  | JStr a =>
      let inv_digest_file := inv_file ++ `"." ++ a in
      if negb (fs_exists w h inv_digest_file) then werror (`"E058a")
      else validate_inventory_digest_match H c w h inv_file inv_digest_file
  | _ => wraise TypeError
  end.

(** ocfl/validator.py:271  v\d+$ *)
Definition re_version_dir : re := RSeq (rlit (`"v")) (RSeq (rplus rdigit) RDollar).

(** ocfl/validator.py:69-73 *)
Definition registered_extensions : list str :=
  [`"0001-digest-algorithms"; `"0002-flat-direct-storage-layout"; `"0003-hash-and-id-n-tuple-storage-layout";
   `"0004-hashed-n-tuple-storage-layout"; `"0005-mutable-head"].

(** ocfl/validator.py:279-294 validate_extensions_dir *)
Definition validate_extensions_dir (w : node) (h : place) : wexc unit :=
  let! l := wlift (fs_ls w h (`"extensions")) in
  wfold (fun _ (e : str * ftype) =>
           match snd e with
           | TDir => if str_in (fst e) registered_extensions then wret tt else wwarning (`"W013")
           | _ => werror (`"E067")
           end) l tt.

(** ocfl/validator.py:255-277, one entry of the object root *)
Definition check_root_entry (w : node) (h : place) (version_dirs expected_files already_checked : list str)
    (_ : unit) (e : str * ftype) : wexc unit :=
  let '(name, t) := e in
  match t with
  | TFile => if negb (str_in name expected_files) && negb (str_in name already_checked) then werror (`"E001a") else wret tt
  | TDir =>
      if str_in name version_dirs then wret tt
      else if str_eqb name (`"logs") then wret tt
      else if str_eqb name (`"extensions") then validate_extensions_dir w h
      else match re_match re_version_dir name with Some _ => werror (`"E046b") | None => werror (`"E001b") end
  | TOther => werror (`"E001c")
  end.

(** ocfl/validator.py:246-277 validate_object_root *)
Definition validate_object_root (w : node) (h : place) (spec : str) (alg : json) (version_dirs already_checked : list str) : wexc unit :=
  match alg with
  | JStr a =>
      let expected_files := [`"0=ocfl_object_" ++ spec; INVENTORY_FILENAME; `"inventory.json." ++ a] in
      let! l := wlift (fs_ls w h []) in
      wfold (check_root_entry w h version_dirs expected_files already_checked) l tt
  | _ => wraise TypeError
  end.

(** file -> algorithm -> digests. The versions kept with each digest (for messages) are
    left out. *)
Definition digests_of_files : Type := dict (dict (list str)).
Definition add_digest (alg digest : str) (m : digests_of_files) (filepath : str) : digests_of_files :=
  let algs := match dget filepath m with Some a => a | None => [] end in
  let ds := match dget alg algs with Some l => l | None => [] end in
  dset filepath (dset alg (set_add digest ds) algs) m.

(** The items of a dict, as "for k in j: ... j[k] ..." visits them. An inventory whose block
    is no dict has been found wrong before; of the exceptions that follow only that there is
    one is modelled. *)
Definition block_items (j : json) : exc (list (str * json)) :=
  match j with
  | JObj d => Ok d
  | JArr [] | JStr [] => Ok []
  | _ => Raise TypeError
  end.
(** for filepath in j, where the file path is put in a set. A file path that is not a string
    (found wrong before) is left out here; Python keeps it if it is hashable. *)
Definition path_items (j : json) : exc (list str) :=
  let* l := py_iter j in
  let* ll := emap (fun x => if hashable x then Ok (match x with JStr s => [s] | _ => [] end) else Raise TypeError) l in
  Ok (concat ll).

(** all file paths with their digests, in order *)
Definition digest_paths (block : json) : exc (list (str * str)) :=
  let* items := block_items block in
  let* ll := emap (fun kv => let* ps := path_items (snd kv) in Ok (map (fun p => (fst kv, p)) ps)) items in
  Ok (concat ll).

(** Local variables of validate_version_inventories, and self.inventory_digest_files *)
Record vistate := mkVis {
  vi_manifest : digests_of_files;   (* prior_manifest_digests *)
  vi_fixity : digests_of_files;     (* prior_fixity_digests *)
  vi_sidecars : dict str;           (* self.inventory_digest_files *)
  vi_prev_spec : str                (* prev_spec_version *)
}.

(** What validate_object keeps of the root inventory. *)
Record rootinfo := mkRoot { ri_inventory : json; ri_iv : iv; ri_spec : str }.

(** a if it is a string and True as a condition *)
Definition truthy (a : option str) : option str := match a with Some (_ :: _) => a | _ => None end.

(** ocfl/validator.py:343-345 *)
Definition check_id (root_id : option str) (inventory : json) : wexc unit :=
  match truthy root_id with
  | None => wret tt
  | Some i =>
      let! has := wlift (py_in (`"id") inventory) in
      if (has : bool) then
        let! j := wlift (py_getitem (`"id") inventory) in
        if json_eq_str j i then wret tt else werror (`"E037b")
      else wret tt
  end.

(** ocfl/validator.py:346-361: contentDirectory. The flag of the first version is always
    that of this version, because the condition of line 346 is always true. *)
Definition check_content_directory (root v : iv) : wexc unit :=
  (if negb (iv_content_directory_set v) && iv_content_directory_set root then werror (`"E019") else wret tt) ;!
  (if str_eqb (iv_content_directory root) (iv_content_directory v) then wret tt else werror (`"E020")).

(** ocfl/validator.py:362-382: the manifest of an earlier version. *)
Definition check_manifest (alg : json) (inventory : json) (prior : digests_of_files) : wexc digests_of_files :=
  let! has := wlift (py_in (`"manifest") inventory) in
  if negb has then wret prior
  else
    let! man := wlift (py_getitem (`"manifest") inventory) in
    let! items := wlift (digest_paths man) in
    (if forallb (fun p => str_in p (map snd items)) (keys prior) then wret tt else werror (`"E023b")) ;!
    match alg with
    | JStr a => wret (fold_left (fun m dp => add_digest a (normalized_digest (fst dp) a) m (snd dp)) items prior)
    | _ => match items with [] => wret prior | _ => wraise TypeError end
    end.

(** ocfl/validator.py:388-399: the fixity block of an earlier version *)
Definition record_fixity (inventory : json) (prior : digests_of_files) : exc digests_of_files :=
  let* has := py_in (`"fixity") inventory in
  if negb has then Ok prior
  else
    let* fx := py_getitem (`"fixity") inventory in
    let* algs := block_items fx in
    efold (fun m (ab : str * json) =>
             let* items := digest_paths (snd ab) in
             Ok (fold_left (fun m dp => add_digest (fst ab) (normalized_digest (fst dp) (fst ab)) m (snd dp)) items m))
      algs prior.

(** ocfl/validator.py:314-403, one version directory. [root] is the inventory of the object
    root. *)
Definition validate_version_dir (H : hashfn) (c : vconf) (w : node) (h : place) (root : rootinfo) (last_version : str)
    (s : vistate) (version_dir : str) : wexc (option vistate) :=
  let inv_file := path_join version_dir INVENTORY_FILENAME in
  if negb (fs_exists w h inv_file) then wwarning (`"W010") ;! wret (Some s)
  else
    let! o :=
      (if str_eqb version_dir last_version then
         let! same := wlift (fsw_files_identical (vc_sizes c) w h inv_file INVENTORY_FILENAME) in
         (if (same : bool) then validate_inventory_digest H c w h inv_file (iv_digest_algorithm (ri_iv root))
          else werror (`"E064")) ;!
         match iv_digest_algorithm (ri_iv root) with
         | JStr a => wret (Some (mkVis (vi_manifest s) (vi_fixity s) (dset version_dir (`"inventory.json." ++ a) (vi_sidecars s)) (vi_prev_spec s),
                                 ri_spec root))
         | _ => wraise TypeError
         end
       else
         let! o := validate_inventory c w h inv_file (ri_spec root) in
         match o with
         | None => wret None
         | Some (inventory, st) =>
             let alg := iv_digest_algorithm st in
             validate_inventory_digest H c w h inv_file alg ;!
             (let! sidecar := (match alg with JStr a => wret (`"inventory.json." ++ a) | _ => wraise TypeError end) in
              check_id (iv_id (ri_iv root)) inventory ;!
              check_content_directory (ri_iv root) st ;!
              (let! pm := check_manifest alg inventory (vi_manifest s) in
               validate_as_prior_version (ri_inventory root) (ri_iv root) inventory st ;!
               (let! pf := wlift (record_fixity inventory (vi_fixity s)) in
                wret (Some (mkVis pm pf (dset version_dir sidecar (vi_sidecars s)) (vi_prev_spec s), iv_spec_version st)))))
         end) in
    match o with
    | None => wret None
    | Some (s', this_spec) =>
        (if str_gt (vi_prev_spec s) this_spec then werror (`"E103") else wret tt) ;!
        wret (Some (mkVis (vi_manifest s') (vi_fixity s') (vi_sidecars s') this_spec))
    end.

(** not after an abort *)
Definition unless_aborted {A S} (f : S -> A -> wexc (option S)) (o : option S) (a : A) : wexc (option S) :=
  match o with None => wret None | Some s => f s a end.

(** ocfl/validator.py:296-404 validate_version_inventories *)
Definition validate_version_inventories (H : hashfn) (c : vconf) (w : node) (h : place) (root : rootinfo) (version_dirs : list str)
    : wexc (option vistate) :=
  let s0 := mkVis [] [] [] (`"1.0") in
  match last_opt version_dirs with
  | None => wret (Some s0)
  | Some last => wfold (unless_aborted (validate_version_dir H c w h root last)) version_dirs (Some s0)
  end.

(** ocfl/validator.py:425-434: the files of a content directory *)
Definition walk_content (w : node) (h : place) (content_path : str) : wexc (list str) :=
  let '(ys, r) := fsw_walk keep_all w h content_path in
  let! files :=
    wfold (fun (files : list str) (y : yield) =>
             let '(dirpath, (dirs, names)) := y in
             (if negb (str_eqb dirpath (slash :: content_path)) && Nat.eqb (List.length dirs + List.length names) 0
              then werror (`"E024") else wret tt) ;!
             wret (files ++ map (fun n => lstrip_slash (path_join dirpath n)) names)) ys [] in
  let! _ := wlift r in
  wret files.

(** ocfl/validator.py:419-440, one entry of a version directory; [seen] is files_seen *)
Definition check_version_entry (w : node) (h : place) (content_directory : str) (sidecar : option str) (version_dir : str)
    (seen : list str) (entrypath : str) : wexc (list str) :=
  let entry := os_relpath entrypath version_dir in
  if str_eqb entry INVENTORY_FILENAME || match sidecar with Some s => str_eqb entry s | None => false end then wret seen
  else if str_eqb entry content_directory then
    let! files := walk_content w h (path_join version_dir content_directory) in
    (match files with [] => wwarning (`"W003") | _ => wret tt end) ;!
    wret (fold_left (fun s x => set_add x s) files seen)
  else if fs_isdir w h entrypath then wwarning (`"W002") ;! wret seen
  else werror (`"E015") ;! wret seen.

(** try ... except FileNotFoundError: log an error *)
Definition wcatch_missing {A} (x : wexc A) (code : str) (a : A) : wexc A :=
  match snd x with
  | Raise FileNotFoundError => (fst x ++ [LError code], Ok a)
  | _ => x
  end.

(** ocfl/validator.py:415-442, one version directory. FileNotFoundError can only come from
    listing it, when nothing has been seen. *)
Definition check_version_content (w : node) (h : place) (content_directory : str) (sidecars : dict str)
    (seen : list str) (version_dir : str) : wexc (list str) :=
  wcatch_missing
    (let! l := wlift (fs_ls w h version_dir) in
     wfold (check_version_entry w h content_directory (dget version_dir sidecars) version_dir) (map fst l) seen)
    (`"E046a") seen.

(** ocfl/validator.py:443-457: the fixity block of the root inventory, for the files seen *)
Definition root_fixity (inventory : json) (seen : list str) : wexc digests_of_files :=
  let! has := wlift (py_in (`"fixity") inventory) in
  if negb has then wret []
  else
    let! fx := wlift (py_getitem (`"fixity") inventory) in
    let! algs := wlift (block_items fx) in
    wfold (fun m (ab : str * json) =>
             let! items := wlift (digest_paths (snd ab)) in
             wfold (fun m dp => if str_in (snd dp) seen then wret (add_digest (fst ab) (fst dp) m (snd dp))
                                else werror (`"E093b") ;! wret m) items m)
      algs [].

(** ocfl/validator.py:477-502 check_additional_digests; known_digests is returned *)
Definition check_additional_digests (H : hashfn) (w : node) (h : place) (filepath : str) (known : dict str)
    (additional : digests_of_files) (code : str) : wexc (dict str) :=
  match dget filepath additional with
  | None => wret known
  | Some algs =>
      wfold (fun (known : dict str) (ad : str * list str) =>
               let! d := (match dget (fst ad) known with
                          | Some d => wret d
                          | None => wlift (fs_digest H w h filepath (fst ad))
                          end) in
               wfold (fun _ x => if str_eqb d (normalized_digest x (fst ad)) then wret tt else werror code) (snd ad) tt ;!
               wret (dset (fst ad) d known)) algs known
  end.

(** ocfl/validator.py:461-472, one file of the root manifest; [remaining] is files_seen *)
Definition check_file (H : hashfn) (c : vconf) (w : node) (h : place) (alg : str) (fixity : digests_of_files) (prior : vistate)
    (remaining : list str) (dp : str * str) : wexc (list str) :=
  let '(digest, filepath) := dp in
  if negb (str_in filepath remaining) then werror (`"E092b") ;! wret remaining
  else
    (if vc_check_digests c then
       let! d := wlift (fs_digest H w h filepath alg) in
       (if str_eqb d (normalized_digest digest alg) then wret tt else werror (`"E092a")) ;!
       (let! known := check_additional_digests H w h filepath [(alg, d)] fixity (`"E093a") in
        let! known := check_additional_digests H w h filepath known (vi_manifest prior) (`"E092a") in
        let! known := check_additional_digests H w h filepath known (vi_fixity prior) (`"E093a") in
        wret tt)
     else wret tt) ;!
    wret (filter (fun x => negb (str_eqb filepath x)) remaining).

(** ocfl/validator.py:406-475 validate_content *)
Definition validate_content (H : hashfn) (c : vconf) (w : node) (h : place) (root : rootinfo) (version_dirs : list str) (prior : vistate)
    : wexc unit :=
  let! seen := wfold (check_version_content w h (iv_content_directory (ri_iv root)) (vi_sidecars prior)) version_dirs [] in
  let! fixity := root_fixity (ri_inventory root) seen in
  let! has := wlift (py_in (`"manifest") (ri_inventory root)) in
  let! unmatched :=
    (if (has : bool) then
       let! man := wlift (py_getitem (`"manifest") (ri_inventory root)) in
       let! items := wlift (digest_paths man) in
       match iv_digest_algorithm (ri_iv root) with
       | JStr alg => wfold (check_file H c w h alg fixity prior) items seen
       | _ => wraise TypeError
       end
     else wret seen) in
  match unmatched with [] => wret tt | _ => werror (`"E023a") end.

(** ocfl/validator.py:163-181: the steps that may be aborted. [n] is the number of errors
    logged before. *)
Definition validate_parts (H : hashfn) (c : vconf) (w : node) (h : place) (n : nat) (spec : str) (namastes : list namaste) : wexc unit :=
  match validate_inventory c w h INVENTORY_FILENAME spec with
  | (log, Raise e) => (log, Raise e)
  | (log, Ok None) => (log, Ok tt)
  | (log, Ok (Some (inventory, st))) =>
      let inventory_is_valid := Nat.eqb (n + num_errors log) 0 in
      let root := mkRoot inventory st spec in
      (log, Ok tt) ;!
      validate_inventory_digest H c w h INVENTORY_FILENAME (iv_digest_algorithm st) ;!
      validate_object_root w h spec (iv_digest_algorithm st) (iv_all_versions st) (map filename namastes) ;!
      (let! o := validate_version_inventories H c w h root (iv_all_versions st) in
       match o with
       | None => wret tt
       | Some prior => if inventory_is_valid then validate_content H c w h root (iv_all_versions st) prior else wret tt
       end)
  end.

(** ocfl/validator.py:128-182 validate_object, with an open file system. [n] is the number of
    errors already in the log. The result of True is told by the caller's log; "return False"
    of line 161 is the flag. *)
Definition validate_opened (H : hashfn) (c : vconf) (w : node) (h : place) (n : nat) : wexc bool :=
  let! namastes := wlift (find_namastes w h (`"0") [] 10) in
  match check_declarations c w h namastes with
  | (log, Raise e) => (log, Raise e)
  | (log, Ok spec) =>
      if negb (fs_exists w h INVENTORY_FILENAME) then (log ++ [LError (`"E063")], Ok false)
      else
        match validate_parts H c w h (n + num_errors log) spec namastes with
        | (log', Raise e) => (log ++ log', Raise e)
        | (log', Ok _) => (log ++ log', Ok (Nat.eqb (n + num_errors (log ++ log')) 0))
        end
  end.

(** ocfl/validator.py:109-182 validate_object, with a path *)
Definition validate_object (H : hashfn) (c : vconf) (w : node) (cwd : place) (path : str) (n : nat) : wexc bool :=
  match result (fsw_openfs cwd path false true) w with
  | Raise FileNotFoundError => werror (`"E003e") ;! wret false
  | Raise e => wraise e
  | Ok h => validate_opened H c w h n
  end.
