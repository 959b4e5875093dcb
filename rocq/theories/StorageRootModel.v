(** Model of ocfl/storage_root.py on local file systems, and of the layout configuration
    files of ocfl/layout.py.

    Not modelled: logging, and the text of messages. *)
From Verif Require Import Base Unicode Regex Json PyJson JsonTextModel Log DigestModel LayoutModel InventoryModel ParseModel TextFile PathModel
  FsModel FswModel NamasteModel ValidatorModel ObjectModel.

(** ** Instances: storage_root.py:54-86

    layout_file and registered_extensions are constants, traversal_errors and
    layout_description are never used. Of a log the codes are kept, and of [errors] the paths
    with the entries whose messages are stored. *)
Record sroot := mk_sroot {
  s_root : option str;
  s_layout_name : option str;
  s_layout : option layout;            (* _layout *)
  s_lax : bool;
  s_spec : option str;
  s_fs : option place;                 (* root_fs *)
  s_log : option (list entry);
  s_num_traversal_errors : nat;
  s_num_objects : nat;
  s_good_objects : nat;
  s_errors : list (str * list entry)
}.

(** Methods: they read and change the instance, also when they raise an exception. *)
Definition st (A : Type) : Type := sroot -> io (sroot * exc A).
Definition sret {A} (a : A) : st A := fun s => iret (s, Ok a).
Definition sraise {A} (e : exn) : st A := fun s => iret (s, Raise e).
Definition sbind {A B} (x : st A) (f : A -> st B) : st B := fun s =>
  do r <- x s ;; match snd r with Ok a => f a (fst r) | Raise e => iret (fst r, Raise e) end.
Definition sget : st sroot := fun s => iret (s, Ok s).
Definition sput (s : sroot) : st unit := fun _ => iret (s, Ok tt).
Definition sio {A} (x : io A) : st A := fun s w => (fst (x w), Ok (s, snd (x w))).
Definition slift {A} (x : exc A) : st A := fun s => iret (s, x).
Definition sread {A} (f : node -> exc A) : st A := sio (iread f).
Notation "'use' x <- a ;; b" := (sbind a (fun x => b)) (at level 200, x pattern, a at level 100, b at level 200, right associativity).

Definition set_spec (v : option str) (s : sroot) : sroot :=
  mk_sroot (s_root s) (s_layout_name s) (s_layout s) (s_lax s) v (s_fs s) (s_log s) (s_num_traversal_errors s) (s_num_objects s) (s_good_objects s) (s_errors s).
Definition set_fs (v : option place) (s : sroot) : sroot :=
  mk_sroot (s_root s) (s_layout_name s) (s_layout s) (s_lax s) (s_spec s) v (s_log s) (s_num_traversal_errors s) (s_num_objects s) (s_good_objects s) (s_errors s).
Definition set_layout_name (v : option str) (s : sroot) : sroot :=
  mk_sroot (s_root s) v (s_layout s) (s_lax s) (s_spec s) (s_fs s) (s_log s) (s_num_traversal_errors s) (s_num_objects s) (s_good_objects s) (s_errors s).
Definition set_layout (v : option layout) (s : sroot) : sroot :=
  mk_sroot (s_root s) (s_layout_name s) v (s_lax s) (s_spec s) (s_fs s) (s_log s) (s_num_traversal_errors s) (s_num_objects s) (s_good_objects s) (s_errors s).
Definition set_log (v : option (list entry)) (s : sroot) : sroot :=
  mk_sroot (s_root s) (s_layout_name s) (s_layout s) (s_lax s) (s_spec s) (s_fs s) v (s_num_traversal_errors s) (s_num_objects s) (s_good_objects s) (s_errors s).
Definition set_traversal_errors (v : nat) (s : sroot) : sroot :=
  mk_sroot (s_root s) (s_layout_name s) (s_layout s) (s_lax s) (s_spec s) (s_fs s) (s_log s) v (s_num_objects s) (s_good_objects s) (s_errors s).
Definition set_counts (n g : nat) (l : list (str * list entry)) (s : sroot) : sroot :=
  mk_sroot (s_root s) (s_layout_name s) (s_layout s) (s_lax s) (s_spec s) (s_fs s) (s_log s) (s_num_traversal_errors s) n g l.
Definition smodify (f : sroot -> sroot) : st unit := fun s => iret (f s, Ok tt).

(** ocfl/constants.py:6 *)
Definition SPEC_VERSIONS_SUPPORTED : list str := [`"1.0"; `"1.1"].

(** storage_root.py:88-106 check_spec_version *)
Definition check_spec_version (spec_version : option str) : st unit :=
  use s <- sget ;;
  let v := match spec_version, s_spec s with None, None => Some DEFAULT_SPEC_VERSION | v, _ => v end in
  match v with
  | Some t => if str_in t SPEC_VERSIONS_SUPPORTED then smodify (set_spec v) else sraise (StorageRootException [])
  | None => sraise (StorageRootException [])
  end.

(** storage_root.py:54-86 __init__ *)
Definition new_sroot (root layout_name : option str) (lax : bool) (spec_version : option str) : exc sroot :=
  let s := mk_sroot root layout_name None lax None None None 0 0 0 [] in
  match spec_version with
  | None => Ok s
  | Some v => if str_in v SPEC_VERSIONS_SUPPORTED then Ok (set_spec (Some v) s) else Raise (StorageRootException [])
  end.

(** storage_root.py:108-120 open_root_fs; fsw_openfs(None) raises AttributeError *)
Definition open_root_fs (e : env) : st place :=
  use s <- sget ;;
  match s_root s with
  | None => sraise AttributeError
  | Some r =>
      use h <- (fun s w => match fsw_openfs (e_cwd e) r false true w with
                           | (l, Raise FileNotFoundError) => (l, Ok (s, Raise (StorageRootException [])))
                           | (l, x) => (l, Ok (s, x))
                           end) ;;
      use _ <- smodify (set_fs (Some h)) ;;
      sret h
  end.

(** storage_root.py:131-140 layout *)
Definition the_layout : st (option layout) :=
  use s <- sget ;;
  match s_layout s, s_layout_name s with
  | None, Some n => use l <- slift (get_layout n) ;; use _ <- smodify (set_layout (Some l)) ;; sret (Some l)
  | l, _ => sret l
  end.

(** self.root_fs of methods that need it; if it is None then the first use of it raises
    AttributeError *)
Definition root_fs : st place := use s <- sget ;; match s_fs s with Some h => sret h | None => sraise AttributeError end.

(** ** Layout files *)

(** storage_root.py:74 *)
Definition layout_file : str := `"ocfl_layout.json".

(** self.DESCRIPTION of each class *)
Definition layout_description (l : layout) : str :=
  match l with
  | L0002 => `"Extension 0002: Flat Direct Storage Layout"
  | L0003 _ _ _ => `"Extension 0003: Hashed Truncated N-tuple Trees with Object ID Encapsulating Directory for OCFL Storage Hierarchies"
  | LFlatQuoted => `"Local extension, flat layout with simple quoting of object ids"
  | LTupleTree _ => `"Local extension, unhashed tuple-tree with configurable tuple size"
  | LUuid _ => `"Local extension to support UUID URIs with quadtree directory names"
  end.

(** layout.py:60-63 config_file *)
Definition config_file (l : layout) : str := path_join_list [`"extensions"; LayoutModel.layout_name l; `"config.json"].

(** check_and_set_layout_params (layout.py:181-209) of any JSON value: "in" fails for values
    that are no containers, strings and lists have no get(). Simplification: if a parameter is
    not accepted then no other parameter has been changed. *)
Definition set_layout_params (H : hashfn) (l : layout) (config : json) (require_extension_name : bool) : exc layout :=
  match config with
  | JObj d => check_and_set_layout_params H l d require_extension_name
  | JStr _ | JArr _ => Raise AttributeError
  | _ => Raise TypeError
  end.

(** layout.py:149-179 read_layout_params with params_required=False *)
Definition read_layout_params (H : hashfn) (w : node) (h : place) (l : layout) : exc layout :=
  if fs_exists w h (config_file l) then
    match (let* b := fs_read w h (config_file l) in json_load_binary b) with
    | Raise _ => Raise LayoutException
    | Ok (JObj d) => check_and_set_layout_params H l d true
    | Ok _ => Raise LayoutException
    end
  else Ok l.

(** layout.py:211-236 write_layout_params *)
Definition write_layout_params (h : place) (l : layout) : io unit :=
  match layout_config l with
  | None => iret tt
  | Some c =>
      do x <- iread (fun w => Ok (fs_exists w h (config_file l))) ;;
      if (x : bool) then iraise LayoutException
      else fun w => match (fs_makedirs h (path_dirname (config_file l)) false ;; fs_write_text h (config_file l) (json_print false 0 c)) w with
                    | (s, Raise _) => (s, Raise LayoutException)
                    | r => r
                    end
  end.

(** ** initialize: storage_root.py:177-218 *)

(** storage_root.py:122-128 write_root_declaration. The specification version is a string
    when this is called. *)
Definition root_declaration (spec : str) : namaste := mkNamaste (`"0") (`"ocfl_" ++ spec) None.

Definition layout_json (l : layout) : json :=
  JObj [(`"extension", JStr (LayoutModel.layout_name l)); (`"description", JStr (layout_description l))].

Definition initialize (H : hashfn) (e : env) (spec_version layout_params : option str) : st unit :=
  use l <- the_layout ;;
  use _ <- (match l, layout_params with
            | Some l, Some p =>
                match json_loads p with
                | Raise _ => sraise (StorageRootException [])
                | Ok config => use l' <- slift (set_layout_params H l config false) ;; smodify (set_layout (Some l'))
                end
            | _, _ => sret tt
            end) ;;
  use _ <- check_spec_version spec_version ;;
  use s <- sget ;;
  match s_root s with
  | None => sraise TypeError
  | Some r =>
      let '(parent, root_dir) := path_split r in
      use parent_fs <- sio (fsw_openfs (e_cwd e) parent false true) ;;
      use x <- sread (fun w => Ok (fs_exists w parent_fs root_dir)) ;;
      if (x : bool) then sraise (StorageRootException [])
      else
        use _ <- sio (fs_makedir parent_fs root_dir) ;;
        use h <- sio (fsw_openfs (e_cwd e) r false true) ;;
        use _ <- smodify (set_fs (Some h)) ;;
        use _ <- (match s_spec s with Some v => sio (namaste_write (root_declaration v) h []) | None => sraise TypeError end) ;;
        use l <- the_layout ;;
        match l with
        | None => sret tt
        | Some l => use _ <- sio (fs_write_text h layout_file (json_dumps (layout_json l))) ;; sio (write_layout_params h l)
        end
  end.

(** ** Structure: storage_root.py:220-293 *)

(** storage_root.py:271-293 parse_layout_file *)
Definition parse_layout_file (w : node) (h : place) : exc (str * str) :=
  match (let* b := fs_read w h layout_file in json_load_binary b) with
  | Raise _ => Raise (StorageRootException (`"E070a"))
  | Ok (JObj d) =>
      match dget (`"extension") d, dget (`"description") d with
      | Some (JStr x), Some (JStr t) => Ok (x, t)
      | _, _ => Raise (StorageRootException (`"E070c"))
      end
  | Ok _ => Raise (StorageRootException (`"E070b"))
  end.

(** storage_root.py:243-251 *)
Definition root_version (n : namaste) : option str := find (fun v => str_eqb (filename n) (`"0=ocfl_" ++ v)) SPEC_VERSIONS_SUPPORTED.

Definition check_root_structure (H : hashfn) : st bool :=
  use h <- root_fs ;;
  use namastes <- sread (fun w => find_namastes w h (`"0") [] 10) ;;
  match namastes with
  | [] => sraise (StorageRootException (`"E069a"))
  | n :: rest =>
      match rest with
      | _ :: _ => sraise (StorageRootException (`"E069b"))
      | [] =>
          match root_version n with
          | None => sraise (StorageRootException (`"E069c"))
          | Some v =>
              use s <- sget ;;
              if match s_spec s with Some t => negb (str_eqb t v) | None => false end then sraise (StorageRootException (`"E069c"))
              else
                use _ <- smodify (set_spec (Some v)) ;;
                use ok <- sread (fun w => content_ok n w h []) ;;
                if negb ok then sraise (StorageRootException (`"E069e"))
                else
                  use x <- sread (fun w => Ok (fs_exists w h layout_file)) ;;
                  if negb x then sret true
                  else
                    use p <- sread (fun w => parse_layout_file w h) ;;
                    use _ <- smodify (set_layout_name (Some (fst p))) ;;
                    if negb (layout_is_supported (fst p)) then sraise (StorageRootException (`"E071"))
                    else
                      use l <- the_layout ;;
                      match l with
                      | None => sraise AttributeError
                      | Some l => use l' <- sread (fun w => read_layout_params H w h l) ;; use _ <- smodify (set_layout (Some l')) ;; sret true
                      end
          end
      end
  end.

(** storage_root.py:160-175 object_path *)
Definition object_path (H : hashfn) (id_encode : str -> str) (e : env) (identifier : str) : st str :=
  use l <- the_layout ;;
  use _ <- (match l with
            | Some _ => sret tt
            | None => use _ <- open_root_fs e ;; use _ <- check_root_structure H ;; sret tt
            end) ;;
  use l <- the_layout ;;
  match l with
  | Some l => slift (identifier_to_path H id_encode l identifier)
  | None => sraise AttributeError
  end.

(** ** Objects: storage_root.py:295-356 *)

(** What happens while the directories are walked through. *)
Inductive found := FoundObject (path : str) | FoundError (code : str) | FoundWarning (code : str).

(** storage_root.py:324 *)
Definition re_declaration : re :=
  RSeq (rlit (`"0=ocfl_object_")) (RGroup 1 (RSeq (rplus rdigit) (RSeq (rchar 46) (rplus rdigit)))).

(** storage_root.py:75-78 registered_extensions *)
Definition root_extensions : list str := [`"0002-flat-direct-storage-layout"; `"0003-hash-and-id-n-tuple-storage-layout"].

(** storage_root.py:341-356 validate_extensions_dir *)
Definition check_extensions (w : node) (h : place) : exc (list found) :=
  let* l := fs_ls w h (`"extensions") in
  Ok (flat_map (fun nt => match snd nt with
                          | TDir => if str_in (os_relpath (fst nt) (`"extensions")) root_extensions then [] else [FoundWarning (`"W901")]
                          | _ => [FoundError (`"E086")]
                          end) l).

(** storage_root.py:317-332, a directory below the root with files *)
Definition look_for_object (dirpath : str) (files : list str) : found :=
  match filter (startswith (`"0=")) files with
  | _ :: _ :: _ => FoundError (`"E003d")
  | [declaration] =>
      match re_match re_declaration declaration with
      | Some m => match group 1 m with
                  | Some v => if str_in v SPEC_VERSIONS_SUPPORTED then FoundObject (lstrip_slash dirpath) else FoundError (`"E004a")
                  | None => FoundError (`"E004b")
                  end
      | None => FoundError (`"E004b")
      end
  | [] => FoundError (`"E072")
  end.

(** storage_root.py:306-332 *)
Definition visit (w : node) (h : place) (y : yield) : exc (list found) :=
  let '(dirpath, (dirs, files)) := y in
  if str_eqb dirpath [slash] then (if str_in (`"extensions") dirs then check_extensions w h else Ok [])
  else match dirs, files with
       | [], [] => Ok [FoundError (`"E073")]
       | _, [] => Ok []
       | _, _ => Ok [look_for_object dirpath files]
       end.

(** storage_root.py:309 and 337-339: the directories that are not taken out of dirs *)
Definition keep_dirs : keeper := fun dirpath _ files k =>
  if str_eqb dirpath [slash] then negb (str_eqb k (`"extensions")) else match files with [] => true | _ => false end.

(** storage_root.py:295-339 object_paths: what is found in this order, and how the generator
    ends. The file system does not change while it is in use. *)
Fixpoint visits (w : node) (h : place) (ys : list yield) (r : exc unit) : list found * exc unit :=
  match ys with
  | [] => ([], r)
  | y :: ys' =>
      match visit w h y with
      | Raise e => ([], Raise e)
      | Ok l => let '(l', r') := visits w h ys' r in (l ++ l', r')
      end
  end.
Definition find_objects (w : node) (h : place) : list found * exc unit :=
  let '(ys, r) := fsw_walk keep_dirs w h [slash] in visits w h ys r.

(** storage_root.py:142-158 traversal_error, and 354 where self.log may be None *)
Definition traversal_error (code : str) : st unit :=
  smodify (fun s => set_traversal_errors (S (s_num_traversal_errors s)) (set_log (option_map (fun l => l ++ [LError code]) (s_log s)) s)).
Definition log_warning (code : str) : st unit :=
  use s <- sget ;;
  match s_log s with
  | None => sraise AttributeError
  | Some l => smodify (set_log (Some (l ++ [LWarning code])))
  end.

(** for dirpath in self.object_paths(): ... *)
Fixpoint sfold {A} (body : A -> str -> st A) (a : A) (l : list found) : st A :=
  match l with
  | [] => sret a
  | FoundObject p :: r => use a' <- body a p ;; sfold body a' r
  | FoundError c :: r => use _ <- traversal_error c ;; sfold body a r
  | FoundWarning c :: r => use _ <- log_warning c ;; sfold body a r
  end.
Definition for_objects {A} (a : A) (body : A -> str -> st A) : st A :=
  use h <- root_fs ;;
  use f <- sread (fun w => Ok (find_objects w h)) ;;
  use a' <- sfold body a (fst f) ;;
  use _ <- slift (snd f) ;;
  sret a'.

(** storage_root.py:295-339 object_paths, with all its values taken *)
Definition object_paths : st (list str) := for_objects [] (fun a p => sret (a ++ [p])).

(** object.py:808-823 id_from_inventory *)
Definition id_from_inventory (w : node) (h : place) (failure_value : str) : exc str :=
  match parse_inventory w h with
  | Ok (i, _) => match i_id i with Some id => Ok id | None => Raise AttributeError end
  | Raise ObjectException => Ok failure_value
  | Raise e => Raise e
  end.

(** storage_root.py:358-377 list_objects, with all its values taken *)
Definition list_objects (H : hashfn) (e : env) : st (list (str * str)) :=
  use h <- open_root_fs e ;;
  use _ <- check_root_structure H ;;
  use s <- sget ;;
  use _ <- sput (set_counts 0 (s_good_objects s) (s_errors s) s) ;;
  for_objects [] (fun a p =>
    use id <- sread (fun w => id_from_inventory w (fsw_opendir_as_fs h p) (`"UNKNOWN-ID")) ;;
    use s <- sget ;;
    use _ <- sput (set_counts (S (s_num_objects s)) (s_good_objects s) (s_errors s) s) ;;
    sret (a ++ [(p, id)])).

(** ** Validation: storage_root.py:379-458 *)

(** storage_root.py:401-404: the settings of each validator *)
Definition root_vconf (e : env) (lax check_digests : bool) : vconf := mkVconf check_digests lax DEFAULT_SPEC_VERSION (e_sizes e).

(** storage_root.py:379-417 validate_hierarchy; the triple is (num_objects, good_objects,
    errors). The messages of a validator are those of errors, and of warnings if asked for. *)
Definition validate_hierarchy (H : hashfn) (e : env) (validate_objects check_digests log_warnings : bool) (max_errors : nat)
    : st (nat * nat * list (str * list entry)) :=
  for_objects (0%nat, 0%nat, []) (fun a p =>
    if negb validate_objects then sret a
    else
      let '(n, good, errors) := a in
      use h <- root_fs ;;
      use s <- sget ;;
      use r <- sread (fun w => match validate_opened H (root_vconf e (s_lax s) check_digests) w (fsw_opendir_as_fs h p) 0 with
                               | (log, Ok b) => Ok (log, b)
                               | (_, Raise x) => Raise x
                               end) ;;
      let '(log, ok) := r in
      let messages := filter (fun x => is_error x || log_warnings) log in
      sret (S n, (if ok : bool then S good else good),
            if Nat.ltb (List.length errors) max_errors then match messages with [] => errors | _ => errors ++ [(p, messages)] end else errors)).

(** try: self.check_root_structure() except StorageRootException as e: ... return False *)
Definition scatch_root {A} (x : st A) (ok : A -> st bool) : st bool := fun s =>
  do r <- x s ;;
  match snd r with
  | Ok a => ok a (fst r)
  | Raise (StorageRootException code) => iret (set_log (option_map (fun l => l ++ [LError code]) (s_log (fst r))) (fst r), Ok false)
  | Raise e => iret (fst r, Raise e)
  end.

(** storage_root.py:419-458 validate *)
Definition validate (H : hashfn) (e : env) (validate_objects check_digests log_warnings : bool) (max_errors : nat) : st bool :=
  use _ <- smodify (set_log (Some [])) ;;
  use _ <- open_root_fs e ;;
  scatch_root (check_root_structure H) (fun _ =>
    use r <- validate_hierarchy H e validate_objects check_digests log_warnings max_errors ;;
    use _ <- smodify (set_counts (fst (fst r)) (snd (fst r)) (snd r)) ;;
    use s <- sget ;;
    sret (negb (Nat.ltb 0 (s_num_traversal_errors s)))).

(** ** add: storage_root.py:460-488 *)
Definition add (H : hashfn) (id_encode : str -> str) (e : env) (object_dir : str) : st (str * str) :=
  use _ <- open_root_fs e ;;
  use _ <- check_root_structure H ;;
  use src <- sio (open_obj_fs e (Some object_dir) false) ;;
  use i <- sread (fun w => parse_inventory w src) ;;
  use identifier <- slift (match i_id (fst i) with Some id => Ok id | None => Raise AttributeError end) ;;
  use path <- object_path H id_encode e identifier ;;
  use h <- root_fs ;;
  use x <- sread (fun w => Ok (fs_exists w h path)) ;;
  if (x : bool) then sraise (StorageRootException [])
  else
    use _ <- (fun s w => match fsw_copydir src [slash] h path w with
                         | (l, Raise _) => (l, Ok (s, Raise (StorageRootException [])))
                         | (l, x) => (l, Ok (s, x))
                         end) ;;
    sret (identifier, path).
