(** Model of ocfl/object.py on local file systems, and of ocfl-sidecar.py:create_sidecar.

    A method is given the attributes of the Object instance as they are when it is called;
    the file system the instance has open (obj_fs) is passed on as a place. Not modelled:
    Object.tree (text output), logging, start_inventory (not used). *)
From Verif Require Import Base Unicode Json JsonTextModel Log DigestModel LayoutModel ObjectUtilsModel InventoryValidatorModel
  InventoryModel NewVersionModel ParseModel TextFile PathModel FsModel FswModel NamasteModel ValidatorModel.

(** ** The dict of an Inventory

    The reverse of inventory_of_json: the dict in inventory.data. The order of the members
    of this dict does not matter, json.dump sorts them. *)
Definition json_of_strings (l : list str) : json := JArr (map JStr l).
Definition entries {A} (f : A -> json) (d : dict A) : json := JObj (map (fun kv => (fst kv, f (snd kv))) d).
Definition json_of_block : block -> json := entries json_of_strings.
Definition opt_entry {A} (k : str) (f : A -> json) (x : option A) : dict json :=
  match x with Some a => [(k, f a)] | None => [] end.
Definition json_of_vblock (b : vblock) : json :=
  JObj (opt_entry (`"created") JStr (vb_created b) ++ opt_entry (`"message") JStr (vb_message b) ++
        opt_entry (`"user") JObj (vb_user b) ++ opt_entry (`"state") json_of_block (vb_state b) ++ vb_other b).
Definition json_of_inventory (i : inventory) : json :=
  JObj (opt_entry (`"id") JStr (i_id i) ++ opt_entry (`"type") JStr (i_type i) ++
        opt_entry (`"digestAlgorithm") JStr (i_alg i) ++ opt_entry (`"head") JStr (i_head i) ++
        opt_entry (`"contentDirectory") JStr (i_cdir i) ++ opt_entry (`"manifest") json_of_block (i_manifest i) ++
        opt_entry (`"versions") (entries json_of_vblock) (i_versions i) ++
        opt_entry (`"fixity") (entries json_of_block) (i_fixity i) ++ i_other i).

(** ** Attributes: object.py:76-124 *)
Record object := mk_object {
  o_id : option str;
  o_cdir : option str;
  o_alg : str;
  o_norm : option str;
  o_spec : str;
  o_forward_delta : bool;
  o_dedupe : bool;
  o_lax : bool;
  o_fixity : option (list str)
}.

(** What the functions use of the environment: the current working directory, the text of
    the current time and the sizes that the operating system gives for what is not a file. *)
Record env := mk_env { e_cwd : place; e_now : str; e_sizes : place -> N }.

(** object.py:126-142 open_obj_fs; fsw_openfs(None) raises AttributeError (fsw.py:135) *)
Definition open_obj_fs (e : env) (objdir : option str) (create : bool) : io place :=
  match objdir with
  | None => iraise AttributeError
  | Some d => fun w => match fsw_openfs (e_cwd e) d create true w with
                       | (s, Raise FileNotFoundError) => (s, Raise ObjectException)
                       | r => r
                       end
  end.

(** new_version.py:49 the source directory of a new version *)
Definition open_src_fs (e : env) (srcdir : option str) : io place :=
  match srcdir with None => iraise AttributeError | Some d => fsw_openfs (e_cwd e) d false true end.

(** object.py:144-149 copy_into_object *)
Definition copy_into_object (h src : place) (srcfile filepath : str) (create_dirs : bool) : io unit :=
  let dstpath := path_dirname filepath in
  do e <- iread (fun w => Ok (fs_exists w h dstpath)) ;;
  (if create_dirs && negb (e : bool) then fs_makedirs h dstpath false else iret tt) ;;
  fsw_copyfile src srcfile h filepath.

(** for (srcpath, objpath) in files_to_copy.items(): object.py:319-320, 370-371, 532-533 *)
Definition copy_files (h src : place) (files : dict str) : io unit :=
  iter (fun sp => copy_into_object h src (fst sp) (snd sp) true) files.

(** object.py:219-229 write_object_declaration *)
Definition write_object_declaration (spec : str) (h : place) : io unit :=
  namaste_write (mkNamaste (`"0") (`"ocfl_object_" ++ spec) None) h [].

(** file_digest(path, alg, fs=fs): digest.py:21-68 *)
Definition fs_digest (H : hashfn) (alg : str) (w : node) (h : place) (path : str) : exc str :=
  let* b := fs_read w h path in file_digest H alg b.

(** object.py:231-257 write_inventory_and_sidecar; [alg] is self.digest_algorithm. What
    json.dump writes is ASCII text in several parts; here it is one. *)
Definition write_inventory_and_sidecar (H : hashfn) (alg : str) (h : place) (inv : option inventory) (vdir : str) : io str :=
  do e <- iread (fun w => Ok (fs_exists w h vdir)) ;;
  (if e : bool then iret tt else fs_makedir h vdir) ;;
  let invfile := path_join vdir INVENTORY_FILENAME in
  (match inv with
   | Some i => fs_write_text h invfile (json_dumps (json_of_inventory i))
   | None => iret tt
   end) ;;
  do digest <- iread (fun w => fs_digest H alg w h invfile) ;;
  let sidecar := path_join vdir (INVENTORY_FILENAME ++ `"." ++ alg) in
  fs_write_text h sidecar (digest ++ `" " ++ INVENTORY_FILENAME ++ [10%N]) ;;
  iret sidecar.

(** new_version.py:391-394 with the files of the source directory *)
Definition nv_from_srcdir (H : hashfn) (w : node) (src : place) (nv : new_version) : exc new_version :=
  let* files := fsw_walk_files w src [slash] in
  match add_from_srcdir H (fun p => fs_read w src p) files nv with
  | (nv', Ok _) => Ok nv'
  | (_, Raise e) => Raise e
  end.

Definition metadata_dict (e : env) (metadata : option vmeta) : option vblock := option_map (as_dict (e_now e)) metadata.

(** object.py:331-373 create *)
Definition first_of (c : object) (e : env) (id : str) (metadata : option vmeta) : exc new_version :=
  first_version id (o_spec c) (Some (o_alg c)) (o_cdir c) (metadata_dict e metadata) (o_dedupe c) (or_empty (o_fixity c)) (o_norm c).
Definition create (H : hashfn) (c : object) (e : env) (srcdir : option str) (metadata : option vmeta) (objdir : option str)
  : io inventory :=
  match o_id c with
  | None => iraise ObjectException
  | Some id =>
      do src <- open_src_fs e srcdir ;;
      do nv <- iread (fun w => let* nv := first_of c e id metadata in nv_from_srcdir H w src nv) ;;
      let inv := nv_inv nv in
      match objdir with
      | None => iret inv
      | Some _ =>
          do h <- open_obj_fs e objdir true ;;
          write_inventory_and_sidecar H (o_alg c) h (Some inv) (`"v1") ;;
          write_object_declaration (o_spec c) h ;;
          write_inventory_and_sidecar H (o_alg c) h (Some inv) [] ;;
          copy_files h src (nv_copy nv) ;;
          iret inv
      end
  end.

(** object.py:787-806 parse_inventory: the inventory and the new self.spec_version *)
Definition parse_inventory (w : node) (h : place) : exc (inventory * str) :=
  let* b := fs_read w h INVENTORY_FILENAME in
  let* j := json_load b in
  match j with
  | JObj _ => parse_inventory_json j
  | _ => Raise InventoryException (* inventory.py:137 *)
  end.

(** object.py:489-496, the new digest of the files with one old digest. The message of line
    495 has too few arguments, which raises TypeError. *)
Definition new_digest (H : hashfn) (alg : str) (w : node) (h : place) (files : list str) : exc str :=
  match files with
  | [] => Raise IndexError
  | f :: r =>
      let* digest := fs_digest H alg w h f in
      let* _ := emap (fun f => let* d := fs_digest H alg w h f in if str_eqb d digest then Ok tt else Raise TypeError) r in
      Ok digest
  end.
(** object.py:485-497 old_to_new_digest and new_manifest *)
Definition new_manifest (H : hashfn) (alg : str) (w : node) (h : place) (m : block) : exc (dict str * block) :=
  efold (fun acc kv => let* d := new_digest H alg w h (snd kv) in
                       Ok (dset (fst kv) d (fst acc), dset d (snd kv) (snd acc))) m ([], []).
(** object.py:500-504 the new state of one version *)
Definition new_state (old_to_new : dict str) (st : block) : exc block :=
  efold (fun acc kv => match dget (fst kv) old_to_new with
                       | Some d => Ok (dset d (snd kv) acc)
                       | None => Raise KeyError
                       end) st [].
(** object.py:482-505 *)
Definition change_digests (H : hashfn) (alg : str) (w : node) (h : place) (i : inventory) : exc inventory :=
  let* r := new_manifest H alg w h (manifest i) in
  let '(old_to_new, m) := r in
  let* vdirs := version_directories i in
  let* i1 := efold (fun i vdir => let* st := new_state old_to_new (state i vdir) in Ok (set_state vdir st i)) vdirs i in
  Ok (set_manifest m i1).

(** object.py:456-477 the fixity block. The order of the sets does not matter. [alg] is the
    new digest algorithm, [i] has it already. *)
Definition change_fixity (old_alg alg : str) (fixity_types : option (list str)) (i : inventory) : inventory :=
  let old_fixity := keys (fixity i) in
  match fixity_types with
  | None =>
      if negb (str_eqb alg old_alg) && negb (str_in old_alg old_fixity)
      then add_fixity_type old_alg (Some (manifest i)) i else i
  | Some l =>
      match i_fixity i with
      | None => i
      | Some fx => set_fixity (filter (fun kv => str_in (fst kv) l) fx) i
      end
  end.

(** object.py:443-505: parse_inventory on; [digest_algorithm] and [fixity] are the arguments
    of start_new_version. The digest algorithm of an inventory that the validator accepts is
    set. *)
Definition start_inventory_change (H : hashfn) (digest_algorithm : option str) (fixity_types : option (list str))
    (w : node) (h : place) (i : inventory) : exc (inventory * option str) :=
  match i_alg i with
  | None => Raise TypeError
  | Some old_alg =>
      let alg := match digest_algorithm with Some a => a | None => old_alg end in
      let i2 := change_fixity old_alg alg fixity_types (set_alg (Some alg) i) in
      let* i3 := if str_eqb alg old_alg then Ok (set_manifest (manifest i2) i2) else change_digests H alg w h i2 in
      Ok (i3, Some old_alg)
  end.

(** object.py:414-514 start_new_version. The result has obj_fs, the file system of the
    source and the new version. *)
Definition start_new_version (H : hashfn) (c : object) (e : env) (objdir srcdir : option str) (digest_algorithm : option str)
    (fixity_types : option (list str)) (metadata : option vmeta) (carry_content_forward : bool)
    : io (place * place * new_version) :=
  do h <- open_obj_fs e objdir false ;;
  do ok <- iread (fun w => snd (validate_object H (mkVconf false (o_lax c) DEFAULT_SPEC_VERSION (e_sizes e)) w (e_cwd e) (or_empty objdir) 0)) ;;
  if negb ok then iraise ObjectException
  else
    do r <- iread (fun w =>
              let* p := parse_inventory w h in
              start_inventory_change H digest_algorithm fixity_types w h (fst p)) ;;
    do src <- open_src_fs e srcdir ;;
    do nv <- iread (fun _ => next_version (fst r) DEFAULT_SPEC_VERSION (metadata_dict e metadata) (o_norm c)
                               (o_forward_delta c) (o_dedupe c) carry_content_forward (snd r)) ;;
    iret (h, src, nv).

(** object.py:516-540 write_new_version; [alg] is self.digest_algorithm. Raise TypeError:
    inventory.head is None. *)
Definition write_new_version (H : hashfn) (alg : str) (h src : place) (nv : new_version) : io inventory :=
  let inv := nv_inv nv in
  (match nv_old_alg nv with
   | Some old => if (match i_alg inv with Some a => str_eqb a old | None => false end) then iret tt
                 else fs_rm h (INVENTORY_FILENAME ++ `"." ++ old)
   | None => iret tt
   end) ;;
  do head <- iread (fun _ => head_of inv) ;;
  fs_makedir h head ;;
  copy_files h src (nv_copy nv) ;;
  write_inventory_and_sidecar H alg h (Some inv) head ;;
  write_inventory_and_sidecar H alg h (Some inv) [] ;;
  iret inv.

(** object.py:375-412 add_version_with_content *)
Definition add_version_with_content (H : hashfn) (c : object) (e : env) (objdir srcdir : option str) (metadata : option vmeta)
    (abort_if_no_difference : bool) : io (option inventory) :=
  do r <- start_new_version H c e objdir srcdir (Some (o_alg c)) (o_fixity c) metadata false ;;
  let '(h, src, nv) := r in
  do nv <- iread (fun w => match srcdir with None => Ok nv | Some _ => nv_from_srcdir H w src nv end) ;;
  do diff <- iread (fun _ => if abort_if_no_difference then let* d := diff_with_previous nv in Ok (Some d) else Ok None) ;;
  match diff with
  | Some [] => iret None
  | _ => do inv <- write_new_version H (o_alg c) h src nv ;; iret (Some inv)
  end.

(** ** Building from version directories *)

(** object.py:193-209: the version directories by number; a later one replaces an earlier
    one with the same number. ObjectException is the only one parse_version_directory
    raises for a name. *)
Definition ndset (n : N) (v : str) (d : list (N * str)) : list (N * str) :=
  if existsb (fun x => (fst x =? n)%N) d then map (fun x => if (fst x =? n)%N then (n, v) else x) d else d ++ [(n, v)].
Definition version_dirs (l : list (str * ftype)) : exc (list (N * str)) :=
  efold (fun acc nt => match snd nt with
                       | TDir => match parse_version_directory (fst nt) with
                                 | Ok vn => Ok (ndset vn (fst nt) acc)
                                 | Raise ObjectException => Ok acc
                                 | Raise e => Raise e
                                 end
                       | _ => Ok acc
                       end) l [].
(** object.py:210-215 *)
Fixpoint check_sequence (n : N) (l : list (N * str)) : exc unit :=
  match l with
  | [] => Ok tt
  | (vn, _) :: r => if (vn =? n)%N then check_sequence (n + 1) r else Raise ObjectException
  end.
(** object.py:175-223 version_dirs_and_metadata, without the metadata *)
Definition version_dirs_in_order (w : node) (src : place) : exc (list (N * str)) :=
  let* l := fs_ls w src [slash] in
  let* vs := version_dirs l in
  let sorted := isort (fun a b => (fst a <=? fst b)%N) vs in
  let* _ := check_sequence 1 sorted in
  Ok sorted.

Definition empty_vmeta : vmeta := mk_vmeta None None None None None.

(** object.py:291-320, one version. The path of [srcdir] joined with the version directory is
    opened again. A version other than "v1" needs an inventory (new_version.py:231). *)
Definition build_version (H : hashfn) (c : object) (e : env) (id srcdir : str) (metadata : N -> option vmeta) (h : option place)
    (inv : option inventory) (vnd : N * str) : io inventory :=
  let '(vn, vdir) := vnd in
  let md := match metadata vn with Some m => m | None => empty_vmeta end in
  do src <- open_src_fs e (Some (path_join srcdir vdir)) ;;
  do nv <- iread (fun w =>
             let* nv := if str_eqb vdir (`"v1") then first_of c e id (Some md)
                        else match inv with
                             | None => Raise AttributeError
                             | Some i => next_version i DEFAULT_SPEC_VERSION (metadata_dict e (Some md)) (o_norm c)
                                           (o_forward_delta c) (o_dedupe c) false None
                             end in
             nv_from_srcdir H w src nv) ;;
  (match h with
   | None => iret tt
   | Some h => write_inventory_and_sidecar H (o_alg c) h (Some (nv_inv nv)) vdir ;; copy_files h src (nv_copy nv)
   end) ;;
  iret (nv_inv nv).
Fixpoint build_versions (H : hashfn) (c : object) (e : env) (id srcdir : str) (metadata : N -> option vmeta) (h : option place)
    (inv : option inventory) (l : list (N * str)) : io (option inventory) :=
  match l with
  | [] => iret inv
  | v :: r => do i <- build_version H c e id srcdir metadata h inv v ;; build_versions H c e id srcdir metadata h (Some i) r
  end.

(** object.py:267-329 build *)
Definition build (H : hashfn) (c : object) (e : env) (srcdir : str) (metadata : N -> option vmeta) (objdir : option str)
    : io (option inventory) :=
  match o_id c with
  | None => iraise ObjectException
  | Some id =>
      do h <- (match objdir with None => iret None | Some _ => do h <- open_obj_fs e objdir true ;; iret (Some h) end) ;;
      do src <- open_src_fs e (Some srcdir) ;;
      do vs <- iread (fun w => version_dirs_in_order w src) ;;
      do inv <- build_versions H c e id srcdir metadata h None vs ;;
      (match h with
       | None => iret tt
       | Some h => write_object_declaration (o_spec c) h ;; (write_inventory_and_sidecar H (o_alg c) h inv [] ;; iret tt)
       end) ;;
      iret inv
  end.

(** ** Extraction *)

(** os.path.normpath *)
Definition norm_step (abs : bool) (acc : list str) (c : str) : list str :=
  if str_eqb c [] || str_eqb c (`".") then acc
  else if negb (str_eqb c (`"..")) then c :: acc
  else match acc with
       | [] => if abs then [] else [c]
       | p :: r => if str_eqb p (`"..") then c :: acc else r
       end.
Definition normpath (p : str) : str :=
  match p with
  | [] => `"."
  | _ =>
      let slashes := if startswith (`"/") p
                     then if startswith (`"//") p && negb (startswith (`"///") p) then `"//" else `"/"
                     else [] in
      let comps := rev (fold_left (norm_step (startswith (`"/") p)) (split_on slash p) []) in
      match slashes ++ join [slash] comps with [] => `"." | r => r end
  end.

(** object.py:677-700 _extract_setup, after the file system has been opened *)
Definition extract_setup (w : node) (h : place) (version : str) : exc (inventory * str) :=
  let* p := parse_inventory w h in
  let inv := fst p in
  if str_eqb version (`"head") then let* v := head_of inv in Ok (inv, v)
  else let* vdirs := version_directories inv in
       if str_in version vdirs then Ok (inv, version) else Raise ObjectException.

(** manifest[digest][0] *)
Definition first_content_path (inv : inventory) (digest : str) : exc str :=
  match dget digest (manifest inv) with
  | None => Raise KeyError
  | Some [] => Raise IndexError
  | Some (f :: _) => Ok f
  end.

(** object.py:734-739 *)
Definition extract_one (h dst : place) (existing_file logical_file : str) : io unit :=
  fs_makedirs dst (path_dirname logical_file) true ;;
  fsw_copyfile h existing_file dst logical_file.
Definition extract_entry (h dst : place) (inv : inventory) (kv : str * list str) : io unit :=
  do existing_file <- iread (fun _ => first_content_path inv (fst kv)) ;;
  iter (extract_one h dst existing_file) (snd kv).

(** object.py:718-728: the destination *)
Definition open_destination (e : env) (dstdir : str) : io place :=
  let '(parentdir, dir) := path_split (normpath dstdir) in
  do parent <- open_obj_fs e (Some parentdir) false ;;
  do d <- iread (fun w => Ok (fs_isdir w parent dir)) ;;
  (if d : bool
   then do l <- iread (fun w => fs_ls w parent dir) ;; match l with [] => iret tt | _ => iraise ObjectException end
   else fs_makedir parent dir) ;;
  iret (fsw_opendir_as_fs parent dir).

(** object.py:702-741 extract *)
Definition extract (e : env) (objdir : option str) (version dstdir : str) : io vmeta :=
  do h <- open_obj_fs e objdir false ;;
  do iv <- iread (fun w => extract_setup w h version) ;;
  let '(inv, version) := iv in
  do dst <- open_destination e dstdir ;;
  iter (extract_entry h dst inv) (state inv version) ;;
  iread (fun _ => from_inventory empty_vmeta inv (Some version)).

(** object.py:767-783: the digests are looked up in the manifest one after the other *)
Fixpoint find_file (inv : inventory) (logical_path : str) (st : list (str * list str)) : exc str :=
  match st with
  | [] => Raise ObjectException
  | (digest, files) :: r =>
      let* f := first_content_path inv digest in
      if str_in logical_path files then Ok f else find_file inv logical_path r
  end.

(** object.py:743-785 extract_file *)
Definition extract_file (e : env) (objdir : option str) (version dstdir logical_path : str) : io vmeta :=
  do h <- open_obj_fs e objdir false ;;
  do iv <- iread (fun w => extract_setup w h version) ;;
  let '(inv, version) := iv in
  do dst <- open_obj_fs e (Some dstdir) true ;;
  do f <- iread (fun _ => find_file inv logical_path (state inv version)) ;;
  fsw_copyfile h f dst (path_basename logical_path) ;;
  iread (fun _ => from_inventory empty_vmeta inv (Some version)).

(** ** Sidecar tool: ocfl-sidecar.py:37-53 create_sidecar; [digest] is the option --digest, and
    [alg] the default of Object. parse_inventory does not set digest_algorithm. *)
Definition create_sidecar (H : hashfn) (e : env) (directory : str) (digest : option str) : io unit :=
  let inventory_path := path_join directory INVENTORY_FILENAME in
  let base := if startswith [slash] inventory_path then [] else e_cwd e in
  do f <- iread (fun w => Ok (match get w (at_path base inventory_path) with Ok (File _) => true | _ => false end)) ;;
  if f : bool then
    do h <- open_obj_fs e (Some directory) false ;;
    do alg <- iread (fun w => match digest with
                              | Some a => Ok a
                              | None => match parse_inventory w h with
                                        | Ok _ | Raise ObjectException => Ok DEFAULT_DIGEST_ALGORITHM
                                        | Raise e => Raise e
                                        end
                              end) ;;
    (write_inventory_and_sidecar H alg h None [] ;; iret tt)
  else iret tt.
