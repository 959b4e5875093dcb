(** Model of ocfl/inventory.py (Inventory and Version) and ocfl/version_metadata.py.

    The Python classes work on the dict json.load returns. The model has a record with one
    field for each member the code looks at (None: the member is absent) and the other
    members as they are. Simplification: members have the types the specification asks for;
    inventories of other types are only covered by the model of the validator. The order of
    the members of the top level and of version blocks is not kept (json.dump sorts them);
    the order of manifest, versions, state and fixity blocks is. *)
From Verif Require Import Base Unicode Regex Json PathModel DigestModel ObjectUtilsModel InventoryValidatorModel.

(** A block of digests with lists of paths. *)
Definition block := dict (list str).

Record vblock := mk_vblock {
  vb_created : option str;
  vb_message : option str;
  vb_user : option (dict json);
  vb_state : option block;
  vb_other : dict json
}.

Record inventory := mk_inventory {
  i_id : option str;
  i_type : option str;
  i_alg : option str;
  i_head : option str;
  i_cdir : option str;
  i_manifest : option block;
  i_versions : option (dict vblock);
  i_fixity : option (dict block);
  i_other : dict json
}.

(** inventory.py:126-128 Inventory() *)
Definition empty_inventory : inventory := mk_inventory None None None None None None None None [].
Definition empty_vblock : vblock := mk_vblock None None None None [].

Definition or_empty {A} (x : option (list A)) : list A := match x with Some l => l | None => [] end.

(** Setters of attributes: inventory.py:148-196, 207-210, 231-234, 270-273 *)
Definition set_id (v : str) (i : inventory) : inventory :=
  mk_inventory (Some v) (i_type i) (i_alg i) (i_head i) (i_cdir i) (i_manifest i) (i_versions i) (i_fixity i) (i_other i).
Definition set_spec_version (v : str) (i : inventory) : inventory :=
  mk_inventory (i_id i) (Some (`"https://ocfl.io/" ++ v ++ `"/spec/#inventory")) (i_alg i) (i_head i) (i_cdir i)
    (i_manifest i) (i_versions i) (i_fixity i) (i_other i).
Definition set_alg (v : option str) (i : inventory) : inventory :=
  mk_inventory (i_id i) (i_type i) v (i_head i) (i_cdir i) (i_manifest i) (i_versions i) (i_fixity i) (i_other i).
Definition set_head (v : str) (i : inventory) : inventory :=
  mk_inventory (i_id i) (i_type i) (i_alg i) (Some v) (i_cdir i) (i_manifest i) (i_versions i) (i_fixity i) (i_other i).
Definition set_cdir (v : str) (i : inventory) : inventory :=
  mk_inventory (i_id i) (i_type i) (i_alg i) (i_head i) (Some v) (i_manifest i) (i_versions i) (i_fixity i) (i_other i).
Definition set_manifest (v : block) (i : inventory) : inventory :=
  mk_inventory (i_id i) (i_type i) (i_alg i) (i_head i) (i_cdir i) (Some v) (i_versions i) (i_fixity i) (i_other i).
Definition set_versions (v : dict vblock) (i : inventory) : inventory :=
  mk_inventory (i_id i) (i_type i) (i_alg i) (i_head i) (i_cdir i) (i_manifest i) (Some v) (i_fixity i) (i_other i).
Definition set_fixity (v : dict block) (i : inventory) : inventory :=
  mk_inventory (i_id i) (i_type i) (i_alg i) (i_head i) (i_cdir i) (i_manifest i) (i_versions i) (Some v) (i_other i).

(** inventory.py:139-146 spec_version *)
Definition spec_version (i : inventory) : option str :=
  match re_match re_type (or_empty (i_type i)) with Some m => Some (group_or_nil 1 m) | None => None end.

(** inventory.py:188-191 content_directory_to_use *)
Definition content_directory_to_use (i : inventory) : str :=
  match i_cdir i with Some c => c | None => DEFAULT_CONTENT_DIRECTORY end.

(** inventory.py:198-205 manifest; 261-268 versions_block; 223-229 fixity *)
Definition manifest (i : inventory) : block := or_empty (i_manifest i).
Definition versions_block (i : inventory) : dict vblock := or_empty (i_versions i).
Definition fixity (i : inventory) : dict block := or_empty (i_fixity i).

(** inventory.py:236-247 content *)
Definition content (i : inventory) : dict str :=
  fold_left (fun files kv => fold_left (fun m f => dset f (fst kv) m) (snd kv) files) (manifest i) [].

(** All paths of a block, in order: inventory.py:249-259 content_paths and 672-681
    logical_paths *)
Definition paths_of (b : block) : list str := flat_map snd b.
Definition content_paths (i : inventory) : list str := paths_of (manifest i).

(** inventory.py:275-285 version_directories: sorted(keys, key=parse_version_directory) *)
Definition version_directories (i : inventory) : exc (list str) :=
  let* numbered := emap (fun v => let* n := parse_version_directory v in Ok (n, v)) (keys (versions_block i)) in
  Ok (map snd (isort (fun a b => (fst a <=? fst b)%N) numbered)).

(** inventory.py:287-293 version_numbers *)
Definition version_numbers (i : inventory) : exc (list N) :=
  let* vdirs := version_directories i in emap parse_version_directory vdirs.

(** inventory.py:295-300 versiondata (reading) *)
Definition versiondata (i : inventory) (vdir : str) : vblock :=
  match dget vdir (versions_block i) with Some b => b | None => empty_vblock end.

(** inventory.py:607-614 Version.state; 672-681 Version.logical_paths *)
Definition state (i : inventory) (vdir : str) : block := or_empty (vb_state (versiondata i vdir)).
Definition logical_paths (i : inventory) (vdir : str) : list str := paths_of (state i vdir).

(** Assignment to a member of versiondata(vdir). If there is no such version block the
    assignment goes to a temporary dict (300) and is lost. *)
Definition update_version (f : vblock -> vblock) (vdir : str) (i : inventory) : inventory :=
  match dget vdir (versions_block i) with
  | Some b => set_versions (dset vdir (f b) (versions_block i)) i
  | None => i
  end.
Definition with_state (s : block) (b : vblock) : vblock :=
  mk_vblock (vb_created b) (vb_message b) (vb_user b) (Some s) (vb_other b).
(** inventory.py:616-619 Version.state setter *)
Definition set_state (vdir : str) (s : block) (i : inventory) : inventory := update_version (with_state s) vdir i.

(** inventory.py:592-595 created; 602-605 message setters *)
Definition set_created (vdir v : str) (i : inventory) : inventory :=
  update_version (fun b => mk_vblock (Some v) (vb_message b) (vb_user b) (vb_state b) (vb_other b)) vdir i.
Definition set_message (vdir v : str) (i : inventory) : inventory :=
  update_version (fun b => mk_vblock (vb_created b) (Some v) (vb_user b) (vb_state b) (vb_other b)) vdir i.
(** inventory.py:640-644, 654-657, 667-670: user_address and user_name setters; KeyError
    (644) if there is no such version block *)
Definition set_user (key vdir v : str) (i : inventory) : inventory * exc unit :=
  match dget vdir (versions_block i) with
  | None => (i, Raise KeyError)
  | Some _ =>
      (update_version (fun b => mk_vblock (vb_created b) (vb_message b)
                                  (Some (dset key (JStr v) (or_empty (vb_user b)))) (vb_state b) (vb_other b)) vdir i, Ok tt)
  end.

(** The key of the first entry with the path: inventory.py:320-332 digest_for_content_path,
    691-699 digest_for_logical_path *)
Definition digest_of_path (path : str) (b : block) : option str :=
  match find (fun kv => str_in path (snd kv)) b with Some kv => Some (fst kv) | None => None end.
Definition digest_for_content_path (i : inventory) (path : str) : option str := digest_of_path path (manifest i).
Definition digest_for_logical_path (i : inventory) (vdir path : str) : option str := digest_of_path path (state i vdir).

(** inventory.py:334-341 content_paths_for_digest; 343-357 content_path_for_digest *)
Definition content_paths_for_digest (i : inventory) (digest : str) : list str := or_empty (dget digest (manifest i)).
Definition content_path_for_digest (i : inventory) (digest : str) : option str := hd_error (content_paths_for_digest i digest).

(** inventory.py:701-711 content_path_for_logical_path *)
Definition content_path_for_logical_path (i : inventory) (vdir path : str) : option str :=
  match digest_for_logical_path i vdir path with None => None | Some d => content_path_for_digest i d end.

(** inventory.py:359-382 _next_version_directory. highest_version is 0 only if there are no
    versions; vdir is the last of the loop. *)
Definition next_directory (i : inventory) (zero_padded_width : option Z) : exc str :=
  let* vdirs := version_directories i in
  let* numbers := emap parse_version_directory vdirs in
  let highest_version := fold_left N.max numbers 0%N in
  if (highest_version =? 0)%N then first_version_directory zero_padded_width
  else match last_opt vdirs with
       | Some vdir => next_version_directory vdir
       | None => Raise TypeError (* vdir is None; cannot happen *)
       end.

(** inventory.py:384-421 add_version; metadata is the version block to start from. Returns
    the version directory. *)
Definition add_version (vdir : option str) (metadata : option vblock) (st : option block)
  (zero_padded_width : option Z) (i : inventory) : inventory * exc str :=
  match (match vdir with Some v => Ok v | None => next_directory i zero_padded_width end) with
  | Raise e => (i, Raise e)
  | Ok v =>
      let b := match metadata with Some b => b | None => empty_vblock end in
      let b' := match st with Some s => with_state s b | None => b end in
      (set_head v (set_versions (dset v b' (versions_block i)) i), Ok v)
  end.

(** d[k].append(x) if k in d, else d[k] = [x] *)
Definition append_to (k x : str) (b : block) : block :=
  match dget k b with Some l => dset k (l ++ [x]) b | None => dset k [x] b end.

(** inventory.py:423-454 add_file_to_manifest *)
Definition add_file_to_manifest (digest content_path : str) (i : inventory) : inventory * exc unit :=
  if str_in content_path (content_paths i) then (i, Raise InventoryException)
  else (set_manifest (append_to digest content_path (manifest i)) i, Ok tt).

(** inventory.py:456-488 find_logical_path *)
Definition find_logical_path (i : inventory) (logical_path : str) : exc (option (str * option str)) :=
  let* vdirs := version_directories i in
  Ok (match find (fun vdir => str_in logical_path (logical_paths i vdir)) (rev vdirs) with
      | Some vdir => Some (vdir, content_path_for_logical_path i vdir logical_path)
      | None => None
      end).

(** inventory.py:502-505 init_manifest_and_versions *)
Definition init_manifest_and_versions (i : inventory) : inventory := set_versions [] (set_manifest [] i).

(** inventory.py:507-521 add_fixity_type *)
Definition add_fixity_type (digest_algorithm : str) (map : option block) (i : inventory) : inventory :=
  set_fixity (dset digest_algorithm (or_empty map) (fixity i)) i.

(** inventory.py:523-537 add_fixity_data *)
Definition add_fixity_data (digest_algorithm digest filepath : str) (i : inventory) : inventory * exc unit :=
  match dget digest_algorithm (fixity i) with
  | None => (i, Raise KeyError)
  | Some fixities => (set_fixity (dset digest_algorithm (append_to digest filepath fixities) (fixity i)) i, Ok tt)
  end.

(** inventory.py:552-557 and 560-566: d[norm] = d.pop(digest) for each digest that changes,
    in order *)
Definition normalize_block (alg : str) (b : block) : block :=
  fold_left (fun m digest =>
               let norm := normalized_digest digest alg in
               match dget digest m with
               | Some files => dset norm files (ddel digest m)
               | None => m (* pop raises KeyError; cannot happen as keys are distinct *)
               end)
    (filter (fun digest => negb (str_eqb digest (normalized_digest digest alg))) (keys b)) b.

(** inventory.py:539-566 normalize_digests; ObjectException from version_directories *)
Definition normalize_digests (alg : str) (i : inventory) : inventory * exc unit :=
  let i1 := match i_manifest i with Some m => set_manifest (normalize_block alg m) i | None => i end in
  match version_directories i1 with
  | Raise e => (i1, Raise e)
  | Ok vdirs =>
      (fold_left (fun i v => match vb_state (versiondata i v) with
                             | Some s => set_state v (normalize_block alg s) i
                             | None => i
                             end) vdirs i1, Ok tt)
  end.

(** inventory.py:713-755 Version.add_file *)
Definition add_file (vdir digest logical_path : str) (content_path : option str) (dedupe : bool) (i : inventory)
  : inventory * exc (option str) :=
  if str_in logical_path (logical_paths i vdir) then (i, Raise InventoryException)
  else
    let r :=
      match content_paths_for_digest i digest, dedupe with
      | _ :: _, true => (i, Ok None)
      | _, _ =>
          let suggested := path_join_list [vdir; content_directory_to_use i;
                                           match content_path with Some c => c | None => logical_path end] in
          match make_unused_filepath suggested (content_paths i) default_separator with
          | Raise e => (i, Raise e)
          | Ok p => match add_file_to_manifest digest p i with
                    | (i1, Ok tt) => (i1, Ok (Some p))
                    | (i1, Raise e) => (i1, Raise e)
                    end
          end
      end in
    match r with
    | (i1, Raise e) => (i1, Raise e)
    | (i1, Ok p) =>
        match dget vdir (versions_block i1) with
        | None => (i1, Raise KeyError) (* 633, 751 *)
        | Some _ => (set_state vdir (append_to digest logical_path (state i1 vdir)) i1, Ok p)
        end
    end.

(** l.remove(x): the first occurrence *)
Fixpoint remove_first (x : str) (l : list str) : list str :=
  match l with [] => [] | y :: r => if str_eqb x y then r else y :: remove_first x r end.

(** inventory.py:757-798 Version.delete_logical_path *)
Definition delete_logical_path (vdir path : str) (i : inventory) : inventory * exc str :=
  match find (fun kv => str_in path (snd kv)) (state i vdir) with
  | None => (i, Raise InventoryException)
  | Some (digest, paths) =>
      if (1 <? List.length paths)%nat
      then (set_state vdir (dset digest (remove_first path paths) (state i vdir)) i, Ok digest)
      else
        let i1 := set_state vdir (ddel digest (state i vdir)) i in
        let i2 := match dget digest (manifest i1) with
                  | Some cpaths =>
                      set_manifest (dset digest (filter (fun c => negb (startswith (vdir ++ `"/") c)) cpaths) (manifest i1)) i1
                  | None => i1
                  end in
        (i2, Ok digest)
  end.

(** ** ocfl/version_metadata.py *)

(** version_metadata.py:34-38 *)
Record vmeta := mk_vmeta {
  vm_id : option str;
  vm_created : option str;
  vm_message : option str;
  vm_name : option json;
  vm_address : option json
}.

Definition or_else {A} (x y : option A) : option A := match x with Some _ => x | None => y end.

(** version_metadata.py:42-78 from_inventory *)
Definition from_inventory (m : vmeta) (i : inventory) (version : option str) : exc vmeta :=
  match i_versions i with
  | None => Raise InventoryException
  | Some versions =>
      match or_else version (i_head i) with
      | None => Raise InventoryException
      | Some v =>
          match dget v versions with
          | None => Raise InventoryException
          | Some b =>
              let user := or_empty (vb_user b) in
              Ok (mk_vmeta (i_id i) (or_else (vb_created b) (vm_created m)) (or_else (vb_message b) (vm_message m))
                    (or_else (dget (`"name") user) (vm_name m)) (or_else (dget (`"address") user) (vm_address m)))
          end
      end
  end.

(** version_metadata.py:80-98 as_dict; [now] is the text of the current time, used if
    created is not set or empty *)
Definition as_dict (now : str) (m : vmeta) : vblock :=
  mk_vblock
    (Some (match vm_created m with Some ((_ :: _) as c) => c | _ => now end))
    (vm_message m)
    (match vm_name m, vm_address m with
     | None, None => None
     | n, a => Some ((match n with Some x => [(`"name", x)] | None => [] end) ++
                     (match a with Some x => [(`"address", x)] | None => [] end))
     end)
    None [].

(** ** The dict read with json.load as a record

    inventory.py:123-128 keeps the dict as it is. Raise OtherException: the members do not
    have the types of the record (see the top of this file). *)
Definition opt_member {A} (f : json -> exc A) (k : str) (d : dict json) : exc (option A) :=
  match dget k d with None => Ok None | Some x => let* y := f x in Ok (Some y) end.
Definition string_of_json (j : json) : exc str := match j with JStr s => Ok s | _ => Raise OtherException end.
Definition object_of_json (j : json) : exc (dict json) := match j with JObj d => Ok d | _ => Raise OtherException end.
Definition strings_of_json (j : json) : exc (list str) :=
  match j with JArr l => emap string_of_json l | _ => Raise OtherException end.
Definition entries_of_json {A} (f : json -> exc A) (j : json) : exc (dict A) :=
  let* d := object_of_json j in emap (fun kv => let* y := f (snd kv) in Ok (fst kv, y)) d.
Definition block_of_json : json -> exc block := entries_of_json strings_of_json.
Definition without (ks : list str) (d : dict json) : dict json := filter (fun kv => negb (str_in (fst kv) ks)) d.
Definition vblock_of_json (j : json) : exc vblock :=
  let* d := object_of_json j in
  let* created := opt_member string_of_json (`"created") d in
  let* message := opt_member string_of_json (`"message") d in
  let* user := opt_member object_of_json (`"user") d in
  let* st := opt_member block_of_json (`"state") d in
  Ok (mk_vblock created message user st (without [`"created"; `"message"; `"user"; `"state"] d)).
Definition inventory_of_json (j : json) : exc inventory :=
  let* d := object_of_json j in
  let* id := opt_member string_of_json (`"id") d in
  let* type := opt_member string_of_json (`"type") d in
  let* alg := opt_member string_of_json (`"digestAlgorithm") d in
  let* head := opt_member string_of_json (`"head") d in
  let* cdir := opt_member string_of_json (`"contentDirectory") d in
  let* man := opt_member block_of_json (`"manifest") d in
  let* vs := opt_member (entries_of_json vblock_of_json) (`"versions") d in
  let* fx := opt_member (entries_of_json block_of_json) (`"fixity") d in
  Ok (mk_inventory id type alg head cdir man vs fx
        (without [`"id"; `"type"; `"digestAlgorithm"; `"head"; `"contentDirectory"; `"manifest"; `"versions"; `"fixity"] d)).
