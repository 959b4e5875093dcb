(** Model of the commands of ocfl-object.py, after argparse has split the command line.

    Of what validate prints only the verdict is modelled. What else is logged is not modelled,
    and neither are command lines that argparse does not accept. *)
From Verif Require Import Base Unicode Json JsonTextModel DigestModel ObjectUtilsModel InventoryModel TextFile PathModel FsModel FswModel ValidatorModel ObjectModel BaggerModel StorageRootModel TreeModel
  ToolModel RootToolModel.

(** ocfl-object.py:22-121: what argparse gives for the options; the value of an option that a
    command does not have is not used. --skip has no influence on anything. argparse demands
    --objdir for update, show, validate and extract. *)
Record object_args := mk_object_args {
  oa_cmd : option str; oa_objdir : option str;
  oa_spec : str; oa_digest : str; oa_fixity : option (list str); oa_id : option str;
  oa_skip : list str; oa_norm : option str; oa_no_forward_delta : bool; oa_no_dedupe : bool; oa_lax : bool;
  oa_created : option str; oa_message : option str; oa_name : option str; oa_address : option str;   (* create, update *)
  oa_srcdir : option str; oa_srcbag : option str;                                                    (* create, build, update *)
  oa_metadata : option str;                                                                          (* build *)
  oa_objver : str; oa_dstdir : option str; oa_dstbag : option str; oa_set_bagging_date : bool; oa_logical_path : option str (* extract *)
}.

(** ocfl-object.py:132-139; the content directory is the default of Object (object.py:77) *)
Definition object_of (a : object_args) : object :=
  mk_object (oa_id a) (Some (`"content")) (oa_digest a) (oa_norm a) (oa_spec a) (negb (oa_no_forward_delta a)) (negb (oa_no_dedupe a)) (oa_lax a) (oa_fixity a).
(** ocfl-object.py:142-145 and 178-181 *)
Definition meta_of (a : object_args) : vmeta :=
  mk_vmeta None (oa_created a) (oa_message a) (option_map JStr (oa_name a)) (option_map JStr (oa_address a)).

(** ocfl-object.py:124-127 print_inventory, inventory.py:485-492 as_json. "%s" shows None as such. *)
Definition shown_text (x : option str) : str := match x with Some t => t | None => `"None" end.
Definition print_inventory (i : inventory) : list shown :=
  [Printed (`"### Inventory for " ++ shown_text (i_head i)); Printed (json_dumps (json_of_inventory i))].

(** ocfl-object.py:165-169 versions_metadata, inventory.py:112-131 and 311-318. Members with
    values of other types than in inventories raise OtherException here, see
    [inventory_of_json]. A later version with the same number replaces an earlier one. *)
Definition versions_metadata (i : inventory) : exc (N -> option vmeta) :=
  let* vdirs := version_directories i in
  efold (fun (ms : N -> option vmeta) vdir =>
           let* n := parse_version_directory vdir in
           let* m := from_inventory empty_vmeta i (Some vdir) in
           Ok (fun k => if (k =? n)%N then Some m else ms k)) vdirs (fun _ => None).
Definition metadata_from_file (e : env) (file : str) (w : node) : exc (N -> option vmeta) :=
  let* b := fs_read w (if startswith [slash] file then [] else e_cwd e) file in
  let* j := json_load b in
  let* i := inventory_of_json j in
  versions_metadata i.

(** The version that the option --objver names: what metadata.version is after extract
    (version_metadata.py:72), with the file system as it is before. *)
Definition version_named (e : env) (objdir version : str) (w : node) : str :=
  match result (open_obj_fs e (Some objdir) false) w with
  | Ok h => match extract_setup w h version with Ok iv => snd iv | Raise _ => version end
  | Raise _ => version
  end.

(** ocfl-object.py:130-217 do_object_operation. [b] is what bagit.Bag gives for --srcbag and
    [make_bag] what bagit.make_bag does, as in ToolModel.v; FatalError is OtherException, and so is
    what argparse does when --objdir is missing.
    What is printed before an exception is not modelled. *)
Definition do_object_operation (H : hashfn) (make_bag : str -> dict json -> io unit) (b : exc bag) (e : env) (a : object_args) (cmd : str)
    : io (list shown) :=
  let c := object_of a in
  if str_eqb cmd (`"create") then
    do inv <- ocfl_object_create H c e (oa_srcdir a) (oa_srcbag a) b (meta_of a) (oa_objdir a) ;;
    iret (match oa_objdir a with None => print_inventory inv | Some _ => [] end)
  else if str_eqb cmd (`"build") then
    match oa_srcdir a with
    | None => iraise OtherException
    | Some srcdir =>
        do ms <- iread (fun w => match oa_metadata a with None => Ok (fun _ => None) | Some f => metadata_from_file e f w end) ;;
        do inv <- build H c e srcdir ms (oa_objdir a) ;;
        match oa_objdir a, inv with
        | None, Some i => iret (print_inventory i)
        | None, None => iraise AttributeError (* None.head *)
        | Some _, _ => iret []
        end
    end
  else
    match oa_objdir a with
    | None => iraise OtherException
    | Some objdir =>
        if str_eqb cmd (`"update") then
          do r <- ocfl_object_update H c e objdir (oa_srcdir a) (oa_srcbag a) b (meta_of a) ;;
          match r with
          | None => iraise AttributeError (* None.id; does not happen *)
          | Some inv => iret [Printed (`"Updated object " ++ shown_text (i_id inv) ++ `" to " ++ shown_text (i_head inv))]
          end
        else if str_eqb cmd (`"show") then
          do t <- iread (fun w => object_tree H (oa_lax a) e objdir w) ;;
          iret [Printed (`"Object tree" ++ match oa_id a with Some id => `" for " ++ id | None => [] end); Printed t]
        else if str_eqb cmd (`"validate") then
          do valid <- iread (fun w => ocfl_object_validate H e (oa_lax a) objdir w) ;;
          iret [Printed (`"Object at " ++ objdir ++ `" is " ++ (if (valid : bool) then `"VALID" else `"INVALID"))]
        else if str_eqb cmd (`"extract") then
          do v <- iread (fun w => Ok (version_named e objdir (oa_objver a) w)) ;;
          match given (oa_logical_path a) with
          | Some path =>
              match given (oa_dstbag a), oa_dstdir a with
              | Some _, _ => iraise OtherException
              | None, None => iraise AttributeError (* fsw_openfs(None); --dstdir has a default *)
              | None, Some dst =>
                  extract_file e (Some objdir) (oa_objver a) dst path ;;
                  iret [Printed (`"Extracted " ++ path ++ `" in " ++ v ++ `" to " ++ dst)]
              end
          | None =>
              ocfl_object_extract make_bag e objdir (oa_objver a) (oa_dstdir a) (oa_dstbag a) (oa_set_bagging_date a) ;;
              iret [Printed (match given (oa_dstbag a), given (oa_dstdir a) with
                             | None, Some dst => `"Extracted content for " ++ v ++ `" in " ++ dst
                             | x, _ => `"Extracted content for " ++ v ++ `" saved as Bagit bag in " ++ or_empty x
                             end)]
          end
        else iret [Failed (`"Unrecognized command!")]
    end.

(** ocfl-object.py:117-118 and 220-226. Each exception, caught or not, gives the exit status 1. *)
Definition ocfl_object (H : hashfn) (make_bag : str -> dict json -> io unit) (b : exc bag) (e : env) (a : object_args) : io (list shown) :=
  match oa_cmd a with
  | None => iraise OtherException
  | Some cmd => do_object_operation H make_bag b e a cmd
  end.
Definition ocfl_object_status (r : exc (list shown)) : N := exit_status (fun _ => true) r.
