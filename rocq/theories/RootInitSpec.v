(** Specification of StorageRoot.initialize (ocfl/storage_root.py:177-218). *)
From Verif Require Import Base Unicode Utf8 Json JsonTextModel JsonTextSpec DigestModel LayoutModel TextFile PathModel FsModel FsSpec ObjectSpec StorageRootModel.

(** The layout of a new storage root: none, or that of the name with the given parameters. *)
Definition chosen_layout (H : hashfn) (name params : option str) (lay : option layout) : Prop :=
  match name with
  | None => lay = None
  | Some n => exists l0 l, get_layout n = Ok l0 /\ lay = Some l /\
      match params with
      | None => l = l0
      | Some p => exists cfg, json_loads p = Ok (JObj cfg) /\ check_and_set_layout_params H l0 cfg false = Ok l
      end
  end.
(** The version of the specification: 1.1 if neither the call nor the instance has one. *)
Definition chosen_version (given own : option str) (v : str) : Prop :=
  In v [`"1.0"; `"1.1"] /\ (given = Some v \/ given = None /\ own = None /\ v = `"1.1").

(** The files of a new storage root *)
Definition root_files (v : str) (lay : option layout) : list (place * bytes) :=
  ([`"0=ocfl_" ++ v], `"ocfl_" ++ v ++ [10]) ::
  match lay with
  | None => []
  | Some l => ([`"ocfl_layout.json"], json_dumps (JObj [(`"extension", JStr (LayoutModel.layout_name l)); (`"description", JStr (layout_description l))])) ::
      match layout_config l with
      | None => []
      | Some c => [([`"extensions"; LayoutModel.layout_name l; `"config.json"], json_print false 0 c)]
      end
  end.
(** Prefixes without pairs of surrogates, which are not characters *)
Definition text_prefix (lay : option layout) : Prop := match lay with Some (LUuid p) => text p | _ => True end.

(** A place where a storage root can be made: nothing is there, and it is in a directory. *)
Definition free_place (cwd : place) (w : node) (path : str) : Prop :=
  exists p k, path = p ++ k /\ (p = [] \/ last_opt p = Some PathModel.slash) /\ fname k /\
    look w (at_path (base_of cwd path) p) = Some EDir /\ look w (at_path (base_of cwd path) p ++ [k]) = None.
