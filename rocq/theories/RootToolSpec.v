(** What the commands of ocfl-root.py should do (C85). *)
From Verif Require Import Base Unicode PathModel FsModel FsSpec FswSpec DigestModel LayoutModel InventorySpec ObjectModel ObjectSpec StorageRootModel StorageRootSpec RootAddSpec
  Properties_RootValid RootToolModel.

(** The storage root that a command uses: that of the option --root or else of $OCFL_ROOT *)
Definition root_given (env_root : option str) (a : root_args) (r : str) : Prop :=
  ra_root a = Some r /\ r <> [] \/ (ra_root a = None \/ ra_root a = Some []) /\ env_root = Some r.

(** A command for the storage root r, without --layout and --lax-digests *)
Record command (env_root : option str) (r c : str) (a : root_args) : Prop := {
  co_cmd : ra_cmd a = Some c;
  co_root : root_given env_root a r;
  co_layout : ra_layout a = None;
  co_lax : ra_lax a = false }.

(** What list, add and path print *)
Definition line_of (path id : str) : shown := Printed (path ++ `" -- id=" ++ id).
Definition total_of (n : nat) (r : str) : shown := Printed (`"Found " ++ str_of_N (N.of_nat n) ++ `" OCFL Objects under root " ++ r).
Definition added_at (path id : str) : shown := Printed (`"Added object " ++ id ++ `" at path " ++ path).
Definition path_of (r path id : str) : shown := Printed (`"Path to " ++ id ++ `" inside root " ++ r ++ `" is " ++ path).
Definition verdict_of (r : str) (valid : bool) : shown := Printed (`"Storage root " ++ r ++ (if valid then `" is VALID" else `" is INVALID")).

(** A storage root made by the command create, w0 being the file system after that, and used by
    any number of commands: the identifiers of the objects added in order, and the file system.
    Objects that are added are sound ([whole]); what cannot be added has no links or devices.
    Other programs change the file system outside of the storage root. *)
Inductive session (H : hashfn) (id_encode : str -> str) (e : env) (env_root : option str) (r : str) (w0 : node) : list str -> node -> Prop :=
| session_start : session H id_encode e env_root r w0 [] w0
| session_add ids w a src id : session H id_encode e env_root r w0 ids w ->
    command env_root r (`"add") a -> ra_src a = Some src -> no_url src -> whole H w (dest_of (e_cwd e) src) -> identified w (dest_of (e_cwd e) src) id ->
    ocfl_root_status (result (ocfl_root H id_encode e env_root a) w) = 0%N ->
    session H id_encode e env_root r w0 (ids ++ [id]) (after (ocfl_root H id_encode e env_root a) w)
| session_failed ids w a src : session H id_encode e env_root r w0 ids w ->
    command env_root r (`"add") a -> ra_src a = Some src -> no_url src -> plain w (dest_of (e_cwd e) src) ->
    ocfl_root_status (result (ocfl_root H id_encode e env_root a) w) <> 0%N ->
    session H id_encode e env_root r w0 ids (after (ocfl_root H id_encode e env_root a) w)
| session_look ids w a : session H id_encode e env_root r w0 ids w -> ra_cmd a <> Some (`"create") -> ra_cmd a <> Some (`"add") ->
    session H id_encode e env_root r w0 ids (after (ocfl_root H id_encode e env_root a) w)
| session_other ids w w' : session H id_encode e env_root r w0 ids w -> tree w' -> (forall q, look w' (dest_of (e_cwd e) r ++ q) = look w (dest_of (e_cwd e) r ++ q)) ->
    session H id_encode e env_root r w0 ids w'.
