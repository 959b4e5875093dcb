(** What adding an object to a storage root should do (C48). *)
From Verif Require Import Base Json PyJson TextFile JsonTextModel JsonFileProofs DigestModel LayoutModel PathModel FsModel FsSpec FswSpec InventorySpec ParseModel ObjectModel StorageRootModel StorageRootSpec Properties_RootList.

(** The identifier in the inventory of an object. *)
Definition identified (w : node) (p : place) (id : str) : Prop :=
  exists b d, look w (p ++ [`"inventory.json"]) = Some (EFile b) /\ json_load b = Ok (JObj d) /\
    readable (JObj d) /\ member (JObj d) (`"id") (JStr id).

(** The layout of a storage root at h: the one described there or, if none is, the one that
    was asked for by name. *)
Definition layout_used (H : hashfn) (w : node) (h : place) (name : option str) (l : layout) : Prop :=
  layout_described H w h (Some l) \/ layout_described H w h None /\ exists n, name = Some n /\ get_layout n = Ok l.

(** The object at src has the identifier id and belongs at path under the storage root at h,
    which is a storage root of the version that is asked for, if any is. *)
Record belongs (H : hashfn) (id_encode : str -> str) (w : node) (h : place) (name spec : option str) (src : place) (id path : str) : Prop := {
  be_root : look w h = Some EDir;
  be_version : exists v, root_declared w h v /\ (spec = None \/ spec = Some v);
  be_source : look w src = Some EDir;
  be_id : identified w src id;
  be_path : exists l, layout_used H w h name l /\ identifier_to_path H id_encode l id = Ok path }.

(** There are no links or devices in a directory. *)
Definition plain (w : node) (p : place) : Prop := forall rel, leaf w (p ++ rel) -> exists b, look w (p ++ rel) = Some (EFile b).
