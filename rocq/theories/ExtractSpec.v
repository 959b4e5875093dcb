(** What the statements about extraction (C43, C44, C66) are about. *)
From Verif Require Import Base PathModel InventorySpec FsModel FsSpec ObjectSpec.

(** The path can be used for a directory to put files in: it is no URL, its last part is not
    . or .., and there is a directory or nothing at the place it stands for. *)
Record usable_place (cwd : place) (w : node) (path : str) (h : place) : Prop := {
  up_url : no_url path;
  up_place : h = dest_of cwd path;
  up_free : exists p k, path = p ++ k /\ (p = [] \/ last_opt p = Some PathModel.slash) /\
    ((fname k /\ look w h = None /\ look w (removelast h) = Some EDir) \/
     ((k = [] \/ fname k) /\ look w h = Some EDir))
}.

(** A file can be written at this place: there is nothing there, or another file. *)
Definition file_place (w : node) (q : place) : Prop := look w q = None \/ exists b, look w q = Some (EFile b).

(** The last of the parts of a path *)
Definition last_part (p k : str) : Prop := ~ In PathModel.slash k /\ (p = k \/ exists a, p = a ++ PathModel.slash :: k).
