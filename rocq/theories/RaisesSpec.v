(** Objects that can be validated without an exception (C62), however wrong they are. *)
From Verif Require Import Base Unicode Utf8 Json PyJson TextFile DigestModel InventorySpec NamasteSpec PathModel FsModel FsSpec FswSpec ValidatorSpec.

(** An algorithm for which a digest can be computed. *)
Definition known_algorithm (alg : str) : Prop :=
  (exists n, digest_size alg n) \/ In alg [`"sha512-spec-ex"; `"sha256-spec-ex"].

(** {"digest": ["path", ...], ...}, with any digests and paths *)
Definition path_lists (block : json) : Prop :=
  exists d, block = JObj d /\ forall k x, In (k, x) d -> exists l, x = JArr l /\ Forall is_string l.

(** A document with a manifest, with a state in each version, and with the fixity algorithms known.
    All else is free: attributes can be missing or of another type, digests, paths and version
    names can be any texts. *)
Definition regular (inv : json) : Prop :=
  (exists d, inv = JObj d) /\
  (exists man, member inv (`"manifest") man) /\
  (forall man, member inv (`"manifest") man -> path_lists man) /\
  (forall vs v b, member inv (`"versions") (JObj vs) -> In (v, b) vs ->
     (exists d, b = JObj d) /\ (exists st, member b (`"state") st) /\ (forall st, member b (`"state") st -> path_lists st)) /\
  (forall fx, member inv (`"fixity") fx -> exists d, fx = JObj d /\
     forall alg block, In (alg, block) d -> known_algorithm alg /\ path_lists block).

Record orderly (w : node) (h : place) : Prop := mkOrderly {
  or_dir : look w h = Some EDir;
  or_plain : forall p, at_root w h p <> Some EOther;
  (** not more than ten names that begin with 0= *)
  or_few : at_most 10 (tagged w h (`"0"));
  (** declarations are text files *)
  or_declarations : forall v e, In v [`"1.0"; `"1.1"] -> at_root w h [`"0=ocfl_object_" ++ v] = Some e ->
    exists b text, e = EFile b /\ read_text b = Ok text;
  (** inventory files are no JSON, or regular *)
  or_inventories : forall dir e, (List.length dir <= 1)%nat -> at_root w h (dir ++ [`"inventory.json"]) = Some e ->
    exists b, e = EFile b /\ (json_load b = Raise JSONDecodeError \/ exists j, json_load b = Ok j /\ regular j);
  (** sidecars are files, with any content *)
  or_sidecars : forall dir alg e, (List.length dir <= 1)%nat -> In alg [`"sha512"; `"sha256"] ->
    at_root w h (dir ++ [`"inventory.json." ++ alg]) = Some e -> exists b, e = EFile b
}.
