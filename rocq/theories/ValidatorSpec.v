(** What it means that an object on a file system is intact (C30-C33, C59), in terms of what is at each
    place and of the rules for inventories, not of the validator's steps. *)
From Verif Require Import Base Unicode Utf8 Json TextFile DigestModel InventorySpec NamasteSpec PathModel FsModel FsSpec FswSpec.

(** ** Digests *)

(** The hexadecimal digest of some bytes. *)
Definition digest_of (H : hashfn) (alg : str) (b : bytes) (x : str) : Prop :=
  ((exists n, digest_size alg n) /\ x = H alg b) \/
  (alg = `"sha512-spec-ex" /\ x = truncated 15 (H (`"sha512") b)) \/
  (alg = `"sha256-spec-ex" /\ x = truncated 6 (H (`"sha256") b)).

(** [x] is [d] in small letters (A-Z only); the abbreviated digests are case sensitive. *)
Definition small_letter (a c : N) : Prop :=
  ((65 <= a <= 90) /\ c = a + 32 \/ ~ (65 <= a <= 90) /\ c = a)%N.
Definition records (alg d x : str) : Prop :=
  (In alg [`"sha512-spec-ex"; `"sha256-spec-ex"] /\ x = d) \/
  (~ In alg [`"sha512-spec-ex"; `"sha256-spec-ex"] /\ Forall2 small_letter d x).
(** The text [d] is a digest of the bytes. *)
Definition digest_fits (H : hashfn) (alg : str) (b : bytes) (d : str) : Prop :=
  exists x, digest_of H alg b x /\ records alg d x.

(** ** What inventories record *)

(** The block {"digest": ["path", ...], ...} has the path under the digest. *)
Definition lists (block : dict json) (d p : str) : Prop := exists x, In (d, x) block /\ In p (strings x).
Definition fixity_lists (inv : json) (alg d p : str) : Prop :=
  exists fx block, member inv (`"fixity") (JObj fx) /\ In (alg, JObj block) fx /\ lists block d p.

(** [v] is before [v'] in the list. *)
Definition before (vs : list str) (v v' : str) : Prop := exists a b c, vs = a ++ v :: b ++ v' :: c.

Definition no_later (a b : str) : Prop := a = b \/ a = `"1.0" /\ b = `"1.1".

(** ** Text files *)

(** The first line with its newline, if there is one. *)
Definition line (text l : str) : Prop :=
  (text = l /\ ~ In 10%N l) \/ (exists l0 r, l = l0 ++ [10%N] /\ ~ In 10%N l0 /\ text = l ++ r).

Definition spaces (s : str) : Prop := Forall (fun c => is_space c = true) s.

(** The line of an inventory digest file: digest, white space, inventory.json, and perhaps
    white space. *)
Definition sidecar_line (l x : str) : Prop :=
  exists sp tl, x <> [] /\ Forall (fun c => is_word c = true) x /\ sp <> [] /\ spaces sp /\ spaces tl /\
    l = x ++ sp ++ `"inventory.json" ++ tl.

(** The text is [t] but for white space around it, and for characters that a file name of a
    declaration does not have: these are shown as underscores. *)
Definition shown_as (c t : N) : Prop :=
  if is_word c || char_in c (`".-:") then t = c else t = 95%N.
Definition declares (text t : str) : Prop :=
  exists a body b, text = a ++ body ++ b /\ spaces a /\ spaces b /\ Forall2 shown_as body t.

(** ** The object *)

Section Intact.
  Variable H : hashfn.
  Variable check : bool.    (* digests are checked *)
  Variable w : node.
  Variable h : place.       (* the object root *)

  Definition at_root (p : place) : option entry := look w (h ++ p).

  (** There is one declaration, of a supported version, with the right content. *)
  Definition declaration (spec : str) : Prop :=
    In spec [`"1.0"; `"1.1"] /\
    (forall name, tagged w h (`"0") name <-> name = `"0=ocfl_object_" ++ spec) /\
    exists b text, at_root [`"0=ocfl_object_" ++ spec] = Some (EFile b) /\ read_text b = Ok text /\
      declares text (`"ocfl_object_" ++ spec).

  Definition inventory_at (dir : place) (b : bytes) (j : json) : Prop :=
    at_root (dir ++ [`"inventory.json"]) = Some (EFile b) /\ json_load b = Ok j.

  (** The inventory with bytes [b] in [dir] has its digest file. *)
  Definition sidecar (dir : place) (alg : str) (b : bytes) : Prop :=
    at_root (dir ++ [`"inventory.json." ++ alg]) <> None /\
    (check = true -> exists sb text l x,
       at_root (dir ++ [`"inventory.json." ++ alg]) = Some (EFile sb) /\ read_text sb = Ok text /\
       line text l /\ sidecar_line l x /\ digest_of H alg b x).

  (** What may be in the object root. *)
  Definition root_entry (spec : str) (f : facts) (name : str) (e : entry) : Prop :=
    match e with
    | EFile _ => In name [`"0=ocfl_object_" ++ spec; `"inventory.json"; `"inventory.json." ++ f_alg f]
    | EDir => In name (f_versions f) \/ name = `"logs" \/
        (name = `"extensions" /\ forall k e', at_root [name; k] = Some e' -> e' = EDir)
    | EOther => False
    end.

  Definition has_inventory (v : str) : Prop := at_root [v; `"inventory.json"] <> None.

  (** The inventory in the directory of a version before the head. *)
  Definition earlier_inventory (root : json) (fr : facts) (v : str) (b : bytes) (j : json) (f : facts) : Prop :=
    inventory_at [v] b j /\ obeys as_coded j f /\ sidecar [v] (f_alg f) b /\
    f_id f = f_id fr /\ f_cdir f = f_cdir fr /\ (f_cdir_set fr = true -> f_cdir_set f = true) /\
    earlier_part j root f fr /\
    (f_alg f = f_alg fr -> forall u d, In u (f_versions f) -> (has_digest j u d <-> has_digest root u d)).

  (** [j] is the inventory of version [v], which is not the head. *)
  Definition inventory_of (head v : str) (j : json) (f : facts) : Prop :=
    v <> head /\ exists b, inventory_at [v] b j /\ obeys as_coded j f.

  Definition version_inventories (spec : str) (root : json) (fr : facts) (rb : bytes) (head : str) : Prop :=
    (has_inventory head -> at_root [head; `"inventory.json"] = Some (EFile rb) /\ sidecar [head] (f_alg fr) rb) /\
    (forall v, In v (f_versions fr) -> v <> head -> has_inventory v ->
       exists b j f, earlier_inventory root fr v b j f) /\
    (* files are not taken out of the manifest, the version of the specification does not fall *)
    (forall v v' j j' f f', before (f_versions fr) v v' -> inventory_of head v j f -> inventory_of head v' j' f' ->
       incl (listed (f_manifest f)) (listed (f_manifest f')) /\ no_later (f_spec f) (f_spec f')) /\
    (has_inventory head -> forall v j f, In v (f_versions fr) -> inventory_of head v j f -> no_later (f_spec f) spec).

  (** The name of the digest file of the inventory of version [v], if it has an inventory. *)
  Definition sidecar_name (fr : facts) (head v name : str) : Prop :=
    (v = head /\ has_inventory v /\ name = `"inventory.json." ++ f_alg fr) \/
    (exists j f, inventory_of head v j f /\ name = `"inventory.json." ++ f_alg f).

  (** The content directory of version [v] is looked at. *)
  Definition content_seen (fr : facts) (head v : str) : Prop :=
    f_cdir fr <> `"inventory.json" /\ ~ sidecar_name fr head v (f_cdir fr).

  (** A version directory has nothing but inventory, digest file, content and other directories; there are no empty
      directories in the content. *)
  Definition version_directory (fr : facts) (head v : str) : Prop :=
    at_root [v] = Some EDir /\
    (forall c e, at_root [v; c] = Some e ->
       c = `"inventory.json" \/ sidecar_name fr head v c \/ c = f_cdir fr \/ e = EDir) /\
    (content_seen fr head v -> forall r, r <> [] -> at_root (v :: f_cdir fr :: r) = Some EDir ->
       exists k, at_root (v :: f_cdir fr :: r ++ [k]) <> None).

  (** The file with this path relative to the object root is in a content directory. *)
  Definition content (fr : facts) (head p : str) : Prop :=
    exists v r, In v (f_versions fr) /\ content_seen fr head v /\ r <> [] /\ leaf w (h ++ v :: f_cdir fr :: r) /\
      p = join [slash] (v :: f_cdir fr :: r).

  (** The file with this path has such a digest. *)
  Definition file_fits (alg d p : str) : Prop :=
    exists r b, p = join [slash] r /\ at_root r = Some (EFile b) /\ digest_fits H alg b d.

  Definition content_digests (root : json) (fr : facts) (head : str) : Prop :=
    (forall d p, lists (f_manifest fr) d p -> file_fits (f_alg fr) d p) /\
    (forall alg d p, fixity_lists root alg d p -> file_fits alg d p) /\
    (forall v j f, In v (f_versions fr) -> inventory_of head v j f ->
       (forall d p, lists (f_manifest f) d p -> In p (listed (f_manifest fr)) -> file_fits (f_alg f) d p) /\
       (forall alg d p, fixity_lists j alg d p -> In p (listed (f_manifest fr)) -> file_fits alg d p)).

  Record intact (spec : str) (rb : bytes) (root : json) (fr : facts) (head : str) : Prop := {
    in_declaration : declaration spec;
    in_inventory : inventory_at [] rb root;
    in_rules : obeys as_coded root fr;
    in_head : member root (`"head") (JStr head);
    in_sidecar : sidecar [] (f_alg fr) rb;
    in_root : forall name e, at_root [name] = Some e -> root_entry spec fr name e;
    in_versions : version_inventories spec root fr rb head;
    in_directories : forall v, In v (f_versions fr) -> version_directory fr head v;
    in_content : forall p, In p (listed (f_manifest fr)) <-> content fr head p;
    in_digests : check = true -> content_digests root fr head
  }.
End Intact.
