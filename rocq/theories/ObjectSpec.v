(** What the properties about objects mean. *)
From Verif Require Import Base Unicode Utf8 Json PyJson JsonTextModel JsonTextSpec DigestModel InventorySpec InventoryValidatorModel InventoryModel InventoryOpsSpec NewVersionModel ObjectUtilsModel ObjectModel FswSpec PathModel FsModel FsSpec.

(** ** Settings and metadata *)

(** The metadata can be written: the time (or, without one, the current time [now]) has the
    right form and there is no address without a name. *)
Record meta_ok (now : str) (m : vmeta) : Prop := {
  mo_created : match vm_created m with
               | Some ((_ :: _) as c) => r_created as_coded c /\ text c
               | _ => r_created as_coded now /\ text now
               end;
  mo_message : forall x, vm_message m = Some x -> text x;
  mo_name : match vm_name m with None => vm_address m = None | Some x => exists s, x = JStr s /\ text s end;
  mo_address : forall x, vm_address m = Some x -> exists s, x = JStr s /\ text s
}.

(** What a new object needs: an identifier, a digest algorithm and a version of the specification
    that OCFL has, a content directory that is one file name, and digest algorithms for the
    fixity block that this library knows. *)
Record first_ok (id alg spec : str) (cdir : option str) (fixity : list str) : Prop := {
  fo_id : id <> [] /\ text id;
  fo_alg : In alg [`"sha512"; `"sha256"];
  fo_spec : In spec [`"1.0"; `"1.1"];
  fo_cdir : forall c, cdir = Some c -> fname c /\ text c;
  fo_fixity : forall t, In t fixity -> exists k, digest_size t k
}.

(** ** Places *)

(** The place a path stands for *)
Definition dest_of (cwd : place) (d : str) : place := at_path (base_of cwd d) d.
(** There are these files and no others, and no other directories than those they are in. *)
Record holds (w : node) (h : place) (L : list (place * bytes)) : Prop := {
  hl_dir : look w h = Some EDir;
  hl_files : forall r b, In (r, b) L -> look w (h ++ r) = Some (EFile b);
  hl_only : forall r e, r <> [] -> look w (h ++ r) = Some e -> exists x b, In (r ++ x, b) L
}.

(** A source directory with names that can be used and only files and directories *)
Record source_ok (norm : option str) (w : node) (src : place) : Prop := {
  sk_dir : look w src = Some EDir;
  sk_names : forall es b, look w (src ++ es) = Some (EFile b) -> Forall (fun e => text e /\ match norm with None => ~ In newline e | Some _ => exists bs, utf8_encode e = Ok bs end) es;
  sk_plain : forall es, look w (src ++ es) <> Some EOther
}.

(** The files there *)
Definition files_at (w : node) (src : place) (F : list (list str * bytes)) : Prop :=
  NoDup (map fst F) /\ forall es b, In (es, b) F <-> look w (src ++ es) = Some (EFile b).

(** The path can be used for a new object: it is no URL, its last part is not . or .., and
    there is an empty directory or nothing at the place it stands for. *)
Record new_place (cwd : place) (w : node) (path : str) (h : place) : Prop := {
  np_url : no_url path;
  np_place : h = at_path (base_of cwd path) path;
  np_free : exists p k, path = p ++ k /\ (p = [] \/ last_opt p = Some PathModel.slash) /\
    ((fname k /\ look w h = None /\ look w (removelast h) = Some EDir) \/
     ((k = [] \/ fname k) /\ look w h = Some EDir /\ forall r, r <> [] -> look w (h ++ r) = None))
}.

(** The directory can be written to: there is nothing there, or an empty directory. *)
Definition dest_free (w : node) (dst : place) : Prop :=
  (look w dst = None /\ look w (removelast dst) = Some EDir) \/ (look w dst = Some EDir /\ forall r, r <> [] -> look w (dst ++ r) = None).

(** ** Versions *)

(** The files F are those of the version v of the inventory, by their digests. *)
Definition same_files (H : hashfn) (i : inventory) (a v : str) (F : list (list str * bytes)) : Prop :=
  forall d p, in_state i v d p <-> exists es b, In (es, b) F /\ p = join [slash] es /\ d = H a b.

(** ** Calls *)

(** The names of inventories and their sidecars *)
Definition inv_name : str := `"inventory.json".
Definition side_name (alg : str) : str := `"inventory.json." ++ alg.
(** What is in a sidecar file *)
Definition sidecar_text (H : hashfn) (alg : str) (b : bytes) : str := H alg b ++ `" inventory.json" ++ [10%N].
(** The file that says that this is an object *)
Definition decl_name (spec : str) : str := `"0=ocfl_object_" ++ spec.
Definition decl_text (spec : str) : str := `"ocfl_object_" ++ spec ++ [10%N].
(** The directory of a version *)
Definition vn (k : nat) : str := version_fmt None (N.of_nat k).
(** A call of create that is all right: an identifier, a digest algorithm, a version of the
    specification and names this library knows; good metadata; a source directory with at least
    one file; and room for the object at [h]. *)
Record create_call (c : object) (e : env) (w : node) (sp op : str) (id : str) (m : vmeta) (h : place) : Prop := {
  cc_cwd : Forall fname (e_cwd e);
  cc_id : o_id c = Some id;
  cc_first : first_ok id (o_alg c) (o_spec c) (o_cdir c) (or_empty (o_fixity c));
  cc_cdir : forall cd, o_cdir c = Some cd -> cd <> inv_name /\ cd <> side_name (o_alg c);
  cc_meta : meta_ok (e_now e) m;
  cc_norm : In (o_norm c) [None; Some (`"uri"); Some (`"md5")];
  cc_url : no_url sp;
  cc_source : source_ok (o_norm c) w (dest_of (e_cwd e) sp);
  cc_file : exists es b, look w (dest_of (e_cwd e) sp ++ es) = Some (EFile b);
  cc_place : new_place (e_cwd e) w op h
}.

(** A call of add_version_with_content that is all right: good metadata, a source directory
    and the directory of the object. *)
Record update_call (c : object) (e : env) (w : node) (sp path : str) (m : vmeta) (h : place) : Prop := {
  uc_lax : o_lax c = false;
  uc_meta : meta_ok (e_now e) m;
  uc_norm : In (o_norm c) [None; Some (`"uri"); Some (`"md5")];
  uc_url : no_url sp /\ no_url path;
  uc_source : source_ok (o_norm c) w (dest_of (e_cwd e) sp);
  uc_place : h = dest_of (e_cwd e) path
}.

(** The name of a directory is taken for that of version k: a v, up to five digits -- of any
    script, as in Python's int -- and possibly a line feed. *)
Definition taken_for (v : str) (k : N) : Prop :=
  exists ds nl, v = `"v" ++ ds ++ nl /\ ds <> [] /\ Forall (fun c => is_digit c = true) ds /\ (nl = [] \/ nl = [10%N]) /\
    (List.length ds <= 5)%nat /\ k = int_of_digits ds /\ k <> 0%N.

(** The metadata for version k *)
Definition meta_for (ms : N -> option vmeta) (k : nat) : vmeta := match ms (N.of_nat k) with Some m => m | None => empty_vmeta end.

(** A call of build that is all right: the source directory has directories v1 to vn for n
    versions, with at least one file in the first, and no other directories with names that are
    taken for those of versions; and the object is not written to them. *)
Record build_call (c : object) (e : env) (w : node) (sp op id : str) (ms : N -> option vmeta) (h : place) (n : nat) : Prop := {
  bc_cwd : Forall fname (e_cwd e);
  bc_id : o_id c = Some id;
  bc_first : first_ok id (o_alg c) (o_spec c) (o_cdir c) (or_empty (o_fixity c));
  bc_cdir : forall cd, o_cdir c = Some cd -> cd <> inv_name /\ cd <> side_name (o_alg c);
  bc_meta : forall k, (1 <= k <= n)%nat -> meta_ok (e_now e) (meta_for ms k);
  bc_norm : In (o_norm c) [None; Some (`"uri"); Some (`"md5")];
  bc_url : no_url sp;
  bc_range : (1 <= n)%nat /\ (N.of_nat n <= 99999)%N;
  bc_source : forall k, (1 <= k <= n)%nat -> source_ok (o_norm c) w (dest_of (e_cwd e) sp ++ [vn k]);
  bc_file : exists es b, look w (dest_of (e_cwd e) sp ++ vn 1 :: es) = Some (EFile b);
  bc_dirs : forall v k, look w (dest_of (e_cwd e) sp ++ [v]) = Some EDir -> taken_for v k -> exists j, (1 <= j <= n)%nat /\ v = vn j;
  bc_place : new_place (e_cwd e) w op h;
  bc_out : forall v k y, taken_for v k -> h <> dest_of (e_cwd e) sp ++ v :: y;
  bc_spec : o_spec c = `"1.1" \/ (n <= 2)%nat
}.

(** ** Histories *)

(** The digest algorithm is always the same. *)
Definition uniform (P : object -> Prop) : Prop := forall c c', P c -> P c' -> o_alg c = o_alg c'.

(** The object at [h] has been made by such calls, with the files [l] for its versions; the
    settings of all the calls have the property [P]. In between everything else may change,
    and the object may be copied to another place. The content directory must not have the
    name of a sidecar file, and if the digest algorithm changes then the source directory must
    not contain the object. *)
Inductive history (H : hashfn) (h : place) (sd : str) (P : object -> Prop) : node -> list (list (place * bytes)) -> Prop :=
| created c e w sp op id m F : tree w -> create_call c e w sp op id m h -> P c -> o_spec c = sd ->
    (forall c', P c' -> o_cdir c <> Some (side_name (o_alg c'))) ->
    files_at w (dest_of (e_cwd e) sp) F ->
    history H h sd P (after (create H c e (Some sp) (Some m) (Some op)) w) [F]
| built c e w sp op id ms n l : tree w -> build_call c e w sp op id ms h n -> P c -> o_spec c = sd ->
    (forall c', P c' -> o_cdir c <> Some (side_name (o_alg c'))) ->
    Forall2 (fun k F => files_at w (dest_of (e_cwd e) sp ++ [vn k]) F) (seq 1 n) l ->
    history H h sd P (after (build H c e sp ms (Some op)) w) l
| added c e w l sp path m abort i F : history H h sd P w l -> update_call c e w sp path m h -> P c -> In (o_alg c) [`"sha512"; `"sha256"] ->
    sd = `"1.1" \/ List.length l = 1%nat -> (N.of_nat (List.length l) < 99999)%N ->
    uniform P \/ (forall y, h <> dest_of (e_cwd e) sp ++ y) ->
    files_at w (dest_of (e_cwd e) sp) F ->
    result (add_version_with_content H c e (Some path) (Some sp) (Some m) abort) w = Ok (Some i) ->
    history H h sd P (after (add_version_with_content H c e (Some path) (Some sp) (Some m) abort) w) (l ++ [F])
| elsewhere h0 w w' l : history H h0 sd P w l -> tree w' -> (forall y, look w' (h ++ y) = look w (h0 ++ y)) -> history H h sd P w' l.

(** No two different contents have the same digest. *)
Definition collision_free (H : hashfn) (P : object -> Prop) (l : list (list (place * bytes))) : Prop :=
  forall c F F' r b r' b', P c -> In F l -> In F' l -> In (r, b) F -> In (r', b') F' -> H (o_alg c) b = H (o_alg c) b' -> b = b'.

(** The same paths with the same digests *)
Definition same_listing (H : hashfn) (a : str) (F F' : list (place * bytes)) : Prop :=
  forall es d, (exists b, In (es, b) F /\ d = H a b) <-> (exists b, In (es, b) F' /\ d = H a b).
