(** What the commands of ocfl-object.py should do (C86). *)
From Verif Require Import Base Unicode Utf8 Json JsonTextModel TextFile ValidatorModel PathModel FsModel FsSpec FswSpec DigestModel InventorySpec InventoryModel ObjectModel ObjectSpec BaggerModel MetaSpec RootToolModel ObjectToolModel.

(** A command [cmd] for the object in the directory [objdir], without --lax-digests *)
Record object_command (cmd objdir : str) (a : object_args) : Prop := {
  oc_cmd : oa_cmd a = Some cmd;
  oc_objdir : oa_objdir a = Some objdir;
  oc_lax : oa_lax a = false }.

(** What the commands print *)
Definition updated_to (id v : str) : shown := Printed (`"Updated object " ++ id ++ `" to " ++ v).
Definition extracted_in (v dst : str) : shown := Printed (`"Extracted content for " ++ v ++ `" in " ++ dst).
Definition extracted_to (path v dst : str) : shown := Printed (`"Extracted " ++ path ++ `" in " ++ v ++ `" to " ++ dst).
Definition object_verdict (objdir : str) (valid : bool) : shown := Printed (`"Object at " ++ objdir ++ `" is " ++ (if valid then `"VALID" else `"INVALID")).

(** The settings of all commands of a session: one of the two digest algorithms, and the usual
    content directory *)
Definition usual (c : object) : Prop := In (o_alg c) [`"sha512"; `"sha256"] /\ o_cdir c = Some (`"content").

(** Version v of the JSON [j] says [m]. *)
Definition text_or_none (j : json) (k : str) (x : option str) : Prop :=
  match x with Some t => member j k (JStr t) | None => lacks j k end.
Definition json_or_none (j : json) (k : str) (x : option json) : Prop :=
  match x with Some t => member j k t | None => lacks j k end.
Definition version_says (j : json) (v : str) (m : vmeta) : Prop :=
  text_or_none j (`"id") (vm_id m) /\
  exists vs b, member j (`"versions") vs /\ member vs v b /\ text_or_none b (`"created") (vm_created m) /\ text_or_none b (`"message") (vm_message m) /\
    ((exists u, member b (`"user") u /\ json_or_none u (`"name") (vm_name m) /\ json_or_none u (`"address") (vm_address m)) \/
     lacks b (`"user") /\ vm_name m = None /\ vm_address m = None).

Definition version_in (j : json) (v : str) : Prop := exists vs b, member j (`"versions") vs /\ member vs v b.

(** JSON with members of the same types as an inventory, as far as it has them; nothing is
    required. *)
Definition is_text (j : json) : Prop := exists t, j = JStr t.
Definition dict_of (T : json -> Prop) (j : json) : Prop := exists d, j = JObj d /\ forall k v, In (k, v) d -> T v.
Definition if_any (j : json) (k : str) (T : json -> Prop) : Prop := forall v, member j k v -> T v.
Definition version_like (b : json) : Prop :=
  dict_of (fun _ => True) b /\ if_any b (`"created") is_text /\ if_any b (`"message") is_text /\ if_any b (`"user") (dict_of (fun _ => True)) /\
  if_any b (`"state") (dict_of string_array).
Definition inventory_like (j : json) : Prop :=
  dict_of (fun _ => True) j /\ (forall k, In k [`"id"; `"type"; `"digestAlgorithm"; `"head"; `"contentDirectory"] -> if_any j k is_text) /\
  if_any j (`"manifest") (dict_of string_array) /\ if_any j (`"fixity") (dict_of (dict_of string_array)) /\ if_any j (`"versions") (dict_of version_like).

(** The metadata that build is given with --metadata: for each of the versions in the file what
    the file says, and nothing for other versions. No two versions in the file have the same
    number. *)
Definition file_says (j : json) (ms : N -> option vmeta) : Prop :=
  (forall k m, ms k = Some m -> exists v, taken_for v k /\ version_says j v m) /\
  (forall v, version_in j v -> exists k m, taken_for v k /\ ms k = Some m) /\
  (forall v v' k, version_in j v -> version_in j v' -> taken_for v k -> taken_for v' k -> v = v').
Definition metadata_given (e : env) (w : node) (a : object_args) (ms : N -> option vmeta) : Prop :=
  match oa_metadata a with
  | None => forall k, ms k = None
  | Some f => exists b j, look w (dest_of (e_cwd e) f) = Some (EFile b) /\ json_load b = Ok j /\ inventory_like j /\ (exists vs, member j (`"versions") vs) /\ file_says j ms
  end.

(** An object made by the command create or build and used by any number of commands, in between
    other programs change the file system outside of the object: the files and the metadata of
    its versions. *)
Inductive object_session (H : hashfn) (make_bag : str -> dict json -> io unit) (bg : exc bag) (h : place) (sd id : str)
    : node -> list (list (place * bytes)) -> list vmeta -> Prop :=
| os_create a e w sp op F : tree w -> object_command (`"create") op a -> oa_srcdir a = Some sp -> oa_srcbag a = None ->
    create_call (object_of a) e w sp op id (meta_of a) h -> oa_spec a = sd -> files_at w (dest_of (e_cwd e) sp) F ->
    object_session H make_bag bg h sd id (after (ocfl_object H make_bag bg e a) w) [F] [recorded (e_now e) (Some id) (meta_of a)]
| os_build a e w sp op ms n l : tree w -> object_command (`"build") op a -> oa_srcdir a = Some sp -> metadata_given e w a ms ->
    build_call (object_of a) e w sp op id ms h n -> oa_spec a = sd ->
    Forall2 (fun k F => files_at w (dest_of (e_cwd e) sp ++ [vn k]) F) (seq 1 n) l ->
    object_session H make_bag bg h sd id (after (ocfl_object H make_bag bg e a) w) l (map (fun k => recorded (e_now e) (Some id) (meta_for ms k)) (seq 1 n))
| os_update a e w l ms sp path F : object_session H make_bag bg h sd id w l ms ->
    object_command (`"update") path a -> oa_srcdir a = Some sp -> oa_srcbag a = None ->
    update_call (object_of a) e w sp path (meta_of a) h -> In (oa_digest a) [`"sha512"; `"sha256"] ->
    sd = `"1.1" \/ List.length l = 1%nat -> (N.of_nat (List.length l) < 99999)%N ->
    (forall y, h <> dest_of (e_cwd e) sp ++ y) -> files_at w (dest_of (e_cwd e) sp) F ->
    object_session H make_bag bg h sd id (after (ocfl_object H make_bag bg e a) w) (l ++ [F]) (ms ++ [recorded (e_now e) (Some id) (meta_of a)])
| os_extract a e w l ms objdir d : object_session H make_bag bg h sd id w l ms ->
    oa_cmd a = Some (`"extract") -> oa_objdir a = Some objdir -> oa_dstdir a = Some d -> d <> [] -> given (oa_dstbag a) = None -> given (oa_logical_path a) = None ->
    Forall fname (e_cwd e) -> look w (e_cwd e) = Some EDir -> (forall y z, h ++ y <> dest_of (e_cwd e) d ++ z) ->
    object_session H make_bag bg h sd id (after (ocfl_object H make_bag bg e a) w) l ms
| os_look a e w l ms : object_session H make_bag bg h sd id w l ms -> oa_cmd a = Some (`"show") \/ oa_cmd a = Some (`"validate") ->
    object_session H make_bag bg h sd id (after (ocfl_object H make_bag bg e a) w) l ms
| os_other w w' l ms : object_session H make_bag bg h sd id w l ms -> tree w' -> (forall y, look w' (h ++ y) = look w (h ++ y)) ->
    object_session H make_bag bg h sd id w' l ms.
