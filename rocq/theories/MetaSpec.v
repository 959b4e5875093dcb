(** Specification of C76: the metadata that each version of an object was given. *)
From Verif Require Import Base Unicode Utf8 Json PyJson JsonTextModel JsonTextSpec DigestModel InventorySpec InventoryValidatorModel InventoryModel InventoryOpsSpec NewVersionModel ObjectUtilsModel ObjectModel FswSpec PathModel FsModel FsSpec ObjectSpec.

(** What should be known of a version later: what was given, together with the identifier of the
    object; the current time [now] if no time was given. *)
Definition recorded (now : str) (id : option str) (m : vmeta) : vmeta :=
  mk_vmeta id (Some (match vm_created m with Some ((_ :: _) as c) => c | _ => now end)) (vm_message m) (vm_name m) (vm_address m).

(** Histories as in ObjectSpec.v, together with the identifier and what was given with each
    version. *)
Inductive described (H : hashfn) (h : place) (sd : str) (P : object -> Prop) (id : str) : node -> list (list (place * bytes)) -> list vmeta -> Prop :=
| d_created c e w sp op m F : tree w -> create_call c e w sp op id m h -> P c -> o_spec c = sd ->
    (forall c', P c' -> o_cdir c <> Some (side_name (o_alg c'))) ->
    files_at w (dest_of (e_cwd e) sp) F ->
    described H h sd P id (after (create H c e (Some sp) (Some m) (Some op)) w) [F] [recorded (e_now e) (Some id) m]
| d_built c e w sp op ms n l : tree w -> build_call c e w sp op id ms h n -> P c -> o_spec c = sd ->
    (forall c', P c' -> o_cdir c <> Some (side_name (o_alg c'))) ->
    Forall2 (fun k F => files_at w (dest_of (e_cwd e) sp ++ [vn k]) F) (seq 1 n) l ->
    described H h sd P id (after (build H c e sp ms (Some op)) w) l (map (fun k => recorded (e_now e) (Some id) (meta_for ms k)) (seq 1 n))
| d_added c e w l ms sp path m abort i F : described H h sd P id w l ms -> update_call c e w sp path m h -> P c -> In (o_alg c) [`"sha512"; `"sha256"] ->
    sd = `"1.1" \/ List.length l = 1%nat -> (N.of_nat (List.length l) < 99999)%N ->
    uniform P \/ (forall y, h <> dest_of (e_cwd e) sp ++ y) ->
    files_at w (dest_of (e_cwd e) sp) F ->
    result (add_version_with_content H c e (Some path) (Some sp) (Some m) abort) w = Ok (Some i) ->
    described H h sd P id (after (add_version_with_content H c e (Some path) (Some sp) (Some m) abort) w) (l ++ [F]) (ms ++ [recorded (e_now e) (Some id) m])
| d_elsewhere h0 w w' l ms : described H h0 sd P id w l ms -> tree w' -> (forall y, look w' (h ++ y) = look w (h0 ++ y)) -> described H h sd P id w' l ms.
