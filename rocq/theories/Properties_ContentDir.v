(** C39, C57, C60: which directory is the content directory, without the function of the
    model. The theorems of these properties that name [content_directory_to_use] are about
    the directory given here. *)
From Verif Require Import Base Unicode DigestModel LayoutModel PathModel ObjectUtilsModel InventoryValidatorModel InventoryModel InventoryOpsSpec InventoryOpsProofs
  NewVersionModel NewVersionProofs ContentPathProofs InventorySpec ParseModel FsModel FsSpec FsProofs ValidatorSpec ObjectModel ObjectSpec ObjectMadeProofs ObjectHistoryProofs Properties_Layout Properties_Inventory Properties_Object.

(** contentDirectory of the inventory, and content if it has none. *)
Definition uses_directory (i : inventory) (cd : str) : Prop :=
  i_cdir i = Some cd \/ i_cdir i = None /\ cd = `"content".

Theorem C57_directory : forall i cd, content_directory_to_use i = cd <-> uses_directory i cd.
Proof.
  intros i cd. unfold content_directory_to_use, uses_directory. destruct (i_cdir i) as [c|].
  - split; [intros ->; now left|intros [E|[E _]]; congruence].
  - split; [intros <-; now right|intros [E|[_ ->]]; [discriminate|reflexivity]].
Qed.
Print Assumptions C57_directory.

Theorem C57_in_directory : forall H src nv nv' s p h d c cd,
  hash_ok H -> i_head (nv_inv nv) = Some h -> dicts_ok (nv_inv nv) -> plain_name h -> uses_directory (nv_inv nv) cd -> plain_name cd -> plain_path s ->
  nv_add H src s p None nv = (nv', Ok tt) -> stored (nv_inv nv') d c -> ~ stored (nv_inv nv) d c ->
  exists f, c = h ++ slash :: cd ++ slash :: f /\ plain_path f.
Proof.
  intros H src nv nv' s p h d c cd HH Hh Hd Hph U Hpc Hp E Hn Ho. apply C57_directory in U. subst cd.
  destruct (C57_content_path H src nv nv' s p h d c HH Hh Hd Hph Hpc Hp E Hn Ho) as (_ & f & t & -> & _ & _ & P & _). now exists (f ++ t).
Qed.
Print Assumptions C57_in_directory.

Theorem C60_in_directory : forall v d p cp dedupe i i' c cd, dicts_ok i -> is_version i v -> plain_name v -> uses_directory i cd -> plain_name cd ->
  plain_path (match cp with Some x => x | None => p end) -> add_file v d p cp dedupe i = (i', Ok (Some c)) ->
  exists f, c = v ++ slash :: cd ++ slash :: f /\ plain_path f.
Proof.
  intros v d p cp dd i i' c cd Hd Hv Hpv U Hpc Hp E. apply C57_directory in U. subst cd.
  destruct (C60_inside v d p cp dd i i' c Hd Hv Hpv Hpc Hp E) as (t & -> & P & _). eexists. split; [reflexivity|exact P].
Qed.
Print Assumptions C60_in_directory.

Theorem C39_in_directory_partial : forall H h sd P w l i s cd,
  hash_ok H -> history H h sd P w l -> uniform P \/ collision_free H P l ->
  (forall c, P c -> o_dedupe c = true /\ o_forward_delta c = true) ->
  parse_inventory w h = Ok (i, s) -> uses_directory i cd ->
  exists a, i_alg i = Some a /\
    forall k r b k' r' b', look w (h ++ vn k :: cd :: r) = Some (EFile b) -> look w (h ++ vn k' :: cd :: r') = Some (EFile b') -> H a b = H a b' ->
      vn k :: r = vn k' :: r'.
Proof.
  intros H h sd P w l i s cd HH Hi Hun Hp E U. apply C57_directory in U. subst cd.
  destruct (C39_stored_once_partial H h sd P w l i s HH Hi Hun Hp E) as [_ (a & Ha & F)]. exists a. split; [exact Ha|exact F].
Qed.
Print Assumptions C39_in_directory_partial.
Example C39_in_directory_ex : exists i s, parse_inventory ex_updated3 [`"o"] = Ok (i, s) /\ uses_directory i (`"content").
Proof. eexists _, _. split; [vm_compute; reflexivity|right; split; reflexivity]. Qed.

Example C57_directory_ex : uses_directory (set_cdir (`"data") ex_i) (`"data") /\ uses_directory ex_i (`"content") /\ plain_name (`"data") /\
  snd (add_file (`"v2") (`"d3") (`"x") None true (set_cdir (`"data") ex_i)) = Ok (Some (`"v2/data/x")).
Proof.
  split; [left; reflexivity|]. split; [right; split; reflexivity|]. split; [split; [repeat split; discriminate|cbn; intuition discriminate]|vm_compute; reflexivity].
Qed.
