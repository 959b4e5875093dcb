(** What the statement about updates of objects of other software (C64) is about. *)
From Verif Require Import Base Json JsonTextSpec InventorySpec.

(** The inventory [j] has the path p with the digest d in version v. *)
Definition version_lists (j : json) (v d p : str) : Prop := exists st x, state_of j v st /\ In (d, x) st /\ In p (strings x).

(** In the states of the inventory [j] every digest has paths. *)
Definition lists_paths (j : json) : Prop := forall v st d x, state_of j v st -> In (d, x) st -> strings x <> [].

(** The inventory [j] is written with care: it obeys the rules of the specification (within the
    limits of the validator), version names have no leading zeros, digests are written in lower
    case, no content path has a line feed, only digest algorithms of full length are in the
    fixity block, no digest is in a state without paths, and there is nothing the specification
    does not know of. *)
Record careful (j : json) (f : facts) : Prop := {
  ca_rules : obeys within_limits j f;
  ca_text : forall s, text_in s j -> text s;
  ca_names : version_sequence None (f_versions f);
  ca_count : (N.of_nat (List.length (f_versions f)) < 99999)%N;
  ca_digests : forall d x, In (d, x) (f_manifest f) -> Forall lower_hex d;
  ca_fixity : forall fx alg block, member j (`"fixity") (JObj fx) -> In (alg, JObj block) fx ->
    (exists n, digest_size alg n) /\ forall d x, In (d, x) block -> Forall lower_hex d;
  ca_newline : forall p, In p (listed (f_manifest f)) -> ~ In newline p;
  ca_states : lists_paths j;
  ca_members : forall k x, member j k x ->
    In k [`"id"; `"type"; `"digestAlgorithm"; `"head"; `"contentDirectory"; `"manifest"; `"versions"; `"fixity"];
  ca_blocks : forall vs v b k x, member j (`"versions") (JObj vs) -> In (v, b) vs -> member b k x ->
    In k [`"created"; `"message"; `"user"; `"state"];
  ca_users : forall vs v b u k x, member j (`"versions") (JObj vs) -> In (v, b) vs -> member b (`"user") u -> member u k x ->
    In k [`"name"; `"address"]
}.
