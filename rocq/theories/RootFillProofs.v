(** The objects of a storage root after one has been added (C68). *)
From Verif Require Import Base Unicode Regex Utf8 Json PyJson JsonTextModel JsonFileProofs Log DigestModel LayoutModel ContentPathProofs TextFile PathModel FsModel FsSpec FsProofs FsStepProofs FswModel FswSpec FswProofs FswCopyProofs CopyFrameProofs
  NamasteModel NamasteSpec NamasteProofs Properties_Fsw InventorySpec InventoryValidatorModel InventoryModel ParseModel ValidatorSpec ValidatorModel ValidatorBasicProofs ValidatorContentProofs ObjectModel ObjectExamples UpdateSpec
  Properties_Layout Properties_Object StorageRootModel StorageRootSpec StorageRootProofs StorageRootRunProofs Properties_StorageRoot Properties_RootList RootAddSpec RootAddProofs Properties_RootAdd.

(** Objects at rel are looked for. *)
Definition findable (w : node) (h rel : place) : Prop :=
  rel <> [] /\ hd [] rel <> `"extensions" /\ forall q c r, rel = q ++ c :: r -> q <> [] -> ~ has_files w (h ++ q).

Section Fill.
  Variables (w w' : node) (h src rel : place).
  Let dst := h ++ rel.
  Hypothesis Tree : tree w.
  Hypothesis Tree' : tree w'.
  Hypothesis Src : look w src = Some EDir.
  Hypothesis Plain : plain w src.
  (** what C48_exact says *)
  Hypothesis Free : forall t, look w (dst ++ t) = None.
  Hypothesis Files : forall t b, look w' (dst ++ t) = Some (EFile b) <-> look w (src ++ t) = Some (EFile b).
  Hypothesis NoOther : forall t, look w' (dst ++ t) <> Some EOther.
  Hypothesis Kept : forall q, look w q <> None -> look w' q = look w q.
  Hypothesis New : forall q, look w q = None -> look w' q <> None -> strip dst q = None -> look w' q = Some EDir /\ exists t, dst = q ++ t.

  Lemma new_leaf p : leaf w' p <-> leaf w p \/ exists t b, p = dst ++ t /\ t <> [] /\ look w (src ++ t) = Some (EFile b).
  Proof.
    split.
    - intros [L1 L2]. destruct (look w p) as [x|] eqn:E.
      + left. assert (K : look w' p = look w p) by (apply Kept; rewrite E; discriminate). rewrite K, E in *. split; rewrite E; auto.
      + right. destruct (strip dst p) as [t|] eqn:S.
        * apply strip_some in S. subst p. exists t. destruct (look w' (dst ++ t)) as [[b| |]|] eqn:L; try congruence; try (now apply NoOther in L). apply Files in L. exists b. split; [reflexivity|]. split; [|exact L].
          intros ->. rewrite app_nil_r, Src in L. discriminate.
        * destruct (New p E L1 S) as [A _]. contradiction.
    - intros [[L1 L2]|(t & b & -> & _ & L)].
      + split; rewrite (Kept p L1); auto.
      + apply Files in L. split; rewrite L; discriminate.
  Qed.
  Lemma new_files q : has_files w' (h ++ q) <-> has_files w (h ++ q) \/ exists t f b, q = rel ++ t /\ look w (src ++ t ++ [f]) = Some (EFile b).
  Proof.
    unfold has_files. split.
    - intros (f & L). apply new_leaf in L as [L|(t & b & E & Ht & L)]; [left; eauto|right].
      destruct (@exists_last _ t Ht) as (t0 & g & ->). unfold dst in E. rewrite <- !app_assoc in E. apply app_inv_head in E. rewrite app_assoc in E. apply app_inj_tail in E as [-> ->]. eauto.
    - intros [(f & L)|(t & f & b & -> & L)]; [exists f; apply new_leaf; now left|]. exists f. apply new_leaf. right. exists (t ++ [f]), b. unfold dst. rewrite <- !app_assoc. split; [reflexivity|]. split; [destruct t; discriminate|exact L].
  Qed.
  Lemma below_none t : look w (h ++ rel ++ t) = None.
  Proof. rewrite app_assoc. apply Free. Qed.

  Theorem objects_after : findable w h rel -> single_declaration w src -> forall rel', object_root w' h rel' <-> rel' = rel \/ object_root w h rel'.
  Proof.
    intros Fd Sd rel'. split.
    - intros ((V1 & V2 & V3 & V4) & (d & Dd & Dl & Du)). destruct (strip rel rel') as [[|c t]|] eqn:S.
      + apply strip_some in S. rewrite app_nil_r in S. now left.
      + exfalso. apply strip_some in S. pose proof Fd as (Hn & _). apply (V4 rel c t S Hn). apply new_files. right. destruct Sd as (d0 & _ & L & _). destruct (Plain [d0] L) as [b Lb]. exists [], d0, b. rewrite app_nil_r. auto.
      + right. assert (N : forall t, rel' <> rel ++ t) by (apply strip_none; exact S).
        assert (Lf : forall f, leaf w' (h ++ rel' ++ [f]) -> leaf w (h ++ rel' ++ [f])).
        { intros f L. apply new_leaf in L as [L|(t & b & E & Ht & _)]; [exact L|]. exfalso. unfold dst in E. rewrite <- app_assoc in E. apply app_inv_head in E.
          destruct (@exists_last _ t Ht) as (t0 & g & ->). rewrite app_assoc in E. apply app_inj_tail in E as [E _]. exact (N _ E). }
        assert (Dl' : leaf w (h ++ rel' ++ [d])) by (apply Lf; rewrite app_assoc; exact Dl).
        split; [split; [exact V1|split; [exact V2|split]]|].
        * destruct Dl' as [D1 _]. rewrite app_assoc in D1. exact (look_above w (h ++ rel') d [] D1).
        * intros q c r E Hq A. apply (V4 q c r E Hq). apply new_files. now left.
        * exists d. split; [exact Dd|]. split; [rewrite <- app_assoc; exact Dl'|]. intros t L. apply Du. apply new_leaf. now left.
    - intros [-> |((V1 & V2 & V3 & V4) & (d & Dd & Dl & Du))].
      + destruct Fd as (V1 & V2 & V4), Sd as (d & Dd & Dl & Du). destruct (Plain [d] Dl) as [b Lb]. pose proof (proj2 (Files [d] b) Lb) as Lb'.
        split; [split; [exact V1|split; [exact V2|split]]|].
        * apply (look_above w' (h ++ rel) d []). fold dst. rewrite Lb'. discriminate.
        * intros q c r E Hq A. apply new_files in A as [A|(t & f & b' & Eq & _)]; [exact (V4 q c r E Hq A)|]. exfalso. apply (f_equal (@length str)) in E. rewrite Eq, !app_length in E. cbn in E. clear -E. lia.
        * exists d. split; [exact Dd|]. fold dst. split; [split; rewrite Lb'; discriminate|]. intros t L. apply Du. apply new_leaf in L as [[L _]|(t' & b' & E & _ & L)]; [now rewrite Free in L|].
          apply app_inv_head in E. rewrite E. split; rewrite L; discriminate.
      + assert (N : forall t, rel' <> rel ++ t) by (intros t ->; rewrite below_none in V3; discriminate).
        split; [split; [exact V1|split; [exact V2|split]]|].
        * rewrite Kept; [exact V3|rewrite V3; discriminate].
        * intros q c r E Hq A. apply new_files in A as [A|(t & f & b' & Eq & _)]; [exact (V4 q c r E Hq A)|]. apply (N (t ++ c :: r)). rewrite E, Eq, <- app_assoc. reflexivity.
        * exists d. split; [exact Dd|]. split; [apply new_leaf; now left|]. intros t L. apply Du. apply new_leaf in L as [L|(t' & b' & E & Ht & _)]; [exact L|]. exfalso.
          unfold dst in E. rewrite <- !app_assoc in E. apply app_inv_head in E. destruct (@exists_last _ t' Ht) as (t0 & g & ->). rewrite app_assoc in E. apply app_inj_tail in E as [E _]. exact (N _ E).
  Qed.

  Theorem identifiers_after : (forall i, listed_as w' dst i <-> listed_as w src i) /\
    forall rel' i, object_root w h rel' -> (listed_as w' (h ++ rel') i <-> listed_as w (h ++ rel') i).
  Proof.
    split.
    - intros i. unfold listed_as. split; intros (b & d & L & A); exists b, d; (split; [|exact A]); now apply Files.
    - intros rel' i ((_ & _ & V3 & _) & _). assert (N : forall t, rel' <> rel ++ t) by (intros t ->; rewrite below_none in V3; discriminate).
      assert (X : forall b, look w' ((h ++ rel') ++ [`"inventory.json"]) = Some (EFile b) <-> look w ((h ++ rel') ++ [`"inventory.json"]) = Some (EFile b)).
      { intros b. split; intros L; [|rewrite Kept; [exact L|rewrite L; discriminate]].
        assert (Lf : leaf w' ((h ++ rel') ++ [`"inventory.json"])) by (split; rewrite L; discriminate). apply new_leaf in Lf as [[L1 _]|(t & b' & E & Ht & _)].
        - rewrite <- Kept; [exact L|exact L1].
        - exfalso. unfold dst in E. rewrite <- !app_assoc in E. apply app_inv_head in E. destruct (@exists_last _ t Ht) as (t0 & g & ->). rewrite app_assoc in E. apply app_inj_tail in E as [E _]. exact (N _ E). }
      unfold listed_as. split; intros (b & d & L & A); exists b, d; (split; [|exact A]); now apply X.
  Qed.

  (** a place that stays empty *)
  Lemma still_none q : look w q = None -> (forall t, q <> dst ++ t) -> (forall t, dst <> q ++ t) -> look w' q = None.
  Proof.
    intros L A B. destruct (look w' q) eqn:E; [|reflexivity]. exfalso. destruct (New q L) as [_ (t & Et)]; [rewrite E; discriminate|now apply strip_none|]. exact (B t Et).
  Qed.
End Fill.
