(** Property theorems C81 and C82 (intents, entities, datums and label transformers as objects).
    The concrete cases that meet the hypotheses are in [DatumHeapWitness.v]. *)

From Coq Require Import String QArith Permutation.
From Verif Require Import Py Json JsonAscii Elements Ops Pipe SpecElements DatumHeap SpecDatumHeap DatumHeapProofs DatumHeapCalls
  DatumHeapWitness.
From Coq Require Import List.

(** C81 *)
Theorem C81_objects : forall h h2, (forall i v, has_intent h i v -> (forall c, In c h2 -> ~ assigns c (AnIntent i)) -> has_intent (h ++ h2) i v) /\
  (forall i e, has_entity h i e -> (forall c, In c h2 -> ~ assigns c (AnEntity i)) -> has_entity (h ++ h2) i e) /\
  (forall k u is es, holds h k u is es -> (forall c, In c h2 -> ~ assigns c (ADatum k)) -> holds (h ++ h2) k u is es).
Proof. exact objects_keep. Qed.
Print Assumptions C81_objects.

Theorem C81_contents : forall h k d, has_datum h k d <->
  exists u is es vi ve, holds h k u is es /\ Forall2 (has_intent h) is vi /\ Forall2 (has_entity h) es ve /\ d = mkDatum u vi ve.
Proof. exact contents_now. Qed.
Print Assumptions C81_contents.

Theorem C81_datum_keeps : forall h h2 k d, has_datum h k d ->
  (forall c x, In c h2 -> part_of h k x -> ~ assigns c x) -> has_datum (h ++ h2) k d.
Proof. exact datum_keeps. Qed.
Print Assumptions C81_datum_keeps.

Theorem C81_keeps_all : forall h c, (forall x, ~ assigns c x) -> keeps_all h c.
Proof. exact no_assign_keeps. Qed.
Print Assumptions C81_keeps_all.

Theorem C81_assign_intent : forall h i l v0, has_intent h i v0 ->
  match make_intent l with
  | Ok v => answers h (SetIntent i l) = Ok Void /\ has_intent (h ++ [SetIntent i l]) i v
  | Err e => answers h (SetIntent i l) = Err e /\ after_steps (h ++ [SetIntent i l]) = after_steps h
  end.
Proof. exact assign_intent. Qed.
Print Assumptions C81_assign_intent.

Theorem C81_assign_entity : forall h i l v a b r e0, has_entity h i e0 ->
  match make_entity l v a b (Some r) with
  | Ok e => answers h (SetEntity i l v a b r) = Ok Void /\ has_entity (h ++ [SetEntity i l v a b r]) i e
  | Err e => answers h (SetEntity i l v a b r) = Err e /\ after_steps (h ++ [SetEntity i l v a b r]) = after_steps h
  end.
Proof. exact assign_entity. Qed.
Print Assumptions C81_assign_entity.

Theorem C81_assign_datum : forall h k u is es u0 is0 es0 vi ve, holds h k u0 is0 es0 ->
  Forall2 (has_intent h) is vi -> Forall2 (has_entity h) es ve ->
  answers h (SetDatum k u is es) = Ok Void /\ holds (h ++ [SetDatum k u is es]) k u is es /\
  has_datum (h ++ [SetDatum k u is es]) k (mkDatum u vi ve).
Proof. exact assign_datum. Qed.
Print Assumptions C81_assign_datum.

Theorem C81_make_datum : forall h u ints ents vi ve, Forall2 (has_intent h) (listed ints) vi -> Forall2 (has_entity h) (listed ents) ve ->
  match make_datum u (Some vi) (Some ve) with
  | Ok d => exists n is es, answers h (MakeDatum u ints ents) = Ok (One n) /\ ~ there h (ADatum n) /\
      holds (h ++ [MakeDatum u ints ents]) n u is es /\ Permutation (listed ints) is /\ Permutation (listed ents) es /\
      has_datum (h ++ [MakeDatum u ints ents]) n d
  | Err e => answers h (MakeDatum u ints ents) = Err e
  end.
Proof. exact make_datum_shares. Qed.
Print Assumptions C81_make_datum.

Theorem C81_make_objects : forall h, (forall l, match make_intent l with
   | Ok v => exists i, answers h (MakeIntent l) = Ok (One i) /\ has_intent (h ++ [MakeIntent l]) i v /\ ~ there h (AnIntent i)
   | Err e => answers h (MakeIntent l) = Err e
   end) /\
  (forall l v a b r, match make_entity l v a b r with
   | Ok e => exists i, answers h (MakeEntity l v a b r) = Ok (One i) /\ has_entity (h ++ [MakeEntity l v a b r]) i e /\ ~ there h (AnEntity i)
   | Err e => answers h (MakeEntity l v a b r) = Err e
   end) /\
  (forall d u, match entity_from_dict d u with
   | Ok e => exists i, answers h (EntityFromDict d u) = Ok (One i) /\ has_entity (h ++ [EntityFromDict d u]) i e /\ ~ there h (AnEntity i)
   | Err e => answers h (EntityFromDict d u) = Err e
   end).
Proof. exact make_objects. Qed.
Print Assumptions C81_make_objects.

Theorem C81_expand : forall h k d f orig, has_datum h k d -> d_entities d <> [] ->
  match expand_by_entities d f orig with
  | Ok ds => exists ns, answers h (Expand k f orig) = Ok (Many ns) /\ Forall2 (all_new h (Expand k f orig)) ns ds /\
      NoDup ns /\
      (forall n m x, In n ns -> In m ns -> part_of (h ++ [Expand k f orig]) n x -> part_of (h ++ [Expand k f orig]) m x -> n = m)
  | Err e => answers h (Expand k f orig) = Err e
  end /\ keeps_all h (Expand k f orig).
Proof. exact expand_new. Qed.
Print Assumptions C81_expand.

Theorem C81_expand_itself : forall h k d f orig, has_datum h k d -> d_entities d = [] ->
  answers h (Expand k f orig) = Ok (Many [k]) /\ after_steps (h ++ [Expand k f orig]) = after_steps h.
Proof. exact expand_itself. Qed.
Print Assumptions C81_expand_itself.

Theorem C81_pack : forall h u is l, match pack_to_datum u is l with
  | Ok d => exists n, answers h (Pack u is l) = Ok (One n) /\ all_new h (Pack u is l) n d
  | Err e => answers h (Pack u is l) = Err e
  end /\ keeps_all h (Pack u is l).
Proof. exact pack_new. Qed.
Print Assumptions C81_pack.

Theorem C81_machanize : forall h i o raw, has_ordinal h i o ->
  match machanize o raw with
  | Ok d => exists n, answers h (Machanize i raw) = Ok (One n) /\ all_new h (Machanize i raw) n d
  | Err e => answers h (Machanize i raw) = Err e
  end /\ keeps_all h (Machanize i raw).
Proof. exact machanize_new. Qed.
Print Assumptions C81_machanize.

Theorem C81_copy_intents : forall h k d, has_datum h k d ->
  match copy_intents d with
  | Ok vs => exists is, answers h (CopyIntents k) = Ok (Many is) /\
      Forall2 (has_intent (h ++ [CopyIntents k])) is vs /\ (forall i, In i is -> ~ there h (AnIntent i))
  | Err e => answers h (CopyIntents k) = Err e
  end /\ keeps_all h (CopyIntents k).
Proof. exact copy_intents_new. Qed.
Print Assumptions C81_copy_intents.

Theorem C81_questions : forall h k q d e, has_datum h k d -> has_datum h q e ->
  answers h (Unpack k) = ('(u, is, l) <- unpack_datum d ;; Ok (Unpacked u is l)) /\
  (forall E p, answers h (Transform E p k) = ('(y, is, l, als, coll) <- transform E p d ;; Ok (Transformed y is l als coll))) /\
  answers h (Equal k q) = Ok (Truth (datum_eqb d e)) /\
  (forall fl rate, answers h (Ratio fl k q rate) = (r <- entity_overlapping_ratio fl d e rate ;; Ok (Number r))) /\
  (forall ord i o, has_ordinal h i o -> answers h (Humanize ord i k) = (v <- humanize ord o d ;; Ok (Raw v))).
Proof. exact questions. Qed.
Print Assumptions C81_questions.

Theorem C81_questions_only_ask : forall h c, question c -> after_steps (h ++ [c]) = after_steps h.
Proof. exact questions_change_nothing. Qed.
Print Assumptions C81_questions_only_ask.

Theorem C81_valid : forall h k d, (forall c x, In c h -> ~ assigns c x) -> has_datum h k d -> is_datum d.
Proof. exact valid_without_assignments. Qed.
Print Assumptions C81_valid.

Theorem C81_shared_refuted : exists h k q d c x, k <> q /\ has_datum h q d /\ part_of h k x /\ assigns c x /\
  x <> ADatum q /\ ~ has_datum (h ++ [c]) q d.
Proof. exact shared_refuted. Qed.
Print Assumptions C81_shared_refuted.

Theorem C81_expand_independent_refuted : exists h k d n c, is_datum d /\ has_datum h k d /\
  answers h (Expand k None false) = Ok (Many [n]) /\ assigns c (ADatum n) /\
  ~ has_datum (h ++ [Expand k None false; c]) k d.
Proof. exact expand_independent_refuted. Qed.
Print Assumptions C81_expand_independent_refuted.

Theorem C81_always_valid_refuted : exists h k d, has_datum h k d /\ ~ is_datum d /\
  answers h (Unpack k) = Err IndexErr.
Proof. exact always_valid_refuted. Qed.
Print Assumptions C81_always_valid_refuted.

(** C82 *)
Theorem C82_dicts_keep : forall h h2 i d, has_dict h i d -> (forall d', ~ In (SetDict i d') h2) -> has_dict (h ++ h2) i d.
Proof. exact dicts_keep. Qed.
Print Assumptions C82_dicts_keep.

Theorem C82_dict_assigned : forall h i d d', has_dict h i d ->
  answers h (SetDict i d') = Ok Void /\ has_dict (h ++ [SetDict i d']) i d'.
Proof. exact dict_assigned. Qed.
Print Assumptions C82_dict_assigned.

Theorem C82_made : forall h a b ne da db, has_dict h a da -> has_dict h b db ->
  match make_ordinal da db ne with
  | Ok o => exists i, answers h (MakeOrdinal a b ne) = Ok (One i) /\ (forall o', ~ has_ordinal h i o') /\
      has_ordinal (h ++ [MakeOrdinal a b ne]) i o
  | Err e => answers h (MakeOrdinal a b ne) = Err e
  end.
Proof. exact ordinal_made. Qed.
Print Assumptions C82_made.

Theorem C82_follows : forall h a b ne i h2 da db, answers h (MakeOrdinal a b ne) = Ok (One i) ->
  has_dict (h ++ MakeOrdinal a b ne :: h2) a da -> has_dict (h ++ MakeOrdinal a b ne :: h2) b db ->
  has_ordinal (h ++ MakeOrdinal a b ne :: h2) i (mkOrdinal da db ne).
Proof. exact ordinal_follows. Qed.
Print Assumptions C82_follows.

Theorem C82_answers : forall h i o, has_ordinal h i o ->
  answers h (Serialize i) = Ok (Text (ordinal_serialize o)) /\
  (forall ord k d, has_datum h k d -> answers h (Humanize ord i k) = (v <- humanize ord o d ;; Ok (Raw v))).
Proof. exact ordinal_answers. Qed.
Print Assumptions C82_answers.

Theorem C82_stays_valid_refuted : exists h c i o o', has_ordinal h i o /\
  ordinal_deserialize (ordinal_serialize o) = Ok o /\
  has_ordinal (h ++ [c]) i o' /\ ordinal_deserialize (ordinal_serialize o') = Err ValueErr.
Proof. exact label_stays_valid_refuted. Qed.
Print Assumptions C82_stays_valid_refuted.
