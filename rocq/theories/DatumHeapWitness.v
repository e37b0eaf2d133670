(** Concrete cases for C81 and C82, and refuted claims. *)

From Coq Require Import String.
From Verif Require Import Py PyFacts Json JsonAscii Elements Ops Pipe DatumHeap SpecElements SpecJsonAscii SpecDatumHeap DatumProofs
  DatumHeapProofs DatumHeapCalls.
From Coq Require Import List.

Local Open Scope Z_scope.

(** two entities in the wrong order, an intent, and two datums made of the same objects *)
Definition h0 : list step :=
  [MakeEntity 2 (lit "tea") 10 13 None; MakeEntity 1 (lit "apple") 0 5 (Some [lit "pear"; lit "fig"]); MakeIntent 7;
   MakeDatum (lit "apple and tea") (Some [0%nat]) (Some [0; 1]%nat);
   MakeDatum (lit "apple and tea") None (Some [1]%nat)].
Definition d0 : datum := mkDatum (lit "apple and tea") [7]
  [mkEntity 1 (lit "apple") 0 5 [lit "pear"; lit "fig"]; mkEntity 2 (lit "tea") 10 13 []].

Example h0_datum : has_datum h0 0 d0 /\ holds h0 0 (lit "apple and tea") [0]%nat [1; 0]%nat /\
  (forall c x, In c h0 -> ~ assigns c x) /\ d_entities d0 <> [] /\
  answers h0 (MakeDatum (lit "apple and tea") None (Some [0; 0]%nat)) = Err EntityOverlapErr /\
  answers h0 (MakeDatum (lit "apple") None (Some [0]%nat)) = Err EntityPositionErr.
Proof.
  split; [reflexivity|]. split; [reflexivity|]. split.
  { intros c x I A. cbn in I. repeat (destruct I as [<-|I]; [inversion A|]). exact I. }
  split; [discriminate|]. split; reflexivity.
Qed.

(** the results of an expansion are new objects; changing one changes nothing else *)
Definition h1 : list step := h0 ++ [Expand 0 None true].
Example h1_results : answers h0 (Expand 0 None true) = Ok (Many [2; 3; 4]%nat) /\
  holds h1 3 (lit "pear and tea") [2]%nat [4; 5]%nat /\
  option_map d_utterance (datum_at (after_steps (h1 ++ [SetEntity 4 9 (lit "x") 0 1 []; SetDatum 2 [] [] []])) 4)
    = Some (lit "apple and tea") /\
  datum_at (after_steps (h1 ++ [SetEntity 4 9 (lit "x") 0 1 []; SetDatum 2 [] [] []])) 0 = Some d0.
Proof. split; [reflexivity|]. split; [reflexivity|]. split; reflexivity. Qed.

(** an entity in two datums *)
Lemma shared_refuted : exists h k q d c x, k <> q /\ has_datum h q d /\ part_of h k x /\ assigns c x /\
  x <> ADatum q /\ ~ has_datum (h ++ [c]) q d.
Proof.
  exists h0, 0%nat, 1%nat. eexists. exists (SetEntity 1 5 (lit "apple") 0 5 []), (AnEntity 1).
  split; [discriminate|]. split; [vm_compute; reflexivity|].
  split; [apply (its_entity h0 0 (lit "apple and tea") [0]%nat [1; 0]%nat); [reflexivity|now left]|].
  split; [constructor|]. split; [discriminate|]. vm_compute. discriminate.
Qed.

(** without entities the result of an expansion is the datum itself *)
Lemma expand_independent_refuted : exists h k d n c, is_datum d /\ has_datum h k d /\
  answers h (Expand k None false) = Ok (Many [n]) /\ assigns c (ADatum n) /\
  ~ has_datum (h ++ [Expand k None false; c]) k d.
Proof.
  exists [MakeDatum (lit "hi") None None], 0%nat, (mkDatum (lit "hi") [] []), 0%nat, (SetDatum 0 (lit "ho") [] []).
  split; [exists (lit "hi"), [], []; repeat split; constructor|].
  split; [reflexivity|]. split; [reflexivity|]. split; [constructor|]. vm_compute. discriminate.
Qed.

(** the constructor's checks are not repeated *)
Lemma always_valid_refuted : exists h k d, has_datum h k d /\ ~ is_datum d /\
  answers h (Unpack k) = Err IndexErr.
Proof.
  exists (h0 ++ [SetEntity 0 2 (lit "coffee") 10 16 []]), 0%nat. eexists.
  split; [vm_compute; reflexivity|]. split; [|vm_compute; reflexivity].
  intros (u & is & es & M & _). unfold make_datum in M.
  destruct (forallb (entity_position_correct u) (sort_by e_start es)) eqn:F; [|discriminate]. cbn in M.
  destruct (check_overlaps _); [|discriminate]. cbn in M. injection M as -> _ EE. rewrite EE in F.
  vm_compute in F. discriminate.
Qed.

(** ** OrdinalLabel *)

Definition o0 : list step :=
  [MakeDict [(lit "buy", 0); (lit "ask", 1)]; MakeDict [(lit "fruit", 1); (lit "drink", 2)]; MakeOrdinal 0 1 0].
Example o0_label : has_ordinal o0 0 (mkOrdinal [(lit "buy", 0); (lit "ask", 1)] [(lit "fruit", 1); (lit "drink", 2)] 0) /\
  has_dict o0 0 [(lit "buy", 0); (lit "ask", 1)] /\ has_dict o0 1 [(lit "fruit", 1); (lit "drink", 2)] /\
  answers (firstn 2 o0) (MakeOrdinal 0 1 0) = Ok (One 0) /\
  answers (firstn 2 o0) (MakeOrdinal 1 0 0) = Err ValueErr /\
  has_ordinal (o0 ++ [SetDict 1 [(lit "fruit", 3)]]) 0 (mkOrdinal [(lit "buy", 0); (lit "ask", 1)] [(lit "fruit", 3)] 0).
Proof. repeat split; reflexivity. Qed.

Lemma label_stays_valid_refuted : exists h c i o o', has_ordinal h i o /\
  ordinal_deserialize (ordinal_serialize o) = Ok o /\
  has_ordinal (h ++ [c]) i o' /\ ordinal_deserialize (ordinal_serialize o') = Err ValueErr.
Proof.
  exists o0, (SetDict 1 [(lit "fruit", 3)]), 0%nat. do 2 eexists.
  split; [vm_compute; reflexivity|]. split; [vm_compute; reflexivity|].
  split; [vm_compute; reflexivity|]. vm_compute. reflexivity.
Qed.
