(** Cases for C103. *)

From Coq Require Import String QArith Sorted.
From Verif Require Import Py PyFacts Json SpecOps Edit Ops Pipe Elements SpecElements DatumProofs PackProofs
  SpecOrdinal OrdinalProofs ElementsLaws ElementsWitness SpecSame SameProofs.
From Coq Require Import List Permutation.
Import ListNotations.
Local Open Scope Z_scope.

(** [d0] with an intent twice and the replacements in another order *)
Definition la1 := ent 1 "LA" 7 9 ["SFO"; "NY"]%string.
Definition d1 : datum := mkDatum u0 [1; 3; 3] [la1; now_].

Example d1_is : is_datum d1.
Proof. apply (datum_by u0 [3; 1; 3] [now_; la1]); vm_compute; reflexivity. Qed.
Example d0_d1 : equal d0 d1 /\ d0 <> d1.
Proof. split; [vm_compute; reflexivity|discriminate]. Qed.
Example la_la1 : equal_entities la la1 /\ is_entity la /\ is_entity la1.
Proof. split; [vm_compute; reflexivity|]. split; apply entity_ok_is; vm_compute; reflexivity. Qed.

(** the expansions are the same datums but for the intents *)
Example d0_d1_expanded : exists l m, expand_by_entities d0 None true = Ok l /\ expand_by_entities d1 None true = Ok m /\
  length l = 3%nat /\ l <> m /\ Forall2 equal l m.
Proof.
  do 2 eexists. split; [vm_compute; reflexivity|]. split; [vm_compute; reflexivity|]. split; [reflexivity|].
  split; [discriminate|]. repeat constructor; vm_compute; reflexivity.
Qed.

Example d0_d1_human : exists v w, humanize (fun l => l) o0 d0 = Ok v /\ humanize (@rev _) o0 d1 = Ok w /\ v <> w.
Proof. do 2 eexists. split; [vm_compute; reflexivity|]. split; [vm_compute; reflexivity|discriminate]. Qed.

(** raw data with the names in another order *)
Definition w0 : list raw := [mkRaw (txt "city") 7 9 [txt "NY"; txt "SFO"]].
Definition w1 : list raw := [mkRaw (txt "city") 7 9 [txt "SFO"; txt "NY"; txt "SFO"]].
Example w0_w1 : Forall2 same_raw w0 w1 /\ same_set [txt "go"; txt "ask"] [txt "ask"; txt "go"; txt "ask"] /\
  Forall (fun r => i32 (w_start r) /\ i32 (w_end r)) w0.
Proof.
  split; [|split].
  - constructor; [|constructor]. do 3 (split; [reflexivity|]). intros x. cbn [w_replacements In]. tauto.
  - intros x. cbn [In]. tauto.
  - constructor; [|constructor]. unfold i32. cbn. lia.
Qed.
Example w0_w1_read : exists a b, machanize o0 (raw_datum u0 [txt "go"; txt "ask"] w0) = Ok a /\
  machanize o0 (raw_datum u0 [txt "ask"; txt "go"; txt "ask"] w1) = Ok b /\ a <> b /\ equal a b.
Proof.
  do 2 eexists. split; [vm_compute; reflexivity|]. split; [vm_compute; reflexivity|]. split; [discriminate|vm_compute; reflexivity].
Qed.

(** Equal datums do not always show the same list of intents, even if none is repeated: the
    labels -1 and -2 have the same hash. *)
Lemma intents_order_refuted : exists d d' u i l i', is_datum d /\ is_datum d' /\ equal d d' /\ NoDup (d_intents d) /\ NoDup (d_intents d') /\
  unpack_datum d = Ok (u, i, l) /\ unpack_datum d' = Ok (u, i', l) /\ i <> i'.
Proof.
  exists (mkDatum [] [-1; -2] []), (mkDatum [] [-2; -1] []), [], [-1; -2], [], [-2; -1].
  split; [apply (datum_by [] [-1; -2] []); vm_compute; reflexivity|].
  split; [apply (datum_by [] [-2; -1] []); vm_compute; reflexivity|].
  split; [vm_compute; reflexivity|].
  split; [repeat constructor; cbn; intuition discriminate|]. split; [repeat constructor; cbn; intuition discriminate|].
  split; [reflexivity|]. split; [reflexivity|discriminate].
Qed.
