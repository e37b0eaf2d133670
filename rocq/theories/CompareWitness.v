(** Concrete cases for C99: hypotheses that hold, and refutations. *)

From Coq Require Import String.
From Verif Require Import Py Edit Ops SpecOps Json Concrete OpsWitness Elements Pipe Factory GroupObj SpecElements SpecPipe PipeWitness Compare SpecCompare.
From Coq Require Import List ZArith Permutation.
Import ListNotations.
Local Open Scope Z_scope.

Definition object := pyobj Z nat.

Definition fruit : entity := mkEntity 3 (txt "apple") 4 9 [txt "pear"; txt "fig"].
Definition fruit' : entity := mkEntity 3 (txt "apple") 4 9 [txt "fig"; txt "pear"].
Definition cut_new : item Z := (true, mkR 0 3 (txt "abc")).
Definition some_spans (done : bool) : sgroup := mkSG [(0%nat, 3%nat); (3%nat, 5%nat)] done.
Definition names : list (str * nat) := [(txt "A", 1%nat); (txt "B", 2%nat)].

(** objects of the same kind, equal and not *)
Example ex_same_kind :
  py_eq (OEntity fruit : object) (OEntity fruit') = Ok true /\
  py_eq (OIntent 3 : object) (OIntent 4) = Ok false /\
  py_eq (OReplacement cut_new : object) (OReplacement (false, snd cut_new)) = Ok false /\
  py_eq (OFactory names : object) (OFactory (rev names)) = Ok true /\
  py_eq (OOperator (obj "Pad" [JInt 1]) : object) (OOperator (obj "Pad" [JBool true])) = Ok true /\
  py_eq (OSpanGroup (some_spans true) : object) (OSpanGroup (mkSG (rev (sg_items (some_spans true))) true)) = Ok true /\
  py_eq (OPipe p1 : object) (OPipe p1) = Ok true /\ py_eq (OPipe p1 : object) (OPipe p2) = Ok false.
Proof. repeat split; vm_compute; reflexivity. Qed.

Example ex_proper : proper env0 (OPipe p1 : object) /\ proper env0 (OOperator (obj "Pad" [JInt 1]) : object) /\
  proper env0 (OFactory names : object) /\ same_kind (OPipe p1 : object) (OPipe p2) /\ readable (OPipe p2 : object) /\
  alike (OFactory names : object) (OFactory (rev names)).
Proof.
  split; [exact p1_reachable|]. split.
  - apply obj_made; [reflexivity|]. eexists. reflexivity.
  - split; [|split; [reflexivity|split; [exact Logic.I|]]].
    + cbn [proper names map fst]. repeat (constructor; [cbn; intuition discriminate|]). constructor.
    + constructor. apply Permutation_rev.
Qed.

(** a group that is not finished *)
Example ex_unfinished : let g := OSpanGroup (some_spans false) : object in
  ~ readable g /\ py_eq g g = Err RuntimeErr /\
  py_eq g (OSpanGroup (some_spans true)) = Ok true /\ py_eq (OSpanGroup (some_spans true)) g = Err RuntimeErr.
Proof. split; [cbn; discriminate|]. repeat split; reflexivity. Qed.

(** objects of different kinds *)
Example ex_other_kinds :
  py_eq (OOther 0 : object) (OEntity fruit) = Err TypeErr /\
  py_eq (OEntity fruit : object) (OOther 0) = Err TypeErr /\
  py_eq (OIntent 3 : object) (OOther 0) = Err AttributeErr /\
  py_eq (OOther 0 : object) (OIntent 3) = Err AttributeErr /\
  py_eq (OIntent 3 : object) (OEntity fruit) = Ok true /\
  py_eq (OPipe p1 : object) (OOther 0) = Err AttributeErr /\
  py_eq (OOperator (obj "Pad" [JInt 1]) : object) (OPipe p1) = Ok false /\
  py_eq (OSpan (0%nat, 3%nat) : object) (OOther 0) = Ok false.
Proof. repeat split; reflexivity. Qed.

(** C99: equality between objects of different kinds depends on the side *)
Lemma equal_symmetric_refuted : exists l e, let a := OIntent l : object in let b := OEntity e in
  py_eq a b = Ok true /\ py_eq b a = Err TypeErr.
Proof. exists 3, fruit. split; reflexivity. Qed.

Lemma equal_span_refuted : exists s x, let a := OSpan s : object in let b := OReplacement x in
  py_eq a b = Ok false /\ py_eq b a = Err AttributeErr.
Proof. exists (0%nat, 3%nat), cut_new. split; reflexivity. Qed.

(** C99: equal objects need not both be hashable *)
Lemma equal_hash_refuted : exists l e, let a := OIntent l : object in let b := OEntity e in
  py_eq a b = Ok true /\
  forall H K, py_hash H K a = Ok l /\ py_hash H K b = Err TypeErr.
Proof. exists 3, fruit. split; [reflexivity|]. intros H K. split; reflexivity. Qed.

Example ex_hash : let H s e := Z.of_nat s * 2 ^ 40 + 2 ^ 31 + Z.of_nat e in let K (n : nat) := Some 0 in
  py_hash H K (OIntent (-1) : object) = Ok (-2) /\
  py_hash H K (OSpan (1%nat, 3%nat) : object) = Ok (2 ^ 40 + 2 ^ 31 + 3) /\
  py_hash H K (OReplacement (true, mkR 1 3 (txt "a")) : object) = Ok (- 2 ^ 31 + 3) /\
  has_hash K (OSpan (1%nat, 3%nat) : object) /\ ~ has_hash K (OPipe p1 : object).
Proof.
  repeat split; try reflexivity.
  - right; left. eexists. reflexivity.
  - intros [(? & Q)|[(? & Q)|[(? & Q)|(? & ? & Q & _)]]]; discriminate Q.
Qed.
