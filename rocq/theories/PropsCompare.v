(** Property theorems C99 (comparing any two objects).
    The concrete cases that meet the hypotheses are in [CompareWitness.v]. *)

From Verif Require Import Py Edit Ops Json Elements Pipe Factory GroupObj SpecElements SpecPipe Compare SpecCompare CompareProofs CompareWitness.
From Coq Require Import List ZArith.
Import ListNotations.
Local Open Scope Z_scope.

(** C99: comparing any two objects, and hashing *)
Theorem C99_same_kind : forall (A C : Type) (EA : Eqb A) (EC : Eqb C) E (a b : pyobj A C), proper E a -> proper E b -> same_kind a b -> readable b ->
    exists r, py_eq a b = Ok r /\ (r = true <-> alike a b).
Proof. exact @same_kind_equal. Qed.
Print Assumptions C99_same_kind.

Theorem C99_unfinished : forall (A C : Type) (EA : Eqb A) (EC : Eqb C) (a b : pyobj A C), same_kind a b -> ~ readable b -> py_eq a b = Err RuntimeErr.
Proof. exact @unfinished_equal. Qed.
Print Assumptions C99_unfinished.

Theorem C99_other_kinds : forall (A C : Type) (EA : Eqb A) (EC : Eqb C) (a b x y : pyobj A C), ~ same_kind a b -> (~ foreign a /\ x = a /\ y = b \/ foreign a /\ x = b /\ y = a) ->
    (raises_type x -> py_eq a b = Err TypeErr) /\
    (raises_attribute x y -> py_eq a b = Err AttributeErr) /\
    (forall l e, x = OIntent l -> y = OEntity e -> exists r, py_eq a b = Ok r /\ (r = true <-> l = e_label e)) /\
    (~ raises_type x -> ~ raises_attribute x y -> (forall l e, ~ (x = OIntent l /\ y = OEntity e)) -> py_eq a b = Ok false).
Proof. exact @other_kinds. Qed.
Print Assumptions C99_other_kinds.

Theorem C99_equal : forall (A C : Type) (EA : Eqb A) (EC : Eqb C) E (a b : pyobj A C), proper E a -> proper E b ->
    py_eq a b = Ok true <->
    alike a b /\ readable b \/ (exists l e, a = OIntent l /\ b = OEntity e /\ l = e_label e).
Proof. exact @equal_true. Qed.
Print Assumptions C99_equal.

Theorem C99_not_equal : forall (A C : Type) (EA : Eqb A) (EC : Eqb C) (a b : pyobj A C), (forall r, py_eq a b = Ok r <-> py_ne a b = Ok (negb r)) /\
    (forall x, py_eq a b = Err x <-> py_ne a b = Err x).
Proof. exact @not_equal. Qed.
Print Assumptions C99_not_equal.

Theorem C99_itself : forall (A C : Type) (EA : Eqb A) (EC : Eqb C) E (a : pyobj A C), proper E a ->
    (readable a -> py_eq a a = Ok true) /\ (~ readable a -> py_eq a a = Err RuntimeErr).
Proof. exact @equal_itself. Qed.
Print Assumptions C99_itself.

Theorem C99_symmetric : forall (A C : Type) (EA : Eqb A) (EC : Eqb C) E (a b : pyobj A C), proper E a -> proper E b -> same_kind a b -> readable a -> readable b ->
    py_eq a b = py_eq b a.
Proof. exact @equal_symmetric. Qed.
Print Assumptions C99_symmetric.

Theorem C99_transitive : forall (A C : Type) (EA : Eqb A) (EC : Eqb C) E (a b c : pyobj A C), proper E a -> proper E b -> proper E c ->
    py_eq a b = Ok true -> py_eq b c = Ok true -> py_eq a c = Ok true.
Proof. exact @equal_transitive. Qed.
Print Assumptions C99_transitive.

Theorem C99_hashable : forall (A C : Type) H K (a : pyobj A C), (has_hash K a -> exists h, py_hash H K a = Ok h) /\
    (~ has_hash K a -> py_hash H K a = Err TypeErr).
Proof. exact @hash_cases. Qed.
Print Assumptions C99_hashable.

Theorem C99_hash : forall (A C : Type) (EA : Eqb A) (EC : Eqb C) E H K (a b : pyobj A C), proper E a -> proper E b -> has_hash K b -> py_eq a b = Ok true ->
    py_hash H K a = py_hash H K b.
Proof. exact @equal_hash. Qed.
Print Assumptions C99_hash.

Theorem C99_hash_value : forall (A C : Type) H K (a : pyobj A C), (forall l, a = OIntent l -> exists h, py_hash H K a = Ok h /\ (l <> -1 -> h = l) /\ (l = -1 -> h = -2)) /\
    (forall s e, a = OSpan (s, e) -> py_hash H K a = Ok (H s e)) /\
    (forall str s e v, a = OReplacement (str, mkR s e v) -> exists t h k, py_hash H K a = Ok h /\
       H s e = t + k * 2 ^ 32 /\ - 2 ^ 31 <= t < 2 ^ 31 /\ (t <> -1 -> h = t) /\ (t = -1 -> h = -2)).
Proof. exact @hash_value. Qed.
Print Assumptions C99_hash_value.

Theorem C99_symmetric_refuted : exists l e, let a := OIntent l : object in let b := OEntity e in
  py_eq a b = Ok true /\ py_eq b a = Err TypeErr.
Proof. exact equal_symmetric_refuted. Qed.
Print Assumptions C99_symmetric_refuted.

Theorem C99_span_refuted : exists s x, let a := OSpan s : object in let b := OReplacement x in
  py_eq a b = Ok false /\ py_eq b a = Err AttributeErr.
Proof. exact equal_span_refuted. Qed.
Print Assumptions C99_span_refuted.

Theorem C99_hash_refuted : exists l e, let a := OIntent l : object in let b := OEntity e in
  py_eq a b = Ok true /\
  forall H K, py_hash H K a = Ok l /\ py_hash H K b = Err TypeErr.
Proof. exact equal_hash_refuted. Qed.
Print Assumptions C99_hash_refuted.
