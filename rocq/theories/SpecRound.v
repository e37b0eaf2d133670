(** Specification: arithmetic of doubles (C50). *)

From Coq Require Import QArith Qabs.
From Verif Require Import Py.
Local Open Scope Z_scope.

(** The numbers m * 2^(e - 1074) with 53 bits m and e >= 0: the finite doubles (of IEEE 754), but
    without an end above (the numbers of [entity_overlapping_ratio] are below 2^54). *)
Definition double (q : Q) : Prop :=
  exists m e, Z.abs m < 2 ^ 53 /\ 0 <= e /\ (q * inject_Z (2 ^ 1074) == inject_Z (m * 2 ^ e))%Q.

(** Rounding to the nearest double, whichever of two equally near ones. *)
Definition to_nearest (fl : Q -> Q) : Prop :=
  (forall x y, (x == y)%Q -> (fl x == fl y)%Q) /\
  forall x, double (fl x) /\ forall q, double q -> (Qabs (fl x - x) <= Qabs (q - x))%Q.

(** [x] and [y] differ by at most (n + 6) / 2^54. *)
Definition almost (n : nat) (x y : Q) : Prop := (Qabs (x - y) <= inject_Z (Z.of_nat n + 6) * (1 # 2 ^ 54))%Q.
