(** Specification for histories of calls on the mutable groups. *)

From Verif Require Import Py Edit GroupObj SpecEdit.
From Coq Require Import Sorted.

(** ** ReplacementGroup *)

(** A call: [add(s, e, v)] or [done(skip_sort)], with the iteration order of the set that
    [done] makes. *)
Inductive rcall (A : Type) : Type :=
| CAdd (s e : Z) (v : bool * list A)
| CDone (ord : list (item A) -> list (item A)) (skip_sort : bool).
Arguments CAdd {A}. Arguments CDone {A}.

Definition rcall_ok {A} (c : rcall A) : Prop :=
  match c with CAdd _ _ _ => True | CDone ord _ => forall l, Permutation (ord l) l end.

Definition rg_call {A} `{Eqb A} (g : rgroup A) (c : rcall A) : rgroup A * option exn :=
  match c with
  | CAdd s e v => rg_add g s e v
  | CDone ord skip => rg_finish ord skip g
  end.

(** the object after the calls [h]; exceptions are caught by the caller *)
Definition after_calls {A} `{Eqb A} (h : list (rcall A)) : rgroup A :=
  fold_left (fun g c => fst (rg_call g c)) h rg_new.
(** what the next call raises *)
Definition outcome {A} `{Eqb A} (h : list (rcall A)) (c : rcall A) : option exn :=
  snd (rg_call (after_calls h) c).

(** [x] is what one of the calls of [add] in [h] asked for; [add] takes offsets
    0 <= s <= e < 2^32. *)
Definition added {A} (h : list (rcall A)) (x : item A) : Prop :=
  exists s e v, In (CAdd s e v) h /\ (0 <= s <= e)%Z /\ (e < 2 ^ 32)%Z /\
    x = (fst v, mkR (Z.to_nat s) (Z.to_nat e) (snd v)).

(** one of the calls of [done] in [h] did not raise *)
Definition finished {A} `{Eqb A} (h : list (rcall A)) : Prop :=
  exists h1 ord skip h2, h = h1 ++ CDone ord skip :: h2 /\ outcome h1 (CDone ord skip) = None.

Definition mixed {A} (h : list (rcall A)) : Prop :=
  exists x y, added h x /\ added h y /\ fst x <> fst y.
Definition overlapping {A} (h : list (rcall A)) : Prop :=
  exists x y, added h x /\ added h y /\ x <> y /\ ~ non_overlapping (snd x) (snd y).

(** ** SpanGroup *)

Inductive scall : Type :=
| SAdd (s e : Z)
| SDone.

Definition sg_call (g : sgroup) (c : scall) : sgroup * option exn :=
  match c with SAdd s e => sg_add g s e | SDone => sg_finish g end.
Definition after_scalls (h : list scall) : sgroup := fold_left (fun g c => fst (sg_call g c)) h sg_new.
Definition soutcome (h : list scall) (c : scall) : option exn := snd (sg_call (after_scalls h) c).

(** the spans that were asked for, with repetitions, in order *)
Fixpoint sadded (h : list scall) : list span :=
  match h with
  | [] => []
  | SAdd s e :: h =>
      if ((0 <=? s) && (s <=? e) && (e <? 2 ^ 32))%Z
      then (Z.to_nat s, Z.to_nat e) :: sadded h else sadded h
  | SDone :: h => sadded h
  end.
Definition sfinished (h : list scall) : Prop :=
  exists h1 h2, h = h1 ++ SDone :: h2 /\ soutcome h1 SDone = None.
