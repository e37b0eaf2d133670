(** Python values and library functions used by the model.

    This file models the *language runtime* that the code in /repo relies on:
    exceptions as values, slicing, slice assignment, [str.find], stable
    [sorted], [set] deduplication, [dict] in insertion order.  It contains no
    uttut code. *)

From Coq Require Export List Arith ZArith Lia Bool Permutation.
Export ListNotations.

(** ** Exceptions as values *)

Inductive exn : Type :=
| ValueErr | TypeErr | KeyErr | IndexErr | OverflowErr | AssertionErr
| ZeroDivisionErr | RuntimeErr | AttributeErr
| ReErr                    (* re.error *)
| EntityPositionErr        (* uttut/exceptions.py *)
| EntityOverlapErr         (* uttut/exceptions.py *)
| DifferentUtteranceErr    (* uttut/exceptions.py *)
| OutOfFuel.               (* not a python exception: the loop did not finish *)

Inductive res (A : Type) : Type :=
| Ok (a : A)
| Err (e : exn).
Arguments Ok {A} a.
Arguments Err {A} e.

Definition bind {A B} (x : res A) (f : A -> res B) : res B :=
  match x with Ok a => f a | Err e => Err e end.

Notation "x <- e ;; k" := (bind e (fun x => k))
  (at level 61, e at next level, right associativity).
Notation "' p <- e ;; k" := (bind e (fun p => k))
  (at level 61, p pattern, e at next level, right associativity).

Definition guard (b : bool) (e : exn) : res unit := if b then Ok tt else Err e.

Definition is_ok {A} (x : res A) : bool :=
  match x with Ok _ => true | Err _ => false end.

Definition exn_eqb (a b : exn) : bool :=
  match a, b with
  | ValueErr, ValueErr | TypeErr, TypeErr | KeyErr, KeyErr | IndexErr, IndexErr
  | OverflowErr, OverflowErr | AssertionErr, AssertionErr
  | ZeroDivisionErr, ZeroDivisionErr | RuntimeErr, RuntimeErr
  | AttributeErr, AttributeErr | ReErr, ReErr
  | EntityPositionErr, EntityPositionErr | EntityOverlapErr, EntityOverlapErr
  | DifferentUtteranceErr, DifferentUtteranceErr | OutOfFuel, OutOfFuel => true
  | _, _ => false
  end.

(** [mapM f l]: run [f] on every element, stop at the first exception. *)
Fixpoint mapM {A B} (f : A -> res B) (l : list A) : res (list B) :=
  match l with
  | [] => Ok []
  | x :: l => y <- f x ;; ys <- mapM f l ;; Ok (y :: ys)
  end.

(** ** Python [==] on the types of the model *)

Class Eqb (A : Type) := {
  eqb : A -> A -> bool;
  eqb_spec : forall x y, reflect (x = y) (eqb x y)
}.

#[export] Instance Eqb_nat : Eqb nat := { eqb := Nat.eqb; eqb_spec := Nat.eqb_spec }.
#[export] Instance Eqb_Z : Eqb Z := { eqb := Z.eqb; eqb_spec := Z.eqb_spec }.

Fixpoint list_eqb {A} `{Eqb A} (l m : list A) : bool :=
  match l, m with
  | [], [] => true
  | x :: l, y :: m => eqb x y && list_eqb l m
  | _, _ => false
  end.

Lemma list_eqb_spec {A} `{Eqb A} (l m : list A) : reflect (l = m) (list_eqb l m).
Proof.
  revert m; induction l as [|x l IH]; intros [|y m]; cbn; try (constructor; congruence).
  destruct (eqb_spec x y) as [->|N]; cbn.
  - destruct (IH m) as [->|N]; constructor; congruence.
  - constructor; congruence.
Qed.

#[export] Instance Eqb_list {A} `{Eqb A} : Eqb (list A) :=
  { eqb := list_eqb; eqb_spec := list_eqb_spec }.

(** A python [str] is the list of its code points. *)
Notation str := (list Z) (only parsing).

(** ** Slicing with non-negative bounds: [s[i:j]], [s[i:]] and [s[i:j] = v] *)

Definition slice {A} (s : list A) (i j : nat) : list A := firstn (j - i) (skipn i s).

Definition setslice {A} (s : list A) (i j : nat) (v : list A) : list A :=
  firstn i s ++ v ++ skipn (Nat.max i j) s.

(** Python slicing with arbitrary integer bounds ([PySlice_AdjustIndices]). *)
Definition adj (n : nat) (i : Z) : nat :=
  let n' := Z.of_nat n in
  if (i <? 0)%Z then Z.to_nat (i + n') else Nat.min n (Z.to_nat i).

Definition slice_z {A} (s : list A) (i j : Z) : list A :=
  slice s (adj (length s) i) (adj (length s) j).

(** [l[-1]] *)
Definition last_opt {A} (l : list A) : option A :=
  match l with [] => None | x :: l => Some (last l x) end.

(** ** [str.find(sub, start)] and [str.startswith] *)

Fixpoint prefixb {A} `{Eqb A} (p s : list A) : bool :=
  match p, s with
  | [], _ => true
  | x :: p, y :: s => eqb x y && prefixb p s
  | _ :: _, [] => false
  end.

Fixpoint find_at {A} `{Eqb A} (sub s : list A) (i : nat) : option nat :=
  if prefixb sub s then Some i
  else match s with [] => None | _ :: t => find_at sub t (S i) end.

(** [s.find(sub, start)], [None] standing for -1. *)
Definition py_find {A} `{Eqb A} (s sub : list A) (start : nat) : option nat :=
  if length s <? start then None else find_at sub (skipn start s) start.

(** ** [sorted(l, key=key)]: a stable sort *)

Fixpoint insert_by {A} (key : A -> Z) (x : A) (l : list A) : list A :=
  match l with
  | [] => [x]
  | y :: t => if (key x <=? key y)%Z then x :: l else y :: insert_by key x t
  end.

Definition sort_by {A} (key : A -> Z) (l : list A) : list A :=
  fold_right (insert_by key) [] l.

(** ** Deduplication by a [set]: the first of equal elements is kept *)

Fixpoint dedup {A} `{Eqb A} (l : list A) : list A :=
  match l with
  | [] => []
  | x :: l => x :: filter (fun y => negb (eqb x y)) (dedup l)
  end.

Definition memb {A} `{Eqb A} (x : A) (l : list A) : bool := existsb (eqb x) l.

(** [set(a) == set(b)] *)
Definition set_eqb {A} `{Eqb A} (a b : list A) : bool :=
  forallb (fun x => memb x b) a && forallb (fun x => memb x a) b.

(** ** [dict] as an association list in insertion order *)

Fixpoint dict_get {K V} `{Eqb K} (d : list (K * V)) (k : K) : option V :=
  match d with
  | [] => None
  | (k', v) :: d => if eqb k k' then Some v else dict_get d k
  end.

(** [d[k] = v]: an existing key keeps its place. *)
Fixpoint dict_set {K V} `{Eqb K} (d : list (K * V)) (k : K) (v : V) : list (K * V) :=
  match d with
  | [] => [(k, v)]
  | (k', v') :: d => if eqb k k' then (k', v) :: d else (k', v') :: dict_set d k v
  end.

Definition dict_mem {K V} `{Eqb K} (d : list (K * V)) (k : K) : bool :=
  match dict_get d k with Some _ => true | None => false end.

(** [d.update(e)] *)
Definition dict_update {K V} `{Eqb K} (d e : list (K * V)) : list (K * V) :=
  fold_left (fun d kv => dict_set d (fst kv) (snd kv)) e d.

(** C [unsigned int] range check done by Cython on a python int argument. *)
Definition two32 : Z := (2 ^ 32)%Z.
Definition u32b (z : Z) : bool := ((0 <=? z) && (z <? two32))%Z.
Definition to_u32 (z : Z) : res nat := if u32b z then Ok (Z.to_nat z) else Err OverflowErr.
