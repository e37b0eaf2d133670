(** Specification vocabulary for operator classes written by users. *)

From Coq Require Import String.
From Verif Require Import Py Json SpecJson Elements Pipe SpecPipe SpecCalls Factory Custom.
From Coq Require Import List.

(** [def __init__(self, r1, ..., rm, o1=v1, ..., on=vn)]: the signature [ps] in full. *)
Definition declares (names : list str) (defaults : list jval) (ps : list (str * option jval)) : Prop :=
  NoDup names /\ names = map fst ps /\
  exists req opt, ps = map (fun n => (n, None)) req ++ map (fun nv => (fst nv, Some (snd nv))) opt /\
    defaults = map snd opt.

(** The function of a class body that runs in the end, through all wrappers. *)
Inductive runs : init -> list (str * option jval) -> (list jval -> option exn) -> Prop :=
| runs_object : runs ObjectInit [] (fun _ => None)
| runs_own names defaults ps body : declares names defaults ps -> runs (OwnInit names defaults body) ps body
| runs_wrapper i ps body : runs i ps body -> runs (Wrapper i) ps body.

Section spec.
  Context {T B : Type}.
  Implicit Types c : pyclass T B.
  Implicit Types o : obj T B.

  (** No instance of [c] is refused by abc. *)
  Definition concrete c : Prop := k_transform c <> None \/ k_completed c = false.

  (** The class statement contained an [__init__], with this signature. *)
  Definition own_init c (ps : list (str * option jval)) (body : list jval -> option exn) : Prop :=
    exists names defaults, k_init c = Wrapper (OwnInit names defaults body) /\ declares names defaults ps.
  (** It did not; the inherited one has this signature. *)
  Definition inherited_init c (ps : list (str * option jval)) (body : list jval -> option exn) : Prop :=
    exists i, k_init c = Wrapper (Wrapper i) /\ runs i ps body.

  (** [configs] gives every parameter its value and nothing else. *)
  Definition records (ps : list (str * option jval)) (configs : list (str * jval)) (vals : list jval) : Prop :=
    Permutation (map fst configs) (map fst ps) /\
    forall k n d, nth_error ps k = Some (n, d) -> dict_get configs n = nth_error vals k.

  (** The factory after class statements, exceptions caught. *)
  Definition after_classes (h : list (decl T B)) : list (str * pyclass T B) :=
    fold_left (fun f d => fst (define f d)) h [(lit "Operator", operator_class)].
  Definition outcome (h : list (decl T B)) (d : decl T B) : res (pyclass T B) := snd (define (after_classes h) d).

  (** [d] is the first statement for its name. *)
  Definition first_for (h : list (decl T B)) (d : decl T B) : Prop :=
    exists h1 h2, h = h1 ++ d :: h2 /\ ~ In (d_name d) (lit "Operator" :: map d_name h1).

  (** the statement, or the parent, says what the types are, and the aligner class if the
      parent demands one *)
  Definition well_declared (d : decl T B) : Prop :=
    (exists t, d_in d = Some (Some t) \/ (d_in d = None /\ k_in (d_parent d) = Some t)) /\
    (exists t, d_out d = Some (Some t) \/ (d_out d = None /\ k_out (d_parent d) = Some t)) /\
    (k_wants_aligner (d_parent d) = true ->
       d_aligner d = Some true \/ (d_aligner d = None /\ k_aligner (d_parent d) = true)).

  (** [c] is what the statement [d] describes. *)
  Definition class_of (d : decl T B) c : Prop :=
    k_name c = d_name d /\
    (forall names defaults body ps, d_init d = Some (names, defaults, body) -> declares names defaults ps ->
       own_init c ps body) /\
    (forall i ps body, d_init d = None -> k_init (d_parent d) = Wrapper i -> runs i ps body ->
       inherited_init c ps body) /\
    (forall t, k_in c = Some t <-> d_in d = Some (Some t) \/ (d_in d = None /\ k_in (d_parent d) = Some t)) /\
    (forall t, k_out c = Some t <-> d_out d = Some (Some t) \/ (d_out d = None /\ k_out (d_parent d) = Some t)) /\
    (forall t, k_transform c = Some t <->
       d_transform d = Some t \/ (d_transform d = None /\ k_transform (d_parent d) = Some t)) /\
    (k_wants_aligner c = true <-> k_wants_aligner (d_parent d) = true \/ d_wants_aligner d = true) /\
    (k_completed c = true <-> well_declared d).
End spec.
