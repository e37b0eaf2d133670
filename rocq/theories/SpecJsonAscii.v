(** Specification vocabulary for stored labels: texts that survive ASCII-only JSON. *)

From Coq Require Import String.
From Verif Require Import Py Json SpecOps Elements SpecOrdinal.
From Coq Require Import List.
Local Open Scope Z_scope.

(** Characters are code points of Unicode. *)
Definition code_points (s : str) : Prop := Forall (fun c => 0 <= c <= 1114111) s.

(** No high surrogate is directly followed by a low one. *)
Definition no_surrogate_pair (s : str) : Prop :=
  forall l a b r, s = l ++ a :: b :: r -> ~ (55296 <= a <= 56319 /\ 56320 <= b <= 57343).

(** Every string inside, keys included, satisfies [P]; keys are distinct. *)
Fixpoint all_texts (P : str -> Prop) (v : jval) : Prop :=
  match v with
  | JStr s => P s
  | JList l | JTuple l => fold_right (fun v Q => all_texts P v /\ Q) True l
  | JDict d => NoDup (map fst d) /\
      fold_right (fun kv Q => (P (fst kv) /\ all_texts P (snd kv)) /\ Q) True d
  | _ => True
  end.

Definition sound (s : str) : Prop := code_points s /\ no_surrogate_pair s.

(** all names of a label *)
Definition names_are (P : str -> Prop) (o : ordinal) : Prop :=
  Forall P (map fst (intent2index o)) /\ Forall P (map fst (entity2index o)).

(** the stored form *)
Definition stored (i2i e2i : list (str * Z)) (ne : Z) : jval :=
  let d m := JDict (map (fun kv => (fst kv, JInt (snd kv))) m) in
  JDict [(txt "intent2index", d i2i); (txt "entity2index", d e2i); (txt "not_entity_index", JInt ne)].

Definition printable_ascii (s : str) : Prop := Forall (fun c => 32 <= c <= 126) s.
