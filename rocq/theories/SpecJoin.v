(** Two annotated texts put one after the other (C98). *)

From Verif Require Import Py Elements SpecElements.
From Coq Require Import List.
Import ListNotations.
Local Open Scope Z_scope.

(** A datum whose entities lie inside its text. *)
Definition at_home (d : datum) : Prop := is_datum d /\ Forall (inside (d_utterance d)) (d_entities d).

(** The same entity, [k] characters further to the right. *)
Definition moved (k : Z) (e : entity) : entity :=
  mkEntity (e_label e) (e_value e) (e_start e + k) (e_end e + k) (e_replacements e).

(** The entities of two texts, the first of which has [k] characters. *)
Definition join_entities (k : Z) (es1 es2 : list entity) : list entity := es1 ++ map (moved k) es2.

Definition joined (d1 d2 d : datum) : Prop :=
  d_utterance d = d_utterance d1 ++ d_utterance d2 /\
  d_entities d = join_entities (Z.of_nat (length (d_utterance d1))) (d_entities d1) (d_entities d2).

(** One entity would reach over the cut. *)
Definition across (l1 l2 : list Z) : Prop :=
  exists a l b, l1 = a ++ [l] /\ l2 = l :: b /\ l <> 0.

(** Every pair, the first component varies fastest. *)
Definition pairs {A B} (xs : list A) (ys : list B) : list (A * B) :=
  flat_map (fun y => map (fun x => (x, y)) xs) ys.

(** The parts of two texts (candidates and labels), where the text after the last entity of the first goes on with
    the text before the first entity of the second. *)
Inductive parts_joined : list (list str) * list (option Z) -> list (list str) * list (option Z) ->
  list (list str) * list (option Z) -> Prop :=
| pj_apart p1 m1 p2 m2 : (forall a, m1 <> a ++ [None]) \/ (forall b, m2 <> None :: b) ->
    parts_joined (p1, m1) (p2, m2) (p1 ++ p2, m1 ++ m2)
| pj_meet p1 m1 u v p2 m2 :
    parts_joined (p1 ++ [[u]], m1 ++ [None]) ([v] :: p2, None :: m2) (p1 ++ [u ++ v] :: p2, m1 ++ None :: m2).
