(** Specification vocabulary for raw data (C95): what a python program finds in a value made of
    dicts, lists, tuples, texts, integers, booleans and None, whatever its form is. *)

From Coq Require Import String Sorted.
From Verif Require Import Py Json SpecOps Elements SpecElements SpecOrdinal.
From Coq Require Import List.
Local Open Scope Z_scope.

(** ** Reading *)

(** [v[k]] is [x] *)
Definition field (v : jval) (k : string) (x : jval) : Prop :=
  exists d, v = JDict d /\ dict_get d (txt k) = Some x.

(** [v] is a dict without the key [k] *)
Definition lacks (v : jval) (k : string) : Prop :=
  exists d, v = JDict d /\ dict_get d (txt k) = None.

Definition no_dict (v : jval) : Prop := forall d, v <> JDict d.

(** what a loop over [v] gives: the characters of a text, the keys of a dict *)
Inductive yields : jval -> list jval -> Prop :=
| yields_list l : yields (JList l) l
| yields_tuple l : yields (JTuple l) l
| yields_text s : yields (JStr s) (map (fun c => JStr [c]) s)
| yields_keys d : yields (JDict d) (map (fun k => JStr k) (map fst d)).

Definition no_loop (v : jval) : Prop := forall l, ~ yields v l.

(** booleans are integers *)
Inductive whole : jval -> Z -> Prop :=
| whole_int z : whole (JInt z) z
| whole_true : whole (JBool true) 1
| whole_false : whole (JBool false) 0.

Definition no_whole (v : jval) : Prop := forall z, ~ whole v z.

(** a dict or a list, or a tuple with one of them somewhere inside *)
Inductive no_key : jval -> Prop :=
| no_key_list l : no_key (JList l)
| no_key_dict d : no_key (JDict d)
| no_key_tuple l x : In x l -> no_key x -> no_key (JTuple l).

(** [v] is the name of [i] *)
Definition names (m : list (str * Z)) (v : jval) (i : Z) : Prop := exists n, v = JStr n /\ In (n, i) m.

(** ** What raw data describe *)

(** the replacements of a raw entity *)
Definition raw_replacements (v : jval) (r : list str) : Prop :=
  ((lacks v "replacements" \/ field v "replacements" JNone) /\ r = []) \/
  (exists x l, field v "replacements" x /\ yields x (map JStr l) /\ NoDup r /\ forall w, In w r <-> In w l).

(** the entity [e] of the text [u] *)
Definition at_position (u : str) (v : jval) (e : entity) : Prop :=
  exists a b, field v "start" a /\ whole a (e_start e) /\ field v "end" b /\ whole b (e_end e) /\
    i32 (e_start e) /\ i32 (e_end e) /\
    e_value e = slice_z u (e_start e) (e_end e) /\ raw_replacements v (e_replacements e).
Definition raw_entity_of (m : list (str * Z)) (u : str) (v : jval) (e : entity) : Prop :=
  (exists n, field v "name" n /\ names m n (e_label e)) /\ at_position u v e.
Definition entity_dict_of (u : str) (v : jval) (e : entity) : Prop :=
  (exists n, field v "label" n /\ whole n (e_label e) /\ i32 (e_label e)) /\ at_position u v e.

(** the intents of a raw datum: [ns] are its names *)
Definition raw_names (v : jval) (ns : list jval) : Prop :=
  exists i x, field v "intent" i /\ field i "names" x /\ yields x ns.

(** [es]: the raw entities of a raw datum *)
Definition raw_entities (v : jval) (es : list jval) : Prop :=
  (lacks v "entities" /\ es = []) \/ (exists x, field v "entities" x /\ yields x es).

Definition describes (o : ordinal) (v : jval) (u : str) (ints : list Z) (ents : list entity) : Prop :=
  field v "utterance" (JStr u) /\
  (exists ns, raw_names v ns /\ Forall2 (names (intent2index o)) ns ints) /\
  (exists es, raw_entities v es /\ Forall2 (raw_entity_of (entity2index o) u) es ents).

(** ** What can be wrong *)

(** a name that is no key of the dict *)
Definition unknown (m : list (str * Z)) (v : jval) : Prop := (forall i, ~ names m v i) /\ ~ no_key v.

Definition position_lacks (v : jval) : Prop := lacks v "start" \/ lacks v "end".

(** something is missing in a raw entity *)
Inductive entity_missing (m : list (str * Z)) (v : jval) : Prop :=
| missing_name : lacks v "name" -> entity_missing m v
| missing_position : position_lacks v -> entity_missing m v
| unknown_name n : field v "name" n -> unknown m n -> entity_missing m v.

(** something is of the wrong type in a raw entity *)
Inductive wrong_position (v : jval) : Prop :=
| wrong_start x : field v "start" x -> no_whole x -> wrong_position v
| wrong_end x : field v "end" x -> no_whole x -> wrong_position v
| wrong_replacements x : field v "replacements" x -> x <> JNone -> no_loop x -> wrong_position v.
Inductive entity_wrong (v : jval) : Prop :=
| wrong_entity : no_dict v -> entity_wrong v
| wrong_name n : field v "name" n -> no_key n -> entity_wrong v
| wrong_place : wrong_position v -> entity_wrong v.

(** a position that does not fit in 32 bits *)
Definition position_large (v : jval) : Prop :=
  exists k x z, (k = "start"%string \/ k = "end"%string) /\ field v k x /\ whole x z /\ ~ i32 z.

Inductive missing (o : ordinal) (v : jval) : Prop :=
| no_utterance : lacks v "utterance" -> missing o v
| no_intent : lacks v "intent" -> missing o v
| no_names i : field v "intent" i -> lacks i "names" -> missing o v
| unknown_intent ns n : raw_names v ns -> In n ns -> unknown (intent2index o) n -> missing o v
| missing_in_entity es e : raw_entities v es -> In e es -> entity_missing (entity2index o) e -> missing o v.

Inductive wrong (v : jval) : Prop :=
| wrong_raw : no_dict v -> wrong v
| wrong_utterance x : field v "utterance" x -> (forall s, x <> JStr s) -> wrong v
| wrong_intent i : field v "intent" i -> no_dict i -> wrong v
| wrong_names i x : field v "intent" i -> field i "names" x -> no_loop x -> wrong v
| wrong_intent_name ns n : raw_names v ns -> In n ns -> no_key n -> wrong v
| wrong_entities x : field v "entities" x -> no_loop x -> wrong v
| wrong_in_entity es e : raw_entities v es -> In e es -> entity_wrong e -> wrong v.

Definition large (v : jval) : Prop := exists es e, raw_entities v es /\ In e es /\ position_large e.

(** ** Entity.from_dict *)

Definition dict_missing (v : jval) : Prop := lacks v "label" \/ position_lacks v.
Definition dict_wrong (v : jval) : Prop :=
  no_dict v \/ (exists x, field v "label" x /\ no_whole x) \/ wrong_position v.
Definition dict_large (v : jval) : Prop :=
  position_large v \/ exists x z, field v "label" x /\ whole x z /\ ~ i32 z.

(** ** from_raw_dictionary *)

Definition entity_name (v : jval) (n : jval) : Prop := field v "name" n.

(** the names of intents and entities in the order of the data *)
Definition raw_corpus (r : jval) (ints ents : list jval) : Prop :=
  exists x rows ii ee, field r "data" x /\ yields x rows /\ Forall2 raw_names rows ii /\
    Forall2 (fun v ns => exists es, raw_entities v es /\ Forall2 entity_name es ns) rows ee /\
    ints = concat ii /\ ents = concat ee.

Inductive corpus_missing (r : jval) : Prop :=
| no_data : lacks r "data" -> corpus_missing r
| missing_in_row x rows v : field r "data" x -> yields x rows -> In v rows ->
    lacks v "intent" \/ (exists i, field v "intent" i /\ lacks i "names") \/
    (exists es e, raw_entities v es /\ In e es /\ lacks e "name") -> corpus_missing r.
Inductive corpus_wrong (r : jval) : Prop :=
| wrong_corpus : no_dict r -> corpus_wrong r
| wrong_data x : field r "data" x -> no_loop x -> corpus_wrong r
| wrong_in_row x rows v : field r "data" x -> yields x rows -> In v rows ->
    no_dict v \/ (exists i, field v "intent" i /\ no_dict i) \/
    (exists i x, field v "intent" i /\ field i "names" x /\ no_loop x) \/
    (exists x, field v "entities" x /\ no_loop x) \/
    (exists es e, raw_entities v es /\ In e es /\ no_dict e) -> corpus_wrong r.

(** ** What is left out: an utterance that is None, names and replacements that are no texts
    where python would take any hashable value *)

Definition text (v : jval) : Prop := exists s, v = JStr s.
Definition plain_entity (e : jval) : Prop :=
  forall x l, field e "replacements" x -> yields x l -> Forall text l.
Definition plain (v : jval) : Prop :=
  ~ field v "utterance" JNone /\ forall es, raw_entities v es -> Forall plain_entity es.
Definition plain_corpus (r : jval) : Prop :=
  forall x rows v, field r "data" x -> yields x rows -> In v rows ->
    (forall ns, raw_names v ns -> Forall text ns) /\
    forall es e n, raw_entities v es -> In e es -> entity_name e n -> text n.
