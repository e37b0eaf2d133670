(** Specification vocabulary for OrdinalLabel: raw dictionaries and index maps. *)

From Coq Require Import String QArith Sorted.
From Verif Require Import Py Json SpecOps Elements SpecElements.
From Coq Require Import List.
Local Open Scope Z_scope.

Definition is_dict {V} (d : list (str * V)) : Prop := NoDup (map fst d).

(** exactly the numbers 0 .. n-1, in any order *)
Definition indices (vs : list Z) : Prop :=
  NoDup vs /\ Forall (fun v => 0 <= v < Z.of_nat (length vs)) vs.

(** the name that stands for text outside of entities *)
Definition not_entity : str := txt "__NOT_ENTITY__".

(** An object made by the constructor, from dicts. *)
Definition is_ordinal (o : ordinal) : Prop :=
  exists i2i e2i ne, is_dict i2i /\ is_dict e2i /\ make_ordinal i2i e2i ne = Ok o.

Definition named (m : list (str * Z)) (i : Z) (name : str) : Prop := In (name, i) m.
Definition known_index (m : list (str * Z)) (i : Z) : Prop := exists name, In (name, i) m.
Definition known_name (m : list (str * Z)) (name : str) : Prop := exists i, In (name, i) m.

(** name, start, end and replacements *)
Record raw := mkRaw { w_name : str; w_start : Z; w_end : Z; w_replacements : list str }.

Definition raw_entity (r : raw) : jval :=
  JDict ([(txt "name", JStr (w_name r)); (txt "start", JInt (w_start r)); (txt "end", JInt (w_end r))] ++
         match w_replacements r with
         | [] => []
         | l => [(txt "replacements", JList (map JStr l))]
         end).
Definition raw_datum (u : str) (names : list str) (es : list raw) : jval :=
  JDict ([(txt "utterance", JStr u); (txt "intent", JDict [(txt "names", JList (map JStr names))])] ++
         match es with
         | [] => []
         | es => [(txt "entities", JList (map raw_entity es))]
         end).

(** the raw form of an entity; the order of the replacements does not matter *)
Definition raw_of (m : list (str * Z)) (e : entity) (r : raw) : Prop :=
  named m (e_label e) (w_name r) /\ w_start r = e_start e /\ w_end r = e_end e /\
  Permutation (w_replacements r) (e_replacements e).

(** the order of a set *)
Definition reorders (ord : list str -> list str) : Prop := forall l, Permutation (ord l) l.

Definition known (o : ordinal) (d : datum) : Prop :=
  Forall (known_index (intent2index o)) (d_intents d) /\
  Forall (fun e => known_index (entity2index o) (e_label e)) (d_entities d).

Definition small (o : ordinal) : Prop :=
  Forall i32 (map snd (intent2index o)) /\ Forall i32 (map snd (entity2index o)).

(** two raw entities that are apart, see [apart] *)
Definition raw_apart (a b : raw) : Prop :=
  if w_start a <=? w_start b then w_end a <= w_start b else w_end b <= w_start a.

(** the same raw entity, the replacements as a set *)
Definition same_raw (a b : raw) : Prop :=
  w_name a = w_name b /\ w_start a = w_start b /\ w_end a = w_end b /\
  same_set (w_replacements a) (w_replacements b).

(** the index of a name *)
Definition index_of (m : list (str * Z)) (name : str) : Z :=
  match dict_get m name with Some i => i | None => 0 end.

(** ** Data to learn the names from *)

Definition row (r : jval) (ints ents : list str) : Prop :=
  exists m k, r = JDict m /\ dict_get m (txt "intent") = Some (JDict k) /\
    dict_get k (txt "names") = Some (JList (map JStr ints)) /\
    ((dict_get m (txt "entities") = None /\ ents = []) \/
     exists es, dict_get m (txt "entities") = Some (JList es) /\
       Forall2 (fun e n => exists f, e = JDict f /\ dict_get f (txt "name") = Some (JStr n)) es ents).

(** [ints], [ents]: all names in the order of the data *)
Definition corpus (r : jval) (ints ents : list str) : Prop :=
  exists m rows ii ee, r = JDict m /\ dict_get m (txt "data") = Some (JList rows) /\
    length ii = length rows /\ length ee = length rows /\
    (forall k x a b, nth_error rows k = Some x -> nth_error ii k = Some a -> nth_error ee k = Some b ->
       row x a b) /\
    ints = concat ii /\ ents = concat ee.

(** the distinct elements of [l] in order of first appearance *)
Fixpoint first_seen (seen l : list str) : list str :=
  match l with
  | [] => []
  | x :: l => if in_dec (list_eq_dec Z.eq_dec) x seen then first_seen seen l
              else x :: first_seen (x :: seen) l
  end.

(** 0, 1, 2, ... without [skip], [n] numbers *)
Definition counting (skip : option Z) (n : nat) : list Z :=
  firstn n (filter (fun i => match skip with Some k => negb (i =? k) | None => true end)
                   (map Z.of_nat (seq 0 (S n)))).

(** the entity that a raw entity describes *)
Definition entity_of (m : list (str * Z)) (u : str) (r : raw) (e : entity) : Prop :=
  named m (e_label e) (w_name r) /\ e_start e = w_start r /\ e_end e = w_end r /\
  e_value e = slice_z u (w_start r) (w_end r) /\
  same_set (e_replacements e) (w_replacements r) /\ NoDup (e_replacements e).

(** all names of a raw datum are known *)
Definition all_known (o : ordinal) (names : list str) (es : list raw) : Prop :=
  Forall (known_name (intent2index o)) names /\
  Forall (fun r => known_name (entity2index o) (w_name r)) es.

(** a map without the name that stands for no entity *)
Definition others (d : list (str * Z)) : list (str * Z) :=
  filter (fun kv => negb (eqb (fst kv) not_entity)) d.

(** the entity names for which from_raw_dictionary finds a valid numbering *)
Definition learns (ne : Z) (ents : list str) : Prop :=
  (~ In not_entity ents /\ 0 <= ne <= Z.of_nat (length (first_seen [] ents))) \/
  ((exists before, first_seen [] ents = (before ++ [not_entity])%list) /\
   0 <= ne < Z.of_nat (length (first_seen [] ents))).
