(** Raw data through a pipe and back (C113). *)

From Coq Require Import String Sorted.
From Verif Require Import Py Json SpecOps Ops Elements Pipe SpecElements SpecBert SpecTrip SpecOrdinal.
From Coq Require Import List.
Import ListNotations.
Local Open Scope Z_scope.

(** An object made by the constructor where 0 stands for no entity, as the default is; no entity has its name. *)
Definition usual (o : ordinal) : Prop :=
  is_ordinal o /\ small o /\ not_entity_index o = 0 /\ ~ In not_entity (map fst (entity2index o)).

(** Raw entities inside a non-empty text, not empty; where two touch, they have different names. *)
Definition raw_legible (u : str) (es : list raw) : Prop :=
  u <> [] /\ Forall (fun r => 0 <= w_start r < w_end r /\ w_end r <= Z.of_nat (length u)) es /\
  (forall a b, In a es -> In b es -> w_end a = w_start b -> w_name a <> w_name b).

(** Without replacements. *)
Definition bare_raw (r : raw) : raw := mkRaw (w_name r) (w_start r) (w_end r) [].

(** A raw entity that consists of whole tokens without whitespace between them. *)
Definition raw_on_tokens (k : Z -> kind) (s : str) (r : raw) : Prop :=
  (forall i c, w_start r <= Z.of_nat i < w_end r -> nth_error s i = Some c -> k c <> Gap) /\
  ~ splits_word k s (w_start r) /\ ~ splits_word k s (w_end r).

(** machanize, transform, the labels back through the aligners, pack_to_datum, humanize: the raw data again, the entities
    in the order of the text and without replacements. *)
Definition raw_returns (E : env) (p : pipe) (ord : list str -> list str) (o : ordinal) (u : str) (names : list str) (es : list raw) : Prop :=
  exists d y ints m als coll ls e names' es2,
    machanize o (raw_datum u names es) = Ok d /\ transform E p d = Ok (y, ints, m, als, coll) /\
    align_inverse_all E als m = Ok ls /\ pack_to_datum u ints ls = Ok e /\
    humanize ord o e = Ok (raw_datum u names' (map bare_raw es2)) /\ same_set names' names /\ stably_sorted w_start es es2.

(** ** Data sets *)

Record sample := mkSample { s_text : str; s_names : list str; s_entities : list raw }.
Definition raw_sample (x : sample) : jval := raw_datum (s_text x) (s_names x) (s_entities x).
Definition raw_data (xs : list sample) : jval := JDict [(txt "data", JList (map raw_sample xs))].

(** Every sample is legible, its entities do not overlap, and no entity has the name that stands for no entity; there are
    fewer than 2^31 names and characters. *)
Definition sound_sample (x : sample) : Prop :=
  raw_legible (s_text x) (s_entities x) /\ StronglySorted raw_apart (s_entities x) /\
  ~ In not_entity (map w_name (s_entities x)) /\ Z.of_nat (length (s_text x)) < 2 ^ 31.
Definition few_names (xs : list sample) : Prop :=
  Z.of_nat (length (concat (map s_names xs))) < 2 ^ 31 /\ Z.of_nat (length (concat (map s_entities xs))) < 2 ^ 31.
Definition sound_data (xs : list sample) : Prop := Forall sound_sample xs /\ few_names xs.
