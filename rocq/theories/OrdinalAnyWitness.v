(** Cases for C102. *)

From Coq Require Import String.
From Verif Require Import Py PyFacts Json SpecJson JsonProofs SpecOps Elements SpecElements Pipe JsonAscii SpecJsonAscii JsonAsciiProofs SpecForeign SpecGrammar
  GrammarProofs SpecStored OrdinalAny SpecOrdinal SpecRaw SpecOrdinalAny OrdinalAnyProofs.
From Coq Require Import List Lia.
Import ListNotations.
Local Open Scope Z_scope.

(** booleans as indices, out of order, and a value for the name that nobody may use *)
Definition i0 : list (str * jval) := [(txt "go", JInt 2); (txt "ask", JBool true); (txt "buy", JBool false)].
Definition e0 : list (str * jval) := [(txt "city", JBool true); (txt "date", JInt 0)].
Definition a0 : ordinal_any := mkAny (JDict i0) (JDict e0) (JInt 2).
Definition t0 : str := serialize_any a0.

Example a0_made : ordinal_new (JDict i0) (JDict e0) (JInt 2) = Ok a0.
Proof. reflexivity. Qed.
Example a0_numbers : as_numbers i0 [(txt "go", 2); (txt "ask", 1); (txt "buy", 0)] /\
  as_numbers e0 [(txt "city", 1); (txt "date", 0)] /\ is_dict i0 /\ is_dict e0.
Proof.
  split; [|split; [|split]].
  - repeat (constructor; [split; [reflexivity|constructor]|]). constructor.
  - repeat (constructor; [split; [reflexivity|constructor]|]). constructor.
  - repeat constructor; cbn; intuition discriminate.
  - repeat constructor; cbn; intuition discriminate.
Qed.
Example a0_counted : counted (map snd i0) /\ counted (JInt 2 :: other_values e0).
Proof. split; apply valid_counted with (d := i0) || apply (proj1 (valid_counted [(txt "n", JInt 2); (txt "city", JBool true); (txt "date", JInt 0)])); reflexivity. Qed.
Example a0_loads : ordinal_load t0 = Ok a0.
Proof. vm_compute. reflexivity. Qed.
Example a0_simple : simple (JDict i0) /\ simple (JDict e0) /\ all_texts sound (JDict i0) /\ all_texts sound (JDict e0) /\ no_tuple (JDict e0).
Proof.
  destruct a0_numbers as (_ & _ & D1 & D2). split; [|split; [|split; [|split]]].
  - intros d [= <-]. split; [exact D1|]. repeat constructor.
  - intros d [= <-]. split; [exact D2|]. repeat constructor.
  - split; [exact D1|]. cbn [fold_right i0 fst snd]. repeat split; try exact Logic.I; apply sound_printable; printable.
  - split; [exact D2|]. cbn [fold_right e0 fst snd]. repeat split; try exact Logic.I; apply sound_printable; printable.
  - cbn. tauto.
Qed.
Example a0_humanize : humanize_any (fun l => l) a0 (mkDatum (txt "to Rome") [0; 1] [mkEntity 1 (txt "Rome") 3 7 []]) =
  Ok (JDict [(txt "utterance", JStr (txt "to Rome"));
             (txt "intent", JDict [(txt "names", JList [JStr (txt "buy"); JStr (txt "ask")])]);
             (txt "entities", JList [JDict [(txt "name", JStr (txt "city")); (txt "start", JInt 3); (txt "end", JInt 7)]])]).
Proof. reflexivity. Qed.
Example a0_machanize : machanize_in a0 (JDict [(txt "utterance", JStr (txt "to Rome"));
             (txt "intent", JDict [(txt "names", JList [JStr (txt "buy"); JStr (txt "ask")])]);
             (txt "entities", JList [JDict [(txt "name", JStr (txt "city")); (txt "start", JInt 3); (txt "end", JInt 7)]])]) =
  Ok (mkDatum (txt "to Rome") [0; 1] [mkEntity 1 (txt "Rome") 3 7 []]).
Proof. reflexivity. Qed.

(** one refusal of every kind *)
Example refusals :
  ordinal_new (JList []) (JDict []) (JInt 0) = Err AttributeErr /\
  ordinal_new (JDict [(txt "go", JNone); (txt "ask", JInt 0)]) (JDict []) (JInt 0) = Err TypeErr /\
  ordinal_new (JDict [(txt "go", JNone)]) (JDict []) (JInt 0) = Err ValueErr /\
  ordinal_new (JDict [(txt "go", JStr (txt "1")); (txt "ask", JStr (txt "0"))]) (JDict []) (JInt 0) = Err ValueErr /\
  ordinal_new (JDict []) JNone (JInt 0) = Err TypeErr /\
  ordinal_new (JDict []) (JDict [(txt "city", JDict [])]) (JInt 0) = Err TypeErr /\
  ordinal_new (JDict []) (JDict [(txt "city", JInt 0)]) (JBool false) = Err ValueErr /\
  ordinal_new (JDict [(txt "go", JList [JInt 0]); (txt "ask", JList [JStr []])]) (JDict []) (JInt 0) = Err TypeErr /\
  ordinal_new (JDict [(txt "go", JList [JInt 0]); (txt "ask", JList [])]) (JDict []) (JInt 0) = Err ValueErr.
Proof. vm_compute. repeat split. Qed.

(** The documented type of the indices is not checked: an object made from booleans is not the
    object made from integers, though both do the same. *)
Example a0_written : ordinal_load (serialize_any (mkAny (JDict [(txt "go", JBool false)]) (JDict []) (JBool false))) =
  Ok (mkAny (JDict [(txt "go", JBool false)]) (JDict []) (JBool false)).
Proof. vm_compute. reflexivity. Qed.

(** The value stored for the name of text outside of entities is never looked at. *)
Lemma any_value_refuted : exists i e n r d, ordinal_new i (JDict e) n = Ok r /\
  In (not_entity, JStr d) e /\ all_texts sound (JDict e) /\ no_tuple (JDict e) /\
  ordinal_load (serialize_any r) = Ok r.
Proof.
  exists (JDict []), [(txt "city", JInt 1); (not_entity, JStr (txt "zero"))], (JInt 0). do 2 eexists.
  split; [reflexivity|]. split; [right; left; reflexivity|]. split; [|split; [cbn; tauto|vm_compute; reflexivity]].
  split; [repeat constructor; cbn; intuition discriminate|]. cbn [fold_right fst snd].
  change ((sound (txt "city") /\ True) /\ (sound not_entity /\ sound (txt "zero")) /\ True).
  assert (sound (txt "city") /\ sound not_entity /\ sound (txt "zero")); [|tauto].
  split; [|split]; apply sound_printable; unfold not_entity; printable.
Qed.
