(** Cases for C95. *)

From Coq Require Import String Sorted.
From Verif Require Import Py Json SpecOps Elements SpecElements SpecOrdinal SpecRaw DatumProofs OrdinalProofs RawProofs ElementsWitness.
From Coq Require Import List Lia.
Import ListNotations.
Local Open Scope Z_scope.

(** names in a tuple, keys in another order, a key that nobody reads, positions that are a
    boolean and outside of the text *)
Definition v0 : jval := JDict [
  (txt "id", JInt 7);
  (txt "entities", JTuple [
     JDict [(txt "end", JInt 90); (txt "name", JStr (txt "date")); (txt "start", JInt 5); (txt "replacements", JNone)];
     JDict [(txt "name", JStr (txt "city")); (txt "start", JBool false); (txt "end", JBool true);
            (txt "replacements", JStr (txt "xyx"))]]);
  (txt "intent", JDict [(txt "names", JTuple [JStr (txt "go"); JStr (txt "ask")])]);
  (txt "utterance", JStr (txt "a trip"))].
Definition e_city : entity := mkEntity 1 (txt "a") 0 1 [txt "x"; txt "y"].
Definition e_date : entity := mkEntity 2 (txt "p") 5 90 [].

Example v0_machanize : machanize o0 v0 = Ok (mkDatum (txt "a trip") [0; 3] [e_city; e_date]).
Proof. vm_compute. reflexivity. Qed.
Example v0_plain : plain v0.
Proof.
  split.
  - intros (d & [= <-] & H). vm_compute in H. discriminate.
  - intros es H. assert (Y : raw_entities v0 [
       JDict [(txt "end", JInt 90); (txt "name", JStr (txt "date")); (txt "start", JInt 5); (txt "replacements", JNone)];
       JDict [(txt "name", JStr (txt "city")); (txt "start", JBool false); (txt "end", JBool true);
              (txt "replacements", JStr (txt "xyx"))]]).
    { right. eexists. split; [eexists; split; [reflexivity|vm_compute; reflexivity]|constructor]. }
    rewrite (entities_fun _ _ _ H Y). constructor; [|constructor; [|constructor]].
    + intros x l (d & [= <-] & E) HY. vm_compute in E. injection E as <-. inversion HY.
    + intros x l (d & [= <-] & E) HY. vm_compute in E. injection E as <-. inversion HY; subst.
      repeat (constructor; [eexists; reflexivity|]). constructor.
Qed.

(** what is missing, wrong or too large *)
Definition with_entity (e : jval) : jval := JDict [
  (txt "utterance", JStr (txt "a trip")); (txt "intent", JDict [(txt "names", JList [])]); (txt "entities", JList [e])].
Example v0_faults :
  machanize o0 (JDict [(txt "utterance", JStr [])]) = Err KeyErr /\
  machanize o0 (JList [v0]) = Err TypeErr /\
  machanize o0 (JDict [(txt "utterance", JStr []); (txt "intent", JStr (txt "go"))]) = Err TypeErr /\
  machanize o0 (with_entity (JDict [(txt "name", JInt 1)])) = Err KeyErr /\
  machanize o0 (with_entity (JDict [(txt "name", JTuple [JList []])])) = Err TypeErr /\
  machanize o0 (with_entity (JDict [(txt "name", JStr (txt "city")); (txt "start", JNone); (txt "end", JInt 1)])) = Err TypeErr /\
  machanize o0 (with_entity (JDict [(txt "name", JStr (txt "city")); (txt "start", JInt 0); (txt "end", JInt 2147483648)])) = Err OverflowErr.
Proof. repeat split; vm_compute; reflexivity. Qed.

Example dict_case : entity_from_dict (JDict [(txt "start", JInt 2); (txt "end", JInt (-1)); (txt "label", JBool true)]) (txt "a trip") =
  Ok (mkEntity 1 (txt "tri") 2 (-1) []).
Proof. vm_compute. reflexivity. Qed.
Example dict_faults :
  entity_from_dict (JDict [(txt "start", JInt 2); (txt "end", JInt 3)]) [] = Err KeyErr /\
  entity_from_dict (JDict [(txt "start", JInt 2); (txt "end", JStr [])]) [] = Err TypeErr /\
  entity_from_dict (JDict [(txt "start", JInt 2); (txt "end", JInt 3); (txt "label", JInt (-2147483649))]) [] = Err OverflowErr.
Proof. repeat split; vm_compute; reflexivity. Qed.

(** names that are one text are read letter by letter *)
Definition rows0 : jval := JDict [(txt "data", JTuple [
  JDict [(txt "intent", JDict [(txt "names", JStr (txt "abba"))])];
  JDict [(txt "intent", JDict [(txt "names", JList [JStr (txt "go"); JStr (txt "b")])]);
         (txt "entities", JList [JDict [(txt "name", JStr (txt "city"))]])]])].
Example rows0_learned : from_raw_dictionary rows0 1 =
  Ok (mkOrdinal [(txt "a", 0); (txt "b", 1); (txt "go", 2)] [(txt "city", 0)] 1).
Proof. vm_compute. reflexivity. Qed.
Example rows0_corpus : raw_corpus rows0
  (map JStr [txt "a"; txt "b"; txt "b"; txt "a"; txt "go"; txt "b"]) (map JStr [txt "city"]).
Proof.
  eexists _, _, [_; _], [[]; [_]]. split; [eexists; split; [reflexivity|vm_compute; reflexivity]|].
  split; [constructor|]. split; [|split; [|split]].
  - constructor; [|constructor; [|constructor]].
    + do 2 eexists. split; [eexists; split; [reflexivity|vm_compute; reflexivity]|].
      split; [eexists; split; [reflexivity|vm_compute; reflexivity]|constructor].
    + do 2 eexists. split; [eexists; split; [reflexivity|vm_compute; reflexivity]|].
      split; [eexists; split; [reflexivity|vm_compute; reflexivity]|constructor].
  - constructor; [|constructor; [|constructor]].
    + exists []. split; [|constructor]. left. split; [|reflexivity]. eexists. split; [reflexivity|vm_compute; reflexivity].
    + eexists. split; [right; eexists; split; [eexists; split; [reflexivity|vm_compute; reflexivity]|constructor]|].
      constructor; [|constructor]. eexists. split; [reflexivity|vm_compute; reflexivity].
  - reflexivity.
  - reflexivity.
Qed.
Example rows0_faults : from_raw_dictionary (JDict []) 0 = Err KeyErr /\
  from_raw_dictionary (JDict [(txt "data", JInt 3)]) 0 = Err TypeErr /\
  from_raw_dictionary (JDict [(txt "data", JList [JDict [(txt "intent", JDict [])]])]) 0 = Err KeyErr.
Proof. repeat split; vm_compute; reflexivity. Qed.

(** a text in the place of a list of names is not refused *)
Lemma text_for_names_refuted : exists o v i s d, is_ordinal o /\ small o /\ plain v /\ field v "intent" i /\
  field i "names" (JStr s) /\ machanize o v = Ok d /\ length (d_intents d) = length s /\ (1 < length s)%nat.
Proof.
  exists (mkOrdinal [(txt "a", 0); (txt "b", 1)] [] 0),
    (JDict [(txt "utterance", JStr []); (txt "intent", JDict [(txt "names", JStr (txt "ab"))])]),
    (JDict [(txt "names", JStr (txt "ab"))]), (txt "ab"), (mkDatum [] [0; 1] []).
  split; [|split; [|split; [|split; [|split; [|split]]]]].
  - exists [(txt "a", 0); (txt "b", 1)], [], 0. split; [|split; [|vm_compute; reflexivity]].
    + unfold is_dict. cbn. nodup.
    + constructor.
  - split; repeat constructor; cbn; unfold i32; cbn; lia.
  - split; [intros (d & [= <-] & H); vm_compute in H; discriminate|].
    intros es [(_ & ->)|(x & (d & [= <-] & H) & _)]; [constructor|]. vm_compute in H. discriminate.
  - eexists. split; [reflexivity|vm_compute; reflexivity].
  - eexists. split; [reflexivity|vm_compute; reflexivity].
  - vm_compute. reflexivity.
  - vm_compute. auto.
Qed.
