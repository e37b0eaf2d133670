(** Concrete cases for C113. *)

From Coq Require Import String Sorted.
From Verif Require Import Py PyFacts Json SpecOps Ops Elements Pipe SpecPipe SpecElements SpecBert SpecTrip SpecOrdinal SpecSettle
  Concrete BertRef BertProofs ElementsWitness OpsWitness BertWitness TripWitness SettleDatum SpecRawTrip RawTripProofs RawCorpus.
From Coq Require Import List Lia Permutation.
Import ListNotations.
Local Open Scope Z_scope.

Example o0_usual : usual o0.
Proof. split; [exact o0_is|]. split; [exact o0_small|]. split; [reflexivity|]. not_in. Qed.

Definition said : str := txt "see SFO, today".
Definition city_raw : raw := mkRaw (txt "city") 4 7 [txt "LA"].
Definition date_raw : raw := mkRaw (txt "date") 9 14 [].
Example said_legible : raw_legible said [date_raw; city_raw] /\ Forall (fun r => i32 (w_start r) /\ i32 (w_end r)) [date_raw; city_raw].
Proof.
  split; [split; [discriminate|split]|].
  - repeat (constructor; [cbn; lia|]). constructor.
  - intros a b [<- |[<- |[]]] [<- |[<- |[]]]; cbn; intros; (discriminate || lia).
  - repeat (constructor; [split; unfold i32; cbn; lia|]). constructor.
Qed.
Definition said_datum : datum := mkDatum said [1] [mkEntity 1 (txt "SFO") 4 7 [txt "LA"]; mkEntity 2 (txt "today") 9 14 []].
Example said_made : machanize o0 (raw_datum said [txt "book"] [date_raw; city_raw]) = Ok said_datum.
Proof. vm_compute. reflexivity. Qed.

Definition raw_on_tokens_b (k : Z -> kind) (s : str) (r : raw) : bool := on_tokens_b k s (mkEntity 1 [] (w_start r) (w_end r) []).
Lemma raw_on_tokens_by k s r : raw_on_tokens_b k s r = true -> raw_on_tokens k s r.
Proof. intros H. apply on_tokens_by in H. destruct H as (_ & _ & _ & H). exact H. Qed.

Lemma said_fits : accents_fit env0 (fun c => c) said.
Proof. refine (proj2 (everyday_fits env0 runtime0 said unicode0 _)). now apply everyday_by. Qed.
Lemma same_order : reorders (fun l => l). Proof. intros l. apply Permutation_refl. Qed.

(** The pipe of bert splits the comma off; the word pieces do not. *)
Example said_returns : raw_returns env0 the_full (fun l => l) o0 said [txt "book"] [date_raw; city_raw] /\
  raw_returns env0 the_basic (fun l => l) o0 said [txt "book"] [date_raw; city_raw] /\
  ~ raw_returns env0 the_pieces (fun l => l) o0 said [txt "book"] [date_raw; city_raw].
Proof.
  destruct said_legible as (SL & SI).
  assert (T : Forall (raw_on_tokens (by_punct_cjk env0) said) [date_raw; city_raw]).
  { repeat (constructor; [apply raw_on_tokens_by; vm_compute; reflexivity|]). constructor. }
  split; [|split].
  - apply (raw_bert env0 (fun c => c) _ o0 said _ _ said_datum the_full env0_python env0_letters said_fits); auto using same_order, o0_usual, said_made.
  - apply (raw_bert env0 (fun c => c) _ o0 said _ _ said_datum the_basic env0_python env0_letters said_fits); auto using same_order, o0_usual, said_made.
  - intros H. apply (raw_word_piece env0 _ o0 said _ _ said_datum the_pieces env0_python) in H; auto using same_order, o0_usual, said_made.
    inversion H as [|? ? _ H']; subst. inversion H' as [|? ? (_ & _ & N) _]; subst. apply N.
    exists 6%nat, 79, 44. vm_compute. repeat split.
Qed.

(** 0 for a city and 1 for no entity: is_ordinal accepts it, and the city is lost. *)
Definition o_swap : ordinal := mkOrdinal [(txt "book", 0)] [(txt "city", 0)] 1.
Example o_swap_is : is_ordinal o_swap /\ small o_swap /\ ~ In not_entity (map fst (entity2index o_swap)) /\ not_entity_index o_swap <> 0.
Proof.
  split; [|split; [|split; [not_in|discriminate]]].
  - exists (intent2index o_swap), (entity2index o_swap), 1. split; [|split]; [unfold is_dict; cbn; nodup..|vm_compute; reflexivity].
  - split; repeat constructor; cbn; unfold i32; cbn; lia.
Qed.
Theorem swapped_refuted : exists E p ord o u names es d, python E /\ word_piece_pipe E = Ok p /\ reorders ord /\ is_ordinal o /\ small o /\
  ~ In not_entity (map fst (entity2index o)) /\ machanize o (raw_datum u names es) = Ok d /\ raw_legible u es /\
  Forall (raw_on_tokens (by_space E) u) es /\ ~ raw_returns E p ord o u names es.
Proof.
  exists env0, the_pieces, (fun l => l), o_swap, (txt "see SFO"), [txt "book"], [mkRaw (txt "city") 4 7 []].
  eexists. split; [exact env0_python|]. split; [apply word_piece_is|]. split; [exact same_order|].
  destruct o_swap_is as (H1 & H2 & H3 & _). split; [exact H1|]. split; [exact H2|]. split; [exact H3|].
  split; [vm_compute; reflexivity|]. split; [|split].
  - split; [discriminate|]. split; [constructor; [cbn; lia|constructor]|].
    intros a b [<- |[]] [<- |[]]; cbn; lia.
  - constructor; [apply raw_on_tokens_by; vm_compute; reflexivity|constructor].
  - intros H. apply (raw_nonzero _ _ _ _ _ _ _ (mkRaw (txt "city") 4 7 []) 0 same_order H1) in H; [now apply H|now left|now left].
Qed.

(** Three samples and what is learned from them; the first two come back, the third, half a word, does not. *)
Definition data0 : list sample :=
  [mkSample said [txt "book"] [date_raw; city_raw]; mkSample (txt "hi there") [txt "greet"; txt "book"] [];
   mkSample (txt "in LA") [] [mkRaw (txt "city") 3 4 []]].
Example data0_sound : sound_data data0.
Proof.
  split; [|split; reflexivity]. constructor; [|constructor; [|constructor; [|constructor]]].
  - split; [exact (proj1 said_legible)|]. split; [|split; [not_in|reflexivity]].
    repeat constructor; unfold raw_apart; cbn; lia.
  - split; [|split; [constructor|split; [not_in|reflexivity]]]. split; [discriminate|]. split; [constructor|]. intros a b [].
  - split; [|split; [repeat constructor|split; [not_in|reflexivity]]].
    split; [discriminate|]. split; [constructor; [cbn; lia|constructor]|]. intros a b [<- |[]] [<- |[]]; cbn; lia.
Qed.
Definition o_data0 : ordinal := mkOrdinal [(txt "book", 0); (txt "greet", 1)] [(txt "date", 1); (txt "city", 2)] 0.
Example data0_learned : from_raw_dictionary (raw_data data0) 0 = Ok o_data0.
Proof. vm_compute. reflexivity. Qed.
Example data0_returns :
  raw_returns env0 the_full (fun l => l) o_data0 said [txt "book"] [date_raw; city_raw] /\
  raw_returns env0 the_pieces (fun l => l) o_data0 (txt "hi there") [txt "greet"; txt "book"] [] /\
  ~ raw_returns env0 the_pieces (fun l => l) o_data0 (txt "in LA") [] [mkRaw (txt "city") 3 4 []].
Proof.
  split; [|split].
  - apply (data_bert env0 (fun c => c) (fun l => l) data0 o_data0 (mkSample said [txt "book"] [date_raw; city_raw]) the_full env0_python env0_letters said_fits (or_intror (full_is env0)) same_order data0_sound data0_learned); [now left|].
    repeat (constructor; [apply raw_on_tokens_by; vm_compute; reflexivity|]). constructor.
  - apply (data_word_piece env0 (fun l => l) data0 o_data0 (mkSample (txt "hi there") [txt "greet"; txt "book"] []) the_pieces env0_python (word_piece_is env0) same_order data0_sound data0_learned); [right; now left|constructor].
  - intros H. apply (data_word_piece env0 (fun l => l) data0 o_data0 (mkSample (txt "in LA") [] [mkRaw (txt "city") 3 4 []]) the_pieces env0_python (word_piece_is env0) same_order data0_sound data0_learned) in H; [|right; right; now left].
    inversion H as [|? ? (_ & _ & N) _]; subst. apply N. exists 3%nat, 76, 65. vm_compute. repeat split.
Qed.

(** Overlapping entities in a data set: the names are learned, but machanize raises. *)
Example overlap_kept_out : exists o, from_raw_dictionary (raw_data [mkSample said [] [mkRaw (txt "a") 0 3 []; mkRaw (txt "b") 2 5 []]]) 0 = Ok o /\
  machanize o (raw_datum said [] [mkRaw (txt "a") 0 3 []; mkRaw (txt "b") 2 5 []]) = Err EntityOverlapErr.
Proof. exists (mkOrdinal [] [(txt "a", 1); (txt "b", 2)] 0). split; vm_compute; reflexivity. Qed.

(** Another index for no entity, and an entity with the name that stands for none: raw data of the set still comes back from
    machanize and humanize, unlike with labels that were not learned from it (C51). *)
Definition data1 : list sample :=
  [mkSample (txt "ab") [txt "y"; txt "x"] [mkRaw not_entity 1 2 []]; mkSample (txt "c") [] []].
Definition o_data1 : ordinal := mkOrdinal [(txt "y", 0); (txt "x", 1)] [(not_entity, 1)] 0.
Example data1_round : few_names data1 /\ from_raw_dictionary (raw_data data1) 0 = Ok o_data1 /\
  (d <- machanize o_data1 (raw_datum (txt "ab") [txt "y"; txt "x"] [mkRaw not_entity 1 2 []]) ;; humanize (fun l => l) o_data1 d) =
  Ok (raw_datum (txt "ab") [txt "y"; txt "x"] [mkRaw not_entity 1 2 []]).
Proof. split; [split; reflexivity|]. split; vm_compute; reflexivity. Qed.
Example data0_other : few_names data0 /\ from_raw_dictionary (raw_data data0) 1 =
  Ok (mkOrdinal [(txt "book", 0); (txt "greet", 1)] [(txt "date", 0); (txt "city", 2)] 1).
Proof. split; [split; reflexivity|]. vm_compute. reflexivity. Qed.
