(** Concrete labels on the way through the pipes of pipeline/bert (C77). *)

From Coq Require Import String.
From Verif Require Import Py Edit Labels SpecEdit SpecSeg SpecRuns SpecOps Ops Json Elements Pipe SpecElements SpecBert SpecTrip TripProofs
  BertRef BertRefProofs BertProofs Concrete OpsWitness BertWitness ElementsWitness EditApiProofs PyFacts.
From Coq Require Import List Lia.
Local Open Scope Z_scope.

Theorem everyday_fits E R s : unicode E R -> Forall everyday s -> letters E /\ accents_fit E (fun c => c) s.
Proof.
  intros U F. destruct (everyday_behaves E R s U F) as (_ & _ & H3 & H4). split; [apply U|].
  split; [exact H3|]. intros c Hc. now destruct (H4 c Hc).
Qed.

Theorem basic_datum E f d p : python E -> letters E -> accents_fit E f (d_utterance d) ->
  basic_pipe E = Ok p \/ full_pipe E = Ok p ->
  is_datum d -> d_utterance d <> [] ->
  Forall (fun e => inside (d_utterance d) e /\ on_tokens (by_punct_cjk E) (d_utterance d) e) (d_entities d) ->
  (forall a b, In a (d_entities d) -> In b (d_entities d) -> e_end a = e_start b -> e_label a <> e_label b) ->
  exists y ints m als coll ls d', transform E p d = Ok (y, ints, m, als, coll) /\
    align_inverse_all E als m = Ok ls /\ pack_to_datum (d_utterance d) ints ls = Ok d' /\
    d_utterance d' = d_utterance d /\ same_set (d_intents d') (d_intents d) /\
    d_entities d' = map bare_entity (d_entities d).
Proof.
  intros PY HL HA HP. apply datum_trip.
  - intros y als coll HR. now apply (basic_survives E PY HL f (d_utterance d) p y als coll).
  - destruct HP as [HP|HP].
    + destruct (basic_labels E PY HL f _ p HA HP) as (ts & a & als & coll & _ & R & _). eexists. exact R.
    + destruct (full_labels E PY HL f _ p HA HP) as (ts & a & outs & als & coll & _ & _ & R & _). eexists. exact R.
Qed.
Theorem word_piece_datum E d p : python E -> word_piece_pipe E = Ok p ->
  is_datum d -> d_utterance d <> [] ->
  Forall (fun e => inside (d_utterance d) e /\ on_tokens (by_space E) (d_utterance d) e) (d_entities d) ->
  (forall a b, In a (d_entities d) -> In b (d_entities d) -> e_end a = e_start b -> e_label a <> e_label b) ->
  exists y ints m als coll ls d', transform E p d = Ok (y, ints, m, als, coll) /\
    align_inverse_all E als m = Ok ls /\ pack_to_datum (d_utterance d) ints ls = Ok d' /\
    d_utterance d' = d_utterance d /\ same_set (d_intents d') (d_intents d) /\
    d_entities d' = map bare_entity (d_entities d).
Proof.
  intros PY HP. apply datum_trip.
  - intros y als coll HR. now apply (word_piece_survives E PY (d_utterance d) p y als coll).
  - destruct (word_piece_labels E PY (d_utterance d) p HP) as (ts & a & outs & als & coll & _ & _ & R & _). eexists. exact R.
Qed.

(** ** Concrete data *)

Definition trip (E : env) (p : pipe) (d : datum) : res datum :=
  match transform E p d with
  | Ok (_, ints, m, als, _) => ls <- align_inverse_all E als m ;; pack_to_datum (d_utterance d) ints ls
  | Err e => Err e
  end.
Lemma trip_by E p d d' : trip E p d = Ok d' -> exists y ints m als coll ls, transform E p d = Ok (y, ints, m, als, coll) /\
  align_inverse_all E als m = Ok ls /\ pack_to_datum (d_utterance d) ints ls = Ok d'.
Proof.
  unfold trip. destruct (transform E p d) as [[[[[y ints] m] als] coll]|]; [|discriminate].
  destruct (align_inverse_all E als m) as [ls|] eqn:Q; cbn [bind]; [|discriminate]. intros H. exists y, ints, m, als, coll, ls. auto.
Qed.

Definition the_basic : pipe := mkPipe basic_steps [].

Definition gap_b (k : Z -> kind) (c : Z) : bool := match k c with Gap => true | _ => false end.
Definition word_b (k : Z -> kind) (o : option Z) : bool :=
  match o with Some c => match k c with Word => true | _ => false end | None => false end.
Definition inner_b (k : Z -> kind) (s : str) (i : Z) : bool :=
  match Z.to_nat i with S j => word_b k (nth_error s j) && word_b k (nth_error s (S j)) | O => false end.
Definition on_tokens_b (k : Z -> kind) (s : str) (e : entity) : bool :=
  (0 <? e_label e) && (e_start e <? e_end e) && (0 <=? e_start e) && (e_end e <=? Z.of_nat (length s)) &&
  forallb (fun c => negb (gap_b k c)) (slice s (Z.to_nat (e_start e)) (Z.to_nat (e_end e))) &&
  negb (inner_b k s (e_start e)) && negb (inner_b k s (e_end e)).
Lemma inner_by k s i : inner_b k s i = false -> ~ splits_word k s i.
Proof.
  intros H (j & c & d & -> & H1 & H2 & K1 & K2). unfold inner_b in H. rewrite Nat2Z.id, H1, H2 in H. cbn in H. now rewrite K1, K2 in H.
Qed.
Lemma on_tokens_by k s e : on_tokens_b k s e = true -> inside s e /\ on_tokens k s e.
Proof.
  unfold on_tokens_b. rewrite !Bool.andb_true_iff, !Z.ltb_lt, !Z.leb_le, !Bool.negb_true_iff, forallb_forall.
  intros ((((((A & B) & C) & D) & F) & G) & H). split; [unfold inside; lia|]. split; [exact A|]. split; [exact B|].
  split; [|split; now apply inner_by]. intros i c Hi HC KG.
  assert (In c (slice s (Z.to_nat (e_start e)) (Z.to_nat (e_end e)))) as HI.
  { apply (nth_error_In _ (i - Z.to_nat (e_start e))). rewrite nth_error_slice by lia.
    replace (Z.to_nat (e_start e) + (i - Z.to_nat (e_start e)))%nat with i by lia. exact HC. }
  specialize (F c HI). unfold gap_b in F. now rewrite KG in F.
Qed.

Lemma everyday_by s : forallb (fun c => (32 <=? c) && (c <=? 126)) s = true -> Forall everyday s.
Proof.
  rewrite forallb_forall. intros H. apply Forall_forall. intros c Hc. left.
  apply H in Hc. apply Bool.andb_true_iff in Hc. lia.
Qed.

(** "I love Ann, her 3-D cat": Ann and 3-D. *)
Definition talk : str := txt "I love Ann, her 3-D cat".
Definition talk_entities : list entity := [mkEntity 4 (txt "Ann") 7 10 [txt "Bob"]; mkEntity 9 (txt "3-D") 16 19 []].
Definition talk_datum : datum := mkDatum talk [1] talk_entities.
Example ex_talk : python env0 /\ unicode env0 runtime0 /\ Forall everyday talk /\ is_datum talk_datum /\
  Forall (fun e => inside talk e /\ on_tokens (by_punct_cjk env0) talk e) talk_entities /\
  trip env0 the_basic talk_datum = Ok (mkDatum talk [1] (map bare_entity talk_entities)).
Proof.
  split; [exact env0_python|]. split; [exact unicode0|]. split.
  { now apply everyday_by. }
  split; [apply (datum_by talk [1] talk_entities); vm_compute; reflexivity|].
  split; [|vm_compute; reflexivity].
  repeat (constructor; [apply on_tokens_by; vm_compute; reflexivity|]). constructor.
Qed.

(** A name of two words comes back as two entities. *)
Definition city : datum := mkDatum (txt "New York") [] [mkEntity 5 (txt "New York") 0 8 []].
Theorem two_words_refuted : exists E R p d y ints m als coll ls d', python E /\ unicode E R /\ basic_pipe E = Ok p /\ is_datum d /\
  Forall everyday (d_utterance d) /\ transform E p d = Ok (y, ints, m, als, coll) /\
  align_inverse_all E als m = Ok ls /\ pack_to_datum (d_utterance d) ints ls = Ok d' /\
  d_entities d = [mkEntity 5 (txt "New York") 0 8 []] /\
  d_entities d' = [mkEntity 5 (txt "New") 0 3 []; mkEntity 5 (txt "York") 4 8 []].
Proof.
  destruct (trip_by env0 the_basic city (mkDatum (txt "New York") [] [mkEntity 5 (txt "New") 0 3 []; mkEntity 5 (txt "York") 4 8 []]))
    as (y & ints & m & als & coll & ls & H); [vm_compute; reflexivity|].
  exists env0, runtime0, the_basic, city, y, ints, m, als, coll, ls. eexists. split; [exact env0_python|]. split; [exact unicode0|].
  split; [apply basic_is|]. split; [apply (datum_by (txt "New York") [] (d_entities city)); vm_compute; reflexivity|].
  split; [now apply everyday_by|].
  split; [apply H|]. split; [apply H|]. split; [apply H|]. split; reflexivity.
Qed.

(** An entity that is the larger part of a word becomes the word, one that is the smaller part is lost. *)
Definition parts : datum := mkDatum (txt "cats dogs") [] [mkEntity 5 (txt "cat") 0 3 []; mkEntity 6 (txt "s") 8 9 []].
Theorem word_parts_refuted : exists E R p d y ints m als coll ls d', python E /\ unicode E R /\ basic_pipe E = Ok p /\ is_datum d /\
  Forall everyday (d_utterance d) /\ transform E p d = Ok (y, ints, m, als, coll) /\
  align_inverse_all E als m = Ok ls /\ pack_to_datum (d_utterance d) ints ls = Ok d' /\
  d_entities d = [mkEntity 5 (txt "cat") 0 3 []; mkEntity 6 (txt "s") 8 9 []] /\
  d_entities d' = [mkEntity 5 (txt "cats") 0 4 []].
Proof.
  destruct (trip_by env0 the_basic parts (mkDatum (txt "cats dogs") [] [mkEntity 5 (txt "cats") 0 4 []]))
    as (y & ints & m & als & coll & ls & H); [vm_compute; reflexivity|].
  exists env0, runtime0, the_basic, parts, y, ints, m, als, coll, ls. eexists. split; [exact env0_python|]. split; [exact unicode0|].
  split; [apply basic_is|]. split; [apply (datum_by (txt "cats dogs") [] (d_entities parts)); vm_compute; reflexivity|].
  split; [now apply everyday_by|].
  split; [apply H|]. split; [apply H|]. split; [apply H|]. split; reflexivity.
Qed.

(** The other hypotheses: a text with an accent, the other pipes. *)
Example ex_cafe : accents_fit env0 bare_letter cafe.
Proof.
  destruct ex_accents as (_ & _ & (_ & _ & H3 & H4) & _). split; [exact H3|]. intros c Hc. now destruct (H4 c Hc).
Qed.
Definition pieces_text : str := txt "unwanted Running".
Definition pieces_datum : datum := mkDatum pieces_text [] [mkEntity 3 (txt "unwanted") 0 8 []; mkEntity 2 (txt "Running") 9 16 []].
Definition the_full : pipe := mkPipe (basic_steps ++ [subwords_obj full_vocab]) [].
Definition the_pieces : pipe := mkPipe [bare "WhiteSpaceTokenizer" WhiteSpaceTokenizer; subwords_obj word_piece_vocab] [].
Definition comes_out (p : pipe) (s : str) : option pseq :=
  match transform_sequence env0 p (SStr s) with Ok (y, _, _) => Some y | Err _ => None end.
Example ex_pieces : full_pipe env0 = Ok the_full /\ word_piece_pipe env0 = Ok the_pieces /\
  comes_out the_full pieces_text = Some (SLst (map (fun t => ETok (txt t)) ["un"; "##want"; "##ed"; "runn"; "##ing"]%string)) /\
  trip env0 the_full pieces_datum = Ok pieces_datum /\ trip env0 the_pieces pieces_datum = Ok pieces_datum.
Proof. split; [apply full_is|]. split; [apply word_piece_is|]. split; [|split]; vm_compute; reflexivity. Qed.

Definition round (p : pipe) (s : str) (l : list Z) : res (list Z) :=
  match transform_sequence env0 p (SStr s) with
  | Ok (_, als, _) => m <- align_all als l ;; align_inverse_all env0 als m
  | Err e => Err e
  end.
Lemma round_survives p s y als coll l : transform_sequence env0 p (SStr s) = Ok (y, als, coll) ->
  survives env0 als l <-> round p s l = Ok l.
Proof.
  intros H. unfold round. rewrite H. unfold survives. destruct (align_all als l) as [m|]; cbn [bind]; split.
  - intros (m' & [= <-] & Q). exact Q.
  - intros Q. exists m. auto.
  - intros (m' & Q & _). discriminate.
  - discriminate.
Qed.
Example ex_survives y als coll : transform_sequence env0 the_basic (SStr talk) = Ok (y, als, coll) ->
  survives env0 als [1;0;2;2;2;2;0;4;4;4;5;0;0;0;0;0;9;9;9;0;3;3;3] /\
  ~ survives env0 als [1;0;2;2;2;2;2;4;4;4;5;0;0;0;0;0;9;9;9;0;3;3;3].
Proof.
  intros H. rewrite !(round_survives _ _ _ _ _ _ H). split.
  - vm_compute. reflexivity.
  - vm_compute. discriminate.
Qed.
