(** Property theorems C94 (which datums come back from a pipe) and the theorems of C92 for these pipes.
    The concrete cases that meet the hypotheses are in [SettleDatumWitness.v]. *)

From Coq Require Import String.
From Verif Require Import Py Edit Labels Ops SpecLabels SpecSeg SpecRuns SpecOps Json Elements Pipe
  SpecPipe SpecElements SpecBert SpecTrip SpecAccept AcceptWitness SpecSettle SettleDatum SettleDatumWitness.
From Coq Require Import List.
Local Open Scope Z_scope.

(** C92: pipes of a tokenizer and list operators *)
Theorem C92_list_steps : forall E p l y als coll, python E -> Forall list_step (map o_op (steps p)) ->
  transform_sequence E p (SLst l) = Ok (y, als, coll) ->
  forall m, length m = length l -> (survives E als m <-> not_cut (map o_op (steps p)) m).
Proof. exact list_steps_survive. Qed.
Print Assumptions C92_list_steps.

Theorem C92_tokens_then : forall E p s y als coll spaces tok k after, python E -> regexes E -> Forall (fun o => In o [MergeWhiteSpaceCharacters; StripWhiteSpaceCharacters]) spaces ->
    In (tok, k) [(WhiteSpaceTokenizer, by_space E); (EngTokenizer, by_punct E); (ZhCharTokenizer, by_punct_cjk E)] ->
    Forall list_step after -> reachable E p -> map o_op (steps p) = ((spaces ++ [tok]) ++ after)%list ->
    transform_sequence E p (SStr s) = Ok (y, als, coll) ->
    forall l m, align_all (firstn (length (spaces ++ [tok])) als) l = Ok m ->
    (survives E als l <-> token_wise k s l /\ not_cut after m).
Proof. exact (fun E p s y als coll spaces tok k after H0 H1 => tokens_then E H0 H1 p s y als coll spaces tok k after). Qed.
Print Assumptions C92_tokens_then.

Theorem C92_numbers_then : forall E p s y als coll numbers spaces tok k after, python E -> regexes E -> token_letters E -> is_space E 95 = false ->
    Forall (fun o => In o spaced_numbers) numbers ->
    Forall (fun o => In o [MergeWhiteSpaceCharacters; StripWhiteSpaceCharacters]) spaces ->
    In (tok, k) [(WhiteSpaceTokenizer, by_space E); (EngTokenizer, by_punct E); (ZhCharTokenizer, by_punct_cjk E)] ->
    Forall list_step after -> reachable E p -> map o_op (steps p) = ((numbers ++ spaces ++ [tok]) ++ after)%list ->
    transform_sequence E p (SStr s) = Ok (y, als, coll) ->
    forall l m, align_all (firstn (length (numbers ++ spaces ++ [tok])) als) l = Ok m -> number_wise E numbers k s l -> not_cut after m ->
    survives E als l.
Proof. exact (fun E p s y als coll numbers spaces tok k after H0 H1 => numbers_then E H0 H1 p s y als coll numbers spaces tok k after). Qed.
Print Assumptions C92_numbers_then.

Theorem C92_numbers_then_iff : forall E p s y als coll numbers spaces tok k after ts, python E -> regexes E -> token_letters E -> is_space E 95 = false ->
    Forall (fun o => In o spaced_numbers) numbers ->
    Forall (fun o => In o [MergeWhiteSpaceCharacters; StripWhiteSpaceCharacters]) spaces ->
    In (tok, k) [(WhiteSpaceTokenizer, by_space E); (EngTokenizer, by_punct E); (ZhCharTokenizer, by_punct_cjk E)] ->
    Forall list_step after -> reachable E p -> map o_op (steps p) = ((numbers ++ spaces ++ [tok]) ++ after)%list ->
    transform_sequence E p (SStr s) = Ok (y, als, coll) ->
    nth_error coll (length (numbers ++ spaces ++ [tok])) = Some (SLst ts) -> (forall i, (i < length ts)%nat -> passes after i = true) ->
    forall l, survives E als l <-> number_wise E numbers k s l.
Proof. exact (fun E p s y als coll numbers spaces tok k after ts H0 H1 => numbers_then_iff E H0 H1 p s y als coll numbers spaces tok k after ts). Qed.
Print Assumptions C92_numbers_then_iff.

(** C94: which datums come back *)
Theorem C94_labels : forall E p d y als coll ints ls, legible d ->
  transform_sequence E p (SStr (d_utterance d)) = Ok (y, als, coll) ->
  unpack_datum d = Ok (d_utterance d, ints, ls) -> (recovered E p d <-> survives E als ls).
Proof. exact recovered_iff. Qed.
Print Assumptions C94_labels.

Theorem C94_tokens : forall E p d spaces tok k after y1 ints m als1 coll1, python E -> regexes E -> Forall (fun o => In o [MergeWhiteSpaceCharacters; StripWhiteSpaceCharacters]) spaces ->
    In (tok, k) [(WhiteSpaceTokenizer, by_space E); (EngTokenizer, by_punct E); (ZhCharTokenizer, by_punct_cjk E)] ->
    Forall list_step after -> reachable E p -> map o_op (steps p) = ((spaces ++ [tok]) ++ after)%list -> legible d ->
    (exists r, transform_sequence E p (SStr (d_utterance d)) = Ok r) ->
    transform E (first_steps (length (spaces ++ [tok])) p) d = Ok (y1, ints, m, als1, coll1) ->
    (recovered E p d <-> Forall (on_tokens k (d_utterance d)) (d_entities d) /\ not_cut after m).
Proof. exact (fun E p d spaces tok k after y1 ints m als1 coll1 H0 H1 => tokens_datum E H0 H1 p d spaces tok k after y1 ints m als1 coll1). Qed.
Print Assumptions C94_tokens.

Theorem C94_numbers : forall E p d numbers spaces tok k after y1 ints m als1 coll1, python E -> regexes E -> token_letters E -> is_space E 95 = false ->
    Forall (fun o => In o spaced_numbers) numbers ->
    Forall (fun o => In o [MergeWhiteSpaceCharacters; StripWhiteSpaceCharacters]) spaces ->
    In (tok, k) [(WhiteSpaceTokenizer, by_space E); (EngTokenizer, by_punct E); (ZhCharTokenizer, by_punct_cjk E)] ->
    Forall list_step after -> reachable E p -> map o_op (steps p) = ((numbers ++ spaces ++ [tok]) ++ after)%list -> legible d ->
    (exists r, transform_sequence E p (SStr (d_utterance d)) = Ok r) ->
    transform E (first_steps (length (numbers ++ spaces ++ [tok])) p) d = Ok (y1, ints, m, als1, coll1) ->
    Forall (on_numbers E numbers k (d_utterance d)) (d_entities d) -> not_cut after m -> recovered E p d.
Proof. exact (fun E p d numbers spaces tok k after y1 ints m als1 coll1 H0 H1 => numbers_datum E H0 H1 p d numbers spaces tok k after y1 ints m als1 coll1). Qed.
Print Assumptions C94_numbers.

Theorem C94_numbers_iff : forall E p d y als coll numbers spaces tok k after ts, python E -> regexes E -> token_letters E -> is_space E 95 = false ->
    Forall (fun o => In o spaced_numbers) numbers ->
    Forall (fun o => In o [MergeWhiteSpaceCharacters; StripWhiteSpaceCharacters]) spaces ->
    In (tok, k) [(WhiteSpaceTokenizer, by_space E); (EngTokenizer, by_punct E); (ZhCharTokenizer, by_punct_cjk E)] ->
    Forall list_step after -> reachable E p -> map o_op (steps p) = ((numbers ++ spaces ++ [tok]) ++ after)%list -> legible d ->
    transform_sequence E p (SStr (d_utterance d)) = Ok (y, als, coll) ->
    nth_error coll (length (numbers ++ spaces ++ [tok])) = Some (SLst ts) -> (forall i, (i < length ts)%nat -> passes after i = true) ->
    (recovered E p d <-> Forall (on_numbers E numbers k (d_utterance d)) (d_entities d)).
Proof. exact (fun E p d y als coll numbers spaces tok k after ts H0 H1 => numbers_datum_iff E H0 H1 p d y als coll numbers spaces tok k after ts). Qed.
Print Assumptions C94_numbers_iff.

Theorem C94_bert : forall E f d p, python E -> letters E -> accents_fit E f (d_utterance d) ->
  basic_pipe E = Ok p \/ full_pipe E = Ok p -> legible d ->
  (recovered E p d <-> Forall (on_tokens (by_punct_cjk E) (d_utterance d)) (d_entities d)).
Proof. exact bert_datum. Qed.
Print Assumptions C94_bert.

Theorem C94_word_piece : forall E d p, python E -> word_piece_pipe E = Ok p -> legible d ->
  (recovered E p d <-> Forall (on_tokens (by_space E) (d_utterance d)) (d_entities d)).
Proof. exact word_piece_exact. Qed.
Print Assumptions C94_word_piece.

Theorem C94_readme : forall E p d y1 ints m als1 coll1, python E -> regexes E -> token_letters E -> is_space E 95 = false ->
  add_calls E imported pipe_new readme_calls = (p, None) -> legible d -> Z.of_nat (length (d_utterance d)) < 2 ^ 27 ->
  transform E (first_steps 5 p) d = Ok (y1, ints, m, als1, coll1) ->
  Forall (on_numbers E [IntTokenWithSpace; FloatTokenWithSpace] (by_punct E) (d_utterance d)) (d_entities d) ->
  (forall i x, nth_error m i = Some x -> (4 <= i)%nat -> x = 0) -> recovered E p d.
Proof. exact readme_datum. Qed.
Print Assumptions C94_readme.

Theorem C94_readme_refuted : exists E p d, python E /\ regexes E /\ token_letters E /\ is_space E 95 = false /\
  add_calls E imported pipe_new readme_calls = (p, None) /\ legible d /\
  Forall (on_tokens (by_punct E) (d_utterance d)) (d_entities d) /\ ~ recovered E p d.
Proof. exact readme_cut_refuted. Qed.
Print Assumptions C94_readme_refuted.
