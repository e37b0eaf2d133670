(** Property theorems C108 (which predicted labels stick).
    The concrete cases that meet the hypotheses are in [PredictWitness.v]. *)

From Coq Require Import String ZArith.
From Verif Require Import Py Edit SpecEdit SpecLabels SpecSeg SpecRuns SpecWords SpecScan SpecOps Ops Elements SpecElements Pipe SpecPipe SpecBert SpecTrip SpecSettle
  SpecPredict PredictProofs PredictPipe PredictWitness.
From Coq Require Import List.
Import ListNotations.
Local Open Scope nat_scope.

(** C108: which predicted labels stick *)
Theorem C108_numbers : forall E s, ord_ok (ord_c E) ->
  sticks_when E IntToken (SStr s) (in_new (int_like E (txt "_int_") s) (fun _ => one_label)) /\
  sticks_when E FloatToken (SStr s) (in_new (float_like E (txt "_float_") s) (fun _ => one_label)) /\
  sticks_when E IntTokenWithSpace (SStr s) (in_new (int_like E (txt " _int_ ") s) (fun _ => framed one_label)) /\
  sticks_when E NumTokenWithSpace (SStr s) (in_new (int_like E (txt " _num_ ") s) (fun _ => framed one_label)) /\
  sticks_when E FloatTokenWithSpace (SStr s) (in_new (float_like E (txt " _float_ ") s) (fun _ => framed one_label)).
Proof. exact spaced_number_lists. Qed.
Print Assumptions C108_numbers.

Theorem C108_spacers : forall E s, ord_ok (ord_c E) ->
  sticks_when E AddWhitespaceAroundCJK (SStr s) (in_new (spaced cjk s) (fun _ => framed (fun _ => True))) /\
  sticks_when E AddWhitespaceAroundPunctuation (SStr s) (in_new (spaced (punctuation E) s) (fun _ => framed (fun _ => True))).
Proof. exact spacers_stick. Qed.
Print Assumptions C108_spacers.

Theorem C108_spaced_words : forall E ws sh o s ps, ord_ok (ord_c E) -> make_wordn (Some ws) sh = Ok o -> munched sh ws s ps ->
  sticks_when E o (SStr s) (in_new (word_spaced ps) (fun _ => framed (fun _ => True))).
Proof. exact wordn_sticks. Qed.
Print Assumptions C108_spaced_words.

Theorem C108_stopwords : forall E s ps, ord_ok (ord_c E) -> munched false stopword_set s ps ->
  sticks_when E StopwordsToWhitespace (SStr s) (in_new (stop_spaced ps) (fun _ => all_zero)).
Proof. exact stop_sticks. Qed.
Print Assumptions C108_stopwords.

Theorem C108_endpoint : forall E s, ord_ok (ord_c E) ->
  sticks_when E PunctuationExceptEndpointToWhitespace (SStr s)
    (zero_at (fun i => exists c, nth_error s i = Some c /\ endless_punct E c = true)).
Proof. exact endpoint_sticks. Qed.
Print Assumptions C108_endpoint.

Theorem C108_replace : forall E p b find s sg, ord_ok (ord_c E) -> re_compile E p = Some find -> in_bounds find ->
  replaced find (fun _ => b) s 0 sg -> ~ deleted_twice sg ->
  sticks_when E (ReplaceAwithB p b) (SStr s)
    (in_new sg (fun w ls => one_label ls /\ (w = [] -> all_zero ls))).
Proof. exact replace_sticks. Qed.
Print Assumptions C108_replace.

Theorem C108_replace_twice : forall E p b find s sg, ord_ok (ord_c E) -> re_compile E p = Some find -> in_bounds find ->
  replaced find (fun _ => b) s 0 sg -> deleted_twice sg -> sticks_when E (ReplaceAwithB p b) (SStr s) (fun _ => False).
Proof. exact replace_twice_sticks. Qed.
Print Assumptions C108_replace_twice.

Theorem C108_pad : forall E m t l, ord_ok (ord_e E) ->
  sticks_when E (Pad m t) (SLst l) (zero_at (fun i => length l <= i)).
Proof. exact pad_sticks. Qed.
Print Assumptions C108_pad.

Theorem C108_end_token : forall E t l, ord_ok (ord_e E) -> sticks_when E (AddEndToken t) (SLst l) (zero_at (fun i => length l <= i)).
Proof. exact end_sticks. Qed.
Print Assumptions C108_end_token.

Theorem C108_sos_eos : forall E s e l, ord_ok (ord_e E) ->
  sticks_when E (AddSosEos s e) (SLst l) (zero_at (fun i => i = 0 \/ length l < i)).
Proof. exact soseos_sticks. Qed.
Print Assumptions C108_sos_eos.

Theorem C108_subwords : forall E v u m ts outs, ord_ok (ord_e E) -> ~ ((0 <= m)%Z /\ two_empty ts) -> Forall2 (subwords v u m) ts outs ->
  sticks_when E (SpanSubwords v u m) (SLst (map ETok ts)) (in_pieces outs one_label).
Proof. exact subwords_stick. Qed.
Print Assumptions C108_subwords.

Theorem C108_subwords_twice : forall E v u m ts, ord_ok (ord_e E) -> (0 <= m)%Z -> two_empty ts ->
  sticks_when E (SpanSubwords v u m) (SLst (map ETok ts)) (fun _ => False).
Proof. exact subwords_twice_stick. Qed.
Print Assumptions C108_subwords_twice.

Theorem C108_every_label : forall E o x, python E -> built E o -> transparent o -> sticks_when E o x (fun _ => True).
Proof. exact transparent_sticks. Qed.
Print Assumptions C108_every_label.

Theorem C108_tokenizers : forall E o x, python E -> built E o -> tokenizer o -> sticks_when E o x u32_labels.
Proof. exact tokenizer_sticks. Qed.
Print Assumptions C108_tokenizers.

Theorem C108_list_pipes : forall E p l y als coll, python E -> Forall list_step (map o_op (steps p)) -> steps p <> [] ->
  transform_sequence E p (SLst l) = Ok (y, als, coll) ->
  forall m, sticks E als m <-> length m = pseq_length y /\ zero_at (added (map o_op (steps p)) (length l)) m.
Proof. exact list_pipe_sticks. Qed.
Print Assumptions C108_list_pipes.

Theorem C108_token_pipes : forall (E : env) (PY : python E) (RX : regexes E) p s y als coll front tok after ts, reachable E p ->
  map o_op (steps p) = front ++ tok :: after -> Forall transparent front -> tokenizer tok -> Forall list_step after ->
  transform_sequence E p (SStr s) = Ok (y, als, coll) -> nth_error coll (S (length front)) = Some (SLst ts) ->
  forall m, sticks E als m <-> length m = pseq_length y /\ u32_labels m /\ zero_at (added after (length ts)) m.
Proof. exact tokens_stick. Qed.
Print Assumptions C108_token_pipes.

Theorem C108_basic_pipe : forall (E : env) (PY : python E) f s p y als coll, letters E -> accents_fit E f s -> basic_pipe E = Ok p ->
  transform_sequence E p (SStr s) = Ok (y, als, coll) ->
  forall m, sticks E als m <-> length m = pseq_length y /\ u32_labels m.
Proof. exact basic_sticks. Qed.
Print Assumptions C108_basic_pipe.

Theorem C108_full_pipe : forall (E : env) (PY : python E) f s p y als coll, letters E -> accents_fit E f s -> full_pipe E = Ok p ->
  transform_sequence E p (SStr s) = Ok (y, als, coll) ->
  exists ts outs a, transform_op E ZhCharTokenizer (SStr s) = Ok (SLst (map ETok ts), a) /\
    Forall2 (subwords (map txt word_pieces_and_comma) (ETok (txt "[UNK]")) 200) (map (map (fun c => f (lower c))) ts) outs /\
    forall m, sticks E als m <-> length m = pseq_length y /\ u32_labels m /\ in_pieces outs one_label m.
Proof. exact full_sticks. Qed.
Print Assumptions C108_full_pipe.

Theorem C108_word_piece_pipe : forall (E : env) (PY : python E) s p y als coll, word_piece_pipe E = Ok p ->
  transform_sequence E p (SStr s) = Ok (y, als, coll) ->
  exists ts outs a, transform_op E WhiteSpaceTokenizer (SStr s) = Ok (SLst (map ETok ts), a) /\
    Forall2 (subwords (map txt word_pieces) (ETok (txt "[UNK]")) 200) ts outs /\
    forall m, sticks E als m <-> length m = pseq_length y /\ u32_labels m /\ in_pieces outs one_label m.
Proof. exact word_piece_sticks. Qed.
Print Assumptions C108_word_piece_pipe.

Theorem C108_settling_pipes : forall (E : env) (PY : python E) (RX : regexes E) p x y als coll, reachable E p -> orderly (map o_op (steps p)) \/ token_letters E /\ numbered (map o_op (steps p)) ->
  transform_sequence E p x = Ok (y, als, coll) ->
  forall m, sticks E als m <-> (exists l, align_all als l = Ok m) /\ exists l, align_inverse_all E als m = Ok l.
Proof. exact settled_sticks. Qed.
Print Assumptions C108_settling_pipes.

Theorem C108_datums : forall (E : env) (PY : python E) (RX : regexes E) p u y als coll m l ints d, reachable E p ->
  transform_sequence E p (SStr u) = Ok (y, als, coll) -> align_inverse_all E als m = Ok l -> pack_to_datum u ints l = Ok d ->
  exists ints' m', transform E p d = Ok (y, ints', m', als, coll) /\ same_set ints' ints /\ (m' = m <-> sticks E als m).
Proof. exact predicted_datum. Qed.
Print Assumptions C108_datums.

Theorem C108_every_label_refuted : exists E p u y als coll m l ints d ints' m', python E /\ regexes E /\ reachable E p /\
  transform_sequence E p (SStr u) = Ok (y, als, coll) /\ length m = pseq_length y /\ u32_labels m /\
  align_inverse_all E als m = Ok l /\ pack_to_datum u ints l = Ok d /\
  transform E p d = Ok (y, ints', m', als, coll) /\ m' <> m.
Proof. exact every_label_refuted. Qed.
Print Assumptions C108_every_label_refuted.

Theorem C108_forward_refuted : exists E p x y als coll l m, python E /\ regexes E /\ reachable E p /\
  transform_sequence E p x = Ok (y, als, coll) /\ align_all als l = Ok m /\ ~ sticks E als m.
Proof. exact forward_refuted. Qed.
Print Assumptions C108_forward_refuted.
