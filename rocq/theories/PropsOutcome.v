(** Property theorems C107 (which outputs are possible).
    The concrete cases that meet the hypotheses are in [OutcomeWitness.v]. *)

From Coq Require Import String ZArith.
From Verif Require Import Py Edit SpecEdit SpecRuns SpecWords SpecScan Ops SpecOps Elements Pipe SpecPipe SpecReadBack SpecSettle
  SpecOutcome OutcomeProofs OutcomeList OutcomeWitness.
From Coq Require Import List.
Import ListNotations.
Local Open Scope nat_scope.

(** C107: which outputs are possible *)
Theorem C107_lowercase : forall E, ord_ok (ord_c E) ->
  results E Lowercase (a_text (without ascii_capital)) /\ leaves E Lowercase (a_text (without ascii_capital)).
Proof. exact lowercase_forms. Qed.
Print Assumptions C107_lowercase.

Theorem C107_merge : forall E, ord_ok (ord_c E) -> is_space E 32 = true ->
  results E MergeWhiteSpaceCharacters (a_text (single_blanks E)) /\ leaves E MergeWhiteSpaceCharacters (a_text (single_blanks E)).
Proof. exact merge_forms. Qed.
Print Assumptions C107_merge.

Theorem C107_strip : forall E, ord_ok (ord_c E) ->
  results E StripWhiteSpaceCharacters (a_text (trimmed E)) /\ leaves E StripWhiteSpaceCharacters (a_text (trimmed E)).
Proof. exact strip_forms. Qed.
Print Assumptions C107_strip.

Theorem C107_endpoint : forall E, ord_ok (ord_c E) -> is_pcat E 32 = false ->
  results E PunctuationExceptEndpointToWhitespace (a_text (without (endless_punct E))) /\
  leaves E PunctuationExceptEndpointToWhitespace (a_text (without (endless_punct E))).
Proof. exact endpoint_forms. Qed.
Print Assumptions C107_endpoint.

Theorem C107_numbers : forall E o number, ord_ok (ord_c E) -> token_letters E -> In (o, number) (number_ops E) ->
  results E o (a_text (no_number E number)) /\ leaves E o (a_text (no_number E number)).
Proof. exact number_forms. Qed.
Print Assumptions C107_numbers.

Theorem C107_stopwords : forall E, ord_ok (ord_c E) ->
  results E StopwordsToWhitespace (a_text (without_words stopword_set)) /\ leaves E StopwordsToWhitespace (a_text (without_words stopword_set)).
Proof. exact stopword_forms. Qed.
Print Assumptions C107_stopwords.

Theorem C107_spacers : forall E o p, ord_ok (ord_c E) -> is_pcat E 32 = false -> In (o, p) (spacer_ops E) ->
  results E o (a_text (own_blanks p)) /\ leaves E o (a_text (without p)).
Proof. exact spacer_forms. Qed.
Print Assumptions C107_spacers.

Theorem C107_tokenizers : forall E o k, python E -> In (o, k) (kind_ops E) -> results E o (a_list (tokens_like (one_token k))).
Proof. exact tokenizer_forms. Qed.
Print Assumptions C107_tokenizers.

Theorem C107_characters : forall E, ord_ok (ord_c E) -> results E CharTokenizer (a_list (tokens_like (fun t => length t = 1%nat))).
Proof. exact char_forms. Qed.
Print Assumptions C107_characters.

Theorem C107_custom : forall E ws sh o x y, ord_ok (ord_c E) -> make_custom (Some ws) sh = Ok o -> turns E o x y ->
  a_list (tokens_like (fun t => In t ws \/ length t = 1%nat)) y.
Proof. exact custom_forms. Qed.
Print Assumptions C107_custom.

Theorem C107_pad : forall E maxlen pad, ord_ok (ord_e E) -> (0 <= maxlen)%Z ->
  results E (Pad maxlen pad) (a_list (fun l => Z.of_nat (length l) = maxlen)) /\
  leaves E (Pad maxlen pad) (a_list (fun l => Z.of_nat (length l) = maxlen)).
Proof. exact pad_forms. Qed.
Print Assumptions C107_pad.

Theorem C107_end_token : forall E eos, ord_ok (ord_e E) ->
  results E (AddEndToken eos) (a_list (fun y => exists l, y = l ++ [ETok eos] /\ (Z.of_nat (length l) < 2 ^ 32)%Z)).
Proof. exact end_forms. Qed.
Print Assumptions C107_end_token.

Theorem C107_sos_eos : forall E sos eos, ord_ok (ord_e E) ->
  exists z, ((sos <> eos /\ (z = [sos; eos] \/ z = [eos; sos])) \/ (sos = eos /\ z = [sos])) /\
    turns E (AddSosEos sos eos) (SLst []) (SLst z) /\
    results E (AddSosEos sos eos) (a_list (fun y => y = z \/ exists l, y = sos :: l ++ [eos] /\ l <> [] /\ (Z.of_nat (length l) < 2 ^ 32)%Z)).
Proof. exact soseos_forms. Qed.
Print Assumptions C107_sos_eos.

Theorem C107_pure_numbers : forall E tok, ord_ok (ord_e E) ->
  results E (PureNum2Token tok) (a_list (fun l => forall e, In e l -> (exists t, e = ETok t /\ pure_number E t = false) \/
    (e = tok /\ exists t, pure_number E t = true))).
Proof. exact purenum_forms. Qed.
Print Assumptions C107_pure_numbers.

Theorem C107_indices : forall E d unk o, python E -> is_dict d -> make_token2index d unk = Ok o -> results E o (a_list (indices_below (length d))).
Proof. exact index_forms. Qed.
Print Assumptions C107_indices.

Theorem C107_hashed_indices : forall E d o, ord_ok (ord_e E) -> is_dict d -> make_hash d = Ok o -> results E o (a_list (indices_below (length d))).
Proof. exact hash_forms. Qed.
Print Assumptions C107_hashed_indices.

Theorem C107_pipes : forall E p x y als coll i o form, transform_sequence E p x = Ok (y, als, coll) ->
  nth_error (map o_op (steps p)) i = Some o -> results E o form -> exists v, nth_error coll (S i) = Some v /\ form v.
Proof. exact pipe_forms. Qed.
Print Assumptions C107_pipes.

Theorem C107_pipe_last : forall E p ops o form x y als coll, results E o form -> map o_op (steps p) = ops ++ [o] ->
  transform_sequence E p x = Ok (y, als, coll) -> form y.
Proof. exact pipe_last. Qed.
Print Assumptions C107_pipe_last.

Theorem C107_no_digits_refuted : exists E s c, python E /\ token_letters E /\ (exists x, turns E IntToken x (SStr s)) /\ In c s /\ digit E c = true.
Proof. exact no_digits_refuted. Qed.
Print Assumptions C107_no_digits_refuted.

Theorem C107_listed_refuted : exists E ws o, python E /\ make_custom (Some ws) false = Ok o /\ In (txt "ab") ws /\
  ~ exists x, turns E o x (SLst [ETok (txt "a"); ETok (txt "b")]).
Proof. exact listed_refuted. Qed.
Print Assumptions C107_listed_refuted.

Theorem C107_spaced_already_refuted : exists E s, python E /\ ~ turns E AddWhitespaceAroundCJK (SStr s) (SStr s) /\
  forall i c, nth_error s i = Some c -> cjk c = true -> nth_error s (S i) = Some 32%Z /\ exists j, i = S j /\ nth_error s j = Some 32%Z.
Proof. exact spaced_already_refuted. Qed.
Print Assumptions C107_spaced_already_refuted.

Theorem C107_numbers_left_refuted : exists E tok x y t, python E /\ turns E (PureNum2Token tok) x (SLst y) /\ In (ETok t) y /\ pure_number E t = true.
Proof. exact numbers_left_refuted. Qed.
Print Assumptions C107_numbers_left_refuted.

Theorem C107_framed_refuted : exists E sos eos y, python E /\ sos <> eos /\ (exists x, turns E (AddSosEos sos eos) x (SLst y)) /\ forall l, y <> sos :: l ++ [eos].
Proof. exact framed_refuted. Qed.
Print Assumptions C107_framed_refuted.

Theorem C107_replaced_refuted : exists E p b find s, python E /\ re_compile E p = Some find /\ (exists x, turns E (ReplaceAwithB p b) x (SStr s)) /\ find s 0 <> None.
Proof. exact replaced_refuted. Qed.
Print Assumptions C107_replaced_refuted.
