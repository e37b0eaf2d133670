(** Property theorems C75 and C76 (laws that relate several runs), and C13 for whole operators.  The concrete cases that meet the
    hypotheses are in [RelabelWitness.v] and [LawsWitness.v]. *)

From Coq Require Import QArith String.
From Verif Require Import Py Edit Labels SpecEdit SpecLabels SpecSeg SpecRuns SpecWords SpecOps SpecBert Ops Json Elements SpecElements Pipe SpecRelabel SpecLaws RelabelProofs RelabelFree RelabelElements RelabelWitness LawsProofs LawsText LawsCommute LawsMaps LawsList LawsWitness.
From Coq Require Import List.
Local Open Scope Z_scope.

(** C13: whole operators *)
Theorem C13_tokenizers : forall E o s, python E -> built E o -> input_type o <> output_type o -> input_type o = TStr ->
  exists ps, tokenizes E o s ps.
Proof. exact tokenizers_labels32. Qed.
Print Assumptions C13_tokenizers.

Theorem C13_others : forall E o x y a, input_type o = output_type o -> transform_op E o x = Ok (y, a) ->
  forall l,
  (forall out, align a l = Ok out -> Forall (fun v => v = 0%Z \/ In v l) out) /\
  (forall out, align_inverse E a l = Ok out -> Forall (fun v => v = 0%Z \/ In v l) out) /\
  forall f, free_renaming f l ->
    align a (map f l) = renamed f (align a l) /\ align_inverse E a (map f l) = renamed f (align_inverse E a l).
Proof. exact others_any_labels. Qed.
Print Assumptions C13_others.

(** C75 *)
Theorem C75_operator : forall E o x y a, transform_op E o x = Ok (y, a) -> forall f l, renaming f l ->
  align a (map f l) = renamed f (align a l) /\ align_inverse E a (map f l) = renamed f (align_inverse E a l).
Proof. exact operator_blind. Qed.
Print Assumptions C75_operator.

Theorem C75_pipe : forall E p x y als coll, transform_sequence E p x = Ok (y, als, coll) -> forall f l, renaming f l ->
  align_all als (map f l) = renamed f (align_all als l) /\
  align_inverse_all E als (map f l) = renamed f (align_inverse_all E als l).
Proof. exact pipe_blind. Qed.
Print Assumptions C75_pipe.

Theorem C75_transform : forall E p f d, renaming f (entity_labels d) ->
  transform E p (rename_datum f d) =
  match transform E p d with
  | Ok (y, is_, l, als, coll) => Ok (y, is_, map f l, als, coll)
  | Err e => Err e
  end.
Proof. exact transform_datum_blind. Qed.
Print Assumptions C75_transform.

Theorem C75_unpack : forall f d, f 0 = 0 ->
  unpack_datum (rename_datum f d) =
  match unpack_datum d with Ok (u, is_, l) => Ok (u, is_, map f l) | Err e => Err e end.
Proof. exact unpack_blind. Qed.
Print Assumptions C75_unpack.

Theorem C75_pack : forall f u ints l, int_renaming f l ->
  pack_to_datum u ints (map f l) = renamed_datum f (pack_to_datum u ints l).
Proof. exact pack_blind. Qed.
Print Assumptions C75_pack.

Theorem C75_datum : forall f u ints es,
  make_datum u ints (Some (map (rename_entity f) es)) = renamed_datum f (make_datum u ints (Some es)).
Proof. exact make_datum_blind. Qed.
Print Assumptions C75_datum.

Theorem C75_expand : forall f d s o, int_renaming f (entity_labels d) ->
  expand_by_entities (rename_datum f d) s o = renamed_datums f (expand_by_entities d s o).
Proof. exact expand_blind. Qed.
Print Assumptions C75_expand.

Theorem C75_ratio : forall f fl d1 d2 rate, f 0 = 0 ->
  (forall x y, In x (0 :: entity_labels d1 ++ entity_labels d2) -> In y (0 :: entity_labels d1 ++ entity_labels d2) ->
     f x = f y -> x = y) ->
  entity_overlapping_ratio fl (rename_datum f d1) (rename_datum f d2) rate = entity_overlapping_ratio fl d1 d2 rate.
Proof. exact ratio_blind. Qed.
Print Assumptions C75_ratio.

Theorem C75_confused_refuted : exists E o x y a f l, transform_op E o x = Ok (y, a) /\ f 0 = 0 /\
  align a (map f l) <> renamed f (align a l).
Proof. exact confused_refuted. Qed.
Print Assumptions C75_confused_refuted.

Theorem C75_zero_refuted : exists E o x y a f l, transform_op E o x = Ok (y, a) /\ (forall u v, f u = f v -> u = v) /\
  align a (map f l) <> renamed f (align a l).
Proof. exact zero_refuted. Qed.
Print Assumptions C75_zero_refuted.

(** C76 *)
Theorem C76_whitespace_before_tokenizers : forall E o s, python E -> In o [WhiteSpaceTokenizer; EngTokenizer; ZhCharTokenizer] ->
  interchangeable E [MergeWhiteSpaceCharacters; o] [o] (SStr s) /\
  interchangeable E [StripWhiteSpaceCharacters; o] [o] (SStr s) /\
  interchangeable E [MergeWhiteSpaceCharacters; StripWhiteSpaceCharacters; o] [o] (SStr s).
Proof. exact (fun E o s PY => whitespace_first E PY o s). Qed.
Print Assumptions C76_whitespace_before_tokenizers.

Theorem C76_spacing_before_tokenizers : forall E s, python E ->
  interchangeable E [AddWhitespaceAroundPunctuation; WhiteSpaceTokenizer] [EngTokenizer] (SStr s) /\
  interchangeable E [AddWhitespaceAroundCJK; EngTokenizer] [ZhCharTokenizer] (SStr s) /\
  interchangeable E [AddWhitespaceAroundCJK; AddWhitespaceAroundPunctuation; WhiteSpaceTokenizer] [ZhCharTokenizer] (SStr s) /\
  interchangeable E [AddWhitespaceAroundPunctuation; AddWhitespaceAroundCJK; WhiteSpaceTokenizer] [ZhCharTokenizer] (SStr s) /\
  interchangeable E [AddWhitespaceAroundPunctuation; EngTokenizer] [EngTokenizer] (SStr s) /\
  interchangeable E [AddWhitespaceAroundPunctuation; ZhCharTokenizer] [ZhCharTokenizer] (SStr s) /\
  interchangeable E [AddWhitespaceAroundCJK; ZhCharTokenizer] [ZhCharTokenizer] (SStr s).
Proof. exact (fun E s PY => spacing_first E PY s). Qed.
Print Assumptions C76_spacing_before_tokenizers.

Theorem C76_numbers : forall E o1 o2 s, ord_ok (ord_c E) -> ascii_digits E ->
  In o1 [IntToken; IntTokenWithSpace; NumTokenWithSpace] -> In o2 [FloatToken; FloatTokenWithSpace] ->
  interchangeable E [o1; o2] [o2; o1] (SStr s).
Proof. exact numbers_commute. Qed.
Print Assumptions C76_numbers.

Theorem C76_merge_strip : forall E s, python E ->
  interchangeable E [MergeWhiteSpaceCharacters; StripWhiteSpaceCharacters] [StripWhiteSpaceCharacters; MergeWhiteSpaceCharacters] (SStr s).
Proof. exact merge_strip_commute. Qed.
Print Assumptions C76_merge_strip.

Theorem C76_spacers : forall E s, ord_ok (ord_c E) -> is_pcat E 32 = false ->
  interchangeable E [AddWhitespaceAroundCJK; AddWhitespaceAroundPunctuation]
    [AddWhitespaceAroundPunctuation; AddWhitespaceAroundCJK] (SStr s).
Proof. exact spacers_commute. Qed.
Print Assumptions C76_spacers.

Theorem C76_lowercase : forall E o s, ord_ok (ord_c E) -> letters E -> ascii_digits E ->
  In o [MergeWhiteSpaceCharacters; StripWhiteSpaceCharacters; AddWhitespaceAroundCJK; AddWhitespaceAroundPunctuation;
        PunctuationExceptEndpointToWhitespace; IntToken; IntTokenWithSpace; NumTokenWithSpace; FloatToken; FloatTokenWithSpace] ->
  interchangeable E [Lowercase; o] [o; Lowercase] (SStr s).
Proof. exact lowercase_commutes. Qed.
Print Assumptions C76_lowercase.

Theorem C76_once_is_enough : forall E o s, python E -> ascii_digits E -> is_pcat E 32 = false ->
  In o [Lowercase; MergeWhiteSpaceCharacters; StripWhiteSpaceCharacters; PunctuationExceptEndpointToWhitespace;
        IntToken; IntTokenWithSpace; NumTokenWithSpace; FloatToken; FloatTokenWithSpace] ->
  interchangeable E [o; o] [o] (SStr s).
Proof. exact once_is_enough. Qed.
Print Assumptions C76_once_is_enough.

Theorem C76_pad_again : forall E n m t l, ord_ok (ord_e E) -> 0 <= m <= n -> n < 2 ^ 32 -> Z.of_nat (length l) < 2 ^ 32 ->
  interchangeable E [Pad n t; Pad m t] [Pad m t] (SLst l).
Proof. exact pad_pad. Qed.
Print Assumptions C76_pad_again.

Theorem C76_index_and_pad : forall E d u n t i l, python E -> is_dict d -> In u (map fst d) -> 0 <= n -> Z.of_nat (length l) < 2 ^ 32 ->
  index_of d u t i ->
  interchangeable E [Pad n t; Token2Index d u] [Token2Index d u; Pad n i] (SLst l).
Proof. exact index_pad. Qed.
Print Assumptions C76_index_and_pad.

Theorem C76_index_and_sos_eos : forall E d u sos eos i j l, python E -> is_dict d -> In u (map fst d) ->
  l <> [] -> Z.of_nat (length l) < 2 ^ 32 -> index_of d u sos i -> index_of d u eos j ->
  interchangeable E [AddSosEos sos eos; Token2Index d u] [Token2Index d u; AddSosEos i j] (SLst l).
Proof. exact index_soseos. Qed.
Print Assumptions C76_index_and_sos_eos.

Theorem C76_absent_words : forall E ws sh o s, python E -> make_custom (Some ws) sh = Ok o ->
  (forall w a b, In w ws -> s = a ++ w ++ b -> (length w <= 1)%nat) ->
  interchangeable E [o] [CharTokenizer] (SStr s).
Proof. exact custom_is_char. Qed.
Print Assumptions C76_absent_words.

Theorem C76_words_of_one_character : forall E ws sh o s, python E -> make_wordn (Some ws) sh = Ok o ->
  (forall w a b, In w ws -> s = a ++ w ++ b -> exists c, w = [c] /\ cjk c = true) ->
  same_forward E [o] [AddWhitespaceAroundCJK] (SStr s).
Proof. exact wordn_is_cjk. Qed.
Print Assumptions C76_words_of_one_character.

Theorem C76_words_back_refuted : exists E o s, python E /\ make_wordn (Some [[20013]]) false = Ok o /\
  same_forward E [o] [AddWhitespaceAroundCJK] (SStr s) /\ ~ interchangeable E [o] [AddWhitespaceAroundCJK] (SStr s).
Proof. exact wordn_back_refuted. Qed.
Print Assumptions C76_words_back_refuted.

Theorem C76_spacer_and_merge_refuted : exists E s, python E /\
  ~ interchangeable E [AddWhitespaceAroundCJK; MergeWhiteSpaceCharacters] [MergeWhiteSpaceCharacters; AddWhitespaceAroundCJK] (SStr s).
Proof. exact spacer_merge_refuted. Qed.
Print Assumptions C76_spacer_and_merge_refuted.

Theorem C76_whole_numbers_refuted : exists E s, python E /\ ascii_digits E /\
  ~ interchangeable E [IntTokenWithSpace; NumTokenWithSpace] [NumTokenWithSpace; IntTokenWithSpace] (SStr s).
Proof. exact numbers_order_refuted. Qed.
Print Assumptions C76_whole_numbers_refuted.

Theorem C76_spacer_twice_refuted : exists E s, python E /\
  ~ interchangeable E [AddWhitespaceAroundCJK; AddWhitespaceAroundCJK] [AddWhitespaceAroundCJK] (SStr s).
Proof. exact spacer_twice_refuted. Qed.
Print Assumptions C76_spacer_twice_refuted.

Theorem C76_pad_again_refuted : exists E l t, python E /\ ~ interchangeable E [Pad 1 t; Pad 2 t] [Pad 2 t] (SLst l).
Proof. exact pad_pad_refuted. Qed.
Print Assumptions C76_pad_again_refuted.
