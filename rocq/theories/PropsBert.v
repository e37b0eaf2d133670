(** Property theorems C62, C63: the pipes of pipeline/bert against the reference tokenizer.
    The concrete cases that meet the hypotheses are in BertWitness.v: [ex_everyday],
    [ex_accents], [ex_ref_full], [ex_ref_wordpiece], [unicode0]. *)

From Coq Require Import String.
From Verif Require Import Py Edit Labels SpecEdit SpecLabels SpecSeg SpecRuns SpecScan Ops SpecOps
  Json SpecJson Elements Pipe SpecPipe BertRef SpecBert BertRefProofs BertWitness.
From Coq Require Import List.
Local Open Scope Z_scope.

(** C62: everyday text *)
Theorem C62_basic_everyday : forall E R s p, python E -> unicode E R -> Forall everyday s ->
  basic_pipe E = Ok p ->
  exists als coll, transform_sequence E p (SStr s) =
    Ok (SLst (map ETok (ref_basic E R true s)), als, coll).
Proof.
  exact (fun E R s p PY U F => basic_agrees E R _ s p PY (proj1 (proj2 U)) (everyday_behaves E R s U F)).
Qed.
Print Assumptions C62_basic_everyday.

Theorem C62_full_everyday : forall E R s q, python E -> unicode E R -> Forall everyday s ->
  full_pipe E = Ok q ->
  exists out als coll, ref_full E R (map txt word_pieces_and_comma) s = Ok out /\
    transform_sequence E q (SStr s) = Ok (SLst (map ETok out), als, coll).
Proof.
  exact (fun E R s q PY U F => full_agrees E R _ s q PY (proj1 (proj2 U)) (everyday_behaves E R s U F)).
Qed.
Print Assumptions C62_full_everyday.

(** C62: any text whose characters do not behave unusually *)
Theorem C62_basic_agrees : forall E R f s p, python E -> letters E -> well_behaved E R f s ->
  basic_pipe E = Ok p ->
  exists als coll, transform_sequence E p (SStr s) =
    Ok (SLst (map ETok (ref_basic E R true s)), als, coll).
Proof. exact basic_agrees. Qed.
Print Assumptions C62_basic_agrees.

Theorem C62_full_agrees : forall E R f s q, python E -> letters E -> well_behaved E R f s ->
  full_pipe E = Ok q ->
  exists out als coll, ref_full E R (map txt word_pieces_and_comma) s = Ok out /\
    transform_sequence E q (SStr s) = Ok (SLst (map ETok out), als, coll).
Proof. exact full_agrees. Qed.
Print Assumptions C62_full_agrees.

(** C62: not every text.  A control character, the replacement character U+FFFD, the separator U+001C, a capital letter with an
    accent, a sign with a stroke, a Hangul syllable. *)
Theorem C62_control_refuted : exists E R p y als coll, python E /\ unicode E R /\ basic_pipe E = Ok p /\
  transform_sequence E p (SStr (txt "a" ++ [1] ++ txt "b")) = Ok (SLst (map ETok y), als, coll) /\
  y <> ref_basic E R true (txt "a" ++ [1] ++ txt "b").
Proof. exact (diff_refuted _ _ _ differ_control ltac:(discriminate)). Qed.
Print Assumptions C62_control_refuted.

Theorem C62_replacement_refuted : exists E R p y als coll, python E /\ unicode E R /\ basic_pipe E = Ok p /\
  transform_sequence E p (SStr (txt "a" ++ [65533] ++ txt "b")) = Ok (SLst (map ETok y), als, coll) /\
  y <> ref_basic E R true (txt "a" ++ [65533] ++ txt "b").
Proof. exact (diff_refuted _ _ _ differ_replacement ltac:(discriminate)). Qed.
Print Assumptions C62_replacement_refuted.

Theorem C62_separator_refuted : exists E R p y als coll, python E /\ unicode E R /\ basic_pipe E = Ok p /\
  transform_sequence E p (SStr (txt "a" ++ [28] ++ txt "b")) = Ok (SLst (map ETok y), als, coll) /\
  y <> ref_basic E R true (txt "a" ++ [28] ++ txt "b").
Proof. exact (diff_refuted _ _ _ differ_separator ltac:(discriminate)). Qed.
Print Assumptions C62_separator_refuted.

Theorem C62_capital_refuted : exists E R p y als coll, python E /\ unicode E R /\ basic_pipe E = Ok p /\
  transform_sequence E p (SStr [201]) = Ok (SLst (map ETok y), als, coll) /\
  y <> ref_basic E R true [201].
Proof. exact (diff_refuted _ _ _ differ_capital ltac:(discriminate)). Qed.
Print Assumptions C62_capital_refuted.

Theorem C62_stroke_refuted : exists E R p y als coll, python E /\ unicode E R /\ basic_pipe E = Ok p /\
  transform_sequence E p (SStr (txt "a" ++ [8800] ++ txt "b")) = Ok (SLst (map ETok y), als, coll) /\
  y <> ref_basic E R true (txt "a" ++ [8800] ++ txt "b").
Proof. exact (diff_refuted _ _ _ differ_stroke ltac:(discriminate)). Qed.
Print Assumptions C62_stroke_refuted.

Theorem C62_hangul_refuted : exists E R p s, python E /\ unicode E R /\ basic_pipe E = Ok p /\
  transform_sequence E p (SStr s) = Err AssertionErr /\ ref_basic E R true s <> [].
Proof. exact differ_hangul. Qed.
Print Assumptions C62_hangul_refuted.

(** C63: word pieces, for every text and vocabulary *)
Theorem C63_words : forall E v unk m s, python E -> exists y a out b,
  transform_op E WhiteSpaceTokenizer (SStr s) = Ok (y, a) /\
  transform_op E (SpanSubwords v (ETok unk) m) y = Ok (SLst (map ETok out), b) /\
  ref_wordpiece E v unk m s = Ok out.
Proof. exact words_agree. Qed.
Print Assumptions C63_words.

Theorem C63_pipe : forall E q s, python E -> word_piece_pipe E = Ok q ->
  exists out als coll, ref_wordpiece E (map txt word_pieces) (txt "[UNK]") 200 s = Ok out /\
    transform_sequence E q (SStr s) = Ok (SLst (map ETok out), als, coll).
Proof. exact word_piece_agrees. Qed.
Print Assumptions C63_pipe.
