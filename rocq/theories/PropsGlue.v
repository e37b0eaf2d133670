(** Property theorems C97 (working piece by piece).
    The concrete cases that meet the hypotheses are in [GlueWitness.v] and
    [GlueReWitness.v]. *)

From Verif Require Import Py Edit SpecEdit SpecRuns SpecElements SpecBert Ops Elements Json Pipe PyRe SpecRe ReProofs SpecOps BertRef SpecTrip SpecGlue GlueProofs GluePipe GlueReplace GlueWitness GlueReWitness.
From Coq Require Import List.
Import ListNotations.

(** C97: piece by piece *)
Theorem C97_operators : forall E o x1 x2, python E -> seam E o x1 x2 -> glued E o x1 x2.
Proof. exact seam_glued. Qed.
Print Assumptions C97_operators.

Theorem C97_pipes : forall E ops, forall x1 x2, python E -> seams E ops x1 x2 -> glued_steps E ops x1 x2.
Proof. exact seams_glued. Qed.
Print Assumptions C97_pipes.

Theorem C97_merge_exactly : forall E s t, python E -> (same_output E MergeWhiteSpaceCharacters s t <-> ~ meet (is_space E) s t).
Proof. exact merge_exactly. Qed.
Print Assumptions C97_merge_exactly.

Theorem C97_strip_exactly : forall E s t, python E -> (same_output E StripWhiteSpaceCharacters s t <->
  Forall (fun c => is_space E c = true) s \/ Forall (fun c => is_space E c = true) t \/
  meet (fun c => negb (is_space E c)) s t).
Proof. exact strip_exactly. Qed.
Print Assumptions C97_strip_exactly.

Theorem C97_tokens_exactly : forall E o k s t, python E ->
  In (o, k) [(WhiteSpaceTokenizer, by_space E); (EngTokenizer, by_punct E); (ZhCharTokenizer, by_punct_cjk E)] ->
  (same_output E o s t <-> ~ meet (wordy k) s t).
Proof. exact tokens_exactly. Qed.
Print Assumptions C97_tokens_exactly.

Theorem C97_bert_basic : forall E f s t p, python E -> letters E -> accents_fit E f (s ++ t) -> basic_pipe E = Ok p ->
  ~ meet (wordy (by_punct_cjk E)) s t -> glued_pipe E p (SStr s) (SStr t).
Proof. exact basic_glued. Qed.
Print Assumptions C97_bert_basic.

Theorem C97_bert_full : forall E f s t p, python E -> letters E -> accents_fit E f (s ++ t) -> full_pipe E = Ok p ->
  ~ meet (wordy (by_punct_cjk E)) s t -> glued_pipe E p (SStr s) (SStr t).
Proof. exact full_glued. Qed.
Print Assumptions C97_bert_full.

Theorem C97_bert_word_piece : forall E s t p, python E -> word_piece_pipe E = Ok p -> ~ meet (wordy (by_space E)) s t ->
  glued_pipe E p (SStr s) (SStr t).
Proof. exact word_piece_glued. Qed.
Print Assumptions C97_bert_word_piece.

Theorem C97_replace : forall E w p r b s t, python E -> python_re E w p -> parse p = Read r -> inward r -> b <> [] ->
  (forall i e, i < length s -> length s < e -> ~ xmatch (classes_of E w) (s ++ t) r i e) ->
  ~ xmatch (classes_of E w) (s ++ t) r (length s) (length s) ->
  seam E (ReplaceAwithB p b) (SStr s) (SStr t) /\ glued E (ReplaceAwithB p b) (SStr s) (SStr t).
Proof. exact replace_parts. Qed.
Print Assumptions C97_replace.

Theorem C97_replace_words : forall E w ws p b s t, python E -> python_re E w p ->
  (words_pattern ws p /\ ws <> [] /\ Forall plain ws) \/ (exists x, ws = [x] /\ text_pattern x p) ->
  ~ In [] ws -> b <> [] -> ~ straddled ws s t ->
  seam E (ReplaceAwithB p b) (SStr s) (SStr t) /\ glued E (ReplaceAwithB p b) (SStr s) (SStr t).
Proof. exact replace_words_parts. Qed.
Print Assumptions C97_replace_words.

Theorem C97_replace_anchored_refuted : exists E w p r b s t, python E /\ python_re E w p /\ parse p = Read r /\ b <> [] /\
  (forall i e, i < length s -> length s < e -> ~ xmatch (classes_of E w) (s ++ t) r i e)%nat /\
  ~ xmatch (classes_of E w) (s ++ t) r (length s) (length s) /\ ~ glued E (ReplaceAwithB p b) (SStr s) (SStr t).
Proof. exact replace_anchored_refuted. Qed.
Print Assumptions C97_replace_anchored_refuted.

Theorem C97_replace_empty_refuted : exists E w p s t, python E /\ python_re E w p /\ text_pattern [97%Z] p /\
  ~ straddled [[97%Z]] s t /\ ~ glued E (ReplaceAwithB p []) (SStr s) (SStr t).
Proof. exact replace_empty_refuted. Qed.
Print Assumptions C97_replace_empty_refuted.

Theorem C97_line_by_line_refuted : exists E o s t, python E /\ built E o /\ is_space E 10%Z = true /\ ~ glued E o (SStr (s ++ [10%Z])) (SStr t).
Proof. exact line_by_line_refuted. Qed.
Print Assumptions C97_line_by_line_refuted.

Theorem C97_list_parts_refuted : exists E o l m, python E /\ built E o /\ l <> [] /\ m <> [] /\ ~ glued E o (SLst l) (SLst m).
Proof. exact list_parts_refuted. Qed.
Print Assumptions C97_list_parts_refuted.
