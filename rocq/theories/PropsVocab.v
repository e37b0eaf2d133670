(** Property theorems C105 (only the words that occur matter).
    The concrete cases that meet the hypotheses are in [VocabWitness.v]. *)

From Coq Require Import String ZArith.
From Verif Require Import Py Edit SpecEdit Trie SpecWords Ops SpecOps Pipe SpecVocab VocabProofs VocabWitness.
From Coq Require Import List Permutation.
Import ListNotations.
Local Open Scope nat_scope.

(** C105: only the words that occur matter *)
Theorem C105_words : forall E make ws ws' sh o o' s, In make [make_custom; make_wordn] ->
  make (Some ws) sh = Ok o -> make (Some ws') sh = Ok o' -> agree_on s ws ws' ->
  same_transform E o o' (SStr s).
Proof. exact words_that_occur. Qed.
Print Assumptions C105_words.

Theorem C105_foreign_words : forall E make ws more sh o s, In make [make_custom; make_wordn] ->
  make (Some ws) sh = Ok o -> (forall w, In w more -> ~ occurs_in w s) ->
  match make (Some (ws ++ more)) sh with
  | Ok o' => same_transform E o o' (SStr s)
  | Err e => e = AttributeErr /\ ~ fresh_words (ws ++ more)
  end.
Proof. exact foreign_words. Qed.
Print Assumptions C105_foreign_words.

Theorem C105_order : forall E make ws ws' sh, In make [make_custom; make_wordn] -> Permutation ws ws' ->
  match make (Some ws) sh, make (Some ws') sh with
  | Ok o, Ok o' => forall s, same_transform E o o' (SStr s)
  | Err e, Err e' => e = e'
  | _, _ => False
  end.
Proof. exact words_in_any_order. Qed.
Print Assumptions C105_order.

Theorem C105_longer_first : forall E ws ws' o o' s w w' rest rest' a a', incl ws ws' ->
  make_custom (Some ws) false = Ok o -> make_custom (Some ws') false = Ok o' ->
  transform_op E o (SStr s) = Ok (SLst (ETok w :: rest), a) ->
  transform_op E o' (SStr s) = Ok (SLst (ETok w' :: rest'), a') -> length w <= length w'.
Proof. exact more_words_longer. Qed.
Print Assumptions C105_longer_first.

Theorem C105_pieces : forall E v v' unk m l, (forall t, In (ETok t) l -> agree_pieces t v v') ->
  same_transform E (SpanSubwords v unk m) (SpanSubwords v' unk m) (SLst l).
Proof. exact pieces_that_occur. Qed.
Print Assumptions C105_pieces.

Theorem C105_whole_tokens : forall E v unk m ts y a, ord_ok (ord_e E) ->
  (forall t, In t ts -> In t v /\ t <> [] /\ (Z.of_nat (length t) <= m)%Z) ->
  transform_op E (SpanSubwords v unk m) (SLst (map ETok ts)) = Ok (y, a) -> y = SLst (map ETok ts).
Proof. exact whole_tokens_stay. Qed.
Print Assumptions C105_whole_tokens.

Theorem C105_entries : forall E d d' unk l, NoDup (map fst d) -> NoDup (map fst d') ->
  (forall t, In (ETok t) l -> same_entry d d' t) -> same_entry d d' unk ->
  same_transform E (Token2Index d unk) (Token2Index d' unk) (SLst l).
Proof. exact entries_that_occur. Qed.
Print Assumptions C105_entries.

Theorem C105_hashed : forall E d d' l, NoDup (map fst d) -> NoDup (map fst d') ->
  (forall t, In (ETok t) l -> same_entry d d' t) ->
  length d = length d' \/ (forall t, In (ETok t) l -> In t (map fst d)) ->
  same_transform E (Token2IndexwithHash d) (Token2IndexwithHash d') (SLst l).
Proof. exact entries_that_occur_hash. Qed.
Print Assumptions C105_hashed.

Theorem C105_known_tokens : forall E d d' unk l, NoDup (map fst d) -> NoDup (map fst d') -> incl d d' ->
  In unk (map fst d) -> (forall t, In (ETok t) l -> In t (map fst d') -> In t (map fst d)) ->
  same_transform E (Token2Index d unk) (Token2Index d' unk) (SLst l).
Proof. exact known_tokens_keep. Qed.
Print Assumptions C105_known_tokens.

Theorem C105_pipe : forall E p p' x y als c, transform_sequence E p x = Ok (y, als, c) ->
  length (steps p) = length (steps p') ->
  (forall k o o' z, nth_error (steps p) k = Some o -> nth_error (steps p') k = Some o' -> nth_error c k = Some z ->
     same_transform E (o_op o) (o_op o') z) ->
  transform_sequence E p' x = Ok (y, als, c).
Proof. exact pipes_alike. Qed.
Print Assumptions C105_pipe.

Theorem C105_fewer_tokens_refuted : exists E ws w o o' s l l' a a', ord_ok (ord_c E) /\
  make_custom (Some ws) false = Ok o /\ make_custom (Some (ws ++ [w])) false = Ok o' /\
  transform_op E o (SStr s) = Ok (SLst l, a) /\ transform_op E o' (SStr s) = Ok (SLst l', a') /\
  length l < length l'.
Proof. exact fewer_tokens_refuted. Qed.
Print Assumptions C105_fewer_tokens_refuted.

Theorem C105_shortest_refuted : exists E ws w o o' s v v' l l' a a', ord_ok (ord_c E) /\
  make_custom (Some ws) true = Ok o /\ make_custom (Some (ws ++ [w])) true = Ok o' /\
  transform_op E o (SStr s) = Ok (SLst (ETok v :: l), a) /\
  transform_op E o' (SStr s) = Ok (SLst (ETok v' :: l'), a') /\ length v' < length v.
Proof. exact shortest_refuted. Qed.
Print Assumptions C105_shortest_refuted.

Theorem C105_still_spelled_refuted : exists E v w t unk m a a' l, ord_ok (ord_e E) /\ ~ In unk l /\
  transform_op E (SpanSubwords v unk m) (SLst [ETok t]) = Ok (SLst l, a) /\
  transform_op E (SpanSubwords (v ++ [w]) unk m) (SLst [ETok t]) = Ok (SLst [unk], a').
Proof. exact still_spelled_refuted. Qed.
Print Assumptions C105_still_spelled_refuted.

Theorem C105_hash_kept_refuted : exists E d e t i i' a a', ord_ok (ord_e E) /\ NoDup (map fst (d ++ [e])) /\ fst e <> t /\
  make_hash d = Ok (Token2IndexwithHash d) /\ make_hash (d ++ [e]) = Ok (Token2IndexwithHash (d ++ [e])) /\
  transform_op E (Token2IndexwithHash d) (SLst [ETok t]) = Ok (SLst [EIdx i], a) /\
  transform_op E (Token2IndexwithHash (d ++ [e])) (SLst [ETok t]) = Ok (SLst [EIdx i'], a') /\ i <> i'.
Proof. exact hash_kept_refuted. Qed.
Print Assumptions C105_hash_kept_refuted.
