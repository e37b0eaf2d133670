(** Property theorems C106 (labels keep their order).
    The concrete cases that meet the hypotheses are in [ReadingWitness.v]. *)

From Coq Require Import ZArith.
From Verif Require Import Py Edit Labels SpecEdit SpecLabels Ops SpecOps Elements SpecElements Pipe SpecPipe
  SpecScan UserPipe SpecUserPipe UserOps SpecUserOps SpecReading ReadingPipe ReadingUser ReadingWitness.
From Coq Require Import List.
Import ListNotations.
Local Open Scope nat_scope.

(** C106: labels keep their order *)
Theorem C106_operators : forall E o x y a, python E -> built E o -> transform_op E o x = Ok (y, a) ->
  (forall l l', align a l = Ok l' -> in_order l l') /\
  (forall l l', align_inverse E a l = Ok l' -> in_order l l').
Proof. exact operator_order. Qed.
Print Assumptions C106_operators.

Theorem C106_pipes : forall E p x y als coll, python E -> regexes E -> reachable E p -> transform_sequence E p x = Ok (y, als, coll) ->
  (forall l l', align_all als l = Ok l' -> in_order l l') /\
  (forall l l', align_inverse_all E als l = Ok l' -> in_order l l').
Proof. exact pipe_orderly. Qed.
Print Assumptions C106_pipes.

Theorem C106_propagate : forall (A : Type) (f : transducer) labels (g : list (repl A)) out, (forall ls k new, f ls k = Ok new -> in_order ls new) -> sized f ->
  group_in 0 (length labels) g -> propagate labels g f = Ok out -> in_order labels out.
Proof. exact propagate_orderly. Qed.
Print Assumptions C106_propagate.

Theorem C106_before : forall E p x y als coll a b, python E -> regexes E -> reachable E p ->
  transform_sequence E p x = Ok (y, als, coll) -> a <> 0%Z -> b <> 0%Z ->
  (forall l l', align_all als l = Ok l' -> all_before a b l -> all_before a b l') /\
  (forall l l', align_inverse_all E als l = Ok l' -> all_before a b l -> all_before a b l').
Proof. exact pipe_before. Qed.
Print Assumptions C106_before.

Theorem C106_names : forall E p x y als coll, python E -> regexes E -> reachable E p -> transform_sequence E p x = Ok (y, als, coll) ->
  (forall l l', align_all als l = Ok l' -> left_out (reading l) (reading l')) /\
  (forall l l', align_inverse_all E als l = Ok l' -> left_out (reading l) (reading l')).
Proof. exact pipe_names. Qed.
Print Assumptions C106_names.

Theorem C106_datum : forall E p d y ints ls als coll, python E -> regexes E -> reachable E p ->
  is_datum d -> Forall (inside (d_utterance d)) (d_entities d) ->
  transform E p d = Ok (y, ints, ls, als, coll) -> left_out (names d) (reading ls).
Proof. exact datum_order. Qed.
Print Assumptions C106_datum.

Theorem C106_back : forall E p x y als coll l l' u ints d, python E -> regexes E -> reachable E p ->
  transform_sequence E p x = Ok (y, als, coll) -> align_inverse_all E als l = Ok l' ->
  length u = length l' -> u <> [] -> Forall i32 ints -> (forall s t z, SpecElements.run l' s t z -> i32 t /\ i32 z) ->
  pack_to_datum u ints l' = Ok d -> left_out (reading l) (names d).
Proof. exact back_order. Qed.
Print Assumptions C106_back.

Theorem C106_user_recognizers : forall E find token fwd bwd s y a, ord_ok (ord_c E) -> in_bounds find ->
  (forall ls k new, fwd ls k = Ok new -> in_order ls new) -> sized fwd ->
  (forall ls k new, bwd ls k = Ok new -> in_order ls new) -> sized bwd ->
  gives (recognizer E find token fwd bwd) s y a -> keeps_order a.
Proof. exact user_recognizer_order. Qed.
Print Assumptions C106_user_recognizers.

Theorem C106_user_spacers : forall E test s y a, ord_ok (ord_c E) -> gives (spacer E test) s y a -> keeps_order a.
Proof. exact user_spacer_order. Qed.
Print Assumptions C106_user_spacers.

Theorem C106_user_tokenizers : forall E tokenize fwd bwd k s ts ps y a, ord_ok (ord_c E) -> tokenize s = Ok ts -> found ts s ps ->
  drops fwd bwd k ps -> (forall ls n new, bwd ls n = Ok new -> in_order ls new) ->
  gives (tokenizer E tokenize fwd bwd) s y a -> keeps_order a.
Proof. exact user_tokenizer_order. Qed.
Print Assumptions C106_user_tokenizers.

Theorem C106_user_pipes : forall (V T : Type) (isinst : V -> T -> bool) (ops : list (uop V T)) x y als coll, (forall o u v a, In o ops -> u_run o u = Ok (v, a) -> keeps_order a) -> urun isinst ops x = Ok (y, als, coll) ->
  (forall l l', ualign_all als l = Ok l' -> in_order l l') /\
  (forall l l', ualign_inverse_all als l = Ok l' -> in_order l l').
Proof. exact user_pipe_order. Qed.
Print Assumptions C106_user_pipes.

Theorem C106_all_names_refuted : exists E o x y a l l', python E /\ built E o /\ transform_op E o x = Ok (y, a) /\
  align a l = Ok l' /\ reading l = [1; 2]%Z /\ reading l' = [1]%Z.
Proof. exact all_names_refuted. Qed.
Print Assumptions C106_all_names_refuted.

Theorem C106_one_piece_refuted : exists E o x y a l l', python E /\ built E o /\ transform_op E o x = Ok (y, a) /\
  align a l = Ok l' /\ l = [1; 1; 1]%Z /\ l' = [1; 0; 1]%Z.
Proof. exact one_piece_refuted. Qed.
Print Assumptions C106_one_piece_refuted.

Theorem C106_apart_refuted : exists E o x y a l l', python E /\ built E o /\ transform_op E o x = Ok (y, a) /\
  align a l = Ok l' /\ reading l = [1; 2; 3]%Z /\ reading l' = [1; 3]%Z.
Proof. exact apart_refuted. Qed.
Print Assumptions C106_apart_refuted.

Theorem C106_zero_before_refuted : exists E o x y a l l', python E /\ built E o /\ transform_op E o x = Ok (y, a) /\
  align a l = Ok l' /\ all_before 1 0 l /\ ~ all_before 1 0 l'.
Proof. exact zero_before_refuted. Qed.
Print Assumptions C106_zero_before_refuted.

Theorem C106_outside_refuted : exists E p d y ints ls als coll, python E /\ regexes E /\ reachable E p /\ is_datum d /\
  transform E p d = Ok (y, ints, ls, als, coll) /\ names d = [1; 2]%Z /\ reading ls = [2; 1]%Z.
Proof. exact outside_refuted. Qed.
Print Assumptions C106_outside_refuted.

Theorem C106_user_refuted : exists E find token fwd bwd s y a l l', ord_ok (ord_c E) /\ in_bounds find /\ sized fwd /\ sized bwd /\
  gives (recognizer E find token fwd bwd) s y a /\ ualign a l = Ok l' /\ reading l = [1; 2]%Z /\ reading l' = [2; 1]%Z.
Proof. exact user_refuted. Qed.
Print Assumptions C106_user_refuted.
