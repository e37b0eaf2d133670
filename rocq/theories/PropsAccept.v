(** Property theorems C89 (which inputs are accepted), C90 (inputs of a fixed size)
    and C91 (how long results can be).
    The concrete cases that meet the hypotheses are in [AcceptWitness.v] and [SizeWitness.v]. *)

From Coq Require Import String.
From Verif Require Import Py Edit Labels Regex Trie Murmur Ops SpecEdit SpecLabels SpecScan SpecOps SpecHash Json Elements Pipe
  SpecPipe SpecAccept AcceptProofs AcceptPipe FixedSize AcceptWitness SpecSize SizeProofs SizePipe SizeWitness.
From Coq Require Import List.
Local Open Scope Z_scope.

(** C89: which inputs are accepted *)
Theorem C89_operator_errors : forall E o x e, python E -> built E o -> (transform_op E o x = Err e <-> raises E o x e).
Proof. exact errors. Qed.
Print Assumptions C89_operator_errors.

Theorem C89_operator_succeeds : forall E o x, python E -> built E o ->
  ((exists y a, transform_op E o x = Ok (y, a)) <-> forall e, ~ raises E o x e).
Proof. exact succeeds. Qed.
Print Assumptions C89_operator_succeeds.

Theorem C89_pipe_errors : forall E p x e, python E -> regexes E -> reachable E p ->
  (transform_sequence E p x = Err e <->
   exists k o u, nth_error (steps p) k = Some o /\ reaches E p k x u /\ raises E (o_op o) u e).
Proof. exact pipe_errors. Qed.
Print Assumptions C89_pipe_errors.

Theorem C89_datum_errors : forall E p d e, python E -> regexes E -> reachable E p ->
  (transform E p d = Err e <->
   (e = IndexErr /\ ~ Forall (writable (d_utterance d)) (d_entities d)) \/
   (Forall (writable (d_utterance d)) (d_entities d) /\
    exists k o u, nth_error (steps p) k = Some o /\ reaches E p k (SStr (d_utterance d)) u /\ raises E (o_op o) u e)).
Proof. exact datum_errors. Qed.
Print Assumptions C89_datum_errors.

Theorem C89_total_pipes : forall E p f g x, python E -> all_handle E f (map o_op (steps p)) g -> has_form f x ->
  (exists y als coll, transform_sequence E p x = Ok (y, als, coll) /\ has_form g y) \/
  (transform_sequence E p x = Err OverflowErr /\ too_long E p x).
Proof. exact handled. Qed.
Print Assumptions C89_total_pipes.

Theorem C89_total_pipes_datum : forall E p g d, python E -> all_handle E Chars (map o_op (steps p)) g ->
  Forall (writable (d_utterance d)) (d_entities d) ->
  (exists y l als coll, transform E p d = Ok (y, d_intents d, l, als, coll) /\ has_form g y /\
     length l = pseq_length y) \/
  (transform E p d = Err OverflowErr /\ too_long E p (SStr (d_utterance d))).
Proof. exact handled_datum. Qed.
Print Assumptions C89_total_pipes_datum.

(** C90: inputs of a fixed size *)
Theorem C90_fixed_size : forall E p dt ops m t d unk o y is l als coll, python E -> regexes E -> reachable E p ->
  map o_op (steps p) = ops ++ [Pad m t; o] -> make_token2index d unk = Ok o ->
  transform E p dt = Ok (y, is, l, als, coll) ->
  exists toks out, reaches E p (length ops) (SStr (d_utterance dt)) (SLst toks) /\
    y = SLst out /\ sized_input d unk t (Z.to_nat m) toks out l.
Proof. exact fixed_size. Qed.
Print Assumptions C90_fixed_size.

Theorem C90_always_fixed_size : forall E p dt ops f m t d unk o, python E -> regexes E -> reachable E p ->
  map o_op (steps p) = ops ++ [Pad m t; o] -> (0 <= m)%Z -> make_token2index d unk = Ok o ->
  all_handle E Chars ops f -> f <> Chars -> Forall (writable (d_utterance dt)) (d_entities dt) ->
  (exists toks out l als coll, transform E p dt = Ok (SLst out, d_intents dt, l, als, coll) /\
     reaches E p (length ops) (SStr (d_utterance dt)) (SLst toks) /\ sized_input d unk t (Z.to_nat m) toks out l) \/
  (transform E p dt = Err OverflowErr /\ too_long E p (SStr (d_utterance dt))).
Proof. exact always_fixed_size. Qed.
Print Assumptions C90_always_fixed_size.

Theorem C90_readme : forall E p dt, python E -> regexes E -> add_calls E imported pipe_new readme_calls = (p, None) ->
  Forall (writable (d_utterance dt)) (d_entities dt) ->
  (exists out l als coll, transform E p dt = Ok (SLst (map EIdx out), d_intents dt, l, als, coll) /\
     length out = 5%nat /\ length l = 5%nat /\ Forall (fun i => 0 <= i <= 7) out) \/
  (transform E p dt = Err OverflowErr /\ too_long E p (SStr (d_utterance dt))).
Proof. exact readme_shape. Qed.
Print Assumptions C90_readme.

Theorem C90_readme_output_refuted : exists E p dt als coll, python E /\ regexes E /\
  add_calls E imported pipe_new readme_calls = (p, None) /\ readme_datum = Ok dt /\
  transform E p dt = Ok (SLst (map EIdx [0; 6; 2; 7; 2]), [1; 2], [0; 0; 0; 7; 0], als, coll) /\
  get_from_checkpoint (checkpoints p) coll (lit "result_of_add_sos_eos")
    = Ok (SLst [tk "<sos>"; tk "I"; tk "like"; tk "apples"; tk "."; tk "<eos>"]) /\
  align_all als [0; 0; 0; 0; 0; 0; 0; 7; 7; 7; 7; 7; 7; 0] = Ok [0; 0; 0; 7; 0] /\
  align_inverse_all E als [0; 0; 0; 7; 0] = Ok [0; 0; 0; 0; 0; 0; 0; 7; 7; 7; 7; 7; 7; 0] /\
  align_inverse_all E als [0; 0; 0; 7; 0; 0; 0] = Err ValueErr.
Proof. exact readme_refuted. Qed.
Print Assumptions C90_readme_output_refuted.

(** C91: how long results can be *)
Theorem C91_operator : forall E o x y a, python E -> built E o -> transform_op E o x = Ok (y, a) ->
  size y <= growth o * size x + extra o.
Proof. exact operator_size. Qed.
Print Assumptions C91_operator.

Theorem C91_pipe : forall E p x y als coll, python E -> regexes E -> reachable E p -> transform_sequence E p x = Ok (y, als, coll) ->
  size y <= bound (map o_op (steps p)) (size x) /\ (forall z, In z coll -> size z <= bound (map o_op (steps p)) (size x)) /\
  Z.of_nat (pseq_length y) <= size y.
Proof. exact pipe_size. Qed.
Print Assumptions C91_pipe.

Theorem C91_total : forall E p f g x, python E -> all_handle E f (map o_op (steps p)) g -> has_form f x ->
  bound (map o_op (steps p)) (size x) < 2 ^ 32 ->
  exists y als coll, transform_sequence E p x = Ok (y, als, coll) /\ has_form g y.
Proof. exact total_pipes. Qed.
Print Assumptions C91_total.

Theorem C91_total_datum : forall E p g d, python E -> all_handle E Chars (map o_op (steps p)) g ->
  Forall (writable (d_utterance d)) (d_entities d) ->
  bound (map o_op (steps p)) (Z.of_nat (length (d_utterance d))) < 2 ^ 32 ->
  exists y l als coll, transform E p d = Ok (y, d_intents d, l, als, coll) /\ has_form g y /\ length l = pseq_length y.
Proof. exact total_datum. Qed.
Print Assumptions C91_total_datum.

Theorem C91_readme : forall E p dt, python E -> regexes E -> add_calls E imported pipe_new readme_calls = (p, None) ->
  Forall (writable (d_utterance dt)) (d_entities dt) -> Z.of_nat (length (d_utterance dt)) < 2 ^ 27 ->
  exists out l als coll, transform E p dt = Ok (SLst (map EIdx out), d_intents dt, l, als, coll) /\
     length out = 5%nat /\ length l = 5%nat /\ Forall (fun i => 0 <= i <= 7) out.
Proof. exact readme_total. Qed.
Print Assumptions C91_readme.
