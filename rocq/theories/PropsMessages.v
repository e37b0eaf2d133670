(** Property theorems C86 and C87 (the text of a Datum, the messages of exceptions).
    The concrete cases that meet the hypotheses are in [MessageWitness.v]. *)

From Coq Require Import String Permutation.
From Verif Require Import Py Edit Ops Json Elements Pipe GroupObj Factory TextForms SpecText SpecElements SpecPipe SpecOps SpecOrdinal
  DatumText SpecDatumText DatumTextProofs Messages SpecMessages MessageProofs MessageWitness.
From Coq Require Import List.
Local Open Scope Z_scope.

(** C86: the text of a Datum *)
Theorem C86_layout : forall d, exists ints ents,
  datum_repr d = lit "<Datum " ++ d_utterance d ++ [10] ++ lit " with intents: " ++ ints ++ [10] ++ lit " with entities:" ++ [10] ++
                 ents ++ lit ">" /\
  lists_items (map intent_repr (d_intents d)) ints /\ lists_items (map entity_repr (d_entities d)) ents.
Proof. exact datum_layout. Qed.
Print Assumptions C86_layout.

Theorem C86_injective : forall d d', plain_datum d -> plain_datum d' -> datum_repr d = datum_repr d' -> d = d'.
Proof. exact datum_text_injective. Qed.
Print Assumptions C86_injective.

Theorem C86_intents : forall d d', d_utterance d = d_utterance d' -> datum_repr d = datum_repr d' -> d_intents d = d_intents d'.
Proof. exact datum_text_intents. Qed.
Print Assumptions C86_intents.

Theorem C86_few_intents : forall d, Forall (fun l => 0 <= l <= 9) (d_intents d) ->
  exists before after, datum_repr d = before ++
    (if (length (d_intents d) <=? 6)%nat then on_one_line (map intent_repr (d_intents d)) else line_by_line (map intent_repr (d_intents d))) ++ after /\
    before = lit "<Datum " ++ d_utterance d ++ [10] ++ lit " with intents: ".
Proof. exact few_intents. Qed.
Print Assumptions C86_few_intents.

Theorem C86_replacements_refuted : exists d d', is_datum d /\ is_datum d' /\ d_utterance d = d_utterance d' /\ datum_repr d = datum_repr d' /\
  datum_eqb d d' = false.
Proof. exact replacements_not_shown. Qed.
Print Assumptions C86_replacements_refuted.

Theorem C86_utterance_refuted : exists d d', is_datum d /\ is_datum d' /\ datum_repr d = datum_repr d' /\ d_utterance d <> d_utterance d'.
Proof. exact utterance_not_shown. Qed.
Print Assumptions C86_utterance_refuted.

Theorem C86_equal_refuted : exists d d', is_datum d /\ is_datum d' /\ datum_eqb d d' = true /\ datum_repr d <> datum_repr d'.
Proof. exact equal_shown_apart. Qed.
Print Assumptions C86_equal_refuted.

(** C87: the messages of exceptions *)
Theorem C87_datum : forall u ints ents, exists m, stably_sorted e_start ents m /\
  tells (datum_message u (Some ents)) (make_datum u (Some ints) (Some ents)) /\
  (forall i e, first_at (fun e => e_value e <> text_at u (e_start e) (e_end e)) m i e ->
     datum_message u (Some ents) = Some (Says EntityPositionErr (filled (place_parts u e) place_text))) /\
  ((forall e, In e ents -> e_value e = text_at u (e_start e) (e_end e)) ->
   forall i a b, first_two (fun a b => e_start b < e_end a) m i a b ->
     datum_message u (Some ents) = Some (Says EntityOverlapErr (filled (overlap_parts u a b) overlap_text))).
Proof. exact datum_messages. Qed.
Print Assumptions C87_datum.

Theorem C87_positions : forall u e u' e', msg_entity_wrong_position u e = msg_entity_wrong_position u' e' ->
  e_start e = e_start e' /\ e_end e = e_end e'.
Proof. exact position_readable. Qed.
Print Assumptions C87_positions.

Theorem C87_replacements : forall {A} {EA : Eqb A} (ord : list (item A) -> list (item A)) skip (g : rgroup A), option_map class_of (rg_message ord skip g) = snd (rg_finish ord skip g) /\
  (forall x i y, nth_error (rg_items (fst (rg_finish ord skip g))) 0 = Some x -> snd (rg_finish ord skip g) = Some TypeErr ->
     first_at (fun y => fst y <> fst x) (rg_items (fst (rg_finish ord skip g))) i y ->
     rg_message ord skip g = Some (Says TypeErr (lit "the new_value of " ++ dump_nat i ++ lit "-th element is not a(an) " ++
                                                 (if fst x then lit "str" else lit "list")))) /\
  (snd (rg_finish ord skip g) = Some ValueErr -> rg_message ord skip g = Some (Says ValueErr (lit "overlapped"))).
Proof. exact @group_messages. Qed.
Print Assumptions C87_replacements.

Theorem C87_place_added_refuted : exists ord g, (forall l, Permutation (ord l) l) /\ nth_error (rg_items g) 1 = Some (true, mkR 1 2 [98]) /\
  (exists y, first_at (fun y : item Z => fst y <> true) (rg_items g) 2 y) /\
  rg_message ord false g = Some (Says TypeErr (lit "the new_value of 1-th element is not a(an) list")).
Proof. exact place_added_refuted. Qed.
Print Assumptions C87_place_added_refuted.

Theorem C87_spans : forall g, let m := sg_items (fst (sg_finish g)) in
  let overlaps := exists i a b, nth_error m i = Some a /\ nth_error m (S i) = Some b /\ (fst b < snd a)%nat in
  let gaps := exists i a b, nth_error m i = Some a /\ nth_error m (S i) = Some b /\ snd a <> fst b in
  let late := exists a, nth_error m 0 = Some a /\ fst a <> O in
  option_map class_of (sg_message g) = snd (sg_finish g) /\
  (sg_message g = Some (Says ValueErr (lit "overlapped")) <-> overlaps) /\
  (sg_message g = Some (Says ValueErr (lit "Spans should start from 0")) <-> ~ overlaps /\ late) /\
  (sg_message g = Some (Says ValueErr (lit "Spans should be contiguous.")) <-> ~ overlaps /\ ~ late /\ gaps).
Proof. exact span_messages. Qed.
Print Assumptions C87_spans.

Theorem C87_tokens : forall {A} (l : list (list A)) (g : list span), tells (lst2str_message l g) (lst2str_apply l g) /\
  (length l <> length g -> lst2str_message l g = Some (Says ValueErr (lit "Input list and span group have different length."))) /\
  (length l = length g -> forall i x,
     first_at (fun x : list A * span => length (fst x) <> (snd (snd x) - fst (snd x))%nat) (combine l g) i x ->
     lst2str_message l g = Some (Says ValueErr (dump_nat i ++ lit "-th element is not compatible."))).
Proof. exact @tokens_messages. Qed.
Print Assumptions C87_tokens.

Theorem C87_add_op : forall p o ck, option_map class_of (add_op_message p o ck) = snd (add_op p o ck) /\
  (forall s, last_opt (steps p) = Some s -> in_type o = TStr -> out_type s = TList -> add_op_message p o ck =
     Some (Says TypeErr (lit "InputType of the step op is not valid.Got <class 'str'>, but requires <class 'list'>"))) /\
  (forall s, last_opt (steps p) = Some s -> in_type o = TList -> out_type s = TStr -> add_op_message p o ck =
     Some (Says TypeErr (lit "InputType of the step op is not valid.Got <class 'list'>, but requires <class 'str'>"))) /\
  (forall name, ck = Some name -> snd (add_op p o ck) = Some KeyErr ->
     add_op_message p o ck = Some (Says KeyErr (lit "duplicated checkpoints: " ++ name))).
Proof. exact add_op_messages. Qed.
Print Assumptions C87_add_op.

Theorem C87_iadd : forall P p q, option_map class_of (iadd_message P p q) = snd (iadd p q) /\
  (steps p = [] \/ steps q = [] -> iadd_message P p q = Some (Says IndexErr (lit "Pipe is empty!"))) /\
  (pipe_output_type p = Ok TStr -> pipe_input_type q = Ok TList ->
     iadd_message P p q = Some (Says TypeErr (lit "input/output type of two pipes are not valid. <class 'str'> != <class 'list'>"))) /\
  (pipe_output_type p = Ok TList -> pipe_input_type q = Ok TStr ->
     iadd_message P p q = Some (Says TypeErr (lit "input/output type of two pipes are not valid. <class 'list'> != <class 'str'>"))) /\
  (snd (iadd p q) = Some KeyErr -> iadd_message P p q = Some (Says KeyErr (lit "duplicated checkpoints between: " ++
     repr P (JDict (map (fun kv => (fst kv, JInt (snd kv))) (checkpoints p))) ++ lit ", " ++
     repr P (JDict (map (fun kv => (fst kv, JInt (snd kv))) (checkpoints q)))))).
Proof. exact iadd_messages. Qed.
Print Assumptions C87_iadd.

Theorem C87_checkpoint : forall ck coll name, tells (checkpoint_message ck coll name) (get_from_checkpoint ck coll name) /\
  (~ In name (map fst ck) -> checkpoint_message ck coll name = Some (Says KeyErr (name ++ lit " is not found."))).
Proof. exact checkpoint_messages. Qed.
Print Assumptions C87_checkpoint.

Theorem C87_factory : forall {C} (f : list (str * C)) name c, option_map class_of (register_message f name) = snd (fregister f name c) /\
  tells (lookup_message f name) (fget f name) /\
  (In name (map fst f) -> register_message f name = Some (Says KeyErr (name ++ lit " already exists."))) /\
  (~ In name (map fst f) -> lookup_message f name = Some (Says KeyErr (name ++ lit " is not registered"))).
Proof. exact @factory_messages. Qed.
Print Assumptions C87_factory.

Theorem C87_index : forall what d i, tells (index_message what d i) (index2name d i) /\
  (~ In i (map snd d) -> index_message what d i = Some (Says KeyErr (what ++ lit " index " ++ dump_int i ++ lit " not found"))).
Proof. exact index_messages. Qed.
Print Assumptions C87_index.

Theorem C87_token2index : forall d unk, tells (token2index_message d unk) (make_token2index d unk) /\
  (token2index_message d unk = Some (Says ValueErr (lit "duplicated index")) <-> ~ NoDup (map snd d)) /\
  (token2index_message d unk = Some (Says ValueErr (lit "indices are not continuous.")) <-> d <> [] /\ NoDup (map snd d) /\ ~ continuous d) /\
  (token2index_message d unk = Some (Says KeyErr (lit "token2index should have token " ++ unk)) <->
     d <> [] /\ continuous d /\ ~ In unk (map fst d)) /\
  (token2index_message d unk = Some (Python ValueErr) <-> d = []).
Proof. exact token2index_messages. Qed.
Print Assumptions C87_token2index.

Theorem C87_ordinal : forall i2i e2i ne, tells (ordinal_message i2i e2i ne) (make_ordinal i2i e2i ne) /\
  (ordinal_message i2i e2i ne = Some (Says ValueErr (lit "Intent mapping is not valid.")) <-> ~ indices (map snd i2i)) /\
  (ordinal_message i2i e2i ne = Some (Says ValueErr (lit "Entity mapping is not valid.")) <->
     indices (map snd i2i) /\ ~ indices (map snd (dict_set e2i not_entity ne))).
Proof. exact ordinal_messages. Qed.
Print Assumptions C87_ordinal.
