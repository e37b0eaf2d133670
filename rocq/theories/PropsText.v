(** Property theorems C72 to C74 (texts that objects show).  The concrete cases that meet the
    hypotheses are in [TextWitness.v], [TextDict.v], [TextCut.v] and [MessageWitness.v]. *)

From Coq Require Import String Sorted Permutation.
From Verif Require Import Py Edit Ops Json SpecJson Elements Pipe SpecPipe TextForms SpecText TextProofs TextWitness JsonAscii SpecElements TextDict TextCut SpecDatumText DatumTextProofs MessageWitness.
From Coq Require Import List.
Local Open Scope Z_scope.

(** C72 *)
Theorem C72_operators : forall P p, operators_shown (summary P p) = map (op_str P) (steps p).
Proof. exact summary_ops. Qed.
Print Assumptions C72_operators.

Theorem C72_checkpoints : forall P p i r, In (i, r) (checkpoints_shown (summary P p)) <->
  exists name, r = repr_str P name /\ last_with (checkpoints p) i name /\ 1 <= i <= Z.of_nat (length (steps p)).
Proof. exact summary_checkpoints. Qed.
Print Assumptions C72_checkpoints.

Theorem C72_one_name_per_step : forall P p, StronglySorted Z.lt (map fst (checkpoints_shown (summary P p))).
Proof. exact summary_once. Qed.
Print Assumptions C72_one_name_per_step.

Theorem C72_all_added_checkpoints : forall P h, let p := after pipe_new h in
  length (checkpoints_shown (summary P p)) = length (checkpoints p) /\
  forall name i, In (name, i) (checkpoints p) -> In (i, repr_str P name) (checkpoints_shown (summary P p)).
Proof. exact (fun P h => conj (summary_after_count P h) (summary_after P h)). Qed.
Print Assumptions C72_all_added_checkpoints.

Theorem C72_all_checkpoints_refuted : exists E P p name i, reachable E p /\ In (name, i) (checkpoints p) /\
  checkpoints_shown (summary P p) = [(1, repr_str P (lit "first"))] /\ name <> lit "first" /\ length (checkpoints p) = 2%nat.
Proof. exact summary_shows_checkpoints_refuted. Qed.
Print Assumptions C72_all_checkpoints_refuted.

Theorem C72_types : forall P p k n, chained (steps p) -> (In (k, n) (types_shown (summary P p)) <->
  (exists o, nth_error (steps p) 0 = Some o /\ k = 0 /\ n = type_word (in_type o)) \/
  (exists j o, nth_error (steps p) j = Some o /\ k = Z.of_nat j + 1 /\ out_type o <> in_type o /\ n = type_word (out_type o))).
Proof. exact summary_types. Qed.
Print Assumptions C72_types.

Theorem C72_totals : forall P p, exists front,
  summary P p = front ++
    match nth_error (steps p) 0, last_opt (steps p) with
    | Some a, Some b => [type_word (in_type a) ++ lit " -> " ++ type_word (out_type b)]
    | _, _ => []
    end ++
    [lit "Total operators: " ++ dump_int (Z.of_nat (length (steps p)));
     lit "Total checkpoints: " ++ dump_int (Z.of_nat (length (checkpoints p))); repeat 95 80].
Proof. exact summary_end. Qed.
Print Assumptions C72_totals.

Theorem C72_lines : forall P E p, reachable E p -> Forall text (map fst (checkpoints p)) -> Forall one_line (summary P p).
Proof. exact summary_lines. Qed.
Print Assumptions C72_lines.

Theorem C72_printed : forall l m, Forall one_line l -> Forall one_line m -> printed l = printed m -> l = m.
Proof. exact printed_lines. Qed.
Print Assumptions C72_printed.

(** C73 *)
Theorem C73_distinguishes : forall E P a b, made E a -> made E b ->
  Forall (fun kv => shown_whole P (snd kv)) (o_configs a) -> Forall (fun kv => shown_whole P (snd kv)) (o_configs b) ->
  op_str P a = op_str P b -> a = b.
Proof. exact op_str_injective. Qed.
Print Assumptions C73_distinguishes.

Theorem C73_distinguishes_all_refuted : exists E P a b, made E a /\ made E b /\ op_str P a = op_str P b /\ op_eqb a b = false.
Proof. exact op_str_distinguishes_refuted. Qed.
Print Assumptions C73_distinguishes_all_refuted.

Theorem C73_equal_operators_refuted : exists E P a b, made E a /\ made E b /\ op_eqb a b = true /\ op_str P a <> op_str P b.
Proof. exact equal_texts_refuted. Qed.
Print Assumptions C73_equal_operators_refuted.

Theorem C73_short : forall P, (forall s, (length (custom_repr P (JStr s)) <= 30)%nat) /\
  (forall z, (length (custom_repr P (JInt z)) <= 40)%nat).
Proof. exact shown_length. Qed.
Print Assumptions C73_short.

Theorem C73_whole : forall P v, shown_whole P v -> custom_repr P v = repr P v.
Proof. exact shown_exactly. Qed.
Print Assumptions C73_whole.

Theorem C73_names : forall P s t, code_points s -> code_points t -> repr_str P s = repr_str P t -> s = t.
Proof. exact repr_injective. Qed.
Print Assumptions C73_names.

Theorem C73_visible : forall P s, code_points s -> Forall (fun c => 32 <= c /\ c <> 127) (repr_str P s).
Proof. exact repr_visible. Qed.
Print Assumptions C73_visible.

Theorem C73_nested_dict : forall P d, d <> [] -> exists d', Permutation d d' /\ StronglySorted (fun a b => str_le (fst a) (fst b)) d' /\
  custom_repr P (JList [JDict d]) =
    lit "[{" ++ commas (map (fun kv => custom_repr P (JStr (fst kv)) ++ lit ": " ++ short P 4 (snd kv)) (firstn 4 d') ++
                        (if (4 <? length d)%nat then [lit "..."] else [])) ++ lit "}]".
Proof. exact nested_dict. Qed.
Print Assumptions C73_nested_dict.

Theorem C73_long_number : forall P z, (40 < length (dump_int z))%nat ->
  exists a m b, dump_int z = a ++ m ++ b /\ length a = 18%nat /\ length b = 19%nat /\
    custom_repr P (JInt z) = a ++ lit "..." ++ b.
Proof. exact long_number. Qed.
Print Assumptions C73_long_number.

Theorem C73_long_text : forall P s, Forall clear_char s -> (28 < length s)%nat ->
  exists a m b, s = a ++ m ++ b /\ length a = 12%nat /\ length b = 13%nat /\
    custom_repr P (JStr s) = lit "'" ++ a ++ lit "..." ++ b ++ lit "'".
Proof. exact long_text. Qed.
Print Assumptions C73_long_text.

Theorem C73_first_six : forall P l m, (6 < length l)%nat -> (6 < length m)%nat -> firstn 6 l = firstn 6 m ->
  custom_repr P (JList l) = custom_repr P (JList m).
Proof. exact six_items. Qed.
Print Assumptions C73_first_six.

(** C74 *)
Theorem C74_span : forall a b, (span_str a = span_str b -> a = b) /\ (span_repr a = span_repr b -> a = b).
Proof. exact span_text. Qed.
Print Assumptions C74_span.

Theorem C74_replacement : forall a b, repl_str a = repl_str b -> a = b.
Proof. exact repl_text. Qed.
Print Assumptions C74_replacement.

Theorem C74_intent : forall a b, intent_repr a = intent_repr b -> a = b.
Proof. exact intent_text. Qed.
Print Assumptions C74_intent.

Theorem C74_entity_refuted : exists a b, entity_repr a = entity_repr b /\ a <> b.
Proof. exact entity_text_refuted. Qed.
Print Assumptions C74_entity_refuted.

Theorem C74_replacement_repr_places : forall a b c d, repl_repr a c = repl_repr b d -> r_start a = r_start b /\ r_end a = r_end b.
Proof. exact repl_repr_places. Qed.
Print Assumptions C74_replacement_repr_places.

Theorem C74_replacement_repr : forall annotation a b, repl_repr a annotation = repl_repr b annotation -> a = b.
Proof. exact repl_repr_same. Qed.
Print Assumptions C74_replacement_repr.

Theorem C74_replacement_repr_refuted : exists a b c d, repl_repr a c = repl_repr b d /\ a <> b.
Proof. exact repl_repr_refuted. Qed.
Print Assumptions C74_replacement_repr_refuted.

Theorem C74_replacement_group : forall n m, repl_group_repr n = repl_group_repr m -> n = m.
Proof. exact repl_group_text. Qed.
Print Assumptions C74_replacement_group.

Theorem C74_entity : forall a b, plain_entity a -> plain_entity b -> entity_repr a = entity_repr b -> a = b.
Proof. exact entity_text. Qed.
Print Assumptions C74_entity.
