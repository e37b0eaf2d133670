(** Property theorems C92 (which labels come back through an operator) and C93 (a second trip changes nothing).
    The concrete cases that meet the hypotheses are in [SettleWitness.v]. *)

From Coq Require Import String.
From Verif Require Import Py Edit Labels Regex Trie Ops SpecEdit SpecLabels SpecSeg SpecScan SpecRuns SpecWords SpecOps Json Elements Pipe
  SpecPipe SpecElements SpecBert SpecTrip SpecAccept SpecSettle SettleSurvive SettlePipe SettleNumbers SettleCells SettleWitness.
From Coq Require Import List.
Local Open Scope nat_scope.

(** C92: which labels come back through an operator *)
Theorem C92_merge : forall E s, ord_ok (ord_c E) ->
  survives_when E MergeWhiteSpaceCharacters (SStr s)
    (in_replaced (seg_runs (is_space E) (fun _ => Some blank) s) (fun _ => one_label)).
Proof. exact merge_survives. Qed.
Print Assumptions C92_merge.

Theorem C92_int : forall E s, ord_ok (ord_c E) ->
  survives_when E IntToken (SStr s) (in_replaced (int_like E (txt "_int_") s) (fun _ => one_label)) /\
  survives_when E IntTokenWithSpace (SStr s) (in_replaced (int_like E (txt " _int_ ") s) (fun _ => one_label)) /\
  survives_when E NumTokenWithSpace (SStr s) (in_replaced (int_like E (txt " _num_ ") s) (fun _ => one_label)).
Proof. exact int_survives. Qed.
Print Assumptions C92_int.

Theorem C92_float : forall E s, ord_ok (ord_c E) ->
  survives_when E FloatToken (SStr s) (in_replaced (float_like E (txt "_float_") s) (fun _ => one_label)) /\
  survives_when E FloatTokenWithSpace (SStr s) (in_replaced (float_like E (txt " _float_ ") s) (fun _ => one_label)).
Proof. exact float_survives. Qed.
Print Assumptions C92_float.

Theorem C92_stopwords : forall E s ps, ord_ok (ord_c E) -> munched false stopword_set s ps ->
  survives_when E StopwordsToWhitespace (SStr s) (in_replaced (stop_spaced ps) (fun _ => all_zero)).
Proof. exact stop_survives. Qed.
Print Assumptions C92_stopwords.

Theorem C92_strip : forall E s, ord_ok (ord_c E) ->
  let p := is_space E in
  survives_when E StripWhiteSpaceCharacters (SStr s)
    (zero_at (fun i => i < lead p s \/ lead p s + length (strip p s) <= i)).
Proof. exact strip_survives. Qed.
Print Assumptions C92_strip.

Theorem C92_endpoint : forall E s, ord_ok (ord_c E) ->
  survives_when E PunctuationExceptEndpointToWhitespace (SStr s)
    (zero_at (fun i => exists c, nth_error s i = Some c /\ endless_punct E c = true)).
Proof. exact endpoint_survives. Qed.
Print Assumptions C92_endpoint.

Theorem C92_replace : forall E p b find s sg, ord_ok (ord_c E) -> re_compile E p = Some find -> in_bounds find ->
  replaced find (fun _ => b) s 0 sg -> ~ deleted_twice sg ->
  survives_when E (ReplaceAwithB p b) (SStr s)
    (in_replaced sg (fun v ls => one_label ls /\ (v = [] -> all_zero ls))).
Proof. exact replace_survives. Qed.
Print Assumptions C92_replace.

Theorem C92_replace_twice : forall E p b find s sg, ord_ok (ord_c E) -> re_compile E p = Some find -> in_bounds find ->
  replaced find (fun _ => b) s 0 sg -> deleted_twice sg -> survives_when E (ReplaceAwithB p b) (SStr s) (fun _ => False).
Proof. exact replace_twice_survives. Qed.
Print Assumptions C92_replace_twice.

Theorem C92_pad : forall E m t l, ord_ok (ord_e E) ->
  survives_when E (Pad m t) (SLst l) (zero_at (fun i => Z.to_nat m <= i)).
Proof. exact pad_survives. Qed.
Print Assumptions C92_pad.

Theorem C92_custom : forall E ws sh o s ps, ord_ok (ord_c E) -> make_custom (Some ws) sh = Ok o -> munched sh ws s ps ->
  survives_when E o (SStr s) (fun l => u32_labels l /\ in_tokens (map fst ps) one_label l).
Proof. exact custom_survives. Qed.
Print Assumptions C92_custom.

Theorem C92_char : forall E s, ord_ok (ord_c E) -> survives_when E CharTokenizer (SStr s) u32_labels.
Proof. exact char_survives. Qed.
Print Assumptions C92_char.

Theorem C92_subwords : forall E v u m ts outs, ord_ok (ord_e E) -> ~ ((0 <= m)%Z /\ two_empty ts) -> Forall2 (subwords v u m) ts outs ->
  survives_when E (SpanSubwords v u m) (SLst (map ETok ts)) (zero_at (fun i => nth_error outs i = Some [])).
Proof. exact subwords_survives. Qed.
Print Assumptions C92_subwords.

Theorem C92_subwords_twice : forall E v u m ts, ord_ok (ord_e E) -> (0 <= m)%Z -> two_empty ts ->
  survives_when E (SpanSubwords v u m) (SLst (map ETok ts)) (fun _ => False).
Proof. exact subwords_twice_survives. Qed.
Print Assumptions C92_subwords_twice.

Theorem C92_others : forall E o x, python E -> built E o -> harmless o x -> survives_when E o x (fun _ => True).
Proof. exact harmless_survives. Qed.
Print Assumptions C92_others.

Theorem C92_steps : forall E als als' l m, align_all als l = Ok m -> survives E als l -> survives E als' m ->
  survives E (als ++ als') l.
Proof. exact survives_app. Qed.
Print Assumptions C92_steps.

Theorem C92_steps_iff : forall E als als' l m, returns E als -> align_all als l = Ok m ->
  (survives E (als ++ als') l <-> survives E als l /\ survives E als' m).
Proof. exact survives_app_iff. Qed.
Print Assumptions C92_steps_iff.

Theorem C92_numbers : forall E p s y als coll numbers spaces tok k, python E -> token_letters E -> is_space E 95 = false ->
  Forall (fun o => In o spaced_numbers) numbers ->
  Forall (fun o => In o [MergeWhiteSpaceCharacters; StripWhiteSpaceCharacters]) spaces ->
  In (tok, k) [(WhiteSpaceTokenizer, by_space E); (EngTokenizer, by_punct E); (ZhCharTokenizer, by_punct_cjk E)] ->
  map o_op (steps p) = numbers ++ spaces ++ [tok] ->
  transform_sequence E p (SStr s) = Ok (y, als, coll) ->
  forall l, survives E als l <-> number_wise E numbers k s l.
Proof. exact numbers_survive. Qed.
Print Assumptions C92_numbers.

Theorem C92_steps_after : forall E als als' l, (forall m, align_all als l = Ok m -> survives E als' m) ->
  (survives E (als ++ als') l <-> survives E als l).
Proof. exact steps_after. Qed.
Print Assumptions C92_steps_after.

(** C93: a second trip changes nothing *)
Theorem C93_operator : forall E o x y a, python E -> built E o -> transform_op E o x = Ok (y, a) -> settles E [a].
Proof. exact (fun E o x y a H0 => op_settles E H0 o x y a). Qed.
Print Assumptions C93_operator.

Theorem C93_operator_back : forall E o x y a, python E -> built E o -> reversible o -> transform_op E o x = Ok (y, a) -> returns E [a].
Proof. exact (fun E o x y a H0 => op_returns E H0 o x y a). Qed.
Print Assumptions C93_operator_back.

Theorem C93_pipe : forall E p x y als coll, python E -> regexes E -> reachable E p -> orderly (map o_op (steps p)) ->
  transform_sequence E p x = Ok (y, als, coll) -> settles E als.
Proof. exact (fun E p x y als coll H0 H1 => pipe_settles E H0 H1 p x y als coll). Qed.
Print Assumptions C93_pipe.

Theorem C93_pipe_back : forall E p x y als coll, python E -> regexes E -> reachable E p -> Forall reversible (map o_op (steps p)) ->
  transform_sequence E p x = Ok (y, als, coll) -> returns E als.
Proof. exact (fun E p x y als coll H0 H1 => pipe_returns E H0 H1 p x y als coll). Qed.
Print Assumptions C93_pipe_back.

Theorem C93_bert : forall E f s p y als coll, python E -> letters E -> accents_fit E f s -> basic_pipe E = Ok p \/ full_pipe E = Ok p ->
  transform_sequence E p (SStr s) = Ok (y, als, coll) -> settles E als.
Proof. exact (fun E f s p y als coll H0 => bert_settles E H0 f s p y als coll). Qed.
Print Assumptions C93_bert.

Theorem C93_word_piece : forall E s p y als coll, python E -> word_piece_pipe E = Ok p ->
  transform_sequence E p (SStr s) = Ok (y, als, coll) -> settles E als.
Proof. exact (fun E s p y als coll H0 => word_piece_settles E H0 s p y als coll). Qed.
Print Assumptions C93_word_piece.

Theorem C93_fixed : forall E als l m l', settles E als -> align_all als l = Ok m -> align_inverse_all E als m = Ok l' ->
  survives E als l'.
Proof. exact settles_survives. Qed.
Print Assumptions C93_fixed.

Theorem C93_fixed_back : forall E als m l, returns E als -> align_inverse_all E als m = Ok l -> survives E als l.
Proof. exact returns_survives. Qed.
Print Assumptions C93_fixed_back.

Theorem C93_any_pipe_refuted : exists E p x y als coll l m l' m' l'', python E /\ regexes E /\ reachable E p /\
  transform_sequence E p x = Ok (y, als, coll) /\
  align_all als l = Ok m /\ align_inverse_all E als m = Ok l' /\
  align_all als l' = Ok m' /\ align_inverse_all E als m' = Ok l'' /\ m' <> m /\ l'' <> l'.
Proof. exact again_refuted. Qed.
Print Assumptions C93_any_pipe_refuted.

Theorem C93_readme : forall E p x y als coll, python E -> regexes E -> token_letters E ->
  add_calls E imported pipe_new readme_calls = (p, None) ->
  transform_sequence E p x = Ok (y, als, coll) -> settles E als.
Proof. exact readme_settles. Qed.
Print Assumptions C93_readme.

Theorem C93_numbers : forall E p x y als coll, python E -> regexes E -> token_letters E -> reachable E p -> numbered (map o_op (steps p)) ->
    transform_sequence E p x = Ok (y, als, coll) -> settles E als.
Proof. exact (fun E p x y als coll H0 H1 => numbers_settle E H0 H1 p x y als coll). Qed.
Print Assumptions C93_numbers.
