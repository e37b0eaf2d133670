(** Property theorems C84 and C85 (regular expressions and [ReplaceAwithB]).
    The concrete cases that meet the hypotheses are in [ReWitness.v] and [ReGrammarWitness.v]. *)

From Coq Require Import String.
From Verif Require Import Py SpecEdit SpecLabels SpecSeg SpecScan SpecOps Regex Ops
  PyRe SpecRe ReProofs ReParse ReShape ReWritten ReTexts ReGroups ReReplace ReWitness SpecReGrammar ReGrammar.
From Coq Require Import List.
Local Open Scope nat_scope.

(** C84: patterns and what they find *)
Theorem C84_constructor : forall E w a b , python_re E w a ->
  match parse a with
  | Read _ => make_replace E a b = Ok (ReplaceAwithB a b)
  | Bad => make_replace E a b = Err ReErr
  | _ => True
  end.
Proof. exact construct_checks. Qed.
Print Assumptions C84_constructor.

Theorem C84_decides : forall p , parse p <> Starved.
Proof. exact parse_decides. Qed.
Print Assumptions C84_decides.

Theorem C84_search : forall k pat r s p , parse pat = Read r -> p <= length s ->
  match xsearch k r s p with
  | Some (i, e) => p <= i /\ i <= e /\ e <= length s /\ xmatch k s r i e /\
                   forall j e', p <= j < i -> ~ xmatch k s r j e'
  | None => forall j e', p <= j <= length s -> ~ xmatch k s r j e'
  end.
Proof. exact search_pattern. Qed.
Print Assumptions C84_search.

Theorem C84_widths : forall k pat r s i j , parse pat = Read r -> xmatch k s r i j ->
  i + minw r <= j /\ forall w, maxw r = Some w -> j <= i + w.
Proof. exact widths_pattern. Qed.
Print Assumptions C84_widths.

Theorem C84_greedy : forall k pat lo hi a s p i e , parse pat = Read (XRep lo hi true a) ->
  (forall x y, xmatch k s a x y -> y = S x) -> p <= length s ->
  xsearch k (XRep lo hi true a) s p = Some (i, e) ->
  forall e', xmatch k s (XRep lo hi true a) i e' -> e' <= e.
Proof. exact greedy_pattern. Qed.
Print Assumptions C84_greedy.

Theorem C84_lazy : forall k pat lo hi a s p i e , parse pat = Read (XRep lo hi false a) ->
  (forall x y, xmatch k s a x y -> y = S x) -> p <= length s ->
  xsearch k (XRep lo hi false a) s p = Some (i, e) ->
  forall e', xmatch k s (XRep lo hi false a) i e' -> e <= e'.
Proof. exact lazy_pattern. Qed.
Print Assumptions C84_lazy.

Theorem C84_first_alternative : forall k pat a b s p i e , parse pat = Read (XAlt a b) -> p <= length s ->
  xsearch k (XAlt a b) s p = Some (i, e) ->
  xsearch k a s i = Some (i, e) \/ (~ (exists e', xmatch k s a i e') /\ xsearch k b s i = Some (i, e)).
Proof. exact alternative_pattern. Qed.
Print Assumptions C84_first_alternative.

Theorem C84_plus : forall k s p g a , xsearch k (XRep 1 None g a) s p = xsearch k (XSeq a (XRep 0 None g a)) s p.
Proof. exact plus_is. Qed.
Print Assumptions C84_plus.

Theorem C84_optional : forall k s p a , xsearch k (XRep 0 (Some 1) true a) s p = xsearch k (XAlt a XEmpty) s p.
Proof. exact optional_is. Qed.
Print Assumptions C84_optional.

Theorem C84_optional_lazy : forall k s p a , xsearch k (XRep 0 (Some 1) false a) s p = xsearch k (XAlt XEmpty a) s p.
Proof. exact optional_lazy_is. Qed.
Print Assumptions C84_optional_lazy.

Theorem C84_once_more : forall k s p n hi g a , xsearch k (XRep (S n) (option_map S hi) g a) s p = xsearch k (XSeq a (XRep n hi g a)) s p.
Proof. exact once_more_is. Qed.
Print Assumptions C84_once_more.

Theorem C84_written : forall r , writable r -> parse (written r) = Read r.
Proof. exact parse_written. Qed.
Print Assumptions C84_written.

Theorem C84_groups : forall p r , parse p = Read r ->
  parse (txt "(" ++ p ++ txt ")") = Read r /\ parse (txt "(?:" ++ p ++ txt ")") = Read r /\
  parse (txt "(?=" ++ p ++ txt ")") = Read (XLook true true r) /\
  parse (txt "(?!" ++ p ++ txt ")") = Read (XLook true false r).
Proof. exact patterns_group. Qed.
Print Assumptions C84_groups.

Theorem C84_behind : forall p r , parse p = Read r ->
  (one_width r -> parse (txt "(?<=" ++ p ++ txt ")") = Read (XLook false true r) /\
                  parse (txt "(?<!" ++ p ++ txt ")") = Read (XLook false false r)) /\
  (~ one_width r -> parse (txt "(?<=" ++ p ++ txt ")") = Bad /\ parse (txt "(?<!" ++ p ++ txt ")") = Bad).
Proof. exact patterns_behind. Qed.
Print Assumptions C84_behind.

Theorem C84_repeats : forall p r q lo hi (greedy : bool) , parse p = Read r -> counts q lo hi ->
  parse (txt "(?:" ++ p ++ txt ")" ++ q ++ (if greedy then [] else txt "?")) = Read (XRep lo hi greedy r) /\
  forall t, parse (txt "(?:" ++ p ++ txt ")" ++ q ++ txt "*" ++ t) = Bad.
Proof. exact patterns_repeat. Qed.
Print Assumptions C84_repeats.

Theorem C84_sequences : forall ps rs , Forall2 (fun p r => parse p = Read r) ps rs ->
  parse (flat_map (fun p => txt "(?:" ++ p ++ txt ")") ps) = Read (xseq rs).
Proof. exact patterns_sequence. Qed.
Print Assumptions C84_sequences.

Theorem C84_alternatives : forall k p q r1 r2 , parse p = Read r1 -> parse q = Read r2 ->
  exists x, parse (p ++ txt "|" ++ q) = Read x /\ forall s i, xsearch k x s i = xsearch k (XAlt r1 r2) s i.
Proof. exact alternatives_read. Qed.
Print Assumptions C84_alternatives.

Theorem C84_closed_early : forall p r t , parse p = Read r -> parse (p ++ txt ")" ++ t) = Bad.
Proof. exact parse_closed_early. Qed.
Print Assumptions C84_closed_early.

Theorem C84_not_closed : forall p r , parse p = Read r -> parse (txt "(" ++ p) = Bad.
Proof. exact parse_not_closed. Qed.
Print Assumptions C84_not_closed.

Theorem C84_nothing_to_repeat : forall c t , In c (txt "*+?") -> parse (c :: t) = Bad.
Proof. exact repeat_nothing. Qed.
Print Assumptions C84_nothing_to_repeat.

Theorem C84_source_patterns : forall E w , found_as E w pat_lowercase (search re_lowercase) /\ found_as E w pat_merge (search (re_merge E)) /\
  found_as E w pat_strip (search (re_strip E)) /\ found_as E w pat_int (search (re_int E)) /\
  found_as E w pat_float (search (re_float E)) /\ found_as E w pat_purenum (search (re_purenum E)) /\
  found_as E w pat_stopwords (search re_stopwords).
Proof. exact source_patterns. Qed.
Print Assumptions C84_source_patterns.

Theorem C84_operators : forall E w o pat b , replaces_pattern o pat b -> python_re E w pat ->
  forall s y, (exists a, transform_op E o (SStr s) = Ok (y, a)) <->
              (exists a, transform_op E (ReplaceAwithB pat b) (SStr s) = Ok (y, a)).
Proof. exact replaces_as. Qed.
Print Assumptions C84_operators.

Theorem C84_replaced : forall E w p r b s y a , ord_ok (ord_c E) -> python_re E w p -> parse p = Read r ->
  transform_op E (ReplaceAwithB p b) (SStr s) = Ok (y, a) ->
  exists sg, leftmost (xmatch (classes_of E w) s r) b s 0 sg /\
    replaced (xsearch (classes_of E w) r) (fun _ => b) s 0 sg /\ olds sg = s /\ y = SStr (news sg).
Proof. exact replace_reads. Qed.
Print Assumptions C84_replaced.

Theorem C84_ends : forall E w p r b s , ord_ok (ord_c E) -> python_re E w p -> parse p = Read r ->
  (forall i, i < length s -> ~ xmatch (classes_of E w) s r i i) ->
  exists y a, transform_op E (ReplaceAwithB p b) (SStr s) = Ok (y, a).
Proof. exact replace_ends. Qed.
Print Assumptions C84_ends.

Theorem C84_empty_pattern : forall E w b s , python_re E w [] -> s <> [] ->
  make_replace E [] b = Ok (ReplaceAwithB [] b) /\
  (exists find, re_compile E [] = Some find /\ forall fuel, scan fuel find (fun _ => b) s 0 [] = Err OutOfFuel) /\
  transform_op E (ReplaceAwithB [] b) (SStr s) = Err OutOfFuel.
Proof. exact empty_pattern. Qed.
Print Assumptions C84_empty_pattern.

Theorem C84_cpython : map (fun row => answers (fst row)) cpython_cases = map snd cpython_cases.
Proof. exact cpython_agrees. Qed.
Print Assumptions C84_cpython.

Theorem C84_grammar : forall p r , parse p = Read r <-> pattern p r.
Proof. exact parse_pattern. Qed.
Print Assumptions C84_grammar.

Theorem C84_grammar_unique : forall p r r' , pattern p r -> pattern p r' -> r = r'.
Proof. exact pattern_unique. Qed.
Print Assumptions C84_grammar_unique.

Theorem C84_constructor_grammar : forall E w a b , python_re E w a -> parse a <> Beyond ->
  (make_replace E a b = Ok (ReplaceAwithB a b) <-> exists r, pattern a r) /\ (make_replace E a b = Err ReErr <-> ~ exists r, pattern a r).
Proof. exact accepts_patterns. Qed.
Print Assumptions C84_constructor_grammar.

(** C85: ReplaceAwithB on plain texts *)
Theorem C85_text : forall E w t p b s , ord_ok (ord_c E) -> python_re E w p -> text_pattern t p -> t <> [] ->
  exists sg a, transform_op E (ReplaceAwithB p b) (SStr s) = Ok (SStr (news sg), a) /\
    olds sg = s /\ str_replace t b s (news sg) /\ (forall x v, In (x, Some v) sg -> x = t /\ v = b) /\
    (~ deleted_twice sg -> rewrites E (ReplaceAwithB p b) s sg by_entity_mode by_entity_mode).
Proof. exact text_replaced. Qed.
Print Assumptions C85_text.

Theorem C85_text_unique : forall t b s o1 , str_replace t b s o1 -> forall o2, str_replace t b s o2 -> o1 = o2.
Proof. exact str_replace_unique. Qed.
Print Assumptions C85_text_unique.

Theorem C85_character : forall E w c p b s , ord_ok (ord_c E) -> python_re E w p -> text_pattern [c] p ->
  exists a, transform_op E (ReplaceAwithB p b) (SStr s) =
    Ok (SStr (flat_map (fun x => if (x =? c)%Z then b else [x]) s), a).
Proof. exact char_replaced. Qed.
Print Assumptions C85_character.

Theorem C85_there_and_back : forall E w c d p q s y a , ord_ok (ord_c E) -> python_re E w p -> python_re E w q ->
  text_pattern [c] p -> text_pattern [d] q -> ~ In d s ->
  transform_op E (ReplaceAwithB p [d]) (SStr s) = Ok (y, a) ->
  exists a', transform_op E (ReplaceAwithB q [c]) y = Ok (SStr s, a').
Proof. exact char_back. Qed.
Print Assumptions C85_there_and_back.

Theorem C85_words : forall E w ws p b s , ord_ok (ord_c E) -> python_re E w p -> words_pattern ws p ->
  ws <> [] -> Forall plain ws -> (forall t, In t ws -> t <> []) ->
  exists sg a, transform_op E (ReplaceAwithB p b) (SStr s) = Ok (SStr (news sg), a) /\
    olds sg = s /\ words_replace ws b s (news sg) /\ (forall x v, In (x, Some v) sg -> In x ws /\ v = b) /\
    (~ deleted_twice sg -> rewrites E (ReplaceAwithB p b) s sg by_entity_mode by_entity_mode).
Proof. exact replace_words. Qed.
Print Assumptions C85_words.

Theorem C85_words_unique : forall ws b s o1 , words_replace ws b s o1 -> forall o2, words_replace ws b s o2 -> o1 = o2.
Proof. exact words_replace_unique. Qed.
Print Assumptions C85_words_unique.

Theorem C85_stopwords : forall E s , ord_ok (ord_c E) ->
  exists out a, transform_op E StopwordsToWhitespace (SStr s) = Ok (SStr out, a) /\ words_replace stopwords (txt " ") s out.
Proof. exact stopwords_replaced. Qed.
Print Assumptions C85_stopwords.

Theorem C85_any_text_refuted : exists E w p b s out a, python E /\ python_re E w p /\ p <> [] /\
  transform_op E (ReplaceAwithB p b) (SStr s) = Ok (SStr out, a) /\ ~ str_replace p b s out.
Proof. exact not_plain. Qed.
Print Assumptions C85_any_text_refuted.

Theorem C85_order_refuted : exists E w s out1 out2 a1 a2, python E /\
  python_re E w (txt "a|ab") /\ python_re E w (txt "ab|a") /\
  transform_op E (ReplaceAwithB (txt "a|ab") (txt "-")) (SStr s) = Ok (SStr out1, a1) /\
  transform_op E (ReplaceAwithB (txt "ab|a") (txt "-")) (SStr s) = Ok (SStr out2, a2) /\ out1 <> out2.
Proof. exact order_matters. Qed.
Print Assumptions C85_order_refuted.

Theorem C85_labels_back_refuted : exists E w s y a l, python E /\ python_re E w (txt "x") /\
  transform_op E (ReplaceAwithB (txt "x") []) (SStr s) = Ok (y, a) /\
  length l = pseq_length y /\ align_inverse E a l = Err AssertionErr.
Proof. exact touching_text. Qed.
Print Assumptions C85_labels_back_refuted.
