{"id": "C01", "title": "Applying a replacement group is splicing", "statement": "For a sequence s (str or list) and a finished replacement group whose intervals lie inside s, `str2str.apply`/`lst2lst.apply` returns exactly what is obtained by performing Python slice assignment s[start:end] = new_value for each replacement from the last one to the first one. Elements outside every replaced interval are all kept, in order.", "quantifier": "all sequences, all in-bounds finished groups of any size", "why_tests_cant": "The claim ranges over an unbounded set of sequences and edit lists; a test suite samples finitely many.", "anchors": ["uttut/pipeline/edit/str2str.py:apply", "uttut/pipeline/edit/lst2lst.py:apply", "uttut/pipeline/edit/utils.pyx:_transform_sequence"]}
{"id": "C02", "title": "The inverse group undoes the edit", "statement": "For a finished in-bounds group g on s, if no two touching replacements both have an empty new value, `inverse(s, g)` succeeds and apply(apply(s, g), inverse(s, g)) == s. Without the side condition the law fails: `inverse` raises AssertionError, exactly when two of the pieces to restore are the same at the same place (and nothing else), or can restore the deleted pieces in an order that depends on set iteration order.", "quantifier": "all sequences, all finished in-bounds groups, all set iteration orders", "why_tests_cant": "The claim ranges over an unbounded set of sequences and edit lists; a test suite samples finitely many. Set iteration order is moreover not controllable from a test.", "anchors": ["uttut/pipeline/edit/str2str.py:inverse", "uttut/pipeline/edit/lst2lst.py:inverse", "uttut/pipeline/edit/utils.pyx:_gen_inverse_replacement_group", "uttut/pipeline/edit/utils.pyx:get_dist_bt_replacement_group"]}
{"id": "C03", "title": "Inverting twice gives the original group", "statement": "If neither g nor its inverse has two touching replacements with empty new values, then inverse(apply(s,g), inverse(s,g)) has the same replacements as g.", "quantifier": "all sequences, all finished in-bounds groups, all set iteration orders", "why_tests_cant": "The claim ranges over an unbounded set of sequences and edit lists; a test suite samples finitely many.", "anchors": ["uttut/pipeline/edit/str2str.py:inverse", "uttut/pipeline/edit/lst2lst.py:inverse"]}
{"id": "C04", "title": "Which replacement lists are accepted", "statement": "`ReplacementGroup.add_all` on well-formed (start <= end) tuples with values of one type returns a group iff the distinct replacements are pairwise disjoint as half-open intervals in sorted (start, end) order (otherwise ValueError); the result is sorted by (start, end), free of duplicates and contains exactly the distinct tuples given.", "quantifier": "all finite lists of tuples in every insertion order, all set iteration orders", "why_tests_cant": "Every permutation and every hash order would have to be tried.", "anchors": ["uttut/pipeline/edit/replacement.pyx:ReplacementGroup.add_all", "uttut/pipeline/edit/replacement.pyx:ReplacementGroup.done", "uttut/pipeline/edit/validation.pyx:_validate_disjoint"]}
{"id": "C05", "title": "Group building does not depend on insertion or hash order", "statement": "If no two distinct replacements share the same (start, end), the finished group, and the result of applying it, are the same for every insertion order and every set iteration order. With two different insertions at one point the result does depend on the set iteration order (witness).", "quantifier": "all permutations of all replacement lists, all set iteration orders", "why_tests_cant": "Hash order is fixed inside one interpreter build, so a test never sees the alternatives.", "anchors": ["uttut/pipeline/edit/replacement.pyx:ReplacementGroup.done", "uttut/pipeline/edit/replacement.pyx:_sort_replacements"]}
{"id": "C06", "title": "A reversed interval is silently dropped", "statement": "Adding a replacement or span with start > end through the group API (`add`/`add_all`) raises nothing and adds nothing: the finished group is that of the remaining tuples. (A user relying on the documented ValueError is not protected.) Negative or >= 2**32 offsets raise OverflowError.", "quantifier": "all argument lists", "why_tests_cant": "The absence of an exception for every malformed tuple in any context is a universal claim.", "anchors": ["uttut/pipeline/edit/replacement.pyx:ReplacementGroup.add", "uttut/pipeline/edit/span.pyx:SpanGroup.add", "uttut/pipeline/edit/validation.pyx:_validate_start_end_in_c"]}
{"id": "C07", "title": "Finished span groups partition the text", "statement": "If `SpanGroup.add_all(spans)` succeeds then the spans, read in order, start at 0, each one starts where the previous one ended, and str2lst.apply followed by joining gives back the input string whenever it accepts the string; it accepts exactly strings of the length covered. add_all succeeds iff every offset fits unsigned int and the spans that are not reversed, stably sorted by end, tile [0, n) for some n; the group is that sorted list. Spans given in increasing order that tile [0, n) are always accepted; acceptance is not invariant under reordering when zero-width spans are present (witness). add_all raises OverflowError iff some offset is outside of unsigned int, otherwise its only exception is ValueError. lst2str.apply joins the tokens iff their lengths are those of the spans, else ValueError.", "quantifier": "all span lists, all strings", "why_tests_cant": "The claim ranges over an unbounded set of sequences and edit lists; a test suite samples finitely many.", "anchors": ["uttut/pipeline/edit/span.pyx:SpanGroup.add_all", "uttut/pipeline/edit/span.pyx:SpanGroup.done", "uttut/pipeline/edit/str2lst.py:apply", "uttut/pipeline/edit/lst2str.py:apply"]}
{"id": "C08", "title": "Span group from tokens", "statement": "`gen_span_group(s, tokens)` succeeds iff ''.join(tokens) == s (else ValueError), and then str2lst.apply(s, group) == tokens for non-empty token lists, i.e. the spans are the cumulative offsets even when tokens repeat or are empty.", "quantifier": "all strings, all token lists", "why_tests_cant": "The claim ranges over an unbounded set of sequences and edit lists; a test suite samples finitely many.", "anchors": ["uttut/pipeline/edit/str2lst.py:gen_span_group"]}
{"id": "C09", "title": "Gap deletion from tokens", "statement": "`gen_replacement_group(s, tokens)` succeeds iff the tokens occur in s in order without overlap (else ValueError), and applying the resulting group yields exactly ''.join(tokens).", "quantifier": "all strings, all token lists", "why_tests_cant": "Greedy leftmost search must be shown never to paint itself into a corner.", "anchors": ["uttut/pipeline/edit/str2lst.py:gen_replacement_group"]}
{"id": "C10", "title": "Label propagation keeps untouched labels in place", "statement": "`propagate_by_replacement_group(labels, g, f)` with an f that returns output_size labels returns a list whose length is that of the edited sequence; each label at a position outside all replaced intervals reappears at that position shifted by the net growth of the replacements before it; the labels at the new positions of a replacement are f(labels[start:end], len(new_value)).", "quantifier": "all label lists, all finished in-bounds groups, all length-respecting transducers", "why_tests_cant": "The claim ranges over an unbounded set of sequences and edit lists; a test suite samples finitely many.", "anchors": ["uttut/pipeline/edit/label_propagation.pyx:propagate_by_replacement_group", "uttut/pipeline/edit/label_propagation.pyx:_compute_output_length"]}
{"id": "C11", "title": "Most-common label transducers", "statement": "`get_most_common` returns output_size copies of a label whose number of occurrences is maximal and which is the first such label in the list; `get_most_common_except_not_entity` does the same over non-zero labels and returns zeros iff there are none. The default C transducer agrees with `get_most_common` on labels in [0, 2**32) and returns zeros for an empty list.", "quantifier": "all label lists and sizes", "why_tests_cant": "The claim ranges over an unbounded set of sequences and edit lists; a test suite samples finitely many.", "anchors": ["uttut/pipeline/ops/label_transducer.py:get_most_common", "uttut/pipeline/ops/label_transducer.py:get_most_common_except_not_entity", "uttut/pipeline/edit/label_propagation.pyx:_get_most_common_label", "uttut/pipeline/edit/label_propagation.pyx:_count_and_get_most_common"]}
{"id": "C12", "title": "Reduce/expand over spans", "statement": "For a span group without zero-width spans and labels in [0, 2**32): reduce_by_span_group(expand_by_span_group(l, g), g) == l, and expand(reduce(l)) == l exactly when l is constant on each span. Lengths are number of spans / covered length; incompatible lengths raise ValueError.", "quantifier": "all span groups, all label lists", "why_tests_cant": "The claim ranges over an unbounded set of sequences and edit lists; a test suite samples finitely many.", "anchors": ["uttut/pipeline/edit/label_propagation.pyx:reduce_by_span_group", "uttut/pipeline/edit/label_propagation.pyx:expand_by_span_group"]}
{"id": "C13", "title": "Labels outside the unsigned range", "statement": "Negative labels or labels >= 2**32: tokenizer alignment silently replaces the label of a whole token containing one by 0 in the forward direction and raises OverflowError in the inverse direction; the other tokens keep the most common label of their characters. Other operators treat such labels like any others, in both directions: renaming labels so that 0 stays 0 and different ones stay different commutes with them, and the labels they give are 0 or among the given ones.", "quantifier": "all label lists containing an out-of-range label", "why_tests_cant": "A universally quantified failure claim over an infinite label domain.", "anchors": ["uttut/pipeline/edit/label_propagation.pyx:_count_and_get_most_common", "uttut/pipeline/edit/label_propagation.pyx:expand_by_span_group", "uttut/pipeline/ops/tokenizers/base.py"]}
{"id": "C14", "title": "Aligners never return labels of the wrong length", "statement": "For every built-in operator, every accepted input x with output y and labels l (in [0,2**32)): if len(l) == len(x), aligner.transform(l) returns exactly len(y) labels; if len(l) == len(y), aligner.inverse_transform(l) returns exactly len(x) labels; wrong lengths raise ValueError. The way back of a tokenizer raises OverflowError exactly for labels outside [0,2**32); the only other exception is AssertionError, exactly if ReplaceAwithB deletes the same text twice and everything between, or SpanSubwords (maxlen not negative) meets two adjacent empty tokens (witnesses).", "quantifier": "all operators, all inputs, all label lists", "why_tests_cant": "The claim ranges over an unbounded set of sequences and edit lists; a test suite samples finitely many.", "anchors": ["uttut/pipeline/ops/base.py:LabelAligner.transform", "uttut/pipeline/ops/base.py:LabelAligner.inverse_transform"]}
{"id": "C15", "title": "Lowercase", "statement": "Lowercase maps every ASCII capital letter to its small letter, leaves every other character unchanged (including non-ASCII capitals), preserves length, and its aligner is the identity; it is idempotent.", "quantifier": "all strings, all labels", "why_tests_cant": "The claim ranges over an unbounded set of sequences and edit lists; a test suite samples finitely many.", "anchors": ["uttut/pipeline/ops/lowercase.py:Lowercase"]}
{"id": "C16", "title": "MergeWhiteSpaceCharacters", "statement": "The output is the input with every maximal run of whitespace replaced by one ' '; the output never has two adjacent whitespace characters; it is idempotent; non-whitespace labels survive the round trip.", "quantifier": "all strings", "why_tests_cant": "The claim ranges over an unbounded set of sequences and edit lists; a test suite samples finitely many.", "anchors": ["uttut/pipeline/ops/pattern_recognizers/merge_whitespace_characters.py", "uttut/pipeline/ops/pattern_recognizers/base.py"]}
{"id": "C17", "title": "StripWhiteSpaceCharacters", "statement": "The output is str.strip() of the input; labels of kept characters are unchanged, the inverse gives 0 to stripped characters; forward(inverse(l)) == l; idempotent. After MergeWhiteSpaceCharacters it yields ' '.join(s.split()).", "quantifier": "all strings, all labels", "why_tests_cant": "The claim ranges over an unbounded set of sequences and edit lists; a test suite samples finitely many.", "anchors": ["uttut/pipeline/ops/pattern_recognizers/strip_whitespace_characters.py", "uttut/pipeline/ops/pattern_recognizers/base.py"]}
{"id": "C18", "title": "Integer recognisers", "statement": "IntToken / IntTokenWithSpace / NumTokenWithSpace replace exactly the maximal runs of digits (Unicode decimal digits) that are not adjacent to '.'; every other character is kept; after the transformation no such run remains.", "quantifier": "all strings", "why_tests_cant": "The backtracking behaviour of the regular expression over all strings cannot be sampled exhaustively.", "anchors": ["uttut/pipeline/ops/pattern_recognizers/int_token.py", "uttut/pipeline/ops/pattern_recognizers/int_token_with_space.py", "uttut/pipeline/ops/pattern_recognizers/num_token_with_space.py", "uttut/pipeline/ops/pattern_recognizers/base.py"]}
{"id": "C19", "title": "Float recognisers", "statement": "FloatToken / FloatTokenWithSpace replace exactly the substrings consisting of a maximal digit run, one '.', and a maximal digit run which are neither preceded nor followed by '.'; everything else is kept.", "quantifier": "all strings", "why_tests_cant": "Same as for integers; look-around plus backtracking.", "anchors": ["uttut/pipeline/ops/pattern_recognizers/float_token.py", "uttut/pipeline/ops/pattern_recognizers/float_token_with_space.py"]}
{"id": "C20", "title": "Recogniser scan", "statement": "A pattern recogniser replaces the leftmost match, then continues at its end: the replaced intervals are non-overlapping, increasing, each is a match of the pattern, and no match starts in a gap that is scanned. Labels of a replaced piece become the most common one that is not 0, in both directions, all others are kept; only if the same text is deleted twice and everything between is deleted, too, taking labels back raises AssertionError. For a pattern that can match the empty string inside the text the scan does not terminate (ReplaceAwithB with e.g. 'x*').", "quantifier": "all patterns, all strings", "why_tests_cant": "Non-termination cannot be observed by a test, and the claim covers every pattern.", "anchors": ["uttut/pipeline/ops/pattern_recognizers/base.py:PatternRecognizer", "uttut/pipeline/ops/pattern_recognizers/replace_a_with_b.py"]}
{"id": "C21", "title": "PureNum2Token", "statement": "A token is replaced by the number token iff it is non-empty and all its characters are digits; all other tokens are unchanged; length preserved; aligner is the identity.", "quantifier": "all token lists", "why_tests_cant": "The claim ranges over an unbounded set of sequences and edit lists; a test suite samples finitely many.", "anchors": ["uttut/pipeline/ops/pure_num_to_token.py"]}
{"id": "C22", "title": "PunctuationExceptEndpointToWhitespace", "statement": "Every punctuation character other than '.' becomes ' ', everything else is unchanged; length preserved; labels at replaced positions become 0 in both directions; idempotent.", "quantifier": "all strings", "why_tests_cant": "The claim ranges over an unbounded set of sequences and edit lists; a test suite samples finitely many.", "anchors": ["uttut/pipeline/ops/punctuation_except_endpoint_to_whitespace.py"]}
{"id": "C23", "title": "AddWhitespaceAround CJK / punctuation", "statement": "Each character in the class is surrounded by one space on both sides, all others are unchanged; labels round-trip: inverse(forward(l)) == l for all l; deleting the inserted positions gives back the input.", "quantifier": "all strings, all labels", "why_tests_cant": "The claim ranges over an unbounded set of sequences and edit lists; a test suite samples finitely many.", "anchors": ["uttut/pipeline/ops/add_whitespace_around_character.py", "uttut/pipeline/ops/add_whitespace_around_cjk.py", "uttut/pipeline/ops/add_whitespace_around_punctuation.py"]}
{"id": "C24", "title": "AddWhitespaceAroundWordnZhChar", "statement": "The text is segmented left to right; user words (matched as the trie prescribes) and Chinese characters get one space on both sides, everything else is unchanged; inverse(forward(l)) == l; removing the inserted spaces gives back the input.", "quantifier": "all non-empty user word lists, all strings, all labels", "why_tests_cant": "The claim ranges over an unbounded set of sequences and edit lists; a test suite samples finitely many.", "anchors": ["uttut/pipeline/ops/add_whitespace_around_word_n_zhchar.py", "uttut/pipeline/ops/utils/trie.py"]}
{"id": "C25", "title": "Pad", "statement": "Output length is exactly maxlen; output is the input cut to maxlen or extended with pad tokens; labels of kept tokens unchanged, pad labels 0; inverse restores labels of kept tokens and gives 0 to cut ones; idempotent.", "quantifier": "all maxlen, all token lists, all labels", "why_tests_cant": "The claim ranges over an unbounded set of sequences and edit lists; a test suite samples finitely many.", "anchors": ["uttut/pipeline/ops/pad.py"]}
{"id": "C26", "title": "AddSosEos / AddEndToken", "statement": "For a non-empty token list the output is [start] + tokens + [end] (resp. tokens + [end]); inverse(forward(l)) == l. On an empty list AddSosEos's result depends on set iteration order (order of the two tokens), and with equal start and end tokens only one token is produced.", "quantifier": "all token lists, all labels, all set iteration orders", "why_tests_cant": "Hash order is fixed inside one interpreter build.", "anchors": ["uttut/pipeline/ops/add_sos_eos.py", "uttut/pipeline/ops/add_end_token.py"]}
{"id": "C27", "title": "Token2Index", "statement": "For a vocabulary accepted by the constructor, every output index lies in [0, vocabulary size); known tokens get their index, unknown ones the index of the unk token; distinct known tokens get distinct indices; construction succeeds iff the indices are exactly 0..n-1 without repetition and unk is present.", "quantifier": "all vocabularies, all token lists", "why_tests_cant": "The claim ranges over an unbounded set of sequences and edit lists; a test suite samples finitely many.", "anchors": ["uttut/pipeline/ops/token_to_index.py"]}
{"id": "C28", "title": "Token2IndexwithHash", "statement": "Same as Token2Index, with unknown tokens sent to MurmurHash3_x86_32(utf8(token), seed 0) mod size; always in range, never an exception (tokens that cannot be encoded give 0).", "quantifier": "all vocabularies, all tokens (including lone surrogates)", "why_tests_cant": "The claim ranges over an unbounded set of sequences and edit lists; a test suite samples finitely many.", "anchors": ["uttut/pipeline/ops/token_to_index_with_hash.py", "uttut/pipeline/ops/utils/consistent_hash.pyx", "uttut/pipeline/ops/utils/MurmurHash3.cpp"]}
{"id": "C29", "title": "SpanSubwords pieces", "statement": "Each non-empty token not longer than the limit is split greedily into longest vocabulary pieces ('##' for non-initial ones); if no split by this strategy exists or the token is too long it becomes the single unk token; if pieces are produced, stripping '##' from the non-initial pieces and joining gives the token back, and each piece is in the vocabulary. Empty tokens vanish if the limit is not negative.", "quantifier": "all vocabularies, all tokens", "why_tests_cant": "The claim ranges over an unbounded set of sequences and edit lists; a test suite samples finitely many.", "anchors": ["uttut/pipeline/ops/span_subwords.py"]}
{"id": "C30", "title": "SpanSubwords labels", "statement": "For token lists without two neighbouring empty tokens (or with a negative length limit, for all token lists): forward, each piece carries the label of its token; back, each token gets the most common label other than 0 of its pieces, or 0. If moreover no token is empty, inverse(forward(l)) == l for every label list. Refuted: that the inverse works for all token lists (two neighbouring empty tokens, AssertionError).", "quantifier": "all vocabularies, all token lists, all labels", "why_tests_cant": "The claim ranges over an unbounded set of sequences and edit lists; a test suite samples finitely many.", "anchors": ["uttut/pipeline/ops/span_subwords.py"]}
{"id": "C31", "title": "StripAccentToken", "statement": "Let t be the canonical decomposition (NFD) of the input without its non-spacing marks (Mn). If len(t) equals the length of the input the output is t and labels are preserved in both directions; otherwise AssertionError is raised.", "quantifier": "all strings, all Unicode decomposition tables", "why_tests_cant": "Depends on the Unicode tables; every string must be covered.", "anchors": ["uttut/pipeline/ops/strip_accent_token.py"]}
{"id": "C32", "title": "Tokenizers lose only whitespace", "statement": "For WhiteSpaceTokenizer, EngTokenizer and ZhCharTokenizer: no token is empty or contains whitespace, and ''.join(tokens) is the input with all whitespace removed. CharTokenizer and CustomWordTokenizer tokens concatenate to the input itself.", "quantifier": "all strings", "why_tests_cant": "The claim ranges over an unbounded set of sequences and edit lists; a test suite samples finitely many.", "anchors": ["uttut/pipeline/ops/tokenizers/whitespace_tokenizer.py", "uttut/pipeline/ops/tokenizers/eng_tokenizer.py", "uttut/pipeline/ops/tokenizers/zh_char_tokenizer.py", "uttut/pipeline/ops/tokenizers/char_tokenizer.py", "uttut/pipeline/ops/tokenizers/custom_word_tokenizer.py"]}
{"id": "C33", "title": "Tokenizer labels", "statement": "For every tokenizer, labels l in [0,2**32): the forward label of a token is the most common label among its characters; forward(inverse(l)) == l; the inverse gives each character of token i the label l[i] and 0 to every dropped character. No exception for any string.", "quantifier": "all tokenizers, all strings, all label lists", "why_tests_cant": "The claim ranges over an unbounded set of sequences and edit lists; a test suite samples finitely many.", "anchors": ["uttut/pipeline/ops/tokenizers/base.py"]}
{"id": "C34", "title": "Trie", "statement": "After inserting distinct words, exactly_search succeeds iff the word was inserted and is not empty; match_prefix returns the longest (shortest) inserted non-empty word that is a prefix of the query, and nothing iff no inserted word is a prefix.", "quantifier": "all word lists, all queries", "why_tests_cant": "The claim ranges over an unbounded set of sequences and edit lists; a test suite samples finitely many.", "anchors": ["uttut/pipeline/ops/utils/trie.py"]}
{"id": "C35", "title": "CustomWordTokenizer is maximal munch", "statement": "At each position the emitted token is the longest user word starting there, or a single character if none does. Duplicate user words make construction raise AttributeError.", "quantifier": "all user word lists, all strings", "why_tests_cant": "The claim ranges over an unbounded set of sequences and edit lists; a test suite samples finitely many.", "anchors": ["uttut/pipeline/ops/tokenizers/custom_word_tokenizer.py", "uttut/pipeline/ops/utils/trie.py"]}
{"id": "C36", "title": "EngTokenizer / ZhCharTokenizer boundaries", "statement": "Tokens of EngTokenizer are exactly the punctuation characters (each alone) and the maximal runs of characters that are neither whitespace nor punctuation; ZhCharTokenizer additionally isolates each CJK character.", "quantifier": "all strings", "why_tests_cant": "The claim ranges over an unbounded set of sequences and edit lists; a test suite samples finitely many.", "anchors": ["uttut/pipeline/ops/tokenizers/eng_tokenizer.py", "uttut/pipeline/ops/tokenizers/zh_char_tokenizer.py"]}
{"id": "C37", "title": "Pipe runs its operators in order", "statement": "Pipe.transform_sequence returns the composition of the operators applied to the input, the label aligner that applies the aligners in order (inverse: in reverse order), and transform(datum) gives the same sequence and labels as unpacking the datum and using these.", "quantifier": "all pipes, all inputs", "why_tests_cant": "The claim ranges over an unbounded set of sequences and edit lists; a test suite samples finitely many.", "anchors": ["uttut/pipeline/pipe.py:Pipe.transform", "uttut/pipeline/pipe.py:Pipe.transform_sequence", "uttut/pipeline/pipe.py:LabelAlignerSequence"]}
{"id": "C38", "title": "Pipe checkpoints", "statement": "After any sequence of successful add calls, the intermediate result stored under a checkpoint name is the sequence produced by the operators up to and including the one added with that name.", "quantifier": "all add histories, all inputs", "why_tests_cant": "All histories.", "anchors": ["uttut/pipeline/pipe.py:Pipe.add_op", "uttut/pipeline/intermediate.py"]}
{"id": "C39", "title": "Pipe type invariant", "statement": "After any history of add/add_op calls (failed ones included) adjacent operators in the pipe have matching types (the same holds after +, +=, copying and slicing with step 1), and every operator receives a sequence of its declared type; a TypeError is still possible because element types are not checked, e.g. SpanSubwords after Token2Index (refuted claim), and slices with another step break the invariant (refuted claim); a failed add_op with a duplicate checkpoint raises KeyError but nevertheless leaves the operator in the pipe (witness). add raises KeyError for unregistered names and what the constructor raises, and then changes nothing, else it does what add_op does with the constructed operator and the checkpoint.", "quantifier": "all histories of calls, including failing ones", "why_tests_cant": "All histories.", "anchors": ["uttut/pipeline/pipe.py:Pipe.add_op", "uttut/pipeline/pipe.py:Pipe.add"]}
{"id": "C40", "title": "Concatenating pipes", "statement": "(p + q) transforms like p followed by q and p, q are left unchanged; steps concatenation is associative; mismatching types raise TypeError; but checkpoints of q are shifted by len(p)+len(q) instead of len(p), so looking one of them up in the result raises IndexError (refuted claim), and an empty pipe is not a neutral element (IndexError).", "quantifier": "all pipes", "why_tests_cant": "All pipes and inputs.", "anchors": ["uttut/pipeline/pipe.py:Pipe.__add__", "uttut/pipeline/pipe.py:Pipe.__iadd__"]}
{"id": "C41", "title": "Slicing pipes", "statement": "p[i] is the i-th step (from the end for negative i), IndexError out of range. p[i:j] with 0 <= i <= j has exactly the steps i..j-1 and transforms like them; its checkpoints should denote the same operators as in p, which fails for checkpoints beyond j (refuted claim) and slices without explicit start raise TypeError if there are checkpoints. For any start, stop and step p[start:stop:step] has the steps at the positions that python's slices select, in that order; a step of 0 is a ValueError; a checkpoint of p at i > start is kept at i - start, as start is written (also if negative), all others are dropped.", "quantifier": "all pipes, all slices", "why_tests_cant": "All pipes and slices.", "anchors": ["uttut/pipeline/pipe.py:Pipe.__getitem__"]}
{"id": "C42", "title": "Pipe serialisation round trip", "statement": "Pipe.deserialize(pipe.serialize()) == pipe, with the same checkpoints, for every pipe built through add/add_op, provided JSON round-trips the operator arguments.", "quantifier": "all pipes", "why_tests_cant": "All pipes.", "anchors": ["uttut/pipeline/pipe.py:Pipe.serialize", "uttut/pipeline/pipe.py:Pipe.deserialize", "uttut/pipeline/ops/base.py:Serializable"]}
{"id": "C43", "title": "Operator equality and recorded arguments", "statement": "The recorded configuration binds every constructor parameter to the value it got (positional, keyword or default); operators are equal iff same class and same configuration; from_dict(of serialised operator) is equal to the operator and behaves the same. A JSON text that is no serialised operator is refused: TypeError if it is no object, its name is a list or an object, or its arguments are no object; KeyError if a field is missing or the name is not registered.", "quantifier": "all ways of passing arguments", "why_tests_cant": "All call shapes.", "anchors": ["uttut/pipeline/ops/base.py:Serializable.__init_subclass__", "uttut/pipeline/ops/base.py:Operator.__eq__", "uttut/pipeline/ops/factory.py"]}
{"id": "C44", "title": "Whole pipe label alignment", "statement": "For a pipe of built-in operators and an input on which every operator succeeds: the final labels have the length of the final sequence, inverse_transform returns as many labels as the input has elements, and neither raises, except for the AssertionError of inverse_transform, which comes exactly if some ReplaceAwithB deleted the same text twice and everything between (matches that touch), or some SpanSubwords met two neighbouring empty tokens; a label list of another length is a ValueError.", "quantifier": "all pipes, inputs, labels in [0,2**32)", "why_tests_cant": "The claim ranges over an unbounded set of sequences and edit lists; a test suite samples finitely many.", "anchors": ["uttut/pipeline/pipe.py"]}
{"id": "C45", "title": "Datum invariant", "statement": "If a Datum is constructed then its entities are stably sorted by start, its intents by hash of the label, every entity value is the python slice of the utterance, and no character lies in two entities; it is constructed iff every value is the slice and, in sorted order, every entity ends before the next one starts, otherwise the position error is raised first and the overlap error second; non-empty entities of disjoint places with the right text are accepted in any order. Out-of-range, negative or reversed entity positions are accepted whenever Python slicing yields the value (witnesses), and for an empty entity acceptance depends on the order of the list (witness). has_intents, has_entities and no_replacements tell whether there are any.", "quantifier": "all utterances and entity lists", "why_tests_cant": "The claim ranges over an unbounded set of sequences and edit lists; a test suite samples finitely many.", "anchors": ["uttut/elements.pyx:Datum"]}
{"id": "C46", "title": "Pack and unpack", "statement": "unpack_datum of a datum whose entities lie inside the utterance yields one label per character, the label of the entity that covers it or 0; in general it raises only IndexError, exactly when a non-empty entity starts before -len or ends after len. pack_to_datum makes one entity of each maximal run of a non-zero label and keeps the set of intents; unpack(pack(u, i, l)) gives back l and the set of i for every non-empty u; pack(unpack(d)) has the entities of d (without replacements) when they are inside, non-empty, with non-zero labels, and touching ones have different labels; without these conditions entities merge or vanish (witness). pack raises ValueError if the lengths differ; otherwise OverflowError iff an intent, or the label or the end of a run, is not a C int; otherwise IndexError on the empty utterance. The laws above are for labels and intents that fit.", "quantifier": "all utterances, labels, datums", "why_tests_cant": "The claim ranges over an unbounded set of sequences and edit lists; a test suite samples finitely many.", "anchors": ["uttut/pipeline/utils.py:unpack_datum", "uttut/pipeline/utils.py:pack_to_datum"]}
{"id": "C47", "title": "Expansion by entities", "statement": "expand_by_entities of a datum with entities inside the utterance returns, without sampling, one datum for each combination of candidates, every combination once, and with sampling the combinations with the sampled indices; the candidates of an entity are its replacements in sorted order, then its own value if include_orig, or only its own value if it has no replacement. Each result is a valid Datum with the intents of the original, whose entities have the original labels in order, the chosen values and no replacements, and whose other text is unchanged. Results are distinct unless include_orig is set and a value is among its own replacements (witness). With include_orig there are as many combinations as the product of n_replacements of the entities.", "quantifier": "all datums, all sample choices", "why_tests_cant": "The claim ranges over an unbounded set of sequences and edit lists; a test suite samples finitely many.", "anchors": ["uttut/expand_by_entities.pyx:expand_by_entities", "uttut/toolkits/partition_by_entities.pyx"]}
{"id": "C48", "title": "k-th combination is a bijection", "statement": "get_kth_combination maps 0..prod-1 one-to-one onto the cartesian product of the iterables (with distinct elements), with the first iterable varying fastest: element i is number (k div product of the earlier lengths) mod length; other k wrap around modulo prod. k outside of int32 raises OverflowError, an empty iterable ZeroDivisionError.", "quantifier": "all lists of non-empty iterables and all k in int32", "why_tests_cant": "The claim ranges over an unbounded set of sequences and edit lists; a test suite samples finitely many.", "anchors": ["uttut/toolkits/get_kth_combination.pyx"]}
{"id": "C49", "title": "Partition by entities", "statement": "partition_by_entities of a datum with entities inside the utterance cuts it at the entity boundaries into pieces whose texts joined are the utterance: one piece per entity, in order and at its place, and one piece for each non-empty gap; a gap part is the one-element list of its text with label None, an entity part is the list of candidates (see C47) with the entity's label. For an entity that ends behind the utterance an empty part appears (witness).", "quantifier": "all valid datums", "why_tests_cant": "The claim ranges over an unbounded set of sequences and edit lists; a test suite samples finitely many.", "anchors": ["uttut/toolkits/partition_by_entities.pyx"]}
{"id": "C50", "title": "Entity overlap ratio", "statement": "entity_overlapping_ratio is 1 minus the average over the characters of the penalty (0 for equal labels, 1 if exactly one is 0, else the rate), up to floating point rounding, which for a rate in [0,1] and n characters (doubles, to nearest) makes a difference of at most (n+6)/2**54; for a rate in [0,1] it lies in [0,1], it is 1 for identical annotations (and only for these if the rate is above n(n+6)/2**54, or just not 0 if arithmetic is exact; a tiny rate can be lost, witness), it is symmetric; it raises DifferentUtterance for different utterances and ZeroDivisionError on the empty utterance. The per-character labels agree with unpack_datum for entities inside the utterance.", "quantifier": "all pairs of datums over one utterance", "why_tests_cant": "The claim ranges over an unbounded set of sequences and edit lists; a test suite samples finitely many.", "anchors": ["uttut/entity_overlapping_ratio.py"]}
{"id": "C51", "title": "Ordinal labels", "statement": "An OrdinalLabel is constructed iff the intent indices are 0..n-1 in any order and the entity indices with the not-entity index are too, else ValueError. humanize succeeds iff all labels of the datum are known, else KeyError; machanize(humanize(d)) == d then. machanize raises KeyError iff a name is unknown, the overlap error iff all are known and two entities overlap, and otherwise gives the described datum; humanize(machanize(raw)) is raw with names and entities sorted and replacements as sets, if no entity is called __NOT_ENTITY__ (else refuted by a witness). from_raw_dictionary numbers names in order of first appearance, leaving out not_entity_index, and succeeds iff that index is in 0..number of names (or a corner case for __NOT_ENTITY__ as a name).", "quantifier": "all raw dictionaries, all datums", "why_tests_cant": "The claim ranges over an unbounded set of sequences and edit lists; a test suite samples finitely many.", "anchors": ["uttut/transformers/ordinal_label.py"]}
{"id": "C52", "title": "MurmurHash model", "statement": "The hash of a byte string is MurmurHash3_x86_32 of it (32 bit arithmetic, all seeds and all lengths below 2**32) and lies in [0, 2**32); consistent_hash(key, n) is the hash of the utf-8 bytes of the key modulo n, so it lies in [0, n) for n > 0; keys that have no utf-8 form (surrogates) give 0. The utf-8 encoder is inverse to a strict decoder.", "quantifier": "all byte strings", "why_tests_cant": "The claim ranges over an unbounded set of sequences and edit lists; a test suite samples finitely many.", "anchors": ["uttut/pipeline/ops/utils/MurmurHash3.cpp", "uttut/pipeline/ops/utils/consistent_hash.pyx"]}
{"id": "C53", "title": "BERT basic pipeline", "statement": "For an input on which accent stripping succeeds, the tokens of the basic BERT pipe are non-empty and whitespace-free, and, when accent stripping changes no character, contain no ASCII capital and each CJK or punctuation character is a token of its own. Without that condition both fail: an accented capital such as U+00C9 comes out as an ASCII capital, U+2260 as a glued punctuation character. The SpanSubwords steps of the full and the word piece pipe keep (and serialize) the dictionary from each token of the vocabulary to its position, from 0 on.", "quantifier": "all strings", "why_tests_cant": "The claim ranges over an unbounded set of sequences and edit lists; a test suite samples finitely many.", "anchors": ["uttut/pipeline/bert/basic.py", "uttut/pipeline/bert/full.py"]}
{"id": "C54", "title": "StopwordsToWhitespace", "statement": "Scanning from left to right, the longest stopword that starts at the current position is replaced by one blank, otherwise the character is kept; labels of stopwords and of the blanks become 0 in both directions, all other labels survive the round trip.", "quantifier": "all strings, all labels", "why_tests_cant": "The claim ranges over an unbounded set of sequences and edit lists; a test suite samples finitely many.", "anchors": ["uttut/pipeline/ops/pattern_recognizers/stopwords_to_whitespace.py", "uttut/pipeline/ops/pattern_recognizers/stopwords.txt"]}
{"id": "C55", "title": "No label is invented", "statement": "Whatever labels are put into an aligner or into the aligner sequence of a pipe, in either direction: every label that comes out is 0 or one of the labels that were put in.", "quantifier": "all operators, pipes, inputs and label lists (any integers)", "why_tests_cant": "The claim ranges over an unbounded set of sequences and edit lists; a test suite samples finitely many.", "anchors": ["uttut/pipeline/ops/base.py:LabelAligner", "uttut/pipeline/ops/label_transducer.py", "uttut/pipeline/pipe.py", "uttut/pipeline/edit/label_propagation.pyx"]}
{"id": "C56", "title": "Equality and dictionaries of Entity and Datum", "statement": "Entity and Datum equality are equivalence relations: entities are equal iff label, value, start, end and the set of replacements are, datums iff utterance, set of intents and the list of entities are; datums built from the same parts in another order (distinct starts) are equal. Entity.from_dict(e.to_dict(), u) == e when the value of e is its slice of u; to_dict has the keys label, start, end, and replacements only if there are any. copy_intents gives equal intents.", "quantifier": "all entities, datums, set orders", "why_tests_cant": "The claim ranges over an unbounded set of sequences and edit lists; a test suite samples finitely many.", "anchors": ["uttut/elements.pyx:Entity", "uttut/elements.pyx:Datum"]}
{"id": "C57", "title": "Unique entities", "statement": "get_unique_entities returns every entity label that occurs in the data exactly once and nothing else.", "quantifier": "all lists of datums, all set orders", "why_tests_cant": "The claim ranges over an unbounded set of sequences and edit lists; a test suite samples finitely many.", "anchors": ["uttut/get_unique_entities.py"]}
{"id": "C58", "title": "The life of a ReplacementGroup", "statement": "For every sequence of calls of add and done on a ReplacementGroup (exceptions caught, any set order): add raises OverflowError exactly for offsets outside of unsigned int and has no effect for reversed intervals; until a done has succeeded, iteration, indexing, apply and being compared to raise RuntimeError; done raises TypeError iff str and list values are mixed, else ValueError iff two different added replacements overlap, else the group holds each added replacement exactly once, sorted, and apply is slice assignment; a failed done changes neither the contents nor the readability; an overlap can never be repaired; finished groups are equal iff the same replacements were added; indexing a finished group gives the items of its iteration, from the end for negative numbers, and IndexError outside; is_empty tells whether nothing was added. Applying a finished group to a sequence of the other type (text or list) than one of its values is a TypeError. Refuted: that a readable group is disjoint (add after done, or done(skip_sort=True)), that a group is unreadable after a failed done, that == is symmetric.", "quantifier": "all histories of calls, all set iteration orders, all value types", "why_tests_cant": "The claim ranges over all call sequences and set orders; a test tries a few.", "anchors": ["uttut/pipeline/edit/replacement.pyx:ReplacementGroup"]}
{"id": "C59", "title": "The life of a SpanGroup", "statement": "For every sequence of calls of add and done on a SpanGroup: add raises OverflowError exactly for offsets outside of unsigned int and has no effect for reversed spans; until a done has succeeded reading raises RuntimeError; done raises at most ValueError, and if it does not the group holds exactly the added spans (with repetitions), which tile [0, n) in order; done succeeds iff the added spans, stably sorted by end, tile [0, n) for some n, however many failed or successful dones came before; non-empty spans that form a tiling are accepted in whatever order they were added; a failed done changes neither contents nor readability; if two added spans share a position done never succeeds again; finished groups of non-empty spans are equal iff they are the same list; indexing a finished group gives the items of its iteration, from the end for negative numbers, and IndexError outside; len and is_empty count the added spans at any time. Refuted: that a readable group is a tiling (add after done) and that equal groups with empty spans cut a text in the same way.", "quantifier": "all histories of calls", "why_tests_cant": "The claim ranges over all call sequences; a test tries a few.", "anchors": ["uttut/pipeline/edit/span.pyx:SpanGroup"]}
{"id": "C60", "title": "Stored ordinal labels", "statement": "OrdinalLabel.deserialize(label.serialize()) gives the same label object (same dictionaries, in the same order, and the same not-entity index), and two labels have the same text only if they are equal, provided that no name contains a high surrogate directly followed by a low surrogate as separate characters. The text is printable ASCII whatever the names are and reads as a JSON object with exactly the three expected keys. deserialize performs the checks of the constructor. Refuted without the proviso: the label may change, reading may raise ValueError, and two labels may have the same text.", "quantifier": "all ordinal labels, all names (any code points)", "why_tests_cant": "The claim ranges over an unbounded set of sequences and edit lists; a test suite samples finitely many.", "anchors": ["uttut/transformers/ordinal_label.py:OrdinalLabel.serialize", "uttut/transformers/ordinal_label.py:OrdinalLabel.deserialize"]}
{"id": "C61", "title": "Operator factory", "statement": "For every sequence of registrations (errors caught): register raises KeyError iff the name was registered before and then changes nothing; looking a name up gives the class first registered under it, KeyError iff it was never registered; two factories are equal iff every name is bound to the same class in both, whatever the order of registration.", "quantifier": "all sequences of registrations", "why_tests_cant": "The claim ranges over all call sequences; a test tries a few.", "anchors": ["uttut/pipeline/ops/factory.py"]}
{"id": "C62", "title": "BERT pipes agree with the reference tokenizer on everyday text", "statement": "On every text of printable ASCII, tabs, line ends and Chinese characters (U+4E00 to U+9FA5) the basic and the full BERT pipe return exactly the tokens of the reference BasicTokenizer and FullTokenizer (the same vocabulary); more generally on every text without control characters, on which str.lower changes only A to Z and every character has one base character of its class. On other texts they differ: control characters, U+FFFD, U+001C, accented capitals, U+2260; for a Hangul syllable the pipe raises AssertionError.", "quantifier": "all such strings, all set orders, all python tables meeting the stated contract", "why_tests_cant": "The claim ranges over an unbounded set of sequences and edit lists; a test suite samples finitely many.", "anchors": ["uttut/pipeline/bert/basic.py", "uttut/pipeline/bert/full.py", "uttut/pipeline/bert/tests/tokenization.py:BasicTokenizer", "uttut/pipeline/bert/tests/tokenization.py:FullTokenizer"]}
{"id": "C63", "title": "WordPiece agrees with the reference tokenizer", "statement": "WhiteSpaceTokenizer followed by SpanSubwords returns exactly the tokens of the reference WordpieceTokenizer with the same vocabulary, unknown token and maximum length; so does the word piece pipe.", "quantifier": "all strings, vocabularies, unknown tokens, maximum lengths", "why_tests_cant": "The claim ranges over an unbounded set of sequences and edit lists; a test suite samples finitely many.", "anchors": ["uttut/pipeline/bert/word_piece.py", "uttut/pipeline/ops/span_subwords.py", "uttut/pipeline/bert/tests/tokenization.py:WordpieceTokenizer"]}
{"id": "C64", "title": "Constructors of the operators", "statement": "Each of the 27 operator classes accepts exactly the calls that python's calling convention allows for its documented signature (parameter names, order, defaults), TypeError otherwise (arguments of the documented types). However the same values are passed (by position, by keyword, or left to the default), the call gives the same outcome: the same exception, or equal operators that behave the same. Each argument takes its documented role: e.g. start_token and end_token of AddSosEos, maxlen and pad_token of Pad, shortest of the word operators (any value counts, as in bool()); the documented defaults are <sos>, <eos>, <pad>, <unk>, _num_, 200, False; Token2Index raises KeyError for an unk_token outside of the table and ValueError for indices that are not 0..n-1; AddEndToken refuses None and the empty text, the word operators None.", "quantifier": "all argument lists and keyword dicts", "why_tests_cant": "The claim ranges over an unbounded set of sequences and edit lists; a test suite samples finitely many.", "anchors": ["uttut/pipeline/ops/base.py:Serializable.__init_subclass__", "uttut/pipeline/ops/pad.py", "uttut/pipeline/ops/add_sos_eos.py", "uttut/pipeline/ops/token_to_index.py", "uttut/pipeline/ops/span_subwords.py", "uttut/pipeline/ops/pattern_recognizers/replace_a_with_b.py", "uttut/pipeline/ops/pure_num_to_token.py"]}
{"id": "C65", "title": "Operators written by users, with an __init__", "statement": "For every class derived from Operator that defines __init__(self, ...) with any parameters and defaults: the constructor raises TypeError iff python's calling convention does, else whatever the function raises; otherwise configs maps every parameter to the value it got and nothing else. from_dict with these configs gives the same object, and so does deserialize(serialize()) if the values are JSON values. Two objects are equal iff they got equal values for every parameter. deserialize refuses other JSON texts with the TypeErrors and KeyErrors of the library's operators.", "quantifier": "all signatures, all functions, all arguments", "why_tests_cant": "The claim ranges over all classes that users may write; a test defines a few.", "anchors": ["uttut/pipeline/ops/base.py:Serializable", "uttut/pipeline/ops/base.py:Operator.__eq__"]}
{"id": "C66", "title": "Operators written by users, without an __init__", "statement": "For every class that inherits the __init__ of another operator class: calls succeed and fail as for that class, but configs contains only the keyword arguments of the call. If all arguments are given by keyword the object can be read back; if a required parameter was given by position, reading back raises TypeError; if optional ones were, the object read back has the defaults instead and still compares equal. Refuted: that objects with different arguments are different, that objects can be read back, that what is read back has the same arguments.", "quantifier": "all signatures, all functions, all arguments", "why_tests_cant": "The claim ranges over all classes that users may write; a test defines a few.", "anchors": ["uttut/pipeline/ops/base.py:Serializable.__init_subclass__"]}
{"id": "C67", "title": "Class statements and the factory", "statement": "For every sequence of class statements deriving from Operator (exceptions caught): a statement raises KeyError iff an earlier one used the name, and then changes nothing; otherwise AssertionError iff a type (or, under Tokenizer and PatternRecognizer, the aligner class) is missing; the factory returns for each name the class of the first statement. A completed class without _transform cannot be instantiated (TypeError). Refuted: that a failed statement leaves nothing behind: the name is taken, so that the corrected statement raises KeyError, and from_dict makes objects of the unfinished class even if it is abstract.", "quantifier": "all sequences of class statements", "why_tests_cant": "The claim ranges over all sequences of class statements; a test tries a few.", "anchors": ["uttut/pipeline/ops/base.py:Serializable.__init_subclass__", "uttut/pipeline/ops/base.py:Operator.__init_subclass__", "uttut/pipeline/ops/tokenizers/base.py:Tokenizer.__init_subclass__", "uttut/pipeline/ops/factory.py"]}
{"id": "C68", "title": "Pipes of operators written by users run step by step", "statement": "For operators of any kind (any values, declared types, _transform functions and label aligners): a pipe built by any calls of add_op, failing ones included, has matching types between neighbours; transform_sequence succeeds exactly when every operator accepts what the one before returned and returns a value of its declared output type, and the intermediate results are these values in order; when it fails, only the first operator can have objected to the type of its input, otherwise the exception is the operator's own or a TypeError because the operator broke its declared output type; checkpoints of successful histories name the value after their operator, any other name raises KeyError; += runs one pipe after the other, or raises IndexError, TypeError or KeyError for its three reasons and changes nothing. The library's operators and pipes are an instance.", "quantifier": "all operators, all histories of calls, all inputs", "why_tests_cant": "User code is not available to a test suite; the claim holds for every operator class.", "anchors": ["uttut/pipeline/pipe.py:Pipe", "uttut/pipeline/ops/base.py:Operator.transform", "uttut/pipeline/intermediate.py"]}
{"id": "C69", "title": "Label alignment through pipes of operators written by users", "statement": "If every operator of a non-empty pipe gives its aligner the lengths of its input and output, then labels pushed forward (back) through the pipe have exactly the length of the input on one side and of the output on the other; labels of another length raise ValueError; if no aligner raises or returns labels of a wrong length then every label list of the right length is accepted; if every aligner's inverse undoes it then so does the whole pipe's; an aligner fails only with ValueError about lengths or with its own exception. Without the first assumption a pipe can transform a sequence and return aligners that refuse every label list (refuted claim).", "quantifier": "all operators and aligners, all pipes, all labels", "why_tests_cant": "User code is not available to a test suite; the claim holds for every label aligner.", "anchors": ["uttut/pipeline/pipe.py:LabelAlignerSequence", "uttut/pipeline/ops/base.py:LabelAligner", "uttut/pipeline/ops/base.py:NullLabelAligner"]}
{"id": "C70", "title": "Recognisers and character spacers written by users", "statement": "For every subclass of PatternRecognizer (any search function returning spans within the text from the position searched, any TOKEN, any two label functions): the output is the text with the successive matches replaced by TOKEN and everything else unchanged, whatever the order in which python iterates over sets, or the search comes to an empty match before the end and transform never returns; if TOKEN is not empty or no two matches touch, or if the function for the way back gives 0 where it is given no label and no text is deleted twice with everything between deleted, too, n labels are taken for n characters in either direction, labels outside of matches kept in place and those of a match mapped by the user's functions; another number of labels is a ValueError. If a text is deleted twice with everything between, taking labels back always raises AssertionError (so it is refuted that labels can always be taken back). For every subclass of AddWhitespaceAroundCharacter (any test): exactly the chosen characters get a space on both sides with label 0, and labels pushed forward and taken back are the original ones. All give their aligners the true lengths. The library's own subclasses are instances.", "quantifier": "all search functions, tokens, label functions, character tests, texts and labels", "why_tests_cant": "User code is not available to a test suite; the claim holds for every subclass.", "anchors": ["uttut/pipeline/ops/pattern_recognizers/base.py:PatternRecognizer", "uttut/pipeline/ops/pattern_recognizers/base.py:PatternRecognizerAligner", "uttut/pipeline/ops/add_whitespace_around_character.py:AddWhitespaceAroundCharacter"]}
{"id": "C71", "title": "Tokenizers written by users", "statement": "For every subclass of Tokenizer (any _tokenize, any two label functions): transform raises what _tokenize raises; it accepts the tokens iff they occur one after the other in the text, otherwise ValueError, and returns them unchanged; every token stands for the first place where it occurs after the token before, and this fixes the places. If the label functions give no labels to dropped pieces and as many as asked for on the way back: a token gets the most frequent label of its characters, characters get the label of their token, dropped characters what the user's function says; wrong numbers of labels are a ValueError, labels outside of 0..2^32-1 taken back an OverflowError, and forward their tokens get 0.", "quantifier": "all tokenizing functions, label functions, texts and labels", "why_tests_cant": "User code is not available to a test suite; the claim holds for every subclass.", "anchors": ["uttut/pipeline/ops/tokenizers/base.py:Tokenizer", "uttut/pipeline/ops/tokenizers/base.py:TokenizerAligner"]}
{"id": "C72", "title": "The summary of a pipe", "statement": "Pipe.summary prints one line per operator with str of the operator, in the order of the pipe. After k operators it shows a checkpoint iff a checkpoint has number k (the last one in the dict with that number), and only for k from 1 to the number of operators; for a pipe built by add and add_op this shows every checkpoint exactly once. The input type stands before the first operator, and the output type of an operator stands behind it iff it differs from its input type; the end gives input type -> output type (if there are operators) and the numbers of operators and checkpoints. No name can forge a line: the printed text determines the lines. Refuted: that all counted checkpoints are shown (those of the second pipe of += may not be).", "quantifier": "all pipes, all checkpoint names", "why_tests_cant": "The claim ranges over an unbounded set of sequences and edit lists; a test suite samples finitely many.", "anchors": ["uttut/pipeline/pipe.py:Pipe.summary"]}
{"id": "C73", "title": "The text of an operator", "statement": "If all arguments are None, bools, numbers of up to 40 characters or texts whose repr has up to 30, operators with the same str are the same: same class, same arguments, same behaviour. repr of a text determines the text and contains no control character. Longer texts and numbers are cut to 30 and 40 characters, the first and the last ones with dots between them; of a list longer than six only the first six items are shown; a dict in a list is shown with its four smallest keys in order. Refuted: that different operators always have different texts (only two items of a dict are shown), that equal operators have the same text (keyword order).", "quantifier": "all operators and arguments", "why_tests_cant": "The claim ranges over an unbounded set of sequences and edit lists; a test suite samples finitely many.", "anchors": ["uttut/pipeline/ops/base.py:Operator.__str__"]}
{"id": "C74", "title": "The texts of spans, replacements, intents and entities", "statement": "str and repr of a Span, str of a Replacement of text and repr of an Intent determine the object; repr of an Entity does if its value and replacements contain no comma, and its replacements no '>' and are not empty; repr of a ReplacementGroup the number of replacements; repr of a Replacement of text its start and end, and the whole object for a given annotation. Refuted: for Entity in general (two replacements y and z show like the single replacement 'y, z') and for repr of a Replacement with an arbitrary annotation.", "quantifier": "all spans, replacements, intents", "why_tests_cant": "The claim ranges over an unbounded set of sequences and edit lists; a test suite samples finitely many.", "anchors": ["uttut/pipeline/edit/span.pyx:Span", "uttut/pipeline/edit/replacement.pyx:Replacement", "uttut/elements.pyx:Intent", "uttut/elements.pyx:Entity"]}
{"id": "C75", "title": "Labels are opaque numbers", "statement": "Renaming labels consistently (0 stays 0, different labels get different names, names stay within the unsigned int range) commutes with everything: every operator's aligner and every pipe's aligners, forward and back, give the renamed result or the same exception; so do Pipe.transform, unpack_datum, pack_to_datum, the Datum constructor and expand_by_entities on the renamed datum, and entity_overlapping_ratio does not change. In particular ties are not broken by the size of the label. Refuted: that this holds for renamings that confuse two labels or that move 0.", "quantifier": "all operators, pipes, inputs, labels, datums and renamings", "why_tests_cant": "The claim relates two runs for all renamings; a test fixes the labels.", "anchors": ["uttut/pipeline/ops/label_transducer.py", "uttut/pipeline/edit/label_propagation.pyx", "uttut/pipeline/ops/base.py:LabelAligner", "uttut/pipeline/pipe.py:LabelAlignerSequence", "uttut/elements.pyx:Datum", "uttut/pipeline/utils.py:pack_to_datum", "uttut/pipeline/utils.py:unpack_datum", "uttut/expand_by_entities.pyx:expand_by_entities", "uttut/entity_overlapping_ratio.py:entity_overlapping_ratio"]}
{"id": "C76", "title": "Pipes that can be exchanged", "statement": "Two pipes are exchangeable on an input if they give the same sequence and treat all labels in the same way forward and back, errors included. Merging or stripping whitespace before WhiteSpaceTokenizer, EngTokenizer or ZhCharTokenizer changes nothing. Spaces around punctuation and WhiteSpaceTokenizer is EngTokenizer; spaces around CJK characters and EngTokenizer is ZhCharTokenizer; both and WhiteSpaceTokenizer is ZhCharTokenizer, in either order. Any recogniser of whole numbers changes places with any recogniser of decimal numbers, merging with stripping, the two spacers, and Lowercase with ten operators. Nine operators applied twice are the same as once. Pad n; Pad m is Pad m for m <= n. Token2Index changes places with Pad and AddSosEos if their tokens are replaced by the indices. CustomWordTokenizer is CharTokenizer where no word of two characters occurs. AddWhitespaceAroundWordnZhChar with Chinese words of one character is AddWhitespaceAroundCJK forward. Refuted: the latter on the way back; merging with spacers; IntTokenWithSpace with NumTokenWithSpace; a spacer twice; Pad 1; Pad 2.", "quantifier": "all texts, all labels", "why_tests_cant": "The claim compares two pipes on all texts and labels; a test fixes them.", "anchors": ["uttut/pipeline/ops/pattern_recognizers/base.py:PatternRecognizer", "uttut/pipeline/ops/pattern_recognizers/merge_whitespace_characters.py", "uttut/pipeline/ops/pattern_recognizers/strip_whitespace_characters.py", "uttut/pipeline/ops/pattern_recognizers/int_token.py", "uttut/pipeline/ops/pattern_recognizers/float_token.py", "uttut/pipeline/ops/add_whitespace_around_character.py", "uttut/pipeline/ops/add_whitespace_around_word_n_zhchar.py", "uttut/pipeline/ops/punctuation_except_endpoint_to_whitespace.py", "uttut/pipeline/ops/lowercase.py", "uttut/pipeline/ops/tokenizers/base.py", "uttut/pipeline/ops/pad.py", "uttut/pipeline/ops/token_to_index.py", "uttut/pipeline/ops/add_sos_eos.py"]}
{"id": "C77", "title": "Entities through the BERT pipes and back", "statement": "Where stripping accents replaces characters one by one and keeps whitespace (so for all printable ASCII and common Chinese text): the basic pipe treats all labels exactly as ZhCharTokenizer on the original text does, in both directions and errors included; the full and the word piece pipe as ZhCharTokenizer and WhiteSpaceTokenizer, followed by the word pieces. Labels that go through the pipe and back come back unchanged iff they fit an unsigned int, whitespace has label 0 and every word has one label. A datum whose entities are sequences of whole tokens without whitespace inside (positive labels; touching entities have different labels) comes back from transform, the aligner's inverse and pack_to_datum with the same utterance, intents and entities. Refuted: an entity of two words comes back as two entities; one that is part of a word grows or is lost.", "quantifier": "all texts, labels and data that meet the stated conditions", "why_tests_cant": "The claim is about eight operators in a row on all texts and labels, with an exact condition for what survives.", "anchors": ["uttut/pipeline/bert/basic.py", "uttut/pipeline/bert/full.py", "uttut/pipeline/bert/word_piece.py", "uttut/pipeline/ops/tokenizers/base.py", "uttut/pipeline/ops/span_subwords.py", "uttut/pipeline/pipe.py:Pipe.transform", "uttut/pipeline/utils.py:pack_to_datum"]}
{"id": "C78", "title": "Stored operators, pipes and labels are JSON, written by anybody", "statement": "Operator.serialize, Pipe.serialize and OrdinalLabel.serialize write JSON (the grammar of RFC 8259) of the documented objects. The deserialize methods read exactly the JSON texts, with any layout, escapes, order of members and further members, the last one counting if a member is repeated: an object with op_name and op_kwargs gives the operator of that name constructed with those arguments; steps that are such objects or strings with such an object, and checkpoints, give the pipe of these operators with these checkpoints, or TypeError if the types of neighbours do not match. A text that is not JSON is a ValueError, a missing member or an unknown operator a KeyError, something that is not an object a TypeError, and the first step that stands for no operator raises its own error. The same holds for operators written by users. Texts with floats, NaN or Infinity are not covered.", "quantifier": "all texts without floats, all operators and pipes", "why_tests_cant": "Files may be written or edited by hand; tests only read back what the library wrote.", "anchors": ["uttut/pipeline/ops/base.py:Operator.serialize", "uttut/pipeline/ops/base.py:Operator.deserialize", "uttut/pipeline/ops/base.py:Operator.from_dict", "uttut/pipeline/ops/factory.py:OperatorFactory", "uttut/pipeline/pipe.py:Pipe.serialize", "uttut/pipeline/pipe.py:Pipe.deserialize", "uttut/transformers/ordinal_label.py:OrdinalLabel.serialize", "uttut/transformers/ordinal_label.py:OrdinalLabel.deserialize"]}
{"id": "C79", "title": "Pipes are separate objects; Intermediates follow their pipe", "statement": "For every sequence of calls (constructors, add_op, +=, +, copy, slices, transform_sequence, get_from_checkpoint, changes of the caller's own lists and dicts, direct changes of the list p.steps and the dict p.checkpoints): only p.add_op, p += ... and direct changes of p.steps and p.checkpoints change the steps and checkpoints of p, whatever was made from p or p was made from; +, copy.copy, slices and Pipe() make a new pipe and change no other. This includes p += p and operators that are in several pipes. A direct change of p.steps or p.checkpoints is never checked and gives p exactly those operators or checkpoints. In a history without direct changes and without slices with a step, the types of neighbouring operators match in every pipe. An Intermediate answers with the checkpoints its pipe has at that moment: for a checkpoint that existed at the run it gives the same sequence for ever (unless p.checkpoints is changed directly), for one added later IndexError (in a history without direct changes), for others KeyError. Refuted: that an Intermediate is not affected by later changes of its pipe (KeyError becomes IndexError); that types match after an append to p.steps; with direct changes also: that an Intermediate keeps its checkpoints, and that a checkpoint added later raises.", "quantifier": "all sequences of calls, any number of pipes and operators", "why_tests_cant": "The claim is about which objects share lists and dicts after any history of calls; a test fixes a short history.", "anchors": ["uttut/pipeline/pipe.py:Pipe.add_op", "uttut/pipeline/pipe.py:Pipe.__iadd__", "uttut/pipeline/pipe.py:Pipe.__add__", "uttut/pipeline/pipe.py:Pipe.__copy__", "uttut/pipeline/pipe.py:Pipe.__getitem__", "uttut/pipeline/pipe.py:Pipe.transform_sequence", "uttut/pipeline/intermediate.py:Intermediate.get_from_checkpoint"]}
{"id": "C80", "title": "Operators share the lists and dicts they are given", "statement": "An operator is made from what the caller's lists and dicts hold at that moment, and changes of other objects never affect it. If the caller later changes a list or dict that was given as an argument, then _configs (so serialize, == and str) shows the current contents; Token2Index, Token2IndexwithHash and SpanSubwords act with the current contents, even where the constructor would refuse them; all other operators act as when they were made (if no list is given as shortest). An operator in a pipe is the same object: the pipe acts and stores as it does at the moment. Refuted, after such a change: that the stored operator acts as the operator itself (CustomWordTokenizer), that it can be read back (Token2Index: ValueError), that equal operators act alike.", "quantifier": "all operators, arguments and sequences of calls", "why_tests_cant": "The claim is about aliasing after any history of calls; tests build an operator and use it at once.", "anchors": ["uttut/pipeline/ops/base.py:Operator.__init_subclass__", "uttut/pipeline/ops/token_to_index.py:Token2Index", "uttut/pipeline/ops/token_to_index_with_hash.py:Token2IndexwithHash", "uttut/pipeline/ops/span_subwords.py:SpanSubwords", "uttut/pipeline/ops/tokenizers/custom_word_tokenizer.py", "uttut/pipeline/ops/add_whitespace_around_word_n_zhchar.py"]}
{"id": "C81", "title": "Datums, entities and intents are shared objects", "statement": "For every sequence of calls and assignments: only an assignment to an object's own attributes changes it, and a datum shows the current contents of the intents and entities it was given, in lists of its own. Datum(...) keeps the very objects of the caller, sorted; it fails or succeeds as for the current values. expand_by_entities of a datum with entities, pack_to_datum, machanize and copy_intents make new objects only, which share nothing with any object before or with each other, and change nothing; their results are those for the values. expand_by_entities of a datum without entities returns the datum itself. Comparing, unpacking, transforming, humanize and the overlap ratio give what they give for the current values and change nothing. Without assignments every datum meets the constructor's checks for ever. Refuted: that changing an entity of one datum never changes another one; that results of expand_by_entities are always independent of the datum; that a datum meets the checks after an assignment to one of its entities (unpack_datum: IndexError).", "quantifier": "all sequences of calls, any number of objects", "why_tests_cant": "The claim is about which objects are shared after any history of calls; a test fixes a short history.", "anchors": ["uttut/elements.pyx:Datum", "uttut/elements.pyx:Datum.copy_intents", "uttut/expand_by_entities.pyx:expand_by_entities", "uttut/pipeline/utils.py:pack_to_datum", "uttut/pipeline/utils.py:unpack_datum", "uttut/transformers/ordinal_label.py:OrdinalLabel.machanize"]}
{"id": "C82", "title": "Label transformers share the dicts they are given", "statement": "OrdinalLabel(a, b, n) checks the dicts a and b as they are at that moment and keeps references to them: at every later moment it humanizes, machanizes and serializes with what the caller's dicts hold then, and only changes of these two dicts affect it. Refuted: that what serialize writes can always be read back (ValueError after a change of a dict that the constructor would refuse).", "quantifier": "all dicts and sequences of calls", "why_tests_cant": "The claim is about aliasing after any history of calls.", "anchors": ["uttut/transformers/ordinal_label.py:OrdinalLabel"]}
{"id": "C83", "title": "Sequences and label lists of a run are shared objects", "statement": "For every sequence of calls and changes of lists by the caller: transform_sequence, the aligners and Intermediate never change a list; only the caller's own changes do. A run gives the values of the pipe for the current input; the first item of its Intermediate is the very input object, the last one is the very output object, and all lists but the input are new and distinct. LabelAlignerSequence.transform gives the same result for ever, whatever is changed afterwards. inverse_transform reads the input lists of the steps when it is called: it gives the same result as right after the run if nothing was changed, and also after any changes that make none of these lists shorter than at the run; otherwise it gives that result or ValueError, never other labels (the last two if SpanSubwords saw no two neighbouring empty words). The list returned is the very list given if all operators are Lowercase, PureNum2Token, Token2Index or Token2IndexwithHash (also for a pipe without operators), otherwise a new one. Refuted: that the input is not needed any more after the run (emptied, then inverse_transform: ValueError after Pad); that returned labels are independent of the given list; that changing the output does not change the Intermediate.", "quantifier": "all pipes, inputs, labels and sequences of calls", "why_tests_cant": "The claim is about aliasing after any history of calls; tests build a run and use it at once.", "anchors": ["uttut/pipeline/pipe.py:Pipe.transform_sequence", "uttut/pipeline/pipe.py:LabelAlignerSequence", "uttut/pipeline/intermediate.py:Intermediate", "uttut/pipeline/ops/base.py:LabelAligner", "uttut/pipeline/ops/base.py:NullLabelAligner", "uttut/pipeline/ops/pad.py:PadAligner", "uttut/pipeline/ops/span_subwords.py:SpanSubwordsAligner", "uttut/pipeline/ops/add_sos_eos.py:AddSosEosAligner", "uttut/pipeline/edit/lst2lst.py:apply", "uttut/pipeline/edit/lst2lst.py:inverse", "uttut/pipeline/edit/label_propagation.pyx:propagate_by_replacement_group"]}
{"id": "C84", "title": "Regular expressions: which texts are patterns and what they find", "statement": "For the covered part of python's pattern language (sets, classes, groups, alternatives, greedy and lazy repeats up to 1000, look-around, anchors): ReplaceAwithB(a, b) raises re.error exactly for the texts that are no pattern, given by a grammar that relates each pattern to one expression. A search gives the leftmost match in the meaning of the expression, or none if there is none; a greedy repeat of single characters takes as many as possible, a lazy one as few as possible; of two alternatives the first that matches counts; a+, a?, a?? and a{n+1,m+1} search as a a*, a|(empty), (empty)|a and a a{n,m}. Every expression can be written, and patterns can be put together: groups, sequences of groups, alternatives, repeats, look-around; a look-behind is refused iff the expression can take different numbers of characters; unbalanced parentheses, nothing to repeat and a repeated repeat are refused. The operators with a pattern of their own act on texts as ReplaceAwithB with that pattern and token. ReplaceAwithB replaces the leftmost matches one after the other; it ends if no match before the end of the text is empty, and never for the empty pattern and a non-empty text. The agreement of the runtime's re.compile with this reading is a hypothesis for the pattern in question.", "quantifier": "all patterns of the covered part, all texts", "why_tests_cant": "There are infinitely many patterns; the tests use one.", "anchors": ["uttut/pipeline/ops/pattern_recognizers/replace_a_with_b.py:ReplaceAwithB", "uttut/pipeline/ops/pattern_recognizers/base.py:PatternRecognizer._gen_forward_replacement_group", "uttut/pipeline/ops/lowercase.py", "uttut/pipeline/ops/pattern_recognizers/merge_whitespace_characters.py", "uttut/pipeline/ops/pattern_recognizers/strip_whitespace_characters.py", "uttut/pipeline/ops/pattern_recognizers/int_token.py", "uttut/pipeline/ops/pattern_recognizers/float_token.py", "uttut/pipeline/ops/pattern_recognizers/stopwords_to_whitespace.py", "uttut/pipeline/ops/pure_num_to_token.py"]}
{"id": "C85", "title": "ReplaceAwithB on plain texts is str.replace", "statement": "For a non-empty text t without special characters, or for re.escape(t): ReplaceAwithB(pattern, b) gives s.replace(t, b) (leftmost occurrences, one after the other), and its aligner moves the labels of the pieces as every ReplaceAwithB does (unless b is empty and the same text occurs twice with nothing else, or only other deleted words, between). For a single character every occurrence is replaced on its own; replacing c by d and then d by c gives the text back if d was not in it. For words joined by |, in parentheses or not, the first word of the list that occurs at the leftmost place is replaced; this is what StopwordsToWhitespace does with the words of its file. Refuted: that any text is replaced as a text (a dot is not); that the order of the words does not matter; that labels always come back (empty b and touching occurrences).", "quantifier": "all texts, words and replacements", "why_tests_cant": "The claim quantifies over all texts to be replaced; the tests use one pattern.", "anchors": ["uttut/pipeline/ops/pattern_recognizers/replace_a_with_b.py:ReplaceAwithB", "uttut/pipeline/ops/pattern_recognizers/base.py:PatternRecognizer", "uttut/pipeline/ops/pattern_recognizers/stopwords_to_whitespace.py:StopwordsToWhitespace"]}
{"id": "C86", "title": "The text of a Datum", "statement": "repr(Datum) shows the utterance, the intents and the entities in their order, each list as pprint writes it: on one line if that line has up to 80 characters, otherwise one item per line; six one-digit intents fit on a line. If the utterance is one line, no value has a comma and the replacements are not empty and have no comma and no >, datums with the same text are the same; with the same utterance and the same text they always have the same intents. Refuted: that the text determines the replacements or the utterance in general, and that equal datums have the same text (repeated intents).", "quantifier": "all datums", "why_tests_cant": "The claim ranges over an unbounded set of sequences and edit lists; a test suite samples finitely many.", "anchors": ["uttut/elements.pyx:Datum.__repr__"]}
{"id": "C87", "title": "The messages of exceptions", "statement": "Datum(...) with entities whose value is not the text at their place reports the first of them by place, with start and end; otherwise, if neighbours overlap, the first such pair. ReplacementGroup.done reports 'overlapped' or the number of the first new_value, in the order of the set, that has another type than the first one; SpanGroup.done reports overlaps first, then a first span that does not start at 0, then gaps; lst2str.apply reports a different number of tokens, or the first token whose length differs from its span. add_op and += report the two types or the repeated checkpoints; get_from_checkpoint, the operator factory and the label maps report the name or number that was looked up. Token2Index reports repeated indices first, then gaps, then the missing unk token, and an empty vocabulary gets python's own ValueError; OrdinalLabel reports the intents before the entities. In every case the message comes with the exception of the call, and iff it raises. Refuted: that the number in the message of ReplacementGroup.done is the place in the order of adding.", "quantifier": "all arguments of these calls", "why_tests_cant": "A test compares one message of one call; the claim says which message is given for every input with several faults.", "anchors": ["uttut/utils.py:msg_entity_wrong_position", "uttut/utils.py:msg_entity_overlapping", "uttut/elements.pyx:Datum", "uttut/pipeline/edit/replacement.pyx:ReplacementGroup.done", "uttut/pipeline/edit/span.pyx:SpanGroup.done", "uttut/pipeline/edit/lst2str.py:apply", "uttut/pipeline/pipe.py:Pipe.add_op", "uttut/pipeline/pipe.py:Pipe.__iadd__", "uttut/pipeline/intermediate.py:Intermediate.get_from_checkpoint", "uttut/pipeline/ops/factory.py:OperatorFactory", "uttut/pipeline/ops/token_to_index.py:Token2Index", "uttut/transformers/ordinal_label.py:OrdinalLabel"]}
{"id": "C88", "title": "What the library prints and warns about", "statement": "pack_to_datum writes two lines to the standard output: the positions where runs of equal labels begin, in order, and the same for the reversed labels; it does so whenever the lengths agree, the utterance is not empty and the intents are C ints, even if it raises afterwards, and writes nothing otherwise. len of a ReplacementGroup or SpanGroup and == with any object warn iff no call of done on the group succeeded; == with another group warns for that group too; is_empty, indexing and repr never warn. Pipe.add warns once per call, also if it raises, add_op never. Refuted: that lines are printed only if the call succeeds, that a group that does not warn has no overlapping replacements.", "quantifier": "all arguments, all sequences of calls", "why_tests_cant": "The tests look at return values; what is printed or warned after an arbitrary sequence of calls is not compared with anything.", "anchors": ["uttut/pipeline/utils.py:_get_start_indices", "uttut/pipeline/utils.py:pack_to_datum", "uttut/pipeline/edit/replacement.pyx:ReplacementGroup._warn_not_done", "uttut/pipeline/edit/span.pyx:SpanGroup._warn_not_done", "uttut/pipeline/pipe.py:Pipe.add"]}
{"id": "C89", "title": "Which inputs operators and pipes accept", "statement": "For every operator and every text or list of tokens and indices, transform raises exactly in these cases: TypeError for a list where a text is expected or the other way round; AssertionError in StripAccentToken if stripping accents changes the number of characters; TypeError in PureNum2Token, SpanSubwords and Token2IndexwithHash for the first element that is an index; OverflowError in Token2IndexwithHash for an unknown token if the vocabulary has 2^32 entries, in Pad for a negative maxlen or a list of 2^32 or more elements that is not of that length, in AddSosEos and AddEndToken for 2^32 or more elements; ReplaceAwithB does not return iff its search comes to an empty match before the end of the text. Everything else is accepted. Pipe.transform_sequence raises exactly what the first failing step raises on its input; Pipe.transform(datum) raises this or IndexError iff a non-empty entity reaches beyond the utterance (Datum allows some). A pipe of operators whose forms fit (text, list of tokens, list of tokens and indices) accepts every utterance and every datum with entities inside the utterance, unless some step is given 2^32 or more elements; one label per element comes out.", "quantifier": "all operators, inputs, reachable pipes and datums", "why_tests_cant": "A test can show that some inputs are accepted; the claim says of every input whether it is accepted and what is raised otherwise.", "anchors": ["uttut/pipeline/ops/base.py:Operator.transform", "uttut/pipeline/ops/strip_accent_token.py:StripAccentToken", "uttut/pipeline/ops/pure_num_to_token.py:PureNum2Token", "uttut/pipeline/ops/span_subwords.py:SpanSubwords", "uttut/pipeline/ops/token_to_index_with_hash.py:Token2IndexwithHash", "uttut/pipeline/ops/pad.py:Pad", "uttut/pipeline/ops/add_sos_eos.py:AddSosEos", "uttut/pipeline/ops/add_end_token.py:AddEndToken", "uttut/pipeline/ops/pattern_recognizers/base.py:PatternRecognizer", "uttut/pipeline/pipe.py:Pipe.transform", "uttut/pipeline/pipe.py:Pipe.transform_sequence", "uttut/pipeline/utils.py:unpack_datum"]}
{"id": "C90", "title": "Pipes that end with Pad and Token2Index give inputs of a fixed size", "statement": "If the last two steps are Pad(maxlen, pad) and Token2Index(vocabulary), transform(datum) gives maxlen indices and maxlen labels: the index of each of the first maxlen tokens (that of the unknown token if it is not in the vocabulary), then that of the pad token with label 0; all indices are between 0 and the size of the vocabulary. With operators before them whose forms fit, this is the result for every datum with entities inside the utterance (unless some step is given 2^32 or more elements). The pipe of README.md gives 5 indices between 0 and 7 and 5 labels for every such datum. Refuted: the output printed in README.md for its example (7 indices and labels, no token for the full stop): it is [0, 6, 2, 7, 2] with labels [0, 0, 0, 7, 0], and inverse_transform of the 7 labels printed there raises ValueError.", "quantifier": "all pipes of this form, all datums", "why_tests_cant": "The size has to hold for every utterance; tests look at a few.", "anchors": ["uttut/pipeline/ops/pad.py:Pad", "uttut/pipeline/ops/token_to_index.py:Token2Index", "uttut/pipeline/pipe.py:Pipe.transform", "README.md"]}
{"id": "C91", "title": "How long the results of operators and pipes can be", "statement": "The size of a text is its number of characters, that of a list the number of characters of its tokens, where indices and empty tokens count as one; a list has at most as many elements. If an operator accepts an input, its result is at most as large as the input, times 5 for IntToken, times 7 for IntTokenWithSpace and NumTokenWithSpace, times 3 for the float tokens, the spacers and word pieces (more if the unk token is longer), times the length of the token for PureNum2Token, times 1 + len(b) for ReplaceAwithB(a, b); Pad adds at most maxlen pad tokens, AddSosEos and AddEndToken add their tokens. So the output and all intermediate results of a pipe are bounded by a fixed multiple of the length of the utterance plus a constant. A pipe of operators whose forms fit accepts every input for which this bound is less than 2^32. The pipe of README.md gives 5 indices between 0 and 7 and 5 labels for every datum with entities inside the utterance and fewer than 2^27 characters.", "quantifier": "all operators, reachable pipes, inputs and datums", "why_tests_cant": "The claim bounds the memory of all runs; tests use short texts.", "anchors": ["uttut/pipeline/ops/base.py:Operator.transform", "uttut/pipeline/pipe.py:Pipe.transform_sequence", "uttut/pipeline/pipe.py:Pipe.transform", "uttut/pipeline/ops/pattern_recognizers/base.py:PatternRecognizer", "uttut/pipeline/ops/span_subwords.py:SpanSubwords", "uttut/pipeline/ops/pad.py:Pad", "uttut/pipeline/ops/add_sos_eos.py:AddSosEos", "uttut/pipeline/ops/add_whitespace_around_character.py", "uttut/pipeline/ops/tokenizers/base.py"]}
{"id": "C92", "title": "Exactly which labels come back through an operator", "statement": "For every operator and every input it accepts, the labels that realign and then its inverse give back unchanged are exactly these: all labels for Lowercase, StripAccentToken, the spacers, PureNum2Token, Token2Index, Token2IndexwithHash, AddSosEos, AddEndToken, for Pad if nothing is cut, and for SpanSubwords if no token is empty; for MergeWhiteSpaceCharacters, the number operators and ReplaceAwithB the labels that are equal within each replaced piece (and 0 there if the piece is replaced by nothing; none at all if ReplaceAwithB deletes a text twice and everything between); for StopwordsToWhitespace and PunctuationExceptEndpointToWhitespace those that are 0 on what becomes a space; for StripWhiteSpaceCharacters those that are 0 on what is stripped; for Pad those that are 0 on what is cut; for SpanSubwords those that are 0 on tokens without pieces (none at all if two neighbouring tokens are empty and the length limit is not negative: the inverse raises); for CharTokenizer the labels from 0 to 2^32 - 1; for CustomWordTokenizer those that are moreover equal within each token (the other tokenizers: C77). Labels that come back through every step of a pipe come back through the pipe; the converse holds if every labelling of the first part's result can be sent back and forth unchanged. A later step through which all labels come back does not change which labels come back through the pipe. For pipes of IntTokenWithSpace, FloatTokenWithSpace and NumTokenWithSpace in any number and order, then merging or stripping of whitespace, then WhiteSpaceTokenizer, EngTokenizer or ZhCharTokenizer the labels that come back are exactly those from 0 to 2^32 - 1 that are equal within each number that one of these operators replaces and, with these numbers blanked out, equal within each token and 0 on whitespace (if the letters of the replacement tokens are neither digits nor, for the underscore, whitespace). Pipes of list operators (PureNum2Token, Token2Index, Token2IndexwithHash, AddEndToken, AddSosEos, Pad) give back exactly the labels that are 0 on all elements that some Pad cuts off. If such operators follow merging or stripping of whitespace and WhiteSpaceTokenizer, EngTokenizer or ZhCharTokenizer, exactly those come back that are equal within tokens, 0 on whitespace and 0 on all tokens that are cut off; with number operators in front, too, the labels named above come back if those on tokens that are cut off are 0, and no others do if no token is cut off.", "quantifier": "all operators, inputs and labels", "why_tests_cant": "Tests send a few labels forward and other labels back; they do not say which labels are lost.", "anchors": ["uttut/pipeline/ops/base.py:Operator.transform", "uttut/pipeline/ops/label_transducer.py", "uttut/pipeline/edit/label_propagation.pyx", "uttut/pipeline/ops/pattern_recognizers/base.py:PatternRecognizer", "uttut/pipeline/ops/tokenizers/base.py", "uttut/pipeline/ops/pad.py:Pad", "uttut/pipeline/ops/span_subwords.py:SpanSubwords"]}
{"id": "C93", "title": "A second trip changes no label", "statement": "For every operator and every input: labels that are sent forward, back and forward again are the same as after the first trip forward, if no call raises; so the labels that came back once come back unchanged from then on. For Lowercase, StripAccentToken, the merging and stripping of whitespace, the tokenizers, PureNum2Token, Token2Index and Token2IndexwithHash even labels sent back first and then forward are unchanged. Both hold for pipes: the second for pipes of such operators, the first for pipes of such operators, then at most one operator of any kind, then operators that only keep or drop labels (spacers, stripping, stopwords and punctuation to whitespace, list operators). The three pipes of pipeline/bert settle, too. So do the pipe of the README and all pipes of the operators of the second kind, then IntTokenWithSpace, FloatTokenWithSpace and NumTokenWithSpace in any number and order, then merging, stripping or adding whitespace, then WhiteSpaceTokenizer, EngTokenizer or ZhCharTokenizer, then list operators that only keep or drop labels (if the letters of the replacement tokens are not digits). Refuted: that every pipe does (two ReplaceAwithB in a row can move labels further on every trip).", "quantifier": "all operators, pipes of these forms, inputs and labels", "why_tests_cant": "Tests send labels through once; the claim is about two trips for all labels.", "anchors": ["uttut/pipeline/ops/base.py:Operator.transform", "uttut/pipeline/ops/label_transducer.py", "uttut/pipeline/pipe.py:Pipe.transform_sequence", "uttut/pipeline/bert/basic.py", "uttut/pipeline/bert/full.py", "uttut/pipeline/bert/word_piece.py", "uttut/pipeline/edit/label_propagation.pyx"]}
{"id": "C94", "title": "Exactly which datums come back from a pipe", "statement": "Take a datum whose entities are inside a non-empty utterance, not empty, have labels above 0 and differ in label where they touch. If a pipe accepts its utterance, the datum can be recovered from what transform gives (the labels go back through the aligners, pack_to_datum gives the intents and all entities at their places, without replacements) exactly if its labels come back. For merging or stripping of whitespace, then WhiteSpaceTokenizer, EngTokenizer or ZhCharTokenizer, then any list operators this is so exactly if every entity consists of whole tokens without whitespace between them and no token that the rest of the pipe cuts off has a label. With IntTokenWithSpace, FloatTokenWithSpace and NumTokenWithSpace in front it is so if every entity consists of whole tokens and whole numbers without whitespace between them and no such token has a label; only then, if no token is cut off. For the basic and the full pipe of pipeline/bert (where stripping accents replaces characters one by one and keeps whitespace) and for the word piece pipe it is so exactly if the entities consist of whole tokens without whitespace between them. For the pipe of README.md such datums of fewer than 2^27 characters come back if the tokens from the fifth on have label 0. Refuted: that entities of whole tokens always come back from it (tokens that Pad cuts off).", "quantifier": "all datums of this kind, all pipes of these forms", "why_tests_cant": "The tests check single datums; the claim says of every datum whether it comes back.", "anchors": ["uttut/pipeline/pipe.py:Pipe.transform", "uttut/pipeline/utils.py:unpack_datum", "uttut/pipeline/utils.py:pack_to_datum", "uttut/pipeline/ops/tokenizers/base.py", "uttut/pipeline/ops/pattern_recognizers/base.py:PatternRecognizer", "uttut/pipeline/ops/pad.py:Pad", "uttut/pipeline/ops/add_sos_eos.py:AddSosEos", "uttut/pipeline/ops/add_end_token.py:AddEndToken", "uttut/pipeline/bert/basic.py", "uttut/pipeline/bert/full.py", "uttut/pipeline/bert/word_piece.py", "README.md"]}
{"id": "C95", "title": "Which raw data OrdinalLabel and Entity.from_dict accept", "statement": "For every python value made of dicts, lists, tuples, texts, integers, booleans and None (in which the utterance is not None and the replacements are texts) and every OrdinalLabel: machanize returns the datum that the value describes (loops go over lists, tuples, the characters of a text or the keys of a dict; booleans are integers; further keys are ignored; positions may be outside of the text), with intents sorted by label and entities by start, exactly if there is such a description and its entities do not overlap; if they overlap it raises the overlap error; otherwise it raises KeyError only if a key is missing or a name is unknown, TypeError only if something is of a wrong type, OverflowError only if a position does not fit in 32 bits, and nothing else; and none of these faults is in a value that describes a datum. The same for Entity.from_dict and, with names that are texts, for from_raw_dictionary, which raises ValueError exactly if the not-entity index does not fit. Refuted: that a text in place of a list of names is refused (its characters are taken as names).", "quantifier": "all raw values of any form and all ordinal labels", "why_tests_cant": "Tests try well-formed raw dictionaries; the claim is about every value that a JSON file can contain.", "anchors": ["uttut/transformers/ordinal_label.py:OrdinalLabel.machanize", "uttut/transformers/ordinal_label.py:OrdinalLabel.from_raw_dictionary", "uttut/elements.pyx:Entity.from_dict", "uttut/elements.pyx:Entity.__init__", "uttut/elements.pyx:Datum.__init__"]}
{"id": "C96", "title": "Results do not depend on the iteration order of sets", "statement": "Replacement groups are kept in sets, whose iteration order depends on the hash seed of the process. For every operator and every input, transform gives the same output and the same aligner, or raises the same exception, whatever the orders are, and the aligner gives the same labels forward and back, or raises the same exceptions, whatever the orders are - also where edits that delete neighbouring texts are undone, although these come in either order then. So do transform_sequence and transform of every pipe, with the same intermediate results, and the constructors, add and the deserialization of operators and pipes. The only exception is AddSosEos with two different tokens when it is given an empty list: there some order always gives another output. Refuted: that all pipes give the same output for all orders (AddSosEos after a tokenizer that finds no token).", "quantifier": "all operators, inputs, labels, pipes, datums and iteration orders", "why_tests_cant": "A test runs in a process with one hash seed; the claim is about all of them.", "anchors": ["uttut/pipeline/edit/replacement.pyx", "uttut/pipeline/edit/str2str.py", "uttut/pipeline/edit/lst2lst.py", "uttut/pipeline/ops/base.py:Operator.transform", "uttut/pipeline/ops/add_sos_eos.py:AddSosEos", "uttut/pipeline/pipe.py:Pipe.transform_sequence", "uttut/pipeline/pipe.py:Pipe.transform", "uttut/pipeline/edit/label_propagation.pyx"]}
{"id": "C97", "title": "Working piece by piece", "statement": "For a sequence in two parts, one after the other, an operator gives for the whole the results for the parts, one after the other, and its aligner takes the labels of the whole, forward and back, to the labels of the parts, one after the other (with the OverflowError of a part for the whole), whenever the cut is in a place of this kind: anywhere for Lowercase, AddWhitespaceAroundCJK, AddWhitespaceAroundPunctuation, PunctuationExceptEndpointToWhitespace, CharTokenizer, PureNum2Token, Token2Index and Token2IndexwithHash; not between two characters of whitespace for MergeWhiteSpaceCharacters; between two other characters, or after or before nothing but whitespace, for StripWhiteSpaceCharacters; not between two characters that are digits or points for the number operators; where the decomposition of the whole is that of the parts for StripAccentToken; not inside an occurrence of a word of the list for StopwordsToWhitespace, AddWhitespaceAroundWordnZhChar and CustomWordTokenizer; not between two characters of a word for WhiteSpaceTokenizer, EngTokenizer and ZhCharTokenizer; anywhere for SpanSubwords if no two neighbouring tokens of the whole are empty; for ReplaceAwithB with a non-empty replacement, where every search in the whole finds what the searches in the parts find: if the pattern has no anchors, word boundaries or lookaround, where no match reaches over the cut and none is empty there, and for a text or a list of words, not inside an occurrence. For MergeWhiteSpaceCharacters, StripWhiteSpaceCharacters and the last three tokenizers these are exactly the places where the output of the whole is that of the parts. A pipe does so, with all its intermediate sequences, if each step finds the cut in such a place; the pipes of pipeline/bert do so (output and labels) for every cut that is not between two characters of a word. Refuted: that a text may always be cut after a newline (StripWhiteSpaceCharacters), and a list anywhere (Pad); and for ReplaceAwithB the same claims for patterns with anchors and for the empty replacement.", "quantifier": "all texts and lists in two parts, all labels, all these operators and pipes of them", "why_tests_cant": "Tests transform single texts; the claim relates the results for a text to those for its parts, at every place of the cut.", "anchors": ["uttut/pipeline/ops/base.py:Operator.transform", "uttut/pipeline/ops/tokenizers/base.py", "uttut/pipeline/ops/pattern_recognizers/base.py:PatternRecognizer", "uttut/pipeline/ops/pattern_recognizers/strip_whitespace_characters.py", "uttut/pipeline/ops/pattern_recognizers/merge_whitespace_characters.py", "uttut/pipeline/edit/label_propagation.pyx", "uttut/pipeline/edit/span.pyx", "uttut/pipeline/pipe.py:Pipe.transform_sequence", "uttut/pipeline/bert/basic.py", "uttut/pipeline/bert/full.py", "uttut/pipeline/bert/word_piece.py"]}
{"id": "C98", "title": "Annotated texts put together", "statement": "Take two datums whose entities lie inside their utterances, and put them one after the other: the utterances are concatenated and the entities of the second move to the right by the length of the first. If the result has fewer than 2^31 characters, Datum accepts it (with any 32 bit intents). unpack_datum gives for it the labels of the two, one after the other. A pipe that works piece by piece at this cut (C97) gives for it the outputs and the labels of the two, one after the other, and takes labels back part by part. pack_to_datum on labels of the whole gives the entities of the two parts, put together, exactly if the labels on the two sides of the cut are different or 0. expand_by_entities gives for it every expansion of the first put together with every expansion of the second, the first varying fastest, as long as the expansions have fewer than 2^31 characters and are at most 2^31. partition_by_entities gives the parts of the first and then those of the second, except that a text after the last entity of the first and a text before the first entity of the second become one part. Calculated exactly, entity_overlapping_ratio of two annotations is the mean of the ratios of the two (non-empty) texts, weighted by their lengths. Refuted: that pack_to_datum always gives the entities of the parts (an entity that goes on over the cut), and that any two datums can be put together (positions that count from the end).", "quantifier": "all datums with entities inside their utterances, all pipes that work piece by piece there, all labels", "why_tests_cant": "Tests use single datums; the claim relates the results for a datum to those for its parts.", "anchors": ["uttut/elements.pyx:Datum.__init__", "uttut/pipeline/utils.py:unpack_datum", "uttut/pipeline/utils.py:pack_to_datum", "uttut/pipeline/pipe.py:Pipe.transform", "uttut/expand_by_entities.pyx:expand_by_entities", "uttut/toolkits/partition_by_entities.pyx:partition_by_entities", "uttut/entity_overlapping_ratio.py:entity_overlapping_ratio"]}
{"id": "C99", "title": "Comparing any two objects", "statement": "For any two objects among intents, entities, datums, spans, replacements, groups of them, operators, pipes, operator factories and objects that are not of the library (None, numbers, texts, …): a == b of two objects of the same kind is True exactly if their contents are the same (intents: the label; entities: label, value, position and the set of replacements; datums: the utterance, the set of intents and the entities in order; spans: start and end; replacements: start, end and new value, where a text is not equal to a list, the annotation does not matter; groups: the same elements and as many of them; operators: the class and the arguments; pipes: equal operators in order and the same checkpoints; factories: the same classes under the same names), except that a group that is not finished on the right hand side is a RuntimeError. Between objects of different kinds it is never True except for an Intent on the left and an Entity on the right with the same label: an entity or datum raises TypeError; an intent (with anything but an entity), a replacement and a pipe raise AttributeError; the others answer False. The class of the left operand decides, or the right one if the left is not of the library. a != b is the negation, with the same exceptions. Every object is equal to itself (an unfinished group raises RuntimeError); == is transitive, and symmetric between finished objects of the same kind. hash works on intents, spans and replacements and is a TypeError for all others; equal hashable objects have equal hashes. The hash of an intent is its label, of a span the hash of the pair of start and end, and of a replacement the lowest 32 bits of that, as a signed number (-2 for -1). Refuted: that == is symmetric (Intent == Entity is True, Entity == Intent is a TypeError; Span == Replacement is False, Replacement == Span an AttributeError), and that of two equal objects both or none can be hashed.", "quantifier": "all pairs and triples of objects", "why_tests_cant": "Tests compare a few objects of the same kind; the claim is about every pair of kinds and all contents.", "anchors": ["uttut/elements.pyx:Entity.__eq__", "uttut/elements.pyx:Intent.__eq__", "uttut/elements.pyx:Intent.__hash__", "uttut/elements.pyx:Datum.__eq__", "uttut/pipeline/edit/span.pyx", "uttut/pipeline/edit/replacement.pyx", "uttut/pipeline/pipe.py:Pipe.__eq__", "uttut/pipeline/ops/base.py:Operator.__eq__", "uttut/pipeline/ops/factory.py:OperatorFactory.__eq__"]}
{"id": "C100", "title": "What can be read back from the output", "statement": "WhiteSpaceTokenizer, EngTokenizer and ZhCharTokenizer give the same tokens again for their own tokens joined by blanks. These joined tokens are what merging and stripping of whitespace makes of the text (after AddWhitespaceAroundPunctuation, and AddWhitespaceAroundCJK, for the other two), and two texts have the same tokens exactly if this makes the same of both. CharTokenizer, CustomWordTokenizer, AddWhitespaceAroundCJK, AddWhitespaceAroundPunctuation, AddSosEos and AddEndToken never give the same output for different inputs; Pad does not for lists that fit and do not end with the padding. When the pieces that SpanSubwords gives are put together again (a piece that begins with ## continues the word before it), every token comes back, the unknown token in place of those that the vocabulary cannot spell, if no token is empty and neither a token nor the unknown token begins with ##; so do the words of the text from the output of the word piece pipe, whose whole words joined by blanks are then, if all are spelled, the text with merged and stripped whitespace, and the tokens of the basic pipe from the output of the full pipe. The indices of Token2Index read in its dictionary give back every token it has, the unknown token for the others; Token2IndexwithHash gives some two different unknown tokens the same index, whatever the dictionary (of fewer than 2^32 tokens) is. The basic pipe gives the same tokens again for its own tokens joined by blanks if stripping accents changes nothing. Refuted: that the other operators tell all inputs apart, that padding, that pieces of tokens beginning with ## can be read back, and that the basic pipe always gives the same tokens again (an accented capital).", "quantifier": "all texts, tokens, vocabularies and dictionaries", "why_tests_cant": "Tests compare single outputs; the claim says which inputs an output can come from.", "anchors": ["uttut/pipeline/ops/tokenizers/base.py", "uttut/pipeline/ops/pattern_recognizers/base.py:PatternRecognizer", "uttut/pipeline/ops/pad.py:Pad", "uttut/pipeline/ops/add_sos_eos.py:AddSosEos", "uttut/pipeline/ops/add_end_token.py:AddEndToken", "uttut/pipeline/ops/span_subwords.py:SpanSubwords", "uttut/pipeline/ops/token_to_index.py:Token2Index", "uttut/pipeline/ops/token_to_index_with_hash.py:Token2IndexwithHash", "uttut/pipeline/bert/basic.py", "uttut/pipeline/bert/full.py", "uttut/pipeline/bert/word_piece.py"]}
{"id": "C101", "title": "The greatest number of elements that operators and pipes can give", "statement": "For an input of n elements that the operator accepts the output has at most this many elements: n + 4*((n+1)//2) for IntToken, n + 6*((n+1)//2) for IntTokenWithSpace and NumTokenWithSpace, n + 4*((n+1)//4) for FloatToken, n + 6*((n+1)//4) for FloatTokenWithSpace, 3n for the spacers, n*(1+len(b)) for ReplaceAwithB(a, b), (n+1)//2 for WhiteSpaceTokenizer, and n for the other operators on texts, PureNum2Token and the indexers; Pad gives exactly maxlen elements, AddEndToken n+1, AddSosEos n+2 (at most 2 for an empty list), Lowercase, PunctuationExceptEndpointToWhitespace, StripAccentToken, CharTokenizer, PureNum2Token, Token2Index and Token2IndexwithHash exactly n. For MergeWhiteSpaceCharacters, StripWhiteSpaceCharacters, StopwordsToWhitespace, the five number operators, the two character spacers and the tokenizers for whitespace, English and Chinese there is for every n an input of n characters that reaches the bound. The character spacers add exactly two characters for each character of their class. SpanSubwords gives at most one piece for each character of its tokens (one for an empty token), and at least one for each non-empty token. A pipe without SpanSubwords stays within the bounds of its steps, one after the other; the pipes of pipeline/bert never give more tokens than the text has characters (the full pipe: if decomposition and the removal of marks keep the number of whitespace characters).", "quantifier": "all operators, reachable pipes and inputs, all lengths n", "why_tests_cant": "Tests use short texts; the claim is about the longest output among all inputs of each length.", "anchors": ["uttut/pipeline/ops/base.py:Operator.transform", "uttut/pipeline/ops/pattern_recognizers/base.py:PatternRecognizer", "uttut/pipeline/ops/span_subwords.py:SpanSubwords", "uttut/pipeline/ops/pad.py:Pad", "uttut/pipeline/ops/add_sos_eos.py:AddSosEos", "uttut/pipeline/ops/add_end_token.py:AddEndToken", "uttut/pipeline/ops/add_whitespace_around_character.py", "uttut/pipeline/ops/tokenizers/base.py", "uttut/pipeline/pipe.py:Pipe.transform_sequence", "uttut/pipeline/bert/basic.py", "uttut/pipeline/bert/full.py", "uttut/pipeline/bert/word_piece.py"]}
{"id": "C102", "title": "Labels from values of any form", "statement": "OrdinalLabel(i, e, n) with arguments made of dicts with text keys, lists, tuples, texts, integers, booleans and None in any form: it is accepted exactly if i and e are dicts, the values of i are the numbers 0, 1, 2, ... (each once, in any order), and so are n and the values of e other than that of the name __NOT_ENTITY__; True counts as 1 and False as 0. The value that e has for __NOT_ENTITY__ is never looked at and can be anything. Otherwise it raises AttributeError if i is no dict, and TypeError or ValueError if it is one; if there are no lists or tuples among the values, then TypeError exactly if the values of i cannot be sorted (two or more that are neither all numbers nor all texts), or if those are as they should be and e is no dict or the values of e and n cannot be sorted, and ValueError in all other cases. An accepted object (in which the value for __NOT_ENTITY__, if there is one, is also a number) humanizes and machanizes as the one made from integers does, with the same exceptions. OrdinalLabel.deserialize of a text raises ValueError if it is not JSON, TypeError if it does not stand for a dict, KeyError if one of the keys intent2index, entity2index and not_entity_index is missing, and otherwise makes the object with these three values, or raises what its constructor raises. It reads back what serialize wrote, booleans included. Refuted: that all values in the dict of entities of an accepted object are numbers.", "quantifier": "all values for the arguments, all JSON texts, datums and raw data", "why_tests_cant": "Tests construct labels from a few dicts of integers; the claim is about every JSON text.", "anchors": ["uttut/transformers/ordinal_label.py:OrdinalLabel.__init__", "uttut/transformers/ordinal_label.py:OrdinalLabel.is_valid_mapping", "uttut/transformers/ordinal_label.py:OrdinalLabel.deserialize", "uttut/transformers/ordinal_label.py:OrdinalLabel.serialize", "uttut/transformers/ordinal_label.py:OrdinalLabel.humanize", "uttut/transformers/ordinal_label.py:OrdinalLabel.machanize"]}
{"id": "C103", "title": "Equal datums can stand for each other", "statement": "For two datums d == d' every function of the library gives results that are the same or equal again, or raises the same exception for both: unpack_datum gives the same utterance and entity labels and the same set of intents; Pipe.transform gives the same output, entity labels, aligners and intermediate sequences and the same set of intents, for every pipe; partition_by_entities gives the same parts and labels; expand_by_entities gives equal datums one by one, for every sampling function; entity_overlapping_ratio gives the same number, for equal datums in both places; get_unique_entities the same labels for lists of equal datums; humanize gives the same raw data up to the order and number of the intent names and the order of replacements, and machanize makes equal datums of such raw data. Datum(u, intents, entities) gives equal datums for the same set of intents and equal entities; pack_to_datum gives the very same datum for the same set of intents; Entity.to_dict gives the same dict up to the order of the replacements for equal entities. All this holds whatever the iteration orders of the sets are. Refuted: that equal datums without repeated intents give the same list of intents (-1 and -2, which have the same hash).", "quantifier": "all pairs of equal datums and entities, all pipes, sampling functions, ordinal labels and iteration orders", "why_tests_cant": "Tests call a function on one object; the claim compares the results for all objects that are equal.", "anchors": ["uttut/elements.pyx:Datum.__init__", "uttut/elements.pyx:Datum.__eq__", "uttut/elements.pyx:Entity.__eq__", "uttut/elements.pyx:Entity.to_dict", "uttut/pipeline/utils.py:unpack_datum", "uttut/pipeline/utils.py:pack_to_datum", "uttut/pipeline/pipe.py:Pipe.transform", "uttut/expand_by_entities.pyx:expand_by_entities", "uttut/toolkits/partition_by_entities.pyx:partition_by_entities", "uttut/entity_overlapping_ratio.py:entity_overlapping_ratio", "uttut/transformers/ordinal_label.py:OrdinalLabel.humanize", "uttut/transformers/ordinal_label.py:OrdinalLabel.machanize"]}
{"id": "C104", "title": "Operators written by users, with any parameters", "statement": "For every operator class whose __init__ has ordinary parameters, *rest, keyword-only parameters and **options in any combination: a call fails with TypeError iff python cannot bind the arguments (the keyword self included), otherwise as __init__ does. configs then has every ordinary parameter with its value, given or default, and the keywords given for keyword-only parameters and options, and nothing else: no argument of *rest and no default of a keyword-only parameter. from_dict(configs) runs __init__ on the same values without those of *rest, so that the object comes back, also through JSON, if there were none. Objects of different classes are different; two objects of a class are equal iff the ordinary parameters and the options are equal and the same keyword-only parameters were given, with equal values. With an inherited __init__ configs is the keywords, and reading back raises TypeError if a required parameter was given by position. Refuted: that objects with different arguments are different, that an object is read back with its arguments or at all (both *rest), that objects with the same arguments are equal (a keyword-only default written out).", "quantifier": "all signatures, all argument lists and keyword dicts, all bodies of __init__", "why_tests_cant": "The wrapper handles each kind of parameter in its own way; the tests only have ordinary ones.", "anchors": ["uttut/pipeline/ops/base.py:Serializable.__init_subclass__", "uttut/pipeline/ops/base.py:Serializable.from_dict", "uttut/pipeline/ops/base.py:Serializable.serialize", "uttut/pipeline/ops/base.py:Operator.__eq__"]}
{"id": "C105", "title": "Only the words that occur matter", "statement": "For CustomWordTokenizer and AddWhitespaceAroundWordnZhChar the result of transform on a text (output, and labels both ways) depends only on which non-empty words of user_words occur in the text: two word lists that agree on those give the same. So words that do not occur can be added (the only possible failure is the constructor's AttributeError for a list with a repeated word), and the order of user_words does not matter: with the words in another order the constructor raises the same exception or the operator does the same on every text. For CustomWordTokenizer with shortest=False, adding words can only make the first token longer. SpanSubwords depends only on which beginnings of the tokens are in the vocabulary and which of their other parts are, with ## in front; it leaves non-empty tokens of the vocabulary that are not too long as they are. Token2Index depends only on the entries of the tokens and of the unknown token; a dict with more entries gives the same for tokens that did not join it. Token2IndexwithHash depends on the entries of the tokens and, if one of them is not a key, on the number of entries. Two pipes with as many steps, whose steps do the same on what each receives, give the same output, aligners and intermediate results. False are: one more word never gives more tokens; one more word never makes the first token shorter with shortest=True; a word that is spelled with the vocabulary stays spelled when the vocabulary grows; one more entry never changes the index of another token with Token2IndexwithHash.", "quantifier": "for all word lists, vocabularies, dicts, texts and token lists, both settings of shortest, and all pipes", "why_tests_cant": "tests use one word list; which of the words matter for an input, and what a larger list can change, is a statement about all pairs of lists", "anchors": ["uttut/pipeline/ops/tokenizers/custom_word_tokenizer.py", "uttut/pipeline/ops/add_whitespace_around_word_n_zhchar.py", "uttut/pipeline/ops/utils/trie.py", "uttut/pipeline/ops/span_subwords.py", "uttut/pipeline/ops/token_to_index.py", "uttut/pipeline/ops/token_to_index_with_hash.py", "uttut/pipeline/pipe.py"]}
{"id": "C106", "title": "Labels keep their order", "statement": "For every operator of the library and every pipe of them, transforming labels forth and back never exchanges entities: each label other than 0 of the result comes from a place in the given labels, and later places of the result come from later places, or the same. So if all places of a label a stand before all places of a label b (neither is 0), they do so in the result. The labels other than 0, read from left to right with equal neighbours counted once, are those of the given labels with some left out: none is added, none repeated after another, none exchanged. For a datum whose entities lie inside the utterance, the labels that Pipe.transform gives are read as the labels of its entities with some left out, and the entities of a datum that is packed from labels that were transformed back have the labels of the model's output with some left out. propagate_by_replacement_group has the property for every transducer that has it, and so have recognisers, character spacers and tokenizers written by users if their transducers have it, and pipes of any operators whose aligners have it. False are: recognisers written by users have it whatever their transducers are; no label is left out (IntToken on two digits with different labels); an entity stays in one piece; labels that had another between them still have; the order also holds between a label and 0; entities may also have negative positions.", "quantifier": "for all operators, reachable pipes, inputs, label lists and datums", "why_tests_cant": "tests compare single label lists; that no input can exchange two entities is a statement about all inputs and all orders of operators", "anchors": ["uttut/pipeline/ops/base.py", "uttut/pipeline/edit/label_propagation.pyx", "uttut/pipeline/pipe.py:Pipe.transform", "uttut/pipeline/utils.py:unpack_datum", "uttut/pipeline/utils.py:pack_to_datum"]}
{"id": "C107", "title": "Which outputs are possible", "statement": "The outputs of these operators are exactly the following, for all inputs that they accept. Lowercase: the texts without ASCII capitals. MergeWhiteSpaceCharacters: the texts in which all whitespace is single blanks. StripWhiteSpaceCharacters: the texts without whitespace at either end. PunctuationExceptEndpointToWhitespace: the texts without punctuation other than points. StopwordsToWhitespace: the texts in which no stopword occurs. IntToken, IntTokenWithSpace and NumTokenWithSpace: the texts in which no longest run of digits and points consists of digits only; FloatToken and FloatTokenWithSpace: in which none is digits, a point, digits. Each of these operators, and Pad, leaves exactly those texts or lists as they are that it can give. AddWhitespaceAroundCJK and AddWhitespaceAroundPunctuation: the texts in which every such character has a blank on both sides that it shares with no other such character; they leave exactly the texts without such characters as they are. WhiteSpaceTokenizer, EngTokenizer and ZhCharTokenizer: all lists of tokens that are non-empty words without whitespace, punctuation (and CJK characters) or, for the latter two, single characters of these; CharTokenizer: all lists of single characters. Pad: all lists of maxlen elements. AddEndToken: all lists of at most 2**32 elements that end with the token; AddSosEos: all lists of 3 to 2**32+1 elements that begin and end with the tokens, and the one it gives for an empty list. PureNum2Token: all lists of tokens without purely numeric ones, and with the given token at any places. Token2Index and Token2IndexwithHash: all lists of the numbers from 0 up to the size of the dict, exclusive. CustomWordTokenizer gives only listed words and single characters. In a pipe each intermediate result, and the last one, has the form of the operator that gave it. False are: the output of IntToken has no digits; CustomWordTokenizer can give every list of listed words and single characters; AddWhitespaceAroundCJK leaves a text as it is if all CJK characters have blanks around them; the output of PureNum2Token has no purely numeric token; the output of AddSosEos always begins with the first token; what ReplaceAwithB replaces is not in its output.", "quantifier": "for all inputs, word lists, dicts, lengths and pipes", "why_tests_cant": "that a model behind the pipe can receive nothing else, and can receive everything of the form, is a statement about all inputs", "anchors": ["uttut/pipeline/ops/lowercase.py", "uttut/pipeline/ops/pattern_recognizers/merge_whitespace_characters.py", "uttut/pipeline/ops/pattern_recognizers/strip_whitespace_characters.py", "uttut/pipeline/ops/punctuation_except_endpoint_to_whitespace.py", "uttut/pipeline/ops/pattern_recognizers/stopwords_to_whitespace.py", "uttut/pipeline/ops/pattern_recognizers/int_token.py", "uttut/pipeline/ops/pattern_recognizers/float_token.py", "uttut/pipeline/ops/tokenizers/whitespace_tokenizer.py", "uttut/pipeline/ops/tokenizers/eng_tokenizer.py", "uttut/pipeline/ops/tokenizers/zh_char_tokenizer.py", "uttut/pipeline/ops/tokenizers/char_tokenizer.py", "uttut/pipeline/ops/tokenizers/custom_word_tokenizer.py", "uttut/pipeline/ops/add_whitespace_around_character.py", "uttut/pipeline/ops/pad.py", "uttut/pipeline/ops/add_end_token.py", "uttut/pipeline/ops/add_sos_eos.py", "uttut/pipeline/ops/pure_num_to_token.py", "uttut/pipeline/ops/token_to_index.py", "uttut/pipeline/ops/token_to_index_with_hash.py", "uttut/pipeline/pipe.py:Pipe.transform_sequence"]}
{"id": "C108", "title": "Which predicted labels stick", "statement": "A model gives labels for the output of an operator or pipe; sent back with inverse_transform and forward again with transform, exactly the following are the same as before (all others are changed, or raise). They must be as many as the output has elements, and: for Lowercase, StripAccentToken, MergeWhiteSpaceCharacters, StripWhiteSpaceCharacters, PureNum2Token, Token2Index and Token2IndexwithHash nothing else; for tokenizers every label is in 0 to 2**32-1; for IntToken and FloatToken each new token has one label; for the variants with spaces the blanks have 0 and what is between them one label; for AddWhitespaceAroundCJK, AddWhitespaceAroundPunctuation and AddWhitespaceAroundWordnZhChar the blanks that are put around a character or word have 0; for StopwordsToWhitespace and PunctuationExceptEndpointToWhitespace what replaces has 0; for ReplaceAwithB each replacement has one label, and 0 if it stands for an empty text; for Pad, AddEndToken and AddSosEos what is added has 0; for SpanSubwords the pieces of a token have one label. None stick for ReplaceAwithB and SpanSubwords where sending back raises AssertionError. For pipes of Pad, AddEndToken, AddSosEos, PureNum2Token and index operators: the places to which no element is put have 0. For pipes of Lowercase, StripAccentToken, MergeWhiteSpaceCharacters and StripWhiteSpaceCharacters in any number and order, a tokenizer, and such list operators: the same, with labels in 0 to 2**32-1. For the three pipes of pipeline/bert: labels in 0 to 2**32-1 and, with word pieces, one label for the pieces of a token. For the pipes of C93 that settle (that of the README among them): the labels that can be sent back and that transform gives for some labels of the input. The datum that is packed from labels sent back is accepted by Pipe.transform of the same pipe, which gives the same output, aligners and set of intents, and the predicted labels again exactly if they stick. False are: every label list that can be sent back sticks; label lists that come from labels of the input stick in every pipe.", "quantifier": "for all operators, the pipes named, reachable pipes for the datum, inputs and label lists", "why_tests_cant": "tests send labels of a few outputs back; which of all predictions are kept, and that no other is, is a statement about all label lists", "anchors": ["uttut/pipeline/ops/base.py", "uttut/pipeline/edit/label_propagation.pyx", "uttut/pipeline/pipe.py:Pipe.transform", "uttut/pipeline/utils.py:pack_to_datum", "uttut/pipeline/ops/pad.py", "uttut/pipeline/ops/add_sos_eos.py", "uttut/pipeline/ops/add_end_token.py", "uttut/pipeline/ops/span_subwords.py", "uttut/pipeline/ops/pattern_recognizers/replace_a_with_b.py", "uttut/pipeline/ops/tokenizers/base.py", "uttut/pipeline/ops/add_whitespace_around_character.py", "uttut/pipeline/bert/basic.py", "uttut/pipeline/bert/full.py", "uttut/pipeline/bert/word_piece.py"]}
{"id": "C109", "title": "Base classes in the factory", "statement": "Importing uttut.pipeline.ops also registers the base classes Operator, PatternRecognizer, AddWhitespaceAroundCharacter and Tokenizer. from_dict, deserialize and Pipe.add with the name Operator always raise TypeError; with the three other names they build an object exactly if there are no arguments, and raise TypeError otherwise; all other names do what they do without the base classes. transform of a Tokenizer raises NotImplementedError for every text, that of a PatternRecognizer AttributeError for every text but the empty one and TypeError for that, that of an AddWhitespaceAroundCharacter NotImplementedError for every text but the empty one; all raise TypeError for lists. AddWhitespaceAroundCharacter gives the empty text for the empty text, with labels [] both ways, and ValueError for other labels. The three take texts, and give texts, but the Tokenizer lists: Pipe.add accepts them, and what follows them, accordingly, and raises TypeError otherwise with the pipe unchanged. So a pipe with base classes in it runs exactly if all of them are AddWhitespaceAroundCharacter and receive the empty text and the pipe without them runs; its output is then the same and labels of the right number are mapped the same both ways. It fails with the exception of the first step that fails. A pipe with one of the other two fails on every input, though it could be built. Pipes with base classes, and the objects, are read back after serialize; two of the objects are equal exactly if they are of the same class, and never equal to an operator of the library; pipes of library operators run, grow and compare as before.", "quantifier": "for all names, keyword dicts, JSON values, lists of steps, inputs and labels", "why_tests_cant": "no test gives the factory the name of a base class; that nothing else changes is a statement about all pipes", "anchors": ["uttut/pipeline/ops/base.py:Serializable.__init_subclass__", "uttut/pipeline/ops/base.py:Serializable.from_dict", "uttut/pipeline/ops/base.py:Operator.transform", "uttut/pipeline/ops/factory.py", "uttut/pipeline/ops/pattern_recognizers/base.py:PatternRecognizer", "uttut/pipeline/ops/add_whitespace_around_character.py:AddWhitespaceAroundCharacter", "uttut/pipeline/ops/tokenizers/base.py:Tokenizer", "uttut/pipeline/pipe.py:Pipe.add"]}
{"id": "C110", "title": "Which outputs word lists and vocabularies allow", "statement": "CustomWordTokenizer turns a text into a list of tokens exactly if the text is the tokens joined and each token is the longest word of user_words (with shortest=True the shortest) that begins at its place, or a single character where no word begins; so these lists are exactly its possible outputs, and each comes from one text only. AddWhitespaceAroundWordnZhChar turns a text into another exactly if the text is such tokens joined and the other is the same tokens joined after putting a blank on both sides of each token that is a listed word or a CJK character. The possible outputs of SpanSubwords are exactly the lists that are made of these, in any number and order: the unknown token alone; and the parts of a text of at most maxlen characters, each not empty, with ## in front of all but the first, each in the vocabulary and the longest such beginning of the rest. Every element of an output is the unknown token or a non-empty word of the vocabulary. If no word of the vocabulary is longer than maxlen, then every list of those is a possible output. For a pipe of WhiteSpaceTokenizer and SpanSubwords the same holds for texts, if also no word of the vocabulary has whitespace in it: its possible outputs are exactly the lists of the unknown token and non-empty words of the vocabulary, and for the pipe of bert/word_piece.py the lists of words of its vocabulary. False are: no element but the unknown token is longer than maxlen; all lists of words of the vocabulary are possible if some of them are longer than maxlen.", "quantifier": "for all word lists, vocabularies, unknown tokens, lengths, texts and lists", "why_tests_cant": "that nothing else can come out, and that everything of the form can, are statements about all inputs", "anchors": ["uttut/pipeline/ops/tokenizers/custom_word_tokenizer.py", "uttut/pipeline/ops/add_whitespace_around_word_n_zhchar.py", "uttut/pipeline/ops/span_subwords.py", "uttut/pipeline/ops/utils/trie.py", "uttut/pipeline/ops/tokenizers/whitespace_tokenizer.py", "uttut/pipeline/bert/word_piece.py", "uttut/pipeline/pipe.py:Pipe.transform_sequence"]}
{"id": "C111", "title": "Expanding expanded data", "statement": "Every datum that expand_by_entities gives for a datum, with any sampling method, has its entities inside its utterance and no replacements (also if the original has entities that end behind the utterance or are counted from the end), the intents of the original and its entity labels in their order. It is finished: expanding it again gives exactly this datum (with a sampling method, if there are entities, once for each index that it samples out of 1 combination), whatever include_orig is; so a second round of expansion over the expanded data changes nothing. So get_unique_entities gives the same set of labels for the data and for all their expansions. For a datum whose entities lie inside its utterance: the original (without its replacements) is among the expansions exactly if include_orig is set or every entity has no replacement or has its own value among them. Without a sampling method there is a result exactly if there are at most 2^31 combinations and every combination has fewer than 2^31 characters, and with any sampling method the only possible error is OverflowError. Refuted: that the original utterance is always among the expansions (include_orig off), and that sampled expansions keep the set of labels (a sampling method that takes nothing).", "quantifier": "all datums, all sampling methods, all lists of datums; for the original and for when there is a result: all datums with entities inside their utterances", "why_tests_cant": "tests expand single datums once", "anchors": ["uttut/expand_by_entities.pyx:16-71", "uttut/toolkits/partition_by_entities.pyx:5-35", "uttut/get_unique_entities.py:6-15"]}
{"id": "C112", "title": "One minus the overlap ratio is a distance", "statement": "Calculated exactly and for a rate from 0 to 2, 1 - entity_overlapping_ratio satisfies the triangle inequality for any three annotations of one (non-empty) utterance (with C50: it is a distance between annotations); in doubles (rounded to nearest, rate in [0,1]) it does up to 3(n+6)/2**54 for n characters. A greater rate never makes the ratio greater, with any monotone rounding. The ratio depends on the labels of the characters only: annotations that give every character the same label can be exchanged (for instance one entity for two adjacent ones with its label). Calculated exactly it is 1 - (a + rate * b) / n, where a is the number of characters with a label in exactly one annotation and b that of characters with two different labels, counted in the label lists of unpack_datum. Refuted: the triangle inequality for a rate above 2 and for a negative rate.", "quantifier": "all triples of datums over one utterance, all rates, all monotone roundings", "why_tests_cant": "tests compare single pairs", "anchors": ["uttut/entity_overlapping_ratio.py:8-78"]}
{"id": "C113", "title": "From raw data through a pipe and back to raw data", "statement": "Take an OrdinalLabel with not_entity_index 0 (the default) and no entity called __NOT_ENTITY__, and raw data with positions in 32 bits that machanize accepts. Raw data is sent through machanize, Pipe.transform, the aligners backwards, pack_to_datum and humanize. For every pipe the raw data comes back (the utterance, the same set of intent names, and the entities with their names and positions in the order of their starts, without replacements) exactly if the datum can be recovered from what the pipe gives, in the sense of C94; and the datum meets the conditions of C94 exactly if the utterance is not empty, the raw entities are inside it and not empty, and entities that touch have different names. So for the basic and the full pipe of pipeline/bert (with the condition of C94 on accents) and for the word piece pipe such raw data comes back exactly if every entity consists of whole tokens without whitespace between them. For any OrdinalLabel and any pipe: raw data with an entity whose index is 0 never comes back, because unpack_datum and pack_to_datum use 0 for no entity whatever not_entity_index is; so with another not_entity_index there is always an entity name that never comes back. from_raw_dictionary with not_entity_index 0, for a data set in which the entities of each sample meet the conditions above and do not overlap and none is called __NOT_ENTITY__ (fewer than 2**31 names and characters), gives such an OrdinalLabel; it knows exactly the names that occur, machanize accepts every sample of the set, and a sample comes back from the three pipes of pipeline/bert exactly if its entities consist of whole tokens without whitespace between them. For any data set with fewer than 2**31 names and any not_entity_index for which from_raw_dictionary gives an OrdinalLabel: machanize accepts a sample of the set with positions in 32 bits exactly if its entities do not overlap, and raises the overlap error otherwise, never KeyError; humanize then gives the sample back (intent names in some order, entities in the order of their starts, replacements as sets), also if an entity is called __NOT_ENTITY__. Refuted: that raw data with entities of whole tokens comes back from the word piece pipe for every OrdinalLabel.", "quantifier": "all raw data and data sets, all OrdinalLabels of this kind, all pipes, all orders of sets", "why_tests_cant": "tests check the steps one by one on single data", "anchors": ["uttut/transformers/ordinal_label.py", "uttut/pipeline/pipe.py:Pipe.transform", "uttut/pipeline/utils.py:unpack_datum", "uttut/pipeline/utils.py:pack_to_datum", "uttut/pipeline/bert/basic.py", "uttut/pipeline/bert/full.py", "uttut/pipeline/bert/word_piece.py"]}
