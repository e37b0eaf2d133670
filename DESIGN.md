# Formal model of uttut in Rocq (Coq 8.16.1)

Source modelled: `/repo` (Yoctol/uttut, python + Cython).  Only the text of the
sources was used; no code of the project was executed (python's standard library was,
for the Unicode tables in `Concrete.v` and small experiments with `re` and `json`).  The `.c`/`.cpp` files checked in next to
the `.pyx` files were generated from exactly those `.pyx` files (all source
lines quoted in their comments were compared and agree), and were consulted for the one Cython subtlety that
matters: a `cdef`/`cpdef` function with a C return type (`void`, `unsigned int`) and no
`except` clause *swallows* exceptions (`__Pyx_WriteUnraisable`, returns 0).

The properties are in `properties.jsonl` (C01, C02, ...), the map from property to
theorem is `MANIFEST.json`, the record of deliberately wrong models that the theorems
were tried against is `seeded/LOG.jsonl`; there `theorems_failed` lists the theorems whose
proof no longer goes through after the edit, `statements_false_under_edit` those of them whose
statement was expected, from reading it, to be false for the edited model.

## Layout (`rocq/theories`)

| file | content |
|------|---------|
| `Py.v`, `PyFacts.v` | Python values used by the model: results with exceptions, slices, `str.find`, `str.split`, sorting, dict/Counter, the oracles (record `env`); facts about them |
| `Edit.v` | `pipeline/edit`: Span(Group), Replacement(Group), apply, inverse, gen_*, validation |
| `GroupObj.v` | ReplacementGroup and SpanGroup as mutable objects (any sequence of `add` and `done`) |
| `Labels.v` | `label_propagation.pyx`, `label_transducer.py` |
| `Regex.v` | the subset of `re` used by the built-in patterns, and the patterns |
| `PyRe.v` | python's `re`: the pattern language and the backtracking search |
| `DatumText.v` | `Datum.__repr__` with `pprint.pformat` for lists |
| `Messages.v` | the messages of the exceptions that the library raises |
| `Output.v` | what is written to the standard output (other than `Pipe.summary`) and given to `warnings.warn` |
| `Trie.v`, `Murmur.v` | `ops/utils` |
| `Ops.v` | all operators, their constructors' checks and their label aligners |
| `Json.v` | `json.dumps(ensure_ascii=False, indent=2)` and `json.loads` |
| `JsonAscii.v` | `json.dumps` with its defaults; serialize and deserialize of OrdinalLabel |
| `Compare.v` | `==`, `!=` and `hash` between any two objects: the `__eq__` and `__hash__` methods of all classes |
| `Factory.v` | `ops/factory.py` as a mutable object (any sequence of registrations) |
| `Custom.v` | operator classes written by users: class statements, what their constructors record, equality, serialisation |
| `Signature.v` | the same for constructors with `*args`, keyword-only parameters and `**kwargs` |
| `UserPipe.v` | pipes, intermediate results and label aligners over operators written by users |
| `UserOps.v` | subclasses of `PatternRecognizer`, `AddWhitespaceAroundCharacter` and `Tokenizer` written by users |
| `TextForms.v` | `Operator.__str__`, `Pipe.summary`, `__str__` and `__repr__` of the edit structures and elements, python's `repr` and `reprlib.repr` |
| `BertRef.v` | `pipeline/bert/tests/tokenization.py`, the reference tokenizer that the repository's tests compare the BERT pipes with |
| `Elements.v` | Entity, Intent, Datum, pack/unpack, toolkits, expansion, overlap ratio, unique entities, ordinal labels |
| `Pipe.v` | operator objects (`ops/base.py`, `ops/factory.py`), `pipe.py`, `intermediate.py`, the BERT pipes |
| `DatumHeap.v` | intents, entities, datums and label transformers as mutable objects with references (any sequence of calls and assignments) |
| `SeqHeap.v` | the sequences and label lists of a run as mutable objects (any sequence of calls and changes by the caller) |
| `Heap.v` | operators, pipes and Intermediates as mutable objects with references (any sequence of calls) |
| `Spec*.v` | independent specifications used in the statements (no model algorithm is used in them) |
| `*Proofs.v`, `HeapOps.v`, `OpLaws.v`, `PipeLaws.v`, `PipeAlign.v`, `ElementsLaws.v` | proofs |
| `*Witness.v` | concrete non-trivial cases that meet the hypotheses of the theorems, and the witnesses of the refuted claims |
| `Props*.v` | only `Theorem ... exact ...` and `Print Assumptions` |
| `Concrete.v`, `TestsOps.v`, `TestsEdit.v`, `TestsElements.v`, `TestsPipe.v` | a concrete runtime (Unicode 14 tables, set orders) and the repository's own unit test vectors as `Example`s computed with it (tests of the model, not proofs of properties) |

## Modelling decisions

* `str` is `list Z` (code points); python lists are Coq lists; labels are `Z` without
  bound; positions inside a sequence are `nat` in the edit layer and `Z` in `Elements.v`.
* Exceptions are values: `res A := Ok a | Err e`.  Functions that mutate an object and
  may raise return the object *and* the exception (`Pipe.add_op` changes the pipe before
  it raises).  Loops that need not terminate run on fuel and return `Err OutOfFuel`;
  the theorems say for which inputs that cannot happen (it does happen for patterns that
  match the empty string, C20).
* Offsets given by the user to `add`/`add_all` are `Z` and are range-checked as C
  `unsigned int`, also where an operator calls `add_all` with computed offsets that may
  reach 2^32 (Pad, AddSosEos, AddEndToken).  Offsets inside a real sequence are modelled
  unbounded (`nat`): sequences of 2^32 or more elements are out of scope, except that the
  wrap-around arithmetic of `_compute_output_length` is modelled and proved harmless.
  Entity labels and positions are C `int` (OverflowError outside of 32 bits).
* Iteration order of a python `set` is an oracle: an arbitrary function returning a
  permutation of its argument (it may depend on the whole list).  All theorems quantify
  over it.
* Unicode tables (`\s`/`isspace`, `\d`, category P*, category Mn, NFD) are oracles
  collected in the record `env`; theorems quantify over all tables, with the contracts
  they need as explicit hypotheses (`python E` and parts of it: the space character is
  whitespace and not punctuation, set orders are permutations; where needed that the
  characters of the replacement tokens are not digits).
* `re`: the built-in patterns are modelled by a matcher with leftmost, greedy
  backtracking semantics; a user pattern of ReplaceAwithB is an oracle
  (`re_compile`: no pattern object, or its search function
  `text -> start -> option (start, end)`) with the contract that the match lies inside the
  text (`in_bounds`).  For C84 and C85 the contract is that `re_compile` agrees with the
  model of `re` for the pattern in question (`python_re`).
* Floating point (`entity_overlapping_ratio`): numbers are rationals and every operation
  is followed by an arbitrary rounding function `fl`; the theorems ask that `fl` is
  monotone and exact on integers up to 2^53, or that it rounds to the nearest double
  (`to_nearest`, of which both follow), or that it is the identity for the exact value.
  Overflow to infinity is left out (for rates in [0,1] all numbers are small).
* The module level factory is the list of registered names (`imported`: what importing
  `uttut.pipeline.ops` registers, which leaves out AddEndToken).

Not modelled: warning filters (which of the warnings of `Output.v` are shown or raised), the messages of exceptions other than those of `Messages.v`, the
`annotation` of a replacement (except in its `repr`) and `Entity.index` (never read), logging; the type checks
that Cython makes for arguments of undocumented types; constructor arguments of other types than documented (the model
refuses them with a TypeError, python may fail later or not at all; OrdinalLabel is in C102); assignments to
attributes of operators, pipes and aligners after construction (objects that share lists and dicts are
modelled in `Heap.v`, `DatumHeap.v` and `SeqHeap.v` only, with changes of the list `pipe.steps` and the
dict `pipe.checkpoints` that bypass the methods in `Heap.v`; elsewhere objects are values); the base classes in
the factory anywhere but in C67 and C109;
JSON numbers that are not integers and the 4300 digit limit of int conversion;
`transformers/base.py` (abstract methods only); the `isinstance` check of
`not_entity_index`; strings of 2^31 or more bytes given to MurmurHash; setup and
packaging.

## Trusted base

* Coq's kernel, including `vm_compute`.
* `Print Assumptions` says "Closed under the global context" for every theorem in the
  `Props*.v` files: no axiom is used, neither of ours nor of a library.  Libraries used:
  Coq's standard library only.  (A check of the whole context by `coqchk` lists the
  axioms `Coq.ssr.ssrunder.Under_rel.*`; they come with a library file that is loaded and
  no theorem depends on them.)
* The reading of the python and Cython sources, documented definition by definition in
  the comments of the model files with file and lines.
* The contracts of the oracles listed above.
* The specifications in `Spec*.v`, which are what the statements mean.

## What is modelled and how each property is proved

All statements are for all inputs, without bounds, unless a hypothesis is mentioned.
"Refuted" parts are theorems `..._refuted : exists ...` with a concrete witness.

### Edit layer (`Edit.v`, `Labels.v`; theorems in `PropsEdit.v`, cases in `EditWitness.v`)

| | specification | proof |
|-|---------------|-------|
| C01 | `splice_all`: python slice assignments from the last to the first; `untouched`, `net_growth` give the place of kept elements | induction over the sorted group with the running offset of `apply` as invariant |
| C02 | apply . inverse is the identity for `no_touching_deletions`; refuted without it (AssertionError; order of restored pieces), `inverse_total` says what happens in general | the inverse group is computed in closed form (shifted intervals with the old pieces), then C01 |
| C03 | same replacements after inverting twice | closed form of C02 applied twice |
| C04 | accepted iff pairwise disjoint in sorted order; result sorted, duplicate free, same elements | correctness of insertion sort and of the neighbour check for all set orders |
| C05 | independence of insertion and set order for distinct positions; refuted otherwise | uniqueness of the sorted list of a set with injective keys |
| C06 | reversed intervals vanish silently, out of range offsets raise OverflowError | swallowed C exception modelled in `radd_py`/`sadd_py`; unfolding over the list of calls |
| C07 | spans tile the text, `str2lst` then join is the identity; accepted iff the proper spans stably sorted by end tile (`C07_accepted_iff`, `SpanExact.v`, in `PropsGroup.v`); which exceptions; `lst2str` accepts iff the lengths agree; zero-width spans depend on order (refuted) | induction over the sorted spans; a stably sorted list is unique |
| C08, C09 | `gen_span_group` is the list of cumulative offsets; `gen_replacement_group` deletes the gaps iff the tokens occur in order | induction over tokens with the search position as invariant |
| C10 | labels keep their place (same map as C01 for values), new positions get what the transducer returns | the propagation loop is shown equal to splicing labels |
| C11 | `first_mode`: maximal count, first such | invariant of the Counter loop; the C transducer via the u32 conversion |
| C12 | reduce/expand over spans | by spans; constant runs |
| C13 | labels outside of u32: forward 0 for the token (other tokens keep their mode), backward OverflowError; every tokenizer does so (`tokenizes`); operators that are not tokenizers work the same on all integers: renaming the labels by any function that keeps 0 and confuses no two of them commutes with both directions, and results only contain 0 or given labels | case analysis of the C conversion; one case per transducer |

Histories of calls (`GroupObj.v`; theorems in `PropsGroup.v`, cases in `GroupWitness.v`):

| | specification | proof |
|-|---------------|-------|
| C58 | `added`, `finished`, `mixed`, `overlapping`: predicates on the list of calls | invariant over histories (contents = what was added, readable = some `done` succeeded); one `done` is reduced to C04 |
| C59 | `sadded` (list of the added spans), `sfinished`, `tiles` | the same with C07; a position lies in one tile only; `done` keeps the order of spans with the same end, so its exact condition does not depend on earlier `done`s |

### Operators (`Ops.v`, `Regex.v`, `Trie.v`, `Murmur.v`; theorems in `PropsStrOps.v`, `PropsListOps.v`, cases in `OpsWitness.v`)

The common specification (`SpecSeg.v`, `SpecOps.v`) is that the operator cuts the input
into pieces, gives some of them a new value (`rewrites`), and that its aligner sends labels
to and from exactly those pieces.  Each operator is shown to produce the cut that its own
specification describes (`SpecRuns.v`: maximal runs of a character class, `SpecWords.v`:
greedy segmentation by words, `SpecScan.v`: successive leftmost matches).

| | specification | proof |
|-|---------------|-------|
| C14 | lengths of labels, both ways, for all operators; the inverse may raise where C13 says so (refuted) | one case per operator over the rewriting specification |
| C15 | character map, idempotent | map |
| C16, C17 | maximal whitespace runs to one blank; `str.strip`; composition gives `' '.join(s.split())` | regex matches `\s+`, `^\s+|\s+$` are exactly the runs |
| C18, C19 | maximal digit runs not next to '.'; digits '.' digits | look-around patterns are characterised on the run decomposition; fixpoint theorem "no number left" |
| C20 | leftmost search, scan, termination iff no empty match inside | general theorem about the scanning loop over any engine; labels: deleted pieces merge in the group of the way back, which is harmless unless the same text is deleted twice at one place (`deleted_twice`; `inverse_propagate_once`, `inverse_twice` in `TouchProofs.v`) |
| C21, C22, C23 | token and character maps; blanks around a class | map / segmentation of one-character pieces |
| C24, C34, C35 | trie = word list; longest/shortest prefix; maximal munch | trie invariant `holds`; loop follows the greedy segmentation |
| C25, C26 | cut and extend; add tokens at the ends; the empty list depends on set order, equal tokens collapse (refuted) | computed groups in closed form |
| C27, C28 | vocabulary lookups; range, injectivity, construction | checks of the constructor characterise the permutations of 0..n-1 |
| C29, C30 | greedy longest pieces; labels | loop invariant over start/end; uniqueness of the split |
| C31 | NFD without Mn, equal lengths or AssertionError | unfolding over the oracle |
| C32, C33, C36 | pieces that are tokens or whitespace; most common label; boundaries | tokens occur in order, `gen_replacement_group`/`gen_span_group` (C08, C09) give the cut; runs |
| C52 | `SpecHash.v`: UTF-8 by its decoder, MurmurHash3 as arithmetic below 2^32 | bit operations against arithmetic; block loop by index |
| C54 | longest stopword at each position, list of the text file included | alternation of the sorted words = longest match |

### Pipes (`Pipe.v`, `Json.v`; theorems in `PropsPipe.v`, cases in `PipeWitness.v`)

| | specification | proof |
|-|---------------|-------|
| C37 | relation `stepwise`: one operator after the other; labels in the same and the reverse order; first failure | induction over steps |
| C38 | value under a checkpoint = output of the prefix | invariant over histories of calls (`after`) |
| C39 | adjacent types match for everything reachable by the public methods | closure of the invariant under every method |
| C40, C41 | concatenation, items, slices (`sliced`: the positions as python's documentation gives them, for any step); wrong checkpoint offsets etc. refuted | unfolding + C37; induction over `indices` |
| C42, C43 | configurations, equality, text round trips, `refused` (`SpecForeign.v`: texts that are no operator, also for C65) | JSON printer/parser round trip (`JsonProofs.v`), argument binding, extensionality of operators |
| C44 | lengths through whole pipes; the only exception of the way back is characterised | C14 along the pipe |
| C53 | tokens of the BERT pipes | composition of the operator specifications |
| C55 | every label out is 0 or was put in | closure proof per aligner |

### Datums and labels (`Elements.v`; theorems in `PropsElements.v`, cases in `ElementsWitness.v`)

| | specification | proof |
|-|---------------|-------|
| C45 | `stably_sorted`, `text_at`, `covers`, `apart`; outcomes of the constructor as iff | stable insertion sort; pairs of a sorted list vs. pairs of the original |
| C46 | `labelled` (label of a character), `run` (maximal runs) | labels as groups `(value, count)`; the in-place filtering loop of pack; painting for unpack; the first conversion that fails decides for OverflowError |
| C47, C49 | `candidates`, `choices`, `rebuilt`, `cut_into` | pieces of the datum; segments of a combination filled into the pieces |
| C48 | `choices` (product, first fastest), digit formula | mixed radix arithmetic with floor division |
| C50 | `costs`, `sum`, `rounding`; `double`, `to_nearest`, `almost` (`SpecRound.v`) | loop with fuel against `labelled`; monotone rounding between integers; rounding to the nearest double is monotone, exact on doubles and has a relative error of 2^-53 (`DoubleProofs.v`, with the rounding of IEEE 754, `binary64`, as an instance), so the k-th addition is off by at most k times 2^-53 |
| C51 | `indices`, `raw_datum`, `known`, `corpus`, `first_seen`, `counting` | dictionaries as association lists without repeated keys |
| C56 | `same_entity`, `same_datum` | reflection lemmas |
| C57 | membership and no repetition | dedup |

### Stored labels and the factory (`JsonAscii.v`, `Factory.v`; theorems in `PropsMisc.v`, cases in `JsonAsciiWitness.v`, `FactoryProofs.v`)

| | specification | proof |
|-|---------------|-------|
| C60 | `stored` (the JSON value), `sound` (code points without a surrogate pair), `printable_ascii` | parser of `Json.v` run over the escaped text, by induction over the value; the key search of `deserialize` on the stored object; pairs of surrogates refute the unguarded claims |
| C61 | `after_registers`, `first_registered` on the list of registrations | induction over the list |

Not modelled in these files: the file handling around the texts.

### BERT pipes and the reference tokenizer (`BertRef.v`, `SpecBert.v`; theorems in `PropsBert.v`, cases in `BertWitness.v`)

Here the specification is a second program: Google's tokenizer, copied into the
repository's tests (`BasicTokenizer`, `WordpieceTokenizer`, `FullTokenizer`).  It is modelled
function by function without the definitions of `Ops.v`, except the oracles of `env` and
`str.split`.  What only the reference uses of python (`str.lower`, categories Zs and C*) is in
the record `runtime`.

| | specification | proof |
|-|---------------|-------|
| C62 | the reference; `everyday` (printable ASCII, tab, line ends, U+4E00 to U+9FA5) under the contract `unicode` on python's tables; more generally `well_behaved` | both give the tokens of one cut of the text (`toks`), with every character lowered and stripped of its accent; refining a cut by another one; texts outside of the condition refute the unguarded claim |
| C63 | the reference word pieces, any vocabulary, any text | the two pairs of nested loops agree step by step |

Not modelled of the reference: reading the vocabulary file, ids, bytes as input.

### Constructors and user classes (`Pipe.v`, `Custom.v`; theorems in `PropsCalls.v`, `PropsCustom.v`, cases in `CallWitness.v`, `CustomWitness.v`)

`Custom.v` models the class statement `class C(P): ...`: registration, the wrapper that
`__init_subclass__` puts around `__init__` (including that `inspect.getfullargspec` of an
inherited, already wrapped `__init__` has no parameters), the two assertions on class
attributes, abstract classes.  Types and behaviours are elements of arbitrary Coq types, the
body of `__init__` an arbitrary function of the bound arguments that may raise.  Not modelled:
`*args`, `**kwargs` and keyword-only parameters of such an `__init__`, multiple inheritance,
overriding `__eq__`, `serialize` or `__init_subclass__` (other than the one of Tokenizer and PatternRecognizer).

| | specification | proof |
|-|---------------|-------|
| C64 | `call_binds` (python's calling convention as a relation), the documented `signatures`, operators by class | binding algorithm against the relation; table of classes computed |
| C65 | `declares` (signature), `records` (exactly the parameters with their values) | the wrapper's dictionary = the one of the library classes; recording a complete dictionary gives it back |
| C66 | as C65 with `inherited_init` | the wrapper sees no parameters; witnesses for the refuted claims |
| C67 | `first_for`, `class_of`, `well_declared` on the list of class statements | C61 with the statements as registrations |

### Pipes of user operators (`UserPipe.v`; theorems in `PropsUser.v`, cases in `UserPipeWitness.v`)

Values and types are elements of arbitrary Coq types, `isinstance` an arbitrary predicate,
`_transform` and the two functions of an aligner arbitrary functions that may raise.  Labels are
lists of integers.  Not modelled: `_transform` with state or side effects, overriding the public methods.
The operators, aligners and pipes of `Ops.v` and `Pipe.v` are proved to be an instance
(`view_op`, `view_aligner`, `view_pipe`).

| | specification | proof |
|-|---------------|-------|
| C68 | `user_stepwise`, `user_chained`, `after_adds` | induction over the operators and over the calls |
| C69 | `honest`, `total_forward`, `total_backward`, `undoes` | lengths of neighbouring aligners fit; inverse = forward of the swapped aligners in reverse order |
| C70 | `replaced`, `spaced`, `relabel`, `follows`, `ualigns` | `str_gives`: the group of the scan is that of the pieces; then the edit lemmas and, for an empty TOKEN, `TouchProofs.v` |
| C71 | `found` (first place after the token before), `drops`, `token_labels`, `char_labels_by` | `repl_loop_found`, by induction over the tokens |

The subclass supplies parameters of the model (`recognizer`, `spacer`, `tokenizer` in `UserOps.v`):
the search function, the token, the label functions, the character test, `_tokenize`.  `derived`
lists what the library's own subclasses supply; they are proved to be instances (`C70_library`).
`follows` and `drops` ask something of the user's label functions only on the pieces on which they
are called.  `_tokenize` returns a list of texts or raises.  Not modelled here: subclasses that override
`_transform` or the aligner's methods (these are C68, C69).

## Texts that objects show (C72 to C74)

`summary` gives the list of printed lines; `printed` joins them as `print` does.  The lines are read by
functions that look at the text only (`operators_shown`, `checkpoints_shown`, `types_shown`).
`str.isprintable` is an oracle.  `custom_repr` and `short` model `reprlib.repr` with the limits of
python 3.11 or earlier (`short` is checked against values computed by python, `TestsText.v`).

| | specification | proof |
|-|---------------|-------|
| C72 | `operators_shown`, `checkpoints_shown`, `types_shown`, `last_with` | no other line starts like an operator or checkpoint line; `inverse_get` for the names; escapes leave no line end (`printed_lines`) |
| C73 | `shown_whole`, `made` | the text is read back from the left: class name, names, and a decoder of `repr` (`unrepr`); nested dicts: insertion by key gives a sorted permutation (`TextDict.v`); long numbers and texts: `clear_char`, the three parts (`TextCut.v`) |
| C74 | equality of the objects | `int_prefix`: a number is followed by a comma or parenthesis; plain entities by `entity_readable` (C86) |

The operators of `summary` are the library's.  `str` of a Replacement is modelled for text values.  The
entity's replacements are in the order in which its set is iterated.

## Laws that relate several runs (C75, C76; theorems in `PropsLaws.v`, cases in `RelabelWitness.v` and `LawsWitness.v`)

| | specification | proof |
|-|---------------|-------|
| C75 | `renaming`, `int_renaming`, `rename_datum` | every label function only compares labels (`label_blind`); counting, sorting and slicing commute with `map`; labels of intermediate steps are 0 or labels of the input, so that the renaming stays injective (`align_closed`) |
| C76 | `interchangeable` (same sequence; equal results for all labels in both directions, errors included), `same_forward`, `ascii_digits` | `acts` composes the descriptions of C15 to C33 to one for a list of operators; tokens by recursion over the characters with their labels (`tk`), which ignores gaps and added spaces; runs of a class cut at more places give the same labels (`runs_fine`); lower case keeps the shape of the pieces (`seg_map`) |

## Labels through the BERT pipes and back (C77; theorems in `PropsTrip.v`, cases in `TripWitness.v`)

| | specification | proof |
|-|---------------|-------|
| C77 | `accents_fit`, `then_pieces`, `survives`, `token_wise` (positions and characters only), `on_tokens` (`SpecTrip.v`) | `tokenizer_on`: every step in front of the tokenizer refines its kinds of characters (`basic_by`); a cut piece comes back iff it has one label (`piece_trip`); entities on whole tokens give token-wise labels (`entities_token_wise`), then C46 |

## Texts written by anybody (C78; theorems in `PropsJson.v`, cases in `GrammarWitness.v`)

| | specification | proof |
|-|---------------|-------|
| C78 | the grammar of JSON as inductive relations: `json_text`, `says`, `in_quotes` (`SpecGrammar.v`); `stored_step`, `bad_step`, `positions` (`SpecStored.v`), `refused` of C65 | `loads_iff`: the recursive descent parser is complete (induction over the grammar, enough fuel from the length) and sound (induction over the fuel); the deserializers only look up members, whose keys are distinct (`json_text_keys`) |

Not covered: texts with floats, NaN or Infinity (`no_floats` excludes them where an error is claimed);
python's limits on the nesting depth of JSON and on the digits of an int (4300, newer versions).

## Objects that share lists and dicts (C79, C80; theorems in `PropsHeap.v`, cases in `HeapWitness.v`)

`Heap.v` models operators, pipes and Intermediates with references: a `memory` has the caller's lists and dicts (`cell`), operators (`hop`), the lists of steps, the dicts of checkpoints, pipes (a reference to each) and Intermediates (a reference to the dict and the collection). `exec` runs one call (`command`), `after_commands` a history. `pipe_at` and `op_at` read an object as the values of `Pipe.v`, so that all theorems about values apply to what the objects are at the moment. `pipe.steps` and `pipe.checkpoints` hand out the internal list and dict; `SetSteps` and `SetChecks` stand for any change of them by the caller (to operators, and to names with ints). Not covered: lists and dicts inside of arguments that are shared; a caller who changes the sequence that was given to `transform`.

| id | specification | proof |
|---|---|---|
| C79 | histories: `has_pipe`, `gives`, `changes_pipe`, `direct`, `plain_slice`, `new_pipe_only` (`SpecHeap.v`), the values of `Pipe.v` | an invariant of all histories (`wf`: no two pipes share a list or a dict), kept by every call (`exec_moves`, `moves_wf`); without direct changes numbers of checkpoints are positive (`moves_positive`), and `run_later`: the dict only grows by numbers beyond the length of the pipe (`kept`, `grown`); types: `exec_chained` |
| C80 | `arg_is`, `given`, `not_given`, `has_op`, `has_cell` (`SpecHeap.v`) | binding arguments commutes with reading them (`bind_args_now`, `record_now`); the operator's record never changes (`hop_later`), and reading depends only on the cells it refers to (`read_op_ext`) |

## Datums as objects (C81, C82; theorems in `PropsDatum.v`, cases in `DatumHeapWitness.v`)

`DatumHeap.v` has intents, entities, datums, the caller's dicts and OrdinalLabel objects in a `store`; a datum holds references. `do` runs one call or assignment (`step`), `after_steps` a history. The functions that make objects are written again as programs on the store (`hexpand`, `hpack`, `hmachanize`, `hcopy_intents`, `new_datum`), and proved to give the values of `Elements.v` and only new objects. Simplified: an assignment sets all attributes of an object at once (and fails as a whole); assigning the list or set of one object to another one is not modelled, nor are changes of a list in place by the caller (the same as assigning the changed list).

| | model / spec | proof |
|---|---|---|
| C81 | `has_intent`, `has_entity`, `has_datum`, `holds`, `part_of`, `assigns`, `all_new`, `keeps_all` (`SpecDatumHeap.v`), values of `Elements.v` | a small program logic (`spec_at`: the store only `grows`, the value is that of the function on values, the objects are new), and an invariant of all histories (`wf`, `do_kept`) |
| C82 | `has_dict`, `has_ordinal`, `answers` (`SpecDatumHeap.v`) | the reference of the object never changes; it is read at each call (`ordinal_follows`) |

## Sequences and labels as objects (C83; theorems in `PropsSeq.v`, cases in `SeqHeapWitness.v`)

`SeqHeap.v` has the lists of tokens, the lists of labels and the runs (aligners and Intermediate) in a `world`; a run holds references to the lists (`hal`, `runobj`). `exec` runs one call or one change of a list by the caller (`action`), `after_actions` a history. Texts cannot be changed and are values, so are pipes (they are objects in `Heap.v`). The aligners of list operators compute the inverse edit from the contents the input has at the moment (`with_input`, `back_now`), all else they have from the run.

| | model / spec | proof |
|---|---|---|
| C83 | `reads`, `has_list`, `has_labels`, `run_of`, `items`, `answers`, `none_shorter`, `no_touch` (`SpecSeqHeap.v`), values of `Pipe.run`, `align_all`, `align_inverse_all` | the new lists of a run are numbered in order (`hrun_spec`); an inverse edit depends on the contents only through the lengths of the replaced pieces (`propagate_shape`), which can only become smaller, and then the final length check fails (`inverse_contents`, `back_cases`) |

## Regular expressions (C84, C85; theorems in `PropsRe.v`, cases in `ReWitness.v` and `ReGrammarWitness.v`)

`PyRe.v` models what `re.compile` makes of a text (`parse`: an expression `rx`, re.error `Bad`, or `Beyond` the covered part) and `pattern.search` (`xsearch`: the end positions in the order in which the backtracking engine tries them, `xends`). It is a model of the standard library, not of code of the repository: the theorems use it through the hypothesis `python_re E word p`, that the runtime's `re.compile` does for the pattern `p` what `parse` and `xsearch` say; nothing is assumed for patterns that are `Beyond`. It was compared with `re` of CPython 3.11 on some 18000 random patterns, good and bad ones, with five texts each, without a difference; 78 patterns with 13 searches each are in `ReWitness.v` (`cpython_cases`).

Not covered (`Beyond`): group references, named and conditional groups, inline flags, comments, atomic groups, possessive repeats, octal escapes, `\N{..}`, repeat counts above 1000. Not modelled: the recursion limit for deeply nested patterns, running time.

| | model / spec | proof |
|---|---|---|
| C84 | `xmatch` (the meaning of an expression as a relation), `leftmost`, `shape` and `one_width` (numbers of characters an expression can take), `written`, `counts`, `found_as`, `replaces_pattern` (`SpecRe.v`), the grammar of patterns `pattern` (`SpecReGrammar.v`) | `xends` lists exactly the ends of matches: a repeat without an upper bound needs no more rounds than there are characters because rounds that take nothing can be left out (`repeat_iter`, `xends_iff`); the parser's fuel suffices (`parse_ends`); what follows a pattern does not matter if it starts with a closing parenthesis or a bar (`parse_extends`), which gives all the theorems about patterns put together; the expressions of the repository's patterns and the matcher of `Regex.v` have the same ends (`same_ends`); the parser follows the grammar: sound by induction on the fuel, complete by induction on the derivation (`parse_sound`, `parse_complete`) |
| C85 | `plain`, `escaped`, `bars`, `text_pattern`, `words_pattern`, `str_replace`, `words_replace` (`SpecRe.v`) | a plain or escaped text is read as its characters one after the other (`parse_plain`, `parse_escaped`, `parse_bars`); successive leftmost matches are successive leftmost occurrences (`replaced_str`, `replaced_words`); labels by `replace_rewrites` (C20) |

## The text of a Datum and the messages of exceptions (C86, C87; theorems in `PropsMessages.v`, cases in `MessageWitness.v`)

`DatumText.v` models `Datum.__repr__` with the part of `pprint` that a list of intents or entities uses (`safe_repr`, `format_list`, `pformat`; all items are objects with a `repr` of their own, so that `pprint` never breaks inside an item). `Messages.v` models the text of the exceptions where it depends on the arguments or where a call has several: each definition follows the checks of the call again and keeps the text (`Says`), or says that python itself raises (`Python`); the theorems say that this is the exception of the call as modelled in the other files. Constant messages of calls with one check are left out.

| | model / spec | proof |
|---|---|---|
| C86 | `on_one_line`, `line_by_line`, `lists_items`, `plain_entity`, `plain_datum` (`SpecDatumText.v`) | the text is read from the front: an integer ends at the first character that is no digit, a value before the comma that cannot be in it (`readable`), a list at its closing bracket (`list_read`) |
| C87 | `class_of`, `tells` (the exception is that of the call), `first_at`, `first_two`, `filled` (a template with named holes), `text_at` (`SpecMessages.v`) | induction on the list that is checked |

## Standard output and warnings (C88; theorems in `PropsOutput.v`, cases in `OutputWitness.v`)

`Output.v` follows the calls of `print` and `warnings.warn` of `pack_to_datum`, of the two groups (as mutable objects, `GroupObj.v`) and of `Pipe.add`; these and `Pipe.summary` (C72) are the only ones in the repository.

| | model / spec | proof |
|---|---|---|
| C88 | `beginnings` (`SpecOutput.v`), `finished` and `sfinished` (histories of calls, `SpecGroup.v`) | induction over the labels (`from_spec`); a line is read back as JSON (`line_read`); `done_flag`: the flag is set iff a call of `done` succeeded |

## Accepted inputs (C89, C90, C91; theorems in `PropsAccept.v`, cases in `AcceptWitness.v` and `SizeWitness.v`)

Nothing new is modelled. `raises` lists the inputs that an operator refuses and with which exception (`OutOfFuel` stands for a call that does not return); `handles` is a small type system for operators (`form`: texts, lists of tokens, mixed lists).

| | model / spec | proof |
|---|---|---|
| C89 | `refuses`, `raises`, `reaches`, `writable`, `has_form`, `all_handle`, `too_long` (`SpecAccept.v`) | every input of an operator raises by one of the rules or is accepted (`accepted`), and the rules are right (`refused`); pipes by the first failure (C37), datums by C46 and C14; forms are kept by each operator (`handles_form`) and leave only the rules for long lists (`handles_raises`) |
| C90 | `sized_input`, `readme_calls`, `readme_datum` (`SpecAccept.v`) | the last two steps by C25 and C27; the steps before them by C89; README.md's pipe by computation |
| C91 | `size`, `growth`, `extra`, `bound` (`SpecSize.v`) | per operator from the pieces of the text that it replaces (C10 to C29); pipes by induction; a run whose bound is below 2^32 is not `too_long`, so C89 leaves only success |

## More than one trip (C92 to C94; theorems in `PropsSettle.v` and `PropsBack.v`, cases in `SettleWitness.v` and `SettleDatumWitness.v`)

Nothing new is modelled. `survives_when`, `in_replaced`, `in_tokens`, `zero_at` and `harmless` say which labels come back
through one operator; `settles`, `returns`, `reversible`, `keeps_or_drops` and `orderly` are about a second trip; `legible`, `recovered`, `on_numbers`,
`passes` and `not_cut` say which datums come back (`SpecSettle.v`).

| property | what is specified | how it is proved |
|---|---|---|
| C92 | `survives_when`, `harmless`, `number_wise` | relabelling forward and back, piece by piece (`SettleSegs.v`), with the pieces of C10 to C29 (`SettleSurvive.v`); WhiteSpaceTokenizer, EngTokenizer and ZhCharTokenizer are in C77; number operators before a tokenizer: the text is cut into cells (`SettleNumbers.v`), each of which says which labels it gives back (`SettleCells.v`). `token_letters` says that the letters of the tokens _int_, _float_ and _num_ are no digits for python: otherwise a later operator would find numbers in them |
| C93 | `settles`, `returns`, `orderly` | per operator for labels of which some are set to 0 on the way (`SettleOps.v`, `SettleTable.v`), which is what the later steps do to them; pipes by induction (`SettlePipe.v`); `numbered` pipes, among them that of the README, through the cells of `SettleNumbers.v`; the pipes of pipeline/bert through their aligners in C77 |
| C94 | `legible`, `recovered`, `on_tokens`, `on_numbers`, `not_cut` | the datum comes back iff its labels do (C45, C46: packing is determined by the labels); labels by C92 and C77, `list_step` operators by the places to which they move elements (`moved`); a pipe splits at its tokenizer (`SettleDatum.v`) |

## Raw data of any form (C95; theorems in `PropsRaw.v`, cases in `RawWitness.v`)

`machanize`, `entity_from_dict` and `from_raw_dictionary` of `Elements.v` take any value (`jval`), with the order in which python
reads keys and converts arguments. Left out (`plain`, `plain_corpus`): an utterance that is None (python makes a Datum of it if
there are no entities), replacements and names that are no texts (python takes any hashable value).

| property | what is specified | how it is proved |
|---|---|---|
| C95 | `field`, `lacks`, `yields`, `whole`, `names`, `describes`, `missing`, `wrong`, `large` (`SpecRaw.v`) | one case per key that is read (`key_cases`, `as_list_cases`, `c_int_cases`, `lookup_any`), loops by `mapM_any`, the Datum by C45; fields and loops are functional, so a described value has no fault (`describes_fine`) |

## The order of sets (C96; theorems in `PropsOrder.v`, cases in `OrderWitness.v`)

The iteration order of a set is a parameter of the model (`ord_c`, `ord_e` in `env`; `ord_ok` says that it is some
permutation). `reseed` replaces these two parameters and keeps everything else, as another process of the same python does.

| property | what is specified | how it is proved |
|---|---|---|
| C96 | `reseed`, `undecided`, `decided` (`SpecOrder.v`) | the edits of each operator are at distinct positions, so sorting makes the order irrelevant (`rdone_order_irrelevant`, C05); on the way back either no deletions touch (`inverse_strict`) or the inverse transducer gives 0 for every text that was deleted (`prop_rec_perm`) (`OrderProofs.v`) |

## Working piece by piece (C97; theorems in `PropsGlue.v`, cases in `GlueWitness.v`)

| property | what is specified | how it is proved |
|---|---|---|
| C97 | `glue`, `both`, `glued`, `glued_steps`, `glued_pipe`, `seam` (the places of a cut, operator by operator), `seams`, `same_output` (`SpecGlue.v`) | from the closed forms of the operators (`rewrites`, `maps`, `tokenizes`): the pieces of the whole are the pieces of the parts, up to joining pieces that are kept (`same_pieces`) or dropped (`tk`, `chlab`); pipes by induction over the steps; pipeline/bert through C77 (`GlueProofs.v`, `GluePipe.v`) |

`seam` is sufficient for the number operators, the word lists and ReplaceAwithB, and exact for the others; Pad, AddSosEos and
AddEndToken have no `seam`.  For ReplaceAwithB it asks that the searches are local (`local_search`); `replace_parts` gives this
for expressions that look only at the characters they match (`inward`): the ends of the matches in the whole that lie in the
first part are those in the first part, the ends in the second part are moved (`GlueReplace.v`, cases in `GlueReWitness.v`).

## Annotated texts put together (C98; theorems in `PropsJoin.v`, cases in `JoinWitness.v`)

| property | what is specified | how it is proved |
|---|---|---|
| C98 | `at_home` (entities inside the text), `moved`, `joined`, `across` (one entity would reach over the cut), `pairs` (`SpecJoin.v`); `glued_pipe` of C97 | labels: the label of every character is unique (C46); `pack_to_datum`: the maximal runs of the whole are those of the parts (`run_join`) and sorted entities are unique; expansions: `choices_app` and the positions in `rebuilt`; partition: induction over the entities (`parts_joined`); ratio: the costs of the whole are those of the parts (`costs_join`) (`JoinProofs.v`, `JoinExpand.v`, `JoinMore.v`) |

## Comparing any two objects (C99; theorems in `PropsCompare.v`, cases in `CompareWitness.v`)

`Compare.v` models python's `==` between objects of any kinds: the left operand's `__eq__`, then, if it answers NotImplemented
(only objects that are not of the library do), the right operand's.  `hash` takes the hash of a pair of numbers as a parameter.
Subclasses of the library's classes other than operators, and foreign objects that have attributes named label, start or steps,
are not modelled.

| property | what is specified | how it is proved |
|---|---|---|
| C99 | `same_kind`, `foreign`, `alike` (same contents, kind by kind), `proper`, `readable`, `raises_type`, `raises_attribute`, `has_hash` (`SpecCompare.v`); `same`, `same_entity`, `same_datum` of C43, C56 | case analysis with the lemmas of C43, C56, C58, C59, C67; `same` is an equivalence by induction over the values (`same_sym`, `same_trans` in `CompareProofs.v`) |

## Reading back (C100; theorems in `PropsReadBack.v`, cases in `ReadBackWitness.v`)

No further code is modelled.

| property | what is specified | how it is proved |
|---|---|---|
| C100 | `turns`, `pipe_turns` (what comes out), `telling` (different inputs, different outputs), `written_as`, `whole_words` (pieces put together), `spelled`, `read_as`, `index_reads`, `unpadded` (`SpecReadBack.v`); `splits`, `joined`, `hashed_index` of earlier properties | a token of a tokenizer is a token on its own (`token_alone`), and blanks separate; spacers by decoding one character at a time; pieces by induction over the split (`splits_resumed`); two tokens with the same hash: among more than twice as many words over two letters as the dictionary has tokens (`hash_collides`) |

## The longest outputs (C101; theorems in `PropsLength.v`, cases in `LengthWitness.v`)

No further code is modelled.

| property | what is specified | how it is proved |
|---|---|---|
| C101 | `at_most` (one number for each operator and length), `fixed_length`, `reaching`, `letters`, `at_most_all` (`SpecLength.v`); `usual` says that 'a' is neither digit nor whitespace, '1' a digit and '!' punctuation; `keeps_blanks` is what NFD and the category Mn do to whitespace | chosen runs are separated by other characters (`chosen_count`, on `runs`), words likewise (`words_count`); the bounds are reached by texts made of blocks (`numbers_reached`); BERT: the tokens of the spaced text have as many characters as the text has outside whitespace (`toks_ink`, `joined_ink`). The bound of ReplaceAwithB is that of an arbitrary search function (a match may be empty) |

## Labels from values of any form (C102; theorems in `PropsOrdinalAny.v`, cases in `OrdinalAnyWitness.v`)

`OrdinalAny.v` models `OrdinalLabel` again, now with attributes that are any python values: `py_ltb` is `<`,
`py_sorted` is `sorted` (an insertion sort; it raises for the same lists), `valid_any` is `is_valid_mapping`,
`ordinal_new` the constructor, then `humanize_any`, `machanize_in`, `serialize_any` and `ordinal_load`. The
model of `Elements.v` and `JsonAscii.v` is this one on integers (`C102_as_integers`, `C102_agrees`). Dicts with keys that are not
texts (possible in python, not in JSON), floats and other kinds of mappings are left out.

| property | what is specified | how it is proved |
|---|---|---|
| C102 | `counted` (0, 1, 2, ... each once, `whole` values of C95), `other_values`, `as_numbers`, `sortable`, `turned_down` (one constructor for each reason) (`SpecOrdinalAny.v`) | sorting numbers is `sort_by` on their integers (`sorted_numbers`); a flat list that could be sorted is `sortable` (`sorts_sortable`); the checks on the dict with the additional key are those on `n :: other_values` (`dict_set_any`) |

## Equal datums (C103; theorems in `PropsSame.v`, cases in `SameWitness.v`)

No further code is modelled.

| property | what is specified | how it is proved |
|---|---|---|
| C103 | `agree R` (both calls succeed with results in `R`, or both raise the same exception), `equal` (`==`), `same_raw_datum`, `same_dict` (`SpecSame.v`) | `==` is `same_datum` (C56); each function reads only label, value and positions of the entities, and the replacements through `sorted_strs`, which is the same for permutations (`sorted_strs_same`); a stable sort is unique (`stable_unique`); machanize by C51 |

## Constructors of user operators with any parameters (C104; theorems in `PropsSignature.v`, cases in `SignatureWitness.v`)

`Signature.v` models the wrapper around `__init__` (base.py:24-44) for a class whose `__init__` has ordinary parameters,
`*rest`, keyword-only parameters and `**options`: `bind_any` is python's binding of arguments, `record_any` what ends up in
`_configs`. Positional-only parameters (python 3.8) and a default value for `self` are left out. On classes with ordinary
parameters only it is the model of `Custom.v` (`C104_ordinary_parameters`).

| property | what is specified | how it is proved |
|---|---|---|
| C104 | `declared` (a signature without repeated names), `part` (keywords with and without a parameter), `receives` (python's calling convention, on top of `call_binds` of C65), `without_rest`, `same_options` (`SpecSignature.v`) | the ordinary part is bound and recorded as if the other keywords were not there (`bind_mine`, `own_form`), which brings it back to the lemmas of C43; other names are found in the record as in the keywords (`own_get_other`) |

## Only the words that occur matter (C105; theorems in `PropsVocab.v`, cases in `VocabWitness.v`)

No new model: the operators are those of `Ops.v`, the pipes those of `Pipe.v`.
`SpecVocab.v` says when two word lists agree on a text (`agree_on`), when two vocabularies
agree on the pieces of a token (`agree_pieces`) and when two dicts have the same entry for a
token (`same_entry`). `same_transform` is equality of the results of `transform`; the aligner
is part of the result, so it covers labels in both directions.

- Word lists: `match_prefix_best` (C34) determines what `match_prefix` finds by the words of
  the list alone, so two tries of agreeing lists find the same at every position
  (`match_agree`); the loops then agree by induction on their fuel.
- Vocabularies: `longest_piece` asks for slices of the token only (`piece_agree`).
- Dicts: both dicts have unique keys, as Python dicts have.
- Pipes: `pipes_alike` compares the steps on the collection of intermediate results.

The four `_refuted` theorems are growth claims one might expect: a larger word list can give
more tokens (`bcd` on `abcd`, then also `ab`), a larger vocabulary can make a word unknown
(`a`, `##bc` on `abc`, then also `ab`), a larger dict moves the hashed index of unknown
tokens, and with `shortest=True` the first token can become shorter. The concrete cases are
in `VocabWitness.v`.

## Labels keep their order (C106; theorems in `PropsReading.v`, cases in `ReadingWitness.v`)

No new model. `SpecReading.v` defines `in_order` (each label of the result that is not 0 has a
place it comes from, and these places never go back), `all_before`, `left_out` (a list with
some elements left out), `reading` (the labels that are not 0, equal neighbours counted once)
and `names` (the labels of the entities of a datum, in the same way).

- `in_order` is reflexive, transitive and compatible with `++` (`order_app`); the rules by
  which segments are relabelled (`rule_ok`) have it, and so has `relabel` (`order_relabel`).
  The operators are gone through one by one as in `all_sound` (`operator_orderly`). For the two operators
  that can delete twice at one place (ReplaceAwithB, SpanSubwords) the inverse group is used
  directly (`order_prop`, `order_inverse`).
- A result that changes at each step and comes from places that never go back comes from
  places that go forward (`left_out_strict`), which gives the claims about `reading`.
- Datums: the entity that covers a character has as many entities before it as end at or
  before that character (`ended_nth`); packed entities are runs (C46).

- Operators written by users (`ReadingUser.v`): on the model of C68 to C71, with `keeps_order`
  for an aligner; the transducers the user supplies must keep the order themselves
  (`C106_user_refuted`).

The `_refuted` theorems show what the claim does not say: labels can get lost, an entity can
be torn apart, and with negative positions (which the constructor of Datum accepts) the labels
are met in another order than the entities.

## Which outputs are possible (C107; theorems in `PropsOutcome.v`, cases in `OutcomeWitness.v`)

No new model. `SpecOutcome.v` defines `results` (the outputs are exactly the values of a form)
and `leaves` (the values turned into themselves are exactly those of the form), and the forms.

- Operators on texts that give a text: if every output has the form, and a text of the form is
  left as it is, then the form describes both (`text_forms`). That the form is a fixed point is
  shown directly, not through idempotence. For stopwords the argument is that no stopword
  contains a blank, so a stopword in the output would have been found in the input (`stop_none`).
- Tokenizers: a list of tokens of the form is the result for the tokens with blanks between
  them (`toks_joined`).
- Indices: every number below the size of the dict is a value of it, since the constructor
  requires this (`continuous_has`).
- Character spacers: a text of the form `own_blanks` is read from left to right, one character
  or one character with its blanks at a time (`own_put`).
- AddWhitespaceAroundWordnZhChar, ReplaceAwithB, StripAccentToken and SpanSubwords have no statement here.

## Which predicted labels stick (C108; theorems in `PropsPredict.v`, cases in `PredictWitness.v`)

No new model. This is C92 in the other direction: labels of the output go back and forward.
`SpecPredict.v` defines `sticks`, and says for which labels of the new pieces it holds
(`in_new`, `framed`, `in_pieces`).

- Operators (`PredictProofs.v`): relabelling back and forward piece by piece, with the swapped
  segmentation of C10 to C29 (`rewrites_sticks`). Operators for which every labelling of the
  result is that of some labelling of the input (`reversible`, C93) need only that the way back
  does not raise.
- Pipes of list operators (`PredictPipe.v`): `shifts` says where each element is put (`lands`) and
  that everything else gets 0, in both directions; it composes (`shifts_cons`).
- Pipes with a tokenizer are split behind it: all labels of the tokens stick in the first part.
- The pipes of pipeline/bert: through their aligners in C77. They need the hypothesis of C77 on accents.
- `settled_sticks` describes the labels only as those that some labels of the input give.
- Pipes with several operators that put in or replace text have no statement (see `C108_forward_refuted`).

## Base classes in the factory (C109; theorems in `PropsBase.v`, cases in `BaseWitness.v`)

`__init_subclass__` asks `is_abstract()` before python has set `__abstractmethods__` on the class, so the
base classes are registered too. `Pipe.v` leaves them out: `imported` lists the operators only. `BaseOps.v`
models what the factory makes with them (`fobj`: an operator of `Pipe.v` or an instance of a base class) and
the methods of `Pipe` over such objects: `add`, running, `==`, serialize and deserialize. `+`, slices and copies
are as in `Pipe.v` and are not repeated. NotImplementedError is a subclass of RuntimeError and
is written `RuntimeErr`. `Operator` has no instances; what the model gives it for types and `_transform` is never
reached (`f_made` excludes it, and `C109_built` says so).

The theorems say which names and arguments are accepted (`C109_built`, `C109_refused`, `C109_other_names`, `C109_add`),
what the three classes do (`C109_tokenizer`, `C109_recognizer`, `C109_spacer`), and that a pipe runs exactly if
the base classes in it are spacers that receive the empty text (`C109_run`, `C109_run_back`, `C109_stops`), by
induction on the steps; labels of the right number stay of the right number because every aligner checks
it (`aligner_lengths`). Reading back follows the proofs of C42 and C43. `C109_library_run`, `C109_add_library`
and `C109_library_equality` say that nothing changes for pipes without base classes.

## Outputs of word lists and vocabularies (C110; theorems in `PropsCuts.v`, cases in `CutsWitness.v`)

Continues C107 for the operators with a word list or a vocabulary; nothing new is modelled. `SpecCuts.v` states the
outputs place by place: `best_cut` for the tokens of a word list, `framed_token` for the blanks, `longest_parts` and
`with_marks` for the parts of one token. The inductive `munched` and `splits` of C24, C35 and C29 are shown to be
the same (`munched_cut`, `cut_munched`, `splits_parts`), and the runs of the operators are known from there. That
every list of vocabulary words comes out uses that a token of the vocabulary stays whole (`one_part`), and that a
text longer than maxlen gives the unknown token (`too_long`). For the pipes `C107_tokenizers` gives a text for
every list of tokens without whitespace. ReplaceAwithB and StripAccentToken have no such statement: what they give
depends on the pattern and on the decomposition tables.

## Expanding twice, and the ratio as a distance (C111, C112; theorems in `PropsMetric.v`, cases in `MetricWitness.v`)

No new code is modelled: these are further statements about `expand_by_entities`, `get_unique_entities`, `unpack_datum` and
`entity_overlapping_ratio` of `Elements.v`.

| Property | Specification | Proof |
| --- | --- | --- |
| C111 | `at_home`, `candidates`, `choices`, `rebuilt` of C47 and C98; the rest is stated with the functions themselves | `expand_one_case`: one round of the loop either gives the rebuilt datum or OverflowError (`aggregate_case`: the running pointer overflows exactly if the text is too long), so `expand_numbers` gives the result for every sampling method; results have no replacements and positions inside their text, whatever the datum was (`aggregate_home`), and so one combination, which is the datum itself (`ExpandMore.v`) |
| C112 | `exact`, `rounding`, `to_nearest`, `same_annotation` of C50; `one_sided`, `two_labels`, `places` (`SpecMetric.v`) count characters | the penalty of one character satisfies the triangle inequality for rates from 0 to 2 (`penalty_triangle`), sums by induction; rounded: three times the error of C50; the rounded sum is monotone (`rounded_mono`) (`RatioMore.v`) |

## Raw data through a pipe and back (C113; theorems in `PropsRawTrip.v`, cases in `RawTripWitness.v`)

No new code is modelled: the statements put `machanize`, `transform`, `align_inverse_all`, `pack_to_datum` and `humanize` together,
with `from_raw_dictionary` in front for data sets.

| Property | Specification | Proof |
| --- | --- | --- |
| C113 | `usual`, `raw_legible`, `raw_on_tokens`, `raw_returns` (`SpecRawTrip.v`), in terms of names and raw positions only; `recovered` and `legible` of C94 | the datum of `machanize` is the raw data with indices for names (`raw_made`); under `usual` names and indices determine each other and indices of entities are above 0 (`usual_facts`), so `humanize` of the packed datum is the raw data exactly if the packed datum is the datum (`raw_trip`); the pipes follow from C94; `pack_to_datum` makes no entity with label 0 (`raw_nonzero`) (`RawTripProofs.v`); data sets (`raw_data`, `sound_data`): the numbering of C51 starts at 1 and has all names, so C51 says that `machanize` succeeds (`data_accepted` in `RawCorpus.v`); learned indices are distinct whatever index is left out (`counting_values`), which is what the round trip of C51 needs |

## Simplifications to keep in mind when reading the statements

* `transform_op E o x` is the operator on an input of the right python type; giving an
  input of a wrong element type is an exception only where the python code raises one.
* The raw dictionaries of C51 have exactly the documented keys (`raw_datum`; any others are in C95); for
  `from_raw_dictionary` any further keys are allowed (`corpus`).
* Statements about `Pipe` objects quantify over `reachable` pipes: everything that the
  public methods can make.
