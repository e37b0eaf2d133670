(** Model of the three base classes for operators written by users: what a subclass does that
    supplies a pattern and a token, a tokenizing function, or a character test. *)

From Verif Require Import Py Edit Labels Regex Trie Ops Elements Pipe UserPipe.

(** the aligner object, as its users see it: the lengths of base.py:177-179 and the class's
    [_transform] and [_inverse_transform] *)
Definition seen (E : env) (a : aligner) : ualigner :=
  mkUA (input_length a) (output_length a) (align_raw a) (align_inverse_raw E a).

(** A subclass of PatternRecognizer (pattern_recognizers/base.py:9-60) with an aligner class derived
    from PatternRecognizerAligner (:63-84): [find] is [REGEX_PATTERN.search], [token] is TOKEN,
    [fwd] and [bwd] are the two transduce functions. *)
Definition recognizer (E : env) (find : str -> nat -> option (nat * nat)) (token : str)
  (fwd bwd : transducer) : uop pseq seqtype :=
  mkUO TStr TStr (fun x =>
    match x with
    | SStr s => '(y, a) <- str_result s (scan_group E find (fun _ => token) s) fwd bwd ;; Ok (y, seen E a)
    | SLst _ => Err AttributeErr    (* not reached: transform has checked the type *)
    end).

(** A subclass of AddWhitespaceAroundCharacter (add_whitespace_around_character.py:11-71); [test] is
    [_is_valid_char]. *)
Definition spacer (E : env) (test : Z -> bool) : uop pseq seqtype :=
  mkUO TStr TStr (fun x =>
    match x with
    | SStr s => '(y, a) <- str_result s
                  (char_group E (fun c => if test c then Some [SPACE; c; SPACE] else None) s)
                  around_single except_ne ;; Ok (y, seen E a)
    | SLst _ => Err AttributeErr
    end).

(** A subclass of Tokenizer (tokenizers/base.py:13-49) with an aligner class derived from
    TokenizerAligner (:52-85); [tokenize] is [_tokenize], which may raise. *)
Definition tokenizer (E : env) (tokenize : str -> res (list str)) (fwd bwd : transducer)
  : uop pseq seqtype :=
  mkUO TStr TList (fun x =>
    match x with
    | SStr s => '(y, a) <- tok_result E s (tokenize s) fwd bwd ;; Ok (y, seen E a)
    | SLst _ => Err AttributeErr
    end).

(** The classes of the library that derive from the three base classes, with what they supply. *)
Inductive derived (E : env) : op -> uop pseq seqtype -> Prop :=
| d_merge : derived E MergeWhiteSpaceCharacters (recognizer E (search (re_merge E)) [SPACE] get_most_common get_most_common)
| d_strip : derived E StripWhiteSpaceCharacters (recognizer E (search (re_strip E)) [] get_not_entity get_not_entity)
| d_int : derived E IntToken (recognizer E (search (re_int E)) INT_TOKEN get_most_common except_ne)
| d_int_space : derived E IntTokenWithSpace
    (recognizer E (search (re_int E)) (with_space INT_TOKEN) (around_most_common (with_space INT_TOKEN)) except_ne)
| d_float : derived E FloatToken (recognizer E (search (re_float E)) FLOAT_TOKEN get_most_common except_ne)
| d_float_space : derived E FloatTokenWithSpace
    (recognizer E (search (re_float E)) (with_space FLOAT_TOKEN) (around_most_common (with_space FLOAT_TOKEN)) except_ne)
| d_num_space : derived E NumTokenWithSpace
    (recognizer E (search (re_int E)) (with_space NUM_TOKEN) (around_most_common (with_space NUM_TOKEN)) except_ne)
| d_stopwords : derived E StopwordsToWhitespace (recognizer E (search re_stopwords) [SPACE] get_not_entity get_not_entity)
| d_replace a b find : re_compile E a = Some find ->
    derived E (ReplaceAwithB a b) (recognizer E find b except_ne except_ne)
| d_cjk : derived E AddWhitespaceAroundCJK (spacer E is_cjk)
| d_punctuation : derived E AddWhitespaceAroundPunctuation (spacer E (is_punctuation E))
| d_char : derived E CharTokenizer (tokenizer E (fun s => Ok (map (fun c => [c]) s)) return_none return_none)
| d_white : derived E WhiteSpaceTokenizer (tokenizer E (fun s => Ok (py_split E s)) except_ne except_ne)
| d_eng : derived E EngTokenizer (tokenizer E (fun s => Ok (eng_tokenize E s)) except_ne except_ne)
| d_zh : derived E ZhCharTokenizer (tokenizer E (fun s => Ok (zh_tokenize E s)) except_ne except_ne)
| d_custom t shortest : derived E (CustomWordTokenizer t shortest)
    (tokenizer E (fun s => custom_tokenize (length s) t shortest s 0) except_ne except_ne).
