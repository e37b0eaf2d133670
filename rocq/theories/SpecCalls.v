(** Specification vocabulary for calls of the constructors of the library. *)

From Coq Require Import String.
From Verif Require Import Py Ops Json Elements Pipe SpecPipe.
From Coq Require Import List.

(** Python's calling convention: every parameter of [ps] gets exactly one value.  The first
    ones get the positional arguments, the others a keyword argument or else the default, and
    every keyword is one of those others. *)
Definition call_binds (ps : list (str * option jval)) (args : list jval) (kwargs : list (str * jval))
  (vals : list jval) : Prop :=
  length args <= length ps /\ length vals = length ps /\
  (forall n, In n (map fst kwargs) -> exists k d, nth_error ps k = Some (n, d) /\ length args <= k) /\
  forall k n d, nth_error ps k = Some (n, d) ->
    nth_error vals k = match nth_error args k with
                       | Some v => Some v
                       | None => match dict_get kwargs n with Some v => Some v | None => d end
                       end.

(** What counts as False. *)
Definition false_value (v : jval) : Prop := In v [JNone; JBool false; JInt 0; JStr []; JList []; JTuple []; JDict []].

(** The documented signatures: a parameter without default is required. *)
Definition required (n : String.string) : str * option jval := (lit n, None).
Definition optional (n : String.string) (v : jval) : str * option jval := (lit n, Some v).
Definition text_of (s : String.string) : jval := JStr (lit s).

Definition words_sig := [required "user_words"; optional "shortest" (JBool false)].
Definition replace_sig := [required "a"; required "b"].
Definition soseos_sig := [optional "start_token" (text_of "<sos>"); optional "end_token" (text_of "<eos>")].
Definition pad_sig := [required "maxlen"; optional "pad_token" (text_of "<pad>")].
Definition index_sig := [required "token2index"; optional "unk_token" (text_of "<unk>")].
Definition subwords_sig :=
  [required "vocab"; optional "unk_token" (text_of "<unk>"); optional "maxlen_per_token" (JInt 200)].
Definition hash_sig := [required "token2index"].
Definition purenum_sig := [optional "token" JNone].
Definition end_sig := [optional "end_token" (text_of "<eos>")].

(** The classes that take no argument, with their operators. *)
Definition without_arguments : list (str * op) :=
  [(lit "Lowercase", Lowercase);
   (lit "AddWhitespaceAroundCJK", AddWhitespaceAroundCJK);
   (lit "AddWhitespaceAroundPunctuation", AddWhitespaceAroundPunctuation);
   (lit "StripAccentToken", StripAccentToken);
   (lit "PunctuationExceptEndpointToWhitespace", PunctuationExceptEndpointToWhitespace);
   (lit "IntToken", IntToken); (lit "IntTokenWithSpace", IntTokenWithSpace);
   (lit "FloatToken", FloatToken); (lit "FloatTokenWithSpace", FloatTokenWithSpace);
   (lit "NumTokenWithSpace", NumTokenWithSpace);
   (lit "MergeWhiteSpaceCharacters", MergeWhiteSpaceCharacters);
   (lit "StripWhiteSpaceCharacters", StripWhiteSpaceCharacters);
   (lit "StopwordsToWhitespace", StopwordsToWhitespace);
   (lit "CharTokenizer", CharTokenizer); (lit "EngTokenizer", EngTokenizer);
   (lit "ZhCharTokenizer", ZhCharTokenizer); (lit "WhiteSpaceTokenizer", WhiteSpaceTokenizer)].

Definition signatures : list (str * list (str * option jval)) :=
  map (fun no => (fst no, [])) without_arguments ++
  [(lit "AddWhitespaceAroundWordnZhChar", words_sig); (lit "CustomWordTokenizer", words_sig);
   (lit "ReplaceAwithB", replace_sig); (lit "AddSosEos", soseos_sig); (lit "Pad", pad_sig);
   (lit "Token2Index", index_sig); (lit "SpanSubwords", subwords_sig);
   (lit "Token2IndexwithHash", hash_sig); (lit "PureNum2Token", purenum_sig);
   (lit "AddEndToken", end_sig)].

(** A token written as a python value: a string, or an index. *)
Inductive token_value : jval -> elem -> Prop :=
| tv_text s : token_value (JStr s) (ETok s)
| tv_index z : token_value (JInt z) (EIdx z).

(** A dict from tokens to indices. *)
Definition index_table (d : list (str * Z)) : jval := JDict (map (fun kv => (fst kv, JInt (snd kv))) d).

(** The call succeeds with this operator, or raises. *)
Definition makes (E : env) (name : String.string) (args : list jval) (kwargs : list (str * jval)) (o : op)
  : Prop :=
  exists configs, construct E (lit name) args kwargs = Ok (mkObj (lit name) configs o).
Definition refuses (E : env) (name : String.string) (args : list jval) (kwargs : list (str * jval)) (e : exn)
  : Prop := construct E (lit name) args kwargs = Err e.
