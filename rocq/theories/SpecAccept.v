(** Specification: which sequences an operator refuses, and pipes that refuse nothing (C89). *)

From Coq Require Import String.
From Verif Require Import Py SpecScan SpecHash Ops SpecOps Json Elements Pipe SpecPipe.
From Coq Require Import List.
Local Open Scope Z_scope.

(** The elements of a list that an operator cannot handle. *)
Inductive refuses : op -> elem -> exn -> Prop :=
| f_purenum t i : refuses (PureNum2Token t) (EIdx i) TypeErr
| f_subwords v u m i : refuses (SpanSubwords v u m) (EIdx i) TypeErr
| f_hash d i : refuses (Token2IndexwithHash d) (EIdx i) TypeErr
| f_large d t : 2 ^ 32 <= Z.of_nat (length d) -> ~ In t (map fst d) ->
    refuses (Token2IndexwithHash d) (ETok t) OverflowErr.

(** [o.transform(x)] raises [e]; [OutOfFuel] stands for a call that does not return. *)
Inductive raises (E : env) : op -> pseq -> exn -> Prop :=
| f_type o x : type_of x <> input_type o -> raises E o x TypeErr
| f_accent s : length (stripped E s) <> length s -> raises E StripAccentToken (SStr s) AssertionErr
| f_stuck a b find s : re_compile E a = Some find -> stuck find s 0 ->
    raises E (ReplaceAwithB a b) (SStr s) OutOfFuel
| f_element o l1 x l2 e : (forall z e', In z l1 -> ~ refuses o z e') -> refuses o x e ->
    raises E o (SLst (l1 ++ x :: l2)) e
| f_negative m t l : m < 0 -> raises E (Pad m t) (SLst l) OverflowErr
| f_pad m t l : 2 ^ 32 <= Z.of_nat (length l) -> Z.of_nat (length l) <> m ->
    raises E (Pad m t) (SLst l) OverflowErr
| f_soseos a b l : 2 ^ 32 <= Z.of_nat (length l) -> raises E (AddSosEos a b) (SLst l) OverflowErr
| f_end t l : 2 ^ 32 <= Z.of_nat (length l) -> raises E (AddEndToken t) (SLst l) OverflowErr.

(** Texts, lists of tokens, lists of anything. *)
Inductive form : Type := Chars | Words | Mixed.

Definition has_form (f : form) (x : pseq) : Prop :=
  match f, x with
  | Chars, SStr _ => True
  | Words, SLst l => forall i, ~ In (EIdx i) l
  | Mixed, SLst _ => True
  | _, _ => False
  end.

Definition word (x : elem) : Prop := exists t, x = ETok t.

(** The operator accepts every sequence of the first form, unless it is a list of [2 ^ 32] or
    more elements, and gives one of the second form. *)
Inductive handles (E : env) : form -> op -> form -> Prop :=
| h_text o : built E o -> input_type o = TStr -> output_type o = TStr -> o <> StripAccentToken ->
    (forall a b find s q, o = ReplaceAwithB a b -> re_compile E a = Some find -> find s q <> Some (q, q)) ->
    handles E Chars o Chars
| h_words o : built E o -> input_type o = TStr -> output_type o = TList -> handles E Chars o Words
| h_purenum t : word t -> handles E Words (PureNum2Token t) Words
| h_purenum_mixed t : handles E Words (PureNum2Token t) Mixed
| h_subwords v u m : word u -> handles E Words (SpanSubwords v u m) Words
| h_subwords_mixed v u m : handles E Words (SpanSubwords v u m) Mixed
| h_pad m t : 0 <= m -> word t -> handles E Words (Pad m t) Words
| h_pad_mixed f m t : f <> Chars -> 0 <= m -> handles E f (Pad m t) Mixed
| h_soseos a b : word a -> word b -> handles E Words (AddSosEos a b) Words
| h_soseos_mixed f a b : f <> Chars -> handles E f (AddSosEos a b) Mixed
| h_end t o : make_end t = Ok o -> handles E Words o Words
| h_end_mixed t o : make_end t = Ok o -> handles E Mixed o Mixed
| h_index f d u o : f <> Chars -> make_token2index d u = Ok o -> handles E f o Mixed
| h_hash d o : make_hash d = Ok o -> Z.of_nat (length d) < 2 ^ 32 -> handles E Words o Mixed.

Inductive all_handle (E : env) : form -> list op -> form -> Prop :=
| a_none f : all_handle E f [] f
| a_more f o g ops h : handles E f o g -> all_handle E g ops h -> all_handle E f (o :: ops) h.

(** The labels of this entity can be written into a list of the length of the utterance. *)
Definition writable (u : str) (e : entity) : Prop :=
  e_start e < e_end e -> - Z.of_nat (length u) <= e_start e /\ e_end e <= Z.of_nat (length u).

(** The first [k] operators of the pipe turn [x] into [u]. *)
Definition reaches (E : env) (p : pipe) (k : nat) (x u : pseq) : Prop :=
  exists als coll, transform_sequence E (mkPipe (firstn k (steps p)) []) x = Ok (u, als, coll).

(** A step of the pipe is given [2 ^ 32] or more elements. *)
Definition too_long (E : env) (p : pipe) (x : pseq) : Prop :=
  exists k u, (k < length (steps p))%nat /\ reaches E p k x u /\ 2 ^ 32 <= Z.of_nat (pseq_length u).

(** [n] indices below [size]; [toks] are the tokens, cut or filled with [t]. *)
Definition sized_input (d : list (str * Z)) (unk : str) (t : elem) (n : nat) (toks out : list elem) (labels : list Z)
  : Prop :=
  length out = n /\ length labels = n /\
  Forall2 (index_of d unk) (firstn n toks ++ repeat t (n - length toks)) out /\
  (forall x, In x out -> exists i, x = EIdx i /\ 0 <= i < Z.of_nat (length d)) /\
  (forall i, (length toks <= i < n)%nat -> nth_error labels i = Some 0).

(** The pipe that README.md builds, lines 36-57. *)
Definition readme_calls : list (str * list (str * jval) * option str) :=
  [(lit "IntTokenWithSpace", [], None); (lit "FloatTokenWithSpace", [], None);
   (lit "MergeWhiteSpaceCharacters", [], None); (lit "StripWhiteSpaceCharacters", [], None);
   (lit "EngTokenizer", [], None); (lit "AddSosEos", [], Some (lit "result_of_add_sos_eos"));
   (lit "Pad", [(lit "maxlen", JInt 5)], None);
   (lit "Token2Index", [(lit "token2index", JDict
      [(lit "<sos>", JInt 0); (lit "<eos>", JInt 1); (lit "<unk>", JInt 2); (lit "<pad>", JInt 3);
       (lit "_int_", JInt 4); (lit "_float_", JInt 5); (lit "I", JInt 6); (lit "apples", JInt 7)])], None)].

Fixpoint add_calls (E : env) (reg : list str) (p : pipe) (calls : list (str * list (str * jval) * option str)) : pipe * option exn :=
  match calls with
  | [] => (p, None)
  | (name, kwargs, ck) :: calls =>
      match add E reg p name (Some kwargs) ck with
      | (p, None) => add_calls E reg p calls
      | r => r
      end
  end.

Definition readme_datum : res datum :=
  e <- make_entity 7 (lit "apples") 7 13 None ;; make_datum (lit "I like apples.") (Some [1; 2]) (Some [e]).
