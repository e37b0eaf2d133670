(** Specification: which labels come back through an operator (C92), and what happens when
    labels are sent through an operator or a pipe and back more than once (C93). *)

From Coq Require Import String.
From Verif Require Import Py SpecLabels SpecSeg SpecRuns SpecOps Ops Elements Pipe SpecElements SpecTrip.
From Coq Require Import List.
Local Open Scope Z_scope.

(** ** Which labels come back *)

Definition one_label (l : list Z) : Prop := forall x y, In x l -> In y l -> x = y.
Definition all_zero (l : list Z) : Prop := forall x, In x l -> x = 0.

(** Every replaced piece has labels that satisfy [P], given its new value. *)
Definition in_replaced {A} (sg : list (seg A)) (P : list A -> list Z -> Prop) (l : list Z) : Prop :=
  forall sg1 w v sg2, sg = sg1 ++ (w, Some v) :: sg2 ->
  P v (firstn (length w) (skipn (length (olds sg1)) l)).

(** Every token, of those that make up the text, has labels that satisfy [P]. *)
Definition in_tokens (ts : list str) (P : list Z -> Prop) (l : list Z) : Prop :=
  forall ts1 t ts2, ts = ts1 ++ t :: ts2 -> P (firstn (length t) (skipn (length (concat ts1)) l)).

(** The labels at the places that satisfy [p] are 0. *)
Definition zero_at (p : nat -> Prop) (l : list Z) : Prop := forall i x, p i -> nth_error l i = Some x -> x = 0.

(** Whenever the operator accepts [x]: the labels [l] of [x] come back unchanged just when [P l]. *)
Definition survives_when (E : env) (o : op) (x : pseq) (P : list Z -> Prop) : Prop :=
  forall y a, transform_op E o x = Ok (y, a) ->
  forall l, survives E [a] l <-> length l = pseq_length x /\ P l.

(** Operators that lose no label of [x]. *)
Definition harmless (o : op) (x : pseq) : Prop :=
  match o with
  | Lowercase | StripAccentToken | AddWhitespaceAroundCJK | AddWhitespaceAroundPunctuation
  | AddWhitespaceAroundWordnZhChar _ _ | PureNum2Token _ | Token2Index _ _ | Token2IndexwithHash _
  | AddSosEos _ _ | AddEndToken _ => True
  | SpanSubwords _ _ _ => forall l, x = SLst l -> ~ In (ETok []) l
  | Pad m _ => Z.of_nat (pseq_length x) <= m
  | _ => False
  end.

(** ** More than one trip *)

(** Forward, back and forward again gives what the first trip forward gave, if no call raises. *)
Definition settles (E : env) (als : list aligner) : Prop :=
  forall l m l', align_all als l = Ok m -> align_inverse_all E als m = Ok l' -> align_all als l' = Ok m.

(** Back and forward again changes nothing, if the call does not raise. *)
Definition returns (E : env) (als : list aligner) : Prop :=
  forall m l, align_inverse_all E als m = Ok l -> align_all als l = Ok m.

(** Operators for which every labelling of the result is that of some labelling of the input. *)
Definition reversible (o : op) : Prop :=
  match o with
  | Lowercase | StripAccentToken | MergeWhiteSpaceCharacters | StripWhiteSpaceCharacters
  | CharTokenizer | WhiteSpaceTokenizer | EngTokenizer | ZhCharTokenizer | CustomWordTokenizer _ _
  | PureNum2Token _ | Token2Index _ _ | Token2IndexwithHash _ => True
  | _ => False
  end.

(** Operators that keep labels or lose them, but never give a label to something else. *)
Definition keeps_or_drops (o : op) : Prop :=
  match o with
  | Lowercase | StripAccentToken | StripWhiteSpaceCharacters | PunctuationExceptEndpointToWhitespace
  | StopwordsToWhitespace | AddWhitespaceAroundCJK | AddWhitespaceAroundPunctuation
  | AddWhitespaceAroundWordnZhChar _ _ | PureNum2Token _ | Token2Index _ _ | Token2IndexwithHash _
  | AddSosEos _ _ | AddEndToken _ | SpanSubwords _ _ _ | Pad _ _ => True
  | _ => False
  end.

(** The orders of operators for which a second trip through the pipe changes nothing: at most
    one that is neither reversible nor only keeps and drops labels, and only reversible ones
    before it, and none after it that gives a label to something else. *)
Definition orderly (ops : list op) : Prop :=
  exists before middle after, ops = before ++ middle ++ after /\
    Forall reversible before /\ (length middle <= 1)%nat /\ Forall keeps_or_drops after.

(** Numbers replaced by tokens with spaces around them, then whitespace operators and a tokenizer,
    as in the pipe of README.md; before and after that as above. *)
Definition spaced_numbers : list op := [IntTokenWithSpace; FloatTokenWithSpace; NumTokenWithSpace].
Definition spacers : list op :=
  [MergeWhiteSpaceCharacters; StripWhiteSpaceCharacters; AddWhitespaceAroundCJK; AddWhitespaceAroundPunctuation].
Definition numbered (ops : list op) : Prop :=
  exists before numbers spaces tok after, ops = before ++ numbers ++ spaces ++ tok :: after /\
    Forall reversible before /\ Forall (fun o => In o spaced_numbers) numbers /\ Forall (fun o => In o spacers) spaces /\
    In tok [WhiteSpaceTokenizer; EngTokenizer; ZhCharTokenizer] /\ Forall keeps_or_drops after.

(** The characters of the tokens of numbers are not digits. *)
Definition token_letters (E : env) : Prop :=
  forall c, In c (txt " _int_float_num_") -> is_digit E c = false.

(** Numbers that such an operator replaces. *)
Definition takes (E : env) (r : str) (o : op) : bool :=
  match o with
  | IntTokenWithSpace | NumTokenWithSpace => forallb (digit E) r
  | FloatTokenWithSpace => is_decimal (digit E) r
  | _ => false
  end.
(** The text with these numbers replaced by as many spaces. *)
Definition blanked (E : env) (numbers : list op) (s : str) : list (seg Z) :=
  seg_runs (fun c => point c || digit E c)
    (fun r => if existsb (takes E r) numbers then Some (repeat 32 (length r)) else None) s.
(** Every number has one label, which fits a C unsigned int; without the numbers the labels are
    those of whole words, and 0 on whitespace. *)
Definition number_wise (E : env) (numbers : list op) (k : Z -> kind) (s : str) (l : list Z) : Prop :=
  length l = length s /\
  in_replaced (blanked E numbers s) (fun _ ls => one_label ls /\ u32_labels ls) l /\
  token_wise k (news (blanked E numbers s)) (relabel by_zero (blanked E numbers s) l).

(** ** Datums *)

(** Where a list operator puts what is at place [i]; nowhere if it cuts it off. *)
Definition moved (o : op) (i : nat) : option nat :=
  match o with
  | PureNum2Token _ | Token2Index _ _ | Token2IndexwithHash _ | AddEndToken _ => Some i
  | AddSosEos _ _ => Some (S i)
  | Pad m _ => if Z.of_nat i <? m then Some i else None
  | _ => None
  end.
Definition list_step (o : op) : Prop :=
  match o with
  | PureNum2Token _ | Token2Index _ _ | Token2IndexwithHash _ | AddEndToken _ | AddSosEos _ _ | Pad _ _ => True
  | _ => False
  end.
(** What is at place [i] gets through all of them. *)
Fixpoint passes (ops : list op) (i : nat) : bool :=
  match ops with
  | [] => true
  | o :: ops => match moved o i with Some j => passes ops j | None => false end
  end.
(** Labels other than 0 only at such places. *)
Definition not_cut (ops : list op) (l : list Z) : Prop :=
  forall i x, nth_error l i = Some x -> passes ops i = false -> x = 0.

(** The first [n] operators of a pipe. *)
Definition first_steps (n : nat) (p : pipe) : pipe := mkPipe (firstn n (steps p)) [].

(** Position [i] is inside a number that is replaced. *)
Definition in_number (E : env) (numbers : list op) (s : str) (i : Z) : Prop :=
  exists j c, i = Z.of_nat j /\ nth_error s j = Some c /\ nth_error (news (blanked E numbers s)) j <> Some c.

(** An entity of whole tokens and whole numbers without whitespace between them. *)
Definition on_numbers (E : env) (numbers : list op) (k : Z -> kind) (s : str) (e : entity) : Prop :=
  let rest := news (blanked E numbers s) in
  0 < e_label e /\ e_start e < e_end e /\
  (forall i c, e_start e <= Z.of_nat i < e_end e -> nth_error rest i = Some c ->
     in_number E numbers s (Z.of_nat i) \/ k c <> Gap) /\
  (forall i, i = e_start e \/ i = e_end e ->
     ~ splits_word k rest i /\ ~ (in_number E numbers s (i - 1) /\ in_number E numbers s i)).

(** A datum that is written as labels and read again without loss. *)
Definition legible (d : datum) : Prop :=
  is_datum d /\ d_utterance d <> [] /\
  Forall (fun e => inside (d_utterance d) e /\ 0 < e_label e /\ e_start e < e_end e) (d_entities d) /\
  (forall a b, In a (d_entities d) -> In b (d_entities d) -> e_end a = e_start b -> e_label a <> e_label b).

(** The datum, sent through the pipe, can be recovered from what the pipe gives. *)
Definition recovered (E : env) (p : pipe) (d : datum) : Prop :=
  exists y ints m als coll ls d', transform E p d = Ok (y, ints, m, als, coll) /\
    align_inverse_all E als m = Ok ls /\ pack_to_datum (d_utterance d) ints ls = Ok d' /\
    d_utterance d' = d_utterance d /\ same_set (d_intents d') (d_intents d) /\
    d_entities d' = map bare_entity (d_entities d).
