(** Working piece by piece (C97): when is the result for a text (or list) in two parts the results for the
    parts, one after the other? *)

From Verif Require Import Py Edit SpecSeg SpecRuns SpecWords SpecScan PyRe SpecOps Ops Elements Pipe.

(** One sequence after the other; both are texts or both are lists. *)
Definition glue (x y : pseq) : pseq :=
  match x, y with
  | SStr a, SStr b => SStr (a ++ b)
  | SLst a, SLst b => SLst (a ++ b)
  | _, _ => x
  end.

(** One answer after the other; an exception of a part is the exception of the whole. *)
Definition both (a b : res (list Z)) : res (list Z) :=
  match a, b with
  | Ok x, Ok y => Ok (x ++ y)
  | Err e, _ => Err e
  | _, Err e => Err e
  end.

(** The operator may work on the two parts. *)
Definition glued (E : env) (o : op) (x1 x2 : pseq) : Prop :=
  forall y1 a1 y2 a2, transform_op E o x1 = Ok (y1, a1) -> transform_op E o x2 = Ok (y2, a2) ->
  exists a, transform_op E o (glue x1 x2) = Ok (glue y1 y2, a) /\
    forall l1 l2,
      (length l1 = pseq_length x1 -> length l2 = pseq_length x2 ->
         align a (l1 ++ l2) = both (align a1 l1) (align a2 l2)) /\
      (length l1 = pseq_length y1 -> length l2 = pseq_length y2 ->
         align_inverse E a (l1 ++ l2) = both (align_inverse E a1 l1) (align_inverse E a2 l2)).

(** The same for the steps of a pipe, with what the intermediate objects hold. *)
Definition glued_steps (E : env) (ops : list opobj) (x1 x2 : pseq) : Prop :=
  forall y1 als1 coll1 y2 als2 coll2,
  Pipe.run E ops x1 = Ok (y1, als1, coll1) -> Pipe.run E ops x2 = Ok (y2, als2, coll2) ->
  exists als coll, Pipe.run E ops (glue x1 x2) = Ok (glue y1 y2, als, coll) /\
    coll = map (fun xy => glue (fst xy) (snd xy)) (combine coll1 coll2) /\
    forall l1 l2,
      (length l1 = pseq_length x1 -> length l2 = pseq_length x2 ->
         align_all als (l1 ++ l2) = both (align_all als1 l1) (align_all als2 l2)) /\
      (length l1 = pseq_length y1 -> length l2 = pseq_length y2 ->
         align_inverse_all E als (l1 ++ l2) = both (align_inverse_all E als1 l1) (align_inverse_all E als2 l2)).

(** The last character of the first text and the first character of the second are both in the class. *)
Definition meet (p : Z -> bool) (s t : str) : Prop :=
  exists s' c d t', s = s' ++ [c] /\ t = d :: t' /\ p c = true /\ p d = true.

(** A character of a word, for the tokenizers. *)
Definition wordy (k : Z -> kind) (c : Z) : bool := match k c with Word => true | _ => false end.

(** A word that begins in the first text and ends in the second. *)
Definition straddled (ws : list str) (s t : str) : Prop :=
  exists u v s' t', s = s' ++ u /\ t = v ++ t' /\ u <> [] /\ v <> [] /\ In (u ++ v) ws.

(** Every search in the whole finds what the search in the parts finds. *)
Definition right_by (k : nat) (m : option (nat * nat)) : option (nat * nat) :=
  match m with Some (i, e) => Some (k + i, k + e) | None => None end.
Definition local_search (find : finder) (s t : str) : Prop :=
  (forall p, p < length s ->
     find (s ++ t) p = match find s p with Some m => Some m | None => right_by (length s) (find t 0) end) /\
  (forall p, p < length t -> find (s ++ t) (length s + p) = right_by (length s) (find t p)).

(** An expression that only looks at the characters it matches: no anchors, word boundaries, lookaround. *)
Fixpoint inward (r : rx) : Prop :=
  match r with
  | XEmpty | XSet _ _ | XAny => True
  | XSeq a b | XAlt a b => inward a /\ inward b
  | XRep _ _ _ a => inward a
  | XLook _ _ _ | XBegin | XEnd | XDollar | XWordB _ => False
  end.

(** The cut is in a place that does not matter to the operator. *)
Inductive seam (E : env) : op -> pseq -> pseq -> Prop :=
| seam_anywhere o s t :
    In o [Lowercase; AddWhitespaceAroundCJK; AddWhitespaceAroundPunctuation;
          PunctuationExceptEndpointToWhitespace; CharTokenizer] ->
    seam E o (SStr s) (SStr t)
| seam_accent s t :
    nfd E (s ++ t) = nfd E s ++ nfd E t -> seam E StripAccentToken (SStr s) (SStr t)
| seam_merge s t :
    ~ meet (is_space E) s t -> seam E MergeWhiteSpaceCharacters (SStr s) (SStr t)
| seam_strip s t :
    Forall (fun c => is_space E c = true) s \/ Forall (fun c => is_space E c = true) t \/
    meet (fun c => negb (is_space E c)) s t -> seam E StripWhiteSpaceCharacters (SStr s) (SStr t)
| seam_number o s t :
    In o [IntToken; IntTokenWithSpace; FloatToken; FloatTokenWithSpace; NumTokenWithSpace] ->
    ~ meet (fun c => point c || digit E c) s t -> seam E o (SStr s) (SStr t)
| seam_stopwords s t :
    ~ straddled stopword_set s t -> seam E StopwordsToWhitespace (SStr s) (SStr t)
| seam_words o ws sh s t :
    make_wordn (Some ws) sh = Ok o \/ make_custom (Some ws) sh = Ok o ->
    ~ straddled ws s t -> seam E o (SStr s) (SStr t)
| seam_tokens o k s t :
    In (o, k) [(WhiteSpaceTokenizer, by_space E); (EngTokenizer, by_punct E); (ZhCharTokenizer, by_punct_cjk E)] ->
    ~ meet (wordy k) s t -> seam E o (SStr s) (SStr t)
| seam_elements o l m :
    (exists tok, o = PureNum2Token tok) \/ (exists d unk, o = Token2Index d unk) \/
    (exists d, o = Token2IndexwithHash d) -> seam E o (SLst l) (SLst m)
| seam_subwords vocab unk maxlen ts us :
    ~ two_empty (ts ++ us) ->
    seam E (SpanSubwords vocab unk maxlen) (SLst (map ETok ts)) (SLst (map ETok us))
| seam_replace a b find s t :
    re_compile E a = Some find -> in_bounds find -> b <> [] -> local_search find s t ->
    seam E (ReplaceAwithB a b) (SStr s) (SStr t).

(** Every step of the pipe finds the cut in such a place. *)
Inductive seams (E : env) : list opobj -> pseq -> pseq -> Prop :=
| seams_end x1 x2 : seams E [] x1 x2
| seams_step o ops x1 x2 :
    seam E (o_op o) x1 x2 ->
    (forall y1 a1 y2 a2, transform_op E (o_op o) x1 = Ok (y1, a1) -> transform_op E (o_op o) x2 = Ok (y2, a2) ->
       seams E ops y1 y2) ->
    seams E (o :: ops) x1 x2.

(** The texts alone: what comes out for the whole is what comes out for the parts. *)
Definition same_output (E : env) (o : op) (s t : str) : Prop :=
  exists y1 a1 y2 a2 a, transform_op E o (SStr s) = Ok (y1, a1) /\ transform_op E o (SStr t) = Ok (y2, a2) /\
    transform_op E o (SStr (s ++ t)) = Ok (glue y1 y2, a).

(** What a pipe gives, without the intermediate sequences. *)
Definition glued_pipe (E : env) (p : pipe) (x1 x2 : pseq) : Prop :=
  forall y1 als1 coll1 y2 als2 coll2,
  transform_sequence E p x1 = Ok (y1, als1, coll1) -> transform_sequence E p x2 = Ok (y2, als2, coll2) ->
  exists als coll, transform_sequence E p (glue x1 x2) = Ok (glue y1 y2, als, coll) /\
    forall l1 l2,
      (length l1 = pseq_length x1 -> length l2 = pseq_length x2 ->
         align_all als (l1 ++ l2) = both (align_all als1 l1) (align_all als2 l2)) /\
      (length l1 = pseq_length y1 -> length l2 = pseq_length y2 ->
         align_inverse_all E als (l1 ++ l2) = both (align_inverse_all E als1 l1) (align_inverse_all E als2 l2)).
