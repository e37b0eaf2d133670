(** Concrete cases for C91: the bounds are reached. *)

From Coq Require Import String.
From Verif Require Import Py Ops SpecOps Json Elements Pipe SpecPipe SpecAccept SpecSize SizeProofs SizePipe Concrete OpsWitness PipeWitness AcceptWitness ReWitness.
From Coq Require Import List Lia.
Local Open Scope Z_scope.

Definition reaches_bound (c : op * pseq) : bool :=
  match transform_op env0 (fst c) (snd c) with
  | Ok (y, _) => (size y =? growth (fst c) * size (snd c) + extra (fst c)) && ((0 <? size (snd c)) || (0 <? extra (fst c)))
  | Err _ => false
  end.
Definition s_ (t : string) : pseq := SStr (lit t).
Definition l_ (ts : list string) : pseq := SLst (map tk ts).

Definition reaching : list (op * pseq) :=
  [(Lowercase, s_ "Ab"); (MergeWhiteSpaceCharacters, s_ "a b"); (StripWhiteSpaceCharacters, s_ "ab"); (IntToken, s_ "7");
   (IntTokenWithSpace, s_ "7"); (FloatTokenWithSpace, s_ "1.5"); (NumTokenWithSpace, s_ "7"); (StopwordsToWhitespace, s_ "ab");
   (AddWhitespaceAroundCJK, SStr [20013; 25991]); (AddWhitespaceAroundPunctuation, s_ "!?");
   (AddWhitespaceAroundWordnZhChar trie_empty false, SStr [20013]); (PunctuationExceptEndpointToWhitespace, s_ "a!");
   (StripAccentToken, s_ "ab"); (PureNum2Token (tk "_num_"), l_ ["7"%string]); (Pad 4 (tk "<pad>"), l_ []);
   (AddSosEos (tk "<sos>") (tk "<eos>"), l_ ["a"; "b"]%string); (AddEndToken (lit "<eos>"), l_ ["a"%string]);
   (SpanSubwords [] (tk "<unk>") 100, l_ ["a"%string]); (Token2Index [(lit "<unk>", 0)] (lit "<unk>"), l_ ["a"%string]);
   (Token2IndexwithHash [(lit "a", 0)], l_ ["a"%string]); (CharTokenizer, s_ "ab"); (WhiteSpaceTokenizer, s_ "ab");
   (EngTokenizer, s_ "ab!"); (ZhCharTokenizer, s_ "ab!"); (CustomWordTokenizer trie_empty false, s_ "ab")].
Example ex_reaching : forallb reaches_bound reaching = true.
Proof. vm_compute. reflexivity. Qed.

Example ex_replace : exists a, transform_op re_env (ReplaceAwithB (txt "$") (txt "xy")) (s_ "a") = Ok (s_ "axy", a) /\
  size (s_ "axy") = growth (ReplaceAwithB (txt "$") (txt "xy")) * size (s_ "a").
Proof. eexists. split; vm_compute; reflexivity. Qed.

(** 1.5 becomes _float_: 7 characters, and the bound is 9. *)
Example ex_float : exists a, transform_op env0 FloatToken (s_ "1.5") = Ok (s_ "_float_", a).
Proof. eexists. vm_compute. reflexivity. Qed.
(** A piece in front of which ## is written. *)
Example ex_pieces : exists y a, transform_op env0 (SpanSubwords [lit "a"; lit "##b"; lit "##c"] (tk "<unk>") 9) (l_ ["abc"%string]) = Ok (y, a) /\
  size y = 7 /\ size (l_ ["abc"%string]) = 3.
Proof. do 2 eexists. split; [vm_compute; reflexivity|]. vm_compute. split; reflexivity. Qed.

(** The datum of README.md is short enough. *)
Example ex_readme : exists p dt, add_calls env0 imported pipe_new readme_calls = (p, None) /\ readme_datum = Ok dt /\
  Forall (writable (d_utterance dt)) (d_entities dt) /\ Z.of_nat (length (d_utterance dt)) < 2 ^ 27 /\
  bound (map o_op (steps p)) (Z.of_nat (length (d_utterance dt))) = 329.
Proof.
  destruct (readme_made env0) as (p & H & HS). exists p. eexists. split; [exact H|]. split; [vm_compute; reflexivity|].
  split; [|split; [vm_compute; reflexivity|rewrite HS, readme_bound; vm_compute; reflexivity]].
  apply Forall_forall. intros e HE. vm_compute in HE. destruct HE as [<-|[]]. unfold writable. cbn. lia.
Qed.
