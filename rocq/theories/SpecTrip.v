(** Specification: labels on the way through the pipes of pipeline/bert and back (C77). *)

From Verif Require Import Py Edit Labels SpecSeg SpecRuns SpecOps SpecElements Ops Json Elements Pipe SpecBert.
From Coq Require Import List.
Local Open Scope Z_scope.

(** In lower-case texts of these characters, stripping accents replaces every character [c] by
    one character [f c], which is whitespace iff [c] is. *)
Definition accents_fit (E : env) (f : Z -> Z) (s : str) : Prop :=
  (forall t, incl t (32 :: map lower s) -> stripped E t = map f t) /\
  (forall c, In c (32 :: map lower s) -> is_space E (f c) = is_space E c).

(** The labels come back as they were. *)
Definition survives (E : env) (als : list aligner) (l : list Z) : Prop :=
  exists m, align_all als l = Ok m /\ align_inverse_all E als m = Ok l.

(** The aligners of a pipe that ends with word pieces [outs], after a tokenizer with aligner [a]. *)
Definition then_pieces (E : env) (a : aligner) (outs : list (list elem)) (als : list aligner) : Prop :=
  forall l, align_all als l = (m <- align a l ;; Ok (repeat_each outs m)) /\
    align_inverse_all E als l =
    (if (length l =? length (concat outs))%nat then align_inverse E a (gather outs l) else Err ValueErr).

(** Every label fits a C unsigned int, whitespace has label 0, and a word has one label. *)
Definition token_wise (k : Z -> kind) (s : str) (l : list Z) : Prop :=
  length l = length s /\
  (forall i c x, nth_error s i = Some c -> nth_error l i = Some x -> 0 <= x < 2 ^ 32 /\ (k c = Gap -> x = 0)) /\
  (forall i c d x y, nth_error s i = Some c -> nth_error s (S i) = Some d -> k c = Word -> k d = Word ->
     nth_error l i = Some x -> nth_error l (S i) = Some y -> x = y).

(** Position [i] is inside a word. *)
Definition splits_word (k : Z -> kind) (s : str) (i : Z) : Prop :=
  exists j c d, i = Z.of_nat (S j) /\ nth_error s j = Some c /\ nth_error s (S j) = Some d /\ k c = Word /\ k d = Word.

(** An entity that consists of whole tokens without whitespace between them. *)
Definition on_tokens (k : Z -> kind) (s : str) (e : entity) : Prop :=
  0 < e_label e /\ e_start e < e_end e /\
  (forall i c, e_start e <= Z.of_nat i < e_end e -> nth_error s i = Some c -> k c <> Gap) /\
  ~ splits_word k s (e_start e) /\ ~ splits_word k s (e_end e).
