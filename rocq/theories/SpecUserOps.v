(** Specification vocabulary for subclasses of the library's base classes. *)

From Verif Require Import Py Labels SpecSeg SpecOps Ops UserPipe SpecUserPipe.

(** On the replaced pieces the transducer is the rule, which returns as many labels as asked for. *)
Definition follows {A} (f : transducer) (h : rule) (sg : list (seg A)) : Prop :=
  forall o v ls, In (o, Some v) sg -> length ls = length o ->
    f ls (length v) = Ok (h ls (length v)) /\ length (h ls (length v)) = length v.

(** [a] maps [n] labels to [m] labels by [F] and back by [G], for label lists that satisfy
    [ok]; any other number of labels is a ValueError. *)
Definition ualigns (a : ualigner) (ok : list Z -> Prop) (n m : nat) (F G : list Z -> list Z) : Prop :=
  (forall l, length l = n -> ok l -> ualign a l = Ok (F l) /\ length (F l) = m) /\
  (forall l, length l <> n -> ualign a l = Err ValueErr) /\
  (forall l, length l = m -> ok l -> ualign_inverse a l = Ok (G l) /\ length (G l) = n) /\
  (forall l, length l <> m -> ualign_inverse a l = Err ValueErr).

(** The operator turns the text into [y]. *)
Definition gives (o : uop pseq seqtype) (s : str) (y : pseq) (a : ualigner) : Prop :=
  utransform has_type o (SStr s) = Ok (y, a).

(** Every token is taken at the first place where it occurs after the one before; the rest is
    dropped. *)
Definition dropped (gap : str) : list (str * bool) := match gap with [] => [] | _ => [(gap, false)] end.
Inductive found : list str -> str -> list (str * bool) -> Prop :=
| found_end rest : found [] rest (dropped rest)
| found_next t ts gap rest ps :
    (forall gap' rest', gap ++ t ++ rest = gap' ++ t ++ rest' -> length gap <= length gap') ->
    found ts rest ps ->
    found (t :: ts) (gap ++ t ++ rest) (dropped gap ++ (t, true) :: ps).

(** What is asked of the transducers of a tokenizer: no labels for a dropped piece on the way
    forward, the labels of the rule on the way back. *)
Definition drops (fwd bwd : transducer) (k : rule) (ps : list (str * bool)) : Prop :=
  forall gap, In (gap, false) ps ->
    (forall ls, length ls = length gap -> fwd ls 0 = Ok []) /\
    bwd [] (length gap) = Ok (k [] (length gap)) /\ length (k [] (length gap)) = length gap.

(** Every character gets the label of its token, dropped ones follow the rule. *)
Fixpoint char_labels_by (k : rule) (ps : list (str * bool)) (labels : list Z) : list Z :=
  match ps with
  | [] => []
  | (w, true) :: ps => repeat (hd 0%Z labels) (length w) ++ char_labels_by k ps (tl labels)
  | (w, false) :: ps => k [] (length w) ++ char_labels_by k ps labels
  end.
