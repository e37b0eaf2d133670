(** Specification vocabulary: maximal runs of a character class (as [itertools.groupby]
    would cut the text) and what the recognisers should do with them. *)

From Verif Require Import Py SpecSeg.

(** Cut a text into its maximal runs; the flag tells whether the run is in the class. *)
Fixpoint runs (p : Z -> bool) (s : str) : list (bool * str) :=
  match s with
  | [] => []
  | c :: s =>
      match runs p s with
      | [] => [(p c, [c])]
      | (b, r) :: rs =>
          if Bool.eqb b (p c) then (b, c :: r) :: rs else (p c, [c]) :: (b, r) :: rs
      end
  end.

(** Replace the runs of the class [p] for which [choose] gives a new value. *)
Definition seg_runs (p : Z -> bool) (choose : str -> option str) (s : str) : list (seg Z) :=
  map (fun br : bool * str => (snd br, if fst br then choose (snd br) else None)) (runs p s).

(** Digits, one dot, digits. *)
Definition is_decimal (digit : Z -> bool) (r : str) : bool :=
  existsb (fun k =>
    match skipn k r with
    | d :: ((_ :: _) as rest) =>
        (d =? 46)%Z && forallb digit rest && forallb digit (firstn k r) && (0 <? k)
    | _ => false
    end) (seq 0 (length r)).

(** Leading and trailing characters of a class. *)
Fixpoint drop_while (p : Z -> bool) (s : str) : str :=
  match s with
  | [] => []
  | c :: t => if p c then drop_while p t else s
  end.
Definition lstrip (p : Z -> bool) (s : str) : str := drop_while p s.
Definition rstrip (p : Z -> bool) (s : str) : str := rev (drop_while p (rev s)).
Definition strip (p : Z -> bool) (s : str) : str := rstrip p (lstrip p s).

(** Words of a text, found by cutting at runs of the class [p]. *)
Definition words (p : Z -> bool) (s : str) : list str :=
  map snd (filter (fun br : bool * str => negb (fst br)) (runs p s)).

(** The runs that are in the class. *)
Definition class_runs (p : Z -> bool) (s : str) : list str :=
  map snd (filter fst (runs p s)).

(** The texts with [sep] between them. *)
Fixpoint joined (sep : str) (l : list str) : str :=
  match l with
  | [] => []
  | [t] => t
  | t :: l => t ++ sep ++ joined sep l
  end.
