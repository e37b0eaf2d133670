(** Specification vocabulary for the operators: a sequence cut into pieces, some of which
    are given a new value.  Independent of the code's offsets and loops. *)

From Verif Require Import Py SpecLabels.

(** A piece of the input, and its new value if it is replaced. *)
Definition seg (A : Type) : Type := (list A * option (list A))%type.

Definition old_of {A} (x : seg A) : list A := fst x.
Definition new_of {A} (x : seg A) : list A :=
  match snd x with Some v => v | None => fst x end.

(** The input and the output that the pieces describe. *)
Definition olds {A} (sg : list (seg A)) : list A := concat (map old_of sg).
Definition news {A} (sg : list (seg A)) : list A := concat (map new_of sg).

(** The same pieces, read backwards. *)
Definition swap1 {A} (x : seg A) : seg A :=
  match snd x with Some v => (v, Some (fst x)) | None => x end.
Definition swap {A} (sg : list (seg A)) : list (seg A) := map swap1 sg.

(** A labelling rule: labels of a replaced piece, length of its new value. *)
Definition rule : Type := list Z -> nat -> list Z.

(** Labels of the output: kept pieces keep their labels, replaced ones follow the rule. *)
Fixpoint relabel {A} (h : rule) (sg : list (seg A)) (labels : list Z) : list Z :=
  match sg with
  | [] => []
  | x :: sg =>
      let here := firstn (length (old_of x)) labels in
      let rest := skipn (length (old_of x)) labels in
      match snd x with Some v => h here (length v) | None => here end ++ relabel h sg rest
  end.

(** The most frequent label; among equally frequent ones the first. *)
Definition mode (l : list Z) : Z :=
  hd 0%Z (filter (fun x => forallb (fun y => occ y l <=? occ x l) l) l).

(** Labelling rules used by the operators. *)
Definition by_mode : rule := fun ls k => repeat (mode ls) k.
Definition by_entity_mode : rule := fun ls k =>
  repeat (mode (filter (fun l => negb (l =? 0)%Z) ls)) k.
Definition by_zero : rule := fun _ k => repeat 0%Z k.
(** one 0 on both sides *)
Definition around (h : rule) : rule := fun ls k => 0%Z :: h ls (k - 2) ++ [0%Z].
Definition same : rule := fun ls _ => ls.
Definition without_ends : rule := fun ls k => firstn k (tl ls).
