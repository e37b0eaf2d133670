(** Specification vocabulary for the messages of exceptions. *)

From Coq Require Import Ascii String.
From Verif Require Import Py Json Edit Elements Pipe Messages.
From Coq Require Import List.
Import ListNotations.
Local Open Scope Z_scope.

(** The class of the exception. *)
Definition class_of (r : raised) : exn := match r with Says e _ => e | Python e => e end.
(** The exception of a call that returns a value, and whether it is the one of [m]. *)
Definition tells {A} (m : option raised) (r : res A) : Prop :=
  match m, r with
  | None, Ok _ => True
  | Some m, Err e => class_of m = e
  | _, _ => False
  end.

(** [x] is the first element with [P], at place [i]. *)
Definition first_at {A} (P : A -> Prop) (l : list A) (i : nat) (x : A) : Prop :=
  nth_error l i = Some x /\ P x /\ forall j y, (j < i)%nat -> nth_error l j = Some y -> ~ P y.
(** The first two neighbours with [R]. *)
Definition first_two {A} (R : A -> A -> Prop) (l : list A) (i : nat) (x y : A) : Prop :=
  nth_error l i = Some x /\ nth_error l (S i) = Some y /\ R x y /\
  forall j a b, (j < i)%nat -> nth_error l j = Some a -> nth_error l (S j) = Some b -> ~ R a b.

(** ** Templates

    A text with named holes in braces, as the code writes it, and the text of the named parts. *)
Fixpoint hole (s : string) : string * string :=
  match s with
  | EmptyString => (EmptyString, EmptyString)
  | String c s => if Ascii.eqb c "}"%char then (EmptyString, s) else let (n, rest) := hole s in (String c n, rest)
  end.
Fixpoint part (parts : list (string * str)) (n : string) : str :=
  match parts with
  | nil => nil
  | (m, t) :: parts => if String.eqb m n then t else part parts n
  end.
Fixpoint fill (fuel : nat) (parts : list (string * str)) (s : string) : str :=
  match fuel, s with
  | S fuel, String c s =>
      if Ascii.eqb c "{"%char then let (n, rest) := hole s in part parts n ++ fill fuel parts rest
      else Z.of_N (Ascii.N_of_ascii c) :: fill fuel parts s
  | _, _ => nil
  end.
Definition filled (parts : list (string * str)) (s : string) : str := fill (String.length s) parts s.

(** The text between two positions; a negative one counts from the end. *)
Definition text_at (u : str) (a b : Z) : str :=
  let place z := if z <? 0 then z + Z.of_nat (length u) else z in
  map snd (filter (fun p => (place a <=? Z.of_nat (fst p)) && (Z.of_nat (fst p) <? place b)) (combine (seq 0 (length u)) u)).

Definition place_text : string := "
        Utterance position {start} - {end} expected to be {expected},
        but got {result}.
    "%string.
Definition overlap_text : string := "
        For utterance {utt}, entity {sv} ends at {se}, and entity {nv} starts at {ns},
        which are overlapping. Currently, uttut doesn't support overlapping or hierachy entities.
    "%string.
Definition place_parts (u : str) (e : entity) : list (string * str) :=
  [("start"%string, dump_int (e_start e)); ("end"%string, dump_int (e_end e)); ("expected"%string, e_value e);
   ("result"%string, text_at u (e_start e) (e_end e))].
Definition overlap_parts (u : str) (a b : entity) : list (string * str) :=
  [("utt"%string, u); ("sv"%string, e_value a); ("se"%string, dump_int (e_end a)); ("nv"%string, e_value b); ("ns"%string, dump_int (e_start b))].
