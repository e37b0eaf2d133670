(** Model of the lists that go through a pipe as mutable python objects: the input, the
    sequences in between and the output are shared by the caller, the Intermediate and the
    aligners; label lists are given to the aligners and come back.

    A list is a number (its identity); objects are never removed.  Texts cannot be changed and are
    values.  The pipe is a value here ([Heap.v] has pipes and operators as objects). *)

From Verif Require Import Py Ops Elements Pipe.
From Coq Require Import List.
Local Open Scope Z_scope.

(** ** Objects *)

(** a sequence: a text, or a list object *)
Inductive item : Type := AText (s : str) | AList (r : nat).

(** base.py:176-182: what the aligner is made of, and [_input_sequence] *)
Record hal := mkHal { al_made : aligner; al_source : item }.

(** pipe.py:216-224: LabelAlignerSequence.collections and Intermediate._collection *)
Record runobj := mkRun { r_als : list hal; r_coll : list item }.

Record world := mkW {
  w_lists : list (list elem);
  w_labels : list (list Z);
  w_runs : list runobj
}.
Definition empty_world : world := mkW [] [] [].
Definition set_lists (w : world) l := mkW l (w_labels w) (w_runs w).
Definition set_labels (w : world) l := mkW (w_lists w) l (w_runs w).
Definition set_runs (w : world) l := mkW (w_lists w) (w_labels w) l.

(** what they are at the moment *)
Definition value (w : world) (x : item) : pseq :=
  match x with AText s => SStr s | AList r => SLst (nth r (w_lists w) []) end.
Definition labels_of (w : world) (r : nat) : list Z := nth r (w_labels w) [].

(** ** Running a pipe *)

(** every operator that returns a list makes a new one: lst2lst.py:17 ([sum(output_lst, [])]),
    the [_tokenize] methods *)
Definition new_item (w : world) (x : pseq) : world * item :=
  match x with
  | SStr s => (w, AText s)
  | SLst l => (set_lists w (w_lists w ++ [l]), AList (length (w_lists w)))
  end.

(** pipe.py:214-224 *)
Fixpoint hrun (E : env) (ops : list opobj) (x : item) (w : world)
  : world * res (item * list hal * list item) :=
  match ops with
  | [] => (w, Ok (x, [], [x]))
  | o :: ops =>
      match transform_op E (o_op o) (value w x) with
      | Err e => (w, Err e)
      | Ok (y, a) =>
          let '(w, y) := new_item w y in
          match hrun E ops y w with
          | (w, Ok (z, als, coll)) => (w, Ok (z, mkHal a x :: als, x :: coll))
          | (w, Err e) => (w, Err e)
          end
      end
  end.

(** ** Labels *)

(** base.py:237-243: a NullLabelAligner gives back the list it gets; all others make new lists
    (label_propagation.pyx:38, 139, 162) *)
Definition is_null (a : aligner) : bool := match a with ANull _ _ => true | _ => false end.
Definition new_labels (w : world) (l : list Z) : world * nat :=
  (set_labels w (w_labels w ++ [l]), length (w_labels w)).
Definition result_of (w : world) (a : aligner) (r : nat) (l : list Z) : world * nat :=
  if is_null a then (w, r) else new_labels w l.

(** [_inverse_transform] reads the input sequence when it is called (e.g. pad.py:83,
    edit/utils.pyx:63): the input as it is at the moment *)
Definition with_input (a : aligner) (x : pseq) : aligner :=
  match a, x with
  | ALst _ g n f b, SLst l => ALst l g n f b
  | a, _ => a
  end.

(** base.py:202-218; the lengths are those of the run (base.py:177-178) *)
Definition back_now (E : env) (w : world) (h : hal) (labels : list Z) : res (list Z) :=
  _ <- guard (Nat.eqb (length labels) (output_length (al_made h))) ValueErr ;;
  out <- align_inverse_raw E (with_input (al_made h) (value w (al_source h))) labels ;;
  _ <- guard (Nat.eqb (length out) (input_length (al_made h))) ValueErr ;;
  Ok out.

(** pipe.py:271-284 *)
Fixpoint hforward (als : list hal) (r : nat) (w : world) : world * res nat :=
  match als with
  | [] => (w, Ok r)
  | a :: als =>
      match align (al_made a) (labels_of w r) with
      | Err e => (w, Err e)
      | Ok l => let '(w, r) := result_of w (al_made a) r l in hforward als r w
      end
  end.

(** pipe.py:286-298, the aligners from the last to the first *)
Fixpoint hback (E : env) (als : list hal) (r : nat) (w : world) : world * res nat :=
  match als with
  | [] => (w, Ok r)
  | a :: als =>
      match back_now E w a (labels_of w r) with
      | Err e => (w, Err e)
      | Ok l => let '(w, r) := result_of w (al_made a) r l in hback E als r w
      end
  end.

(** ** Calls *)

Inductive action : Type :=
| NewList (l : list elem)                  (* x = [...] *)
| SetList (r : nat) (l : list elem)        (* any change of x in place *)
| NewLabels (l : list Z)
| SetLabels (r : nat) (l : list Z)
| RunPipe (p : pipe) (x : item)            (* p.transform_sequence(x) *)
| Item (k : nat) (j : Z)                   (* intermediate[j] *)
| Forward (k r : nat)                      (* label_aligners.transform(labels) *)
| Back (k r : nat).                        (* label_aligners.inverse_transform(labels) *)

Inductive outcome : Type :=
| Nothing
| MadeList (r : nat)
| Labels (r : nat)
| Ran (y : item) (k : nat)
| Seq (x : item).

Fixpoint put {A} (l : list A) (i : nat) (x : A) : list A :=
  match l, i with
  | [], _ => []
  | _ :: l, O => x :: l
  | y :: l, S i => y :: put l i x
  end.
Definition known {A} (l : list A) (i : nat) : bool := Nat.ltb i (length l).
Definition exists_item (w : world) (x : item) : bool :=
  match x with AText _ => true | AList r => known (w_lists w) r end.

(** Calls about objects that do not exist are answered with [RuntimeErr]. *)
Definition exec (E : env) (w : world) (c : action) : world * res outcome :=
  match c with
  | NewList l => (set_lists w (w_lists w ++ [l]), Ok (MadeList (length (w_lists w))))
  | SetList r l =>
      if known (w_lists w) r then (set_lists w (put (w_lists w) r l), Ok Nothing) else (w, Err RuntimeErr)
  | NewLabels l => let '(w, r) := new_labels w l in (w, Ok (Labels r))
  | SetLabels r l =>
      if known (w_labels w) r then (set_labels w (put (w_labels w) r l), Ok Nothing) else (w, Err RuntimeErr)
  | RunPipe p x =>
      if exists_item w x then
        match hrun E (steps p) x w with
        | (w, Ok (y, als, coll)) => (set_runs w (w_runs w ++ [mkRun als coll]), Ok (Ran y (length (w_runs w))))
        | (w, Err e) => (w, Err e)
        end
      else (w, Err RuntimeErr)
  | Item k j =>        (* intermediate.py:46-57 *)
      match nth_error (w_runs w) k with
      | Some o => (w, x <- get_item (r_coll o) j ;; Ok (Seq x))
      | None => (w, Err RuntimeErr)
      end
  | Forward k r =>
      match nth_error (w_runs w) k with
      | Some o => if known (w_labels w) r
                  then match hforward (r_als o) r w with
                       | (w, Ok r) => (w, Ok (Labels r))
                       | (w, Err e) => (w, Err e)
                       end
                  else (w, Err RuntimeErr)
      | None => (w, Err RuntimeErr)
      end
  | Back k r =>
      match nth_error (w_runs w) k with
      | Some o => if known (w_labels w) r
                  then match hback E (rev (r_als o)) r w with
                       | (w, Ok r) => (w, Ok (Labels r))
                       | (w, Err e) => (w, Err e)
                       end
                  else (w, Err RuntimeErr)
      | None => (w, Err RuntimeErr)
      end
  end.

(** the objects after a sequence of calls, exceptions caught *)
Definition after_actions (E : env) (h : list action) : world := fold_left (fun w c => fst (exec E w c)) h empty_world.
