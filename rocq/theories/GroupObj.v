(** Model of the mutable objects ReplacementGroup (replacement.pyx:73-169) and SpanGroup
    (span.pyx:39-119): any sequence of calls of [add] and [done], also in the wrong order,
    and what can be read from the object in between.  ([Edit.v] has the groups that are
    made by [add_all] or by one round of [add]s and one [done].)

    A call that raises may have changed the object already, so a call returns the object and
    the exception, if any. *)

From Verif Require Export Edit.
From Verif Require Import Elements.

(** replacement.pyx:10-50 with the python type of [new_value]: [true] for a str, [false]
    for a list (no other type is used in the repository). *)
Definition item (A : Type) : Type := bool * repl A.

(** replacement.pyx:75-79 *)
Record rgroup (A : Type) := mkRG { rg_items : list (item A); rg_done : bool }.
Arguments mkRG {A}. Arguments rg_items {A}. Arguments rg_done {A}.
Definition rg_new {A} : rgroup A := mkRG [] false.

(** replacement.pyx:81-96; the ValueError of the constructor is swallowed, see [radd] *)
Definition rg_add {A} (g : rgroup A) (s e : Z) (v : bool * list A) : rgroup A * option exn :=
  match to_u32 s, to_u32 e with
  | Ok s, Ok e =>
      (if e <? s then g else mkRG (rg_items g ++ [(fst v, mkR s e (snd v))]) (rg_done g), None)
  | _, _ => (g, Some OverflowErr)
  end.

(** replacement.pyx:52-56: a str is never equal to a list *)
Definition item_eqb {A} `{Eqb A} (x y : item A) : bool :=
  Bool.eqb (fst y) (fst x) && repl_eqb (snd x) (snd y).
Lemma item_eqb_spec {A} `{Eqb A} (x y : item A) : reflect (x = y) (item_eqb x y).
Proof.
  unfold item_eqb. destruct x as [a x], y as [b y]; cbn [fst snd].
  destruct (Bool.eqb_spec b a); [|constructor; congruence].
  destruct (repl_eqb_spec x y); constructor; congruence.
Qed.
#[export] Instance Eqb_item {A} `{Eqb A} : Eqb (item A) :=
  { eqb := item_eqb; eqb_spec := item_eqb_spec }.

Definition i_start {A} (x : item A) : nat := r_start (snd x).
Definition i_end {A} (x : item A) : nat := r_end (snd x).

(** replacement.pyx:98-118: [done] with [_validate_new_values]; [ord] is the iteration order
    of the set of line 102 *)
Definition rg_finish {A} `{Eqb A} (ord : list (item A) -> list (item A)) (skip_sort : bool)
  (g : rgroup A) : rgroup A * option exn :=
  match ord (dedup (rg_items g)) with
  | [] => (mkRG [] true, None)
  | x :: l =>
      if skip_sort then (mkRG (x :: l) true, None)
      else if forallb (fun y => Bool.eqb (fst x) (fst y)) (x :: l)
      then
        let l2 := sort_by (fun y => Z.of_nat (i_start y))
                    (sort_by (fun y => Z.of_nat (i_end y)) (x :: l)) in
        match validate_disjoint i_start i_end l2 with
        | Ok _ => (mkRG l2 true, None)
        | Err e => (mkRG l2 (rg_done g), Some e)
        end
      else (mkRG (x :: l) (rg_done g), Some TypeErr)
  end.

(** replacement.pyx:154-157, [g[i]] *)
Definition rg_getitem {A} (g : rgroup A) (i : Z) : res (item A) :=
  if rg_done g then get_item (rg_items g) i else Err RuntimeErr.
(** [for x in g]: python's iteration by [__getitem__] *)
Definition rg_iter {A} (g : rgroup A) : res (list (item A)) :=
  if rg_done g then Ok (rg_items g) else Err RuntimeErr.
(** replacement.pyx:159-161 (the warning is in Output.v), 142-143 *)
Definition rg_len {A} (g : rgroup A) : nat := length (rg_items g).
Definition rg_is_empty {A} (g : rgroup A) : bool := length (rg_items g) =? 0.

(** replacement.pyx:145-151 *)
Definition rg_eq {A} `{Eqb A} (g h : rgroup A) : res bool :=
  l <- rg_iter h ;;
  Ok ((rg_len h =? rg_len g) && set_eqb l (rg_items g)).

(** str2str.py:8-17 ([is_str = true]) and lst2lst.py:8-17: joining pieces of the wrong type
    is a TypeError *)
Definition rg_apply {A} (is_str : bool) (s : list A) (g : rgroup A) : res (list A) :=
  l <- rg_iter g ;;
  _ <- guard (forallb (fun x => Bool.eqb is_str (fst x)) l) TypeErr ;;
  Ok (apply s (map snd l)).

(** span.pyx:41-43 *)
Record sgroup := mkSG { sg_items : list span; sg_done : bool }.
Definition sg_new : sgroup := mkSG [] false.

(** span.pyx:45-48 *)
Definition sg_add (g : sgroup) (s e : Z) : sgroup * option exn :=
  match to_u32 s, to_u32 e with
  | Ok s, Ok e => (if e <? s then g else mkSG (sg_items g ++ [(s, e)]) (sg_done g), None)
  | _, _ => (g, Some OverflowErr)
  end.

(** span.pyx:50-58; no set is made here, equal spans stay *)
Definition sg_finish (g : sgroup) : sgroup * option exn :=
  match sg_items g with
  | [] => (mkSG [] true, None)
  | _ =>
      let l2 := sort_by (fun e : span => Z.of_nat (snd e)) (sg_items g) in
      match (_ <- validate_disjoint fst snd l2 ;; validate_contiguous l2) with
      | Ok _ => (mkSG l2 true, None)
      | Err e => (mkSG l2 (sg_done g), Some e)
      end
  end.

(** span.pyx:106-109 and iteration *)
Definition sg_getitem (g : sgroup) (i : Z) : res span :=
  if sg_done g then get_item (sg_items g) i else Err RuntimeErr.
Definition sg_iter (g : sgroup) : res (list span) :=
  if sg_done g then Ok (sg_items g) else Err RuntimeErr.
(** span.pyx:111-113 (the warning is in Output.v), 94-95 *)
Definition sg_len (g : sgroup) : nat := length (sg_items g).
Definition sg_is_empty (g : sgroup) : bool := length (sg_items g) =? 0.
(** span.pyx:97-104 *)
Definition sg_eq (g h : sgroup) : res bool :=
  l <- sg_iter h ;;
  Ok ((length (sg_items h) =? length (sg_items g)) &&
      forallb (fun x => existsb (fun y => (fst x =? fst y) && (snd x =? snd y)) (sg_items g)) l &&
      forallb (fun x => existsb (fun y => (fst x =? fst y) && (snd x =? snd y)) l) (sg_items g)).
