(** Model of /repo/uttut/pipeline/edit (everything except label propagation).

    Simplifications (see DESIGN.md): the [annotation] of a replacement is
    dropped (it influences nothing: [Replacement.__eq__] ignores it and only
    [repr] prints it); offsets computed by the code itself are unbounded. *)

From Verif Require Export Py.

(** ** validation.pyx *)

(** validation.pyx:14-24 [_validate_disjoint_in_c], the loop over
    [sorted_objs[1:]] with the running [current]. *)
Fixpoint disjoint_from {X} (st en : X -> nat) (current : nat) (l : list X) : bool :=
  match l with
  | [] => true
  | o :: l => if st o <? current then false else disjoint_from st en (en o) l
  end.

(** validation.pyx:14-24; only called on non-empty lists. *)
Definition validate_disjoint {X} (st en : X -> nat) (l : list X) : res unit :=
  match l with
  | [] => Err IndexErr
  | o :: l => guard (disjoint_from st en (en o) l) ValueErr
  end.

(** ** replacement.pyx *)

(** replacement.pyx:10-50 [Replacement] *)
Record repl (A : Type) := mkR { r_start : nat; r_end : nat; r_new : list A }.
Arguments mkR {A}. Arguments r_start {A}. Arguments r_end {A}. Arguments r_new {A}.

(** replacement.pyx:52-56 [Replacement.__eq__] *)
Definition repl_eqb {A} `{Eqb A} (a b : repl A) : bool :=
  (r_start b =? r_start a) && (r_end b =? r_end a) && eqb (r_new b) (r_new a).

Lemma repl_eqb_spec {A} `{Eqb A} (a b : repl A) : reflect (a = b) (repl_eqb a b).
Proof.
  unfold repl_eqb; destruct a as [s1 e1 n1], b as [s2 e2 n2]; cbn [r_start r_end r_new].
  destruct (Nat.eqb_spec s2 s1); [|constructor; congruence].
  destruct (Nat.eqb_spec e2 e1); [|constructor; congruence].
  destruct (eqb_spec n2 n1); constructor; congruence.
Qed.

#[export] Instance Eqb_repl {A} `{Eqb A} : Eqb (repl A) :=
  { eqb := repl_eqb; eqb_spec := repl_eqb_spec }.

(** replacement.pyx:81-96 [ReplacementGroup.add], after argument conversion.
    The ValueError of [_validate_start_end_in_c] (validation.pyx:9-11) raised by the
    constructor is swallowed because [add] is [cpdef void] without [except]:
    the list is left as it was. *)
Definition radd {A} (g : list (repl A)) (start end_ : nat) (new : list A) : list (repl A) :=
  if end_ <? start then g else g ++ [mkR start end_ new].

(** replacement.pyx:81-96 called from python: the [unsigned int] conversion of the
    arguments happens in the wrapper and does raise. *)
Definition radd_py {A} (g : list (repl A)) (start end_ : Z) (new : list A)
  : res (list (repl A)) :=
  s <- to_u32 start ;; e <- to_u32 end_ ;; Ok (radd g s e new).

(** replacement.pyx:172-178 [_sort_replacements] *)
Definition sort_replacements {A} (l : list (repl A)) : list (repl A) :=
  sort_by (fun e => Z.of_nat (r_start e)) (sort_by (fun e => Z.of_nat (r_end e)) l).

(** replacement.pyx:98-111 [ReplacementGroup.done] with [skip_sort=False] (the only use
    in the repository).  [ord] is the iteration order of the [set] at line 102.
    [_validate_new_values] (113-118) compares python types; here all new values have
    the same type by typing, so it always passes (the dynamic version is in
    [GroupObj.v]). *)
Definition rdone {A} `{Eqb A} (ord : list (repl A) -> list (repl A)) (l : list (repl A))
  : res (list (repl A)) :=
  let l1 := ord (dedup l) in
  match l1 with
  | [] => Ok []
  | _ => let l2 := sort_replacements l1 in
         _ <- validate_disjoint r_start r_end l2 ;; Ok l2
  end.

(** replacement.pyx:120-140 [ReplacementGroup.add_all] *)
Fixpoint radd_each {A} (g : list (repl A)) (l : list (Z * Z * list A))
  : res (list (repl A)) :=
  match l with
  | [] => Ok g
  | (s, e, v) :: l => g' <- radd_py g s e v ;; radd_each g' l
  end.

Definition radd_all {A} `{Eqb A} (ord : list (repl A) -> list (repl A))
  (l : list (Z * Z * list A)) : res (list (repl A)) :=
  g <- radd_each [] l ;; rdone ord g.

(** replacement.pyx:145-151 [ReplacementGroup.__eq__] on two finished groups *)
Definition rgroup_eqb {A} `{Eqb A} (g h : list (repl A)) : bool :=
  (length h =? length g) && set_eqb h g.

(** ** utils.pyx *)

(** utils.pyx:6-29 [_transform_sequence]: the list [output] of 2n+1 pieces. *)
Fixpoint transform_pieces {A} (s : list A) (start : nat) (g : list (repl A))
  : list (list A) :=
  match g with
  | [] => [skipn start s]
  | r :: g => slice s start (r_start r) :: r_new r :: transform_pieces s (r_end r) g
  end.

(** str2str.py:8-17 and lst2lst.py:8-17 [apply]: joining the pieces ([''.join],
    [sum(.., [])]). *)
Definition apply {A} (s : list A) (g : list (repl A)) : list A :=
  concat (transform_pieces s 0 g).

(** utils.pyx:71-102 [get_dist_bt_replacement_group]; the unsigned subtraction does not
    wrap on a finished group. *)
Fixpoint dists_from {A} (cur : repl A) (g : list (repl A)) : list nat :=
  match g with
  | [] => []
  | r :: g => (r_start r - r_end cur) :: dists_from r g
  end.

Definition get_dists {A} (g : list (repl A)) : list nat :=
  match g with [] => [] | r :: g => dists_from r g end.

(** utils.pyx:58-66, the loop of [_gen_inverse_replacement_group] over the replacements
    and [dists + [0]]. *)
Fixpoint inverse_loop {A} (s : list A) (start : nat) (g : list (repl A)) (dists : list nat)
  (acc : list (repl A)) : list (repl A) :=
  match g, dists with
  | r :: g, d :: dists =>
      let acc' := radd acc start (start + length (r_new r)) (slice s (r_start r) (r_end r)) in
      inverse_loop s (start + (length (r_new r) + d)) g dists acc'
  | _, _ => acc
  end.

(** utils.pyx:32-68 [_gen_inverse_replacement_group] *)
Definition gen_inverse {A} `{Eqb A} (ord : list (repl A) -> list (repl A))
  (s : list A) (g : list (repl A)) : res (list (repl A)) :=
  match g with
  | [] => rdone ord []
  | r :: _ => rdone ord (inverse_loop s (r_start r) g (get_dists g ++ [0]) [])
  end.

(** str2str.py:20-26 and lst2lst.py:20-26 [inverse] *)
Definition inverse {A} `{Eqb A} (ord : list (repl A) -> list (repl A))
  (s : list A) (g : list (repl A)) : res (list (repl A)) :=
  h <- gen_inverse ord s g ;;
  _ <- guard (length h =? length g) AssertionErr ;;
  Ok h.

(** ** span.pyx *)

(** span.pyx:10-20 [Span] *)
Definition span : Type := nat * nat.

(** span.pyx:45-48 [SpanGroup.add] after argument conversion; the ValueError is
    swallowed as in [radd]. *)
Definition sadd (g : list span) (start end_ : nat) : list span :=
  if end_ <? start then g else g ++ [(start, end_)].

Definition sadd_py (g : list span) (start end_ : Z) : res (list span) :=
  s <- to_u32 start ;; e <- to_u32 end_ ;; Ok (sadd g s e).

(** span.pyx:70-74, the loop of [_validate_contiguousness] *)
Fixpoint contiguous_from (cur : span) (l : list span) : bool :=
  match l with
  | [] => true
  | n :: l => if snd cur =? fst n then contiguous_from n l else false
  end.

(** span.pyx:60-74 [_validate_contiguousness] *)
Definition validate_contiguous (l : list span) : res unit :=
  match l with
  | [] => Err IndexErr
  | s :: l => _ <- guard (fst s =? 0) ValueErr ;; guard (contiguous_from s l) ValueErr
  end.

(** span.pyx:50-58 [SpanGroup.done] with [_sorted_spans] 122-123 *)
Definition sdone (l : list span) : res (list span) :=
  match l with
  | [] => Ok []
  | _ => let l2 := sort_by (fun e : span => Z.of_nat (snd e)) l in
         _ <- validate_disjoint fst snd l2 ;;
         _ <- validate_contiguous l2 ;;
         Ok l2
  end.

(** span.pyx:76-92 [SpanGroup.add_all] on pairs.  (A tuple of another length raises
    ValueError at line 90; by typing it cannot occur here.) *)
Fixpoint sadd_each (g : list span) (l : list (Z * Z)) : res (list span) :=
  match l with
  | [] => Ok g
  | (s, e) :: l => g' <- sadd_py g s e ;; sadd_each g' l
  end.

Definition sadd_all (l : list (Z * Z)) : res (list span) :=
  g <- sadd_each [] l ;; sdone g.

(** ** str2lst.py / lst2str.py *)

(** str2lst.py:18-20 [_validate_compatibility] ([span_group[-1]] on an empty group is an
    IndexError) *)
Definition str2lst_compat {A} (s : list A) (g : list span) : res unit :=
  match last_opt g with
  | None => Err IndexErr
  | Some sp => guard (length s =? snd sp) ValueErr
  end.

(** str2lst.py:7-15 [apply] *)
Definition str2lst_apply {A} (s : list A) (g : list span) : res (list (list A)) :=
  _ <- str2lst_compat s g ;;
  Ok (map (fun sp => slice s (fst sp) (snd sp)) g).

(** str2lst.py:31-35, the loop of [gen_span_group].  [find] returning -1 gives the
    arguments (-1, len(token) - 1) and [add] raises OverflowError on -1. *)
Fixpoint gen_span_loop {A} `{Eqb A} (s : list A) (tokens : list (list A)) (shift : nat)
  (acc : list span) : res (list span) :=
  match tokens with
  | [] => Ok acc
  | t :: tokens =>
      match py_find s t shift with
      | None => Err OverflowErr
      | Some start =>
          let end_ := start + length t in
          gen_span_loop s tokens end_ (sadd acc start end_)
      end
  end.

(** str2lst.py:23-38 [gen_span_group] *)
Definition gen_span_group {A} `{Eqb A} (s : list A) (tokens : list (list A))
  : res (list span) :=
  _ <- guard (eqb s (concat tokens)) ValueErr ;;
  l <- gen_span_loop s tokens 0 [] ;;
  g <- sdone l ;;
  _ <- guard (length g =? length tokens) AssertionErr ;;
  Ok g.

(** str2lst.py:46-52, the loop of [gen_replacement_group]; returns the final [shift] too *)
Fixpoint gen_repl_loop {A} `{Eqb A} (s : list A) (tokens : list (list A)) (shift : nat)
  (acc : list (repl A)) : res (nat * list (repl A)) :=
  match tokens with
  | [] => Ok (shift, acc)
  | t :: tokens =>
      match py_find s t shift with
      | None => Err ValueErr
      | Some start =>
          let acc' := match slice s shift start with
                      | [] => acc
                      | _ => radd acc shift start []
                      end in
          gen_repl_loop s tokens (start + length t) acc'
      end
  end.

(** str2lst.py:41-58 [gen_replacement_group] *)
Definition gen_replacement_group {A} `{Eqb A} (ord : list (repl A) -> list (repl A))
  (s : list A) (tokens : list (list A)) : res (list (repl A)) :=
  '(shift, acc) <- gen_repl_loop s tokens 0 [] ;;
  let acc' := if shift =? length s then acc else radd acc shift (length s) [] in
  rdone ord acc'.

(** lst2str.py:19-21 *)
Fixpoint lst2str_each {A} (l : list (list A)) (g : list span) : bool :=
  match l, g with
  | t :: l, sp :: g => (length t =? snd sp - fst sp) && lst2str_each l g
  | _, _ => true
  end.

(** lst2str.py:6-21 [apply] and [_validate_compatibility] *)
Definition lst2str_apply {A} (l : list (list A)) (g : list span) : res (list A) :=
  _ <- guard (length l =? length g) ValueErr ;;
  _ <- guard (lst2str_each l g) ValueErr ;;
  Ok (concat l).
