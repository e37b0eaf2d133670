(** Specification vocabulary for operator classes whose [__init__] has any parameters. *)

From Coq Require Import String.
From Verif Require Import Py Json SpecJson Elements Pipe SpecPipe SpecCalls Custom SpecCustom Signature.
From Coq Require Import List.

(** [ps] are the ordinary parameters with their defaults; no name occurs twice. *)
Definition declared (s : signature) (ps : list (str * option jval)) : Prop :=
  declares (s_names s) (s_defaults s) ps /\
  NoDup (lit "self" :: map fst ps ++ map fst (s_kwonly s)).

(** The keywords of a call are parted, in order, into those with a name in [ns] and the
    others. *)
Inductive part (ns : list str) : list (str * jval) -> list (str * jval) -> list (str * jval) -> Prop :=
| part_nil : part ns [] [] []
| part_mine n v kwargs mine others : In n ns -> part ns kwargs mine others ->
    part ns ((n, v) :: kwargs) ((n, v) :: mine) others
| part_other n v kwargs mine others : ~ In n ns -> part ns kwargs mine others ->
    part ns ((n, v) :: kwargs) mine ((n, v) :: others).

(** The call [( *args, **kwargs)] gives the parameters the values [r]: the ordinary
    parameters as if there were only these; what is left of the positional arguments goes to
    [*rest], which must be there; a keyword-only parameter gets its keyword or its default;
    what is left of the keywords goes to [**options], which must be there. *)
Definition receives (s : signature) (ps : list (str * option jval)) (args : list jval)
  (kwargs : list (str * jval)) (r : received) : Prop :=
  ~ In (lit "self") (map fst kwargs) /\
  (exists first mine others, args = first ++ r_rest r /\ part (map fst ps) kwargs mine others /\
     call_binds ps first mine (r_params r) /\
     (r_rest r <> [] -> length first = length ps)) /\
  (s_rest s = false -> r_rest r = []) /\
  length (r_kwonly r) = length (s_kwonly s) /\
  (forall k n d, nth_error (s_kwonly s) k = Some (n, d) ->
     nth_error (r_kwonly r) k = match dict_get kwargs n with Some v => Some v | None => d end) /\
  (exists mine, part (map fst ps ++ map fst (s_kwonly s)) kwargs mine (r_options r)) /\
  (s_options s = false -> r_options r = []).

(** the same values without those of [*rest] *)
Definition without_rest (r : received) : received := mkR (r_params r) [] (r_kwonly r) (r_options r).

(** Equal where python compares. *)
Definition same_options (a b : option jval) : Prop :=
  match a, b with Some v, Some w => same v w | None, None => True | _, _ => False end.
