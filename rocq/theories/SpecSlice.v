(** Specification vocabulary for slices of pipes and for [Pipe.add]. *)

From Coq Require Import Sorting.Sorted.
From Verif Require Import Py Ops Json Elements Pipe.
Local Open Scope Z_scope.
(** ** Slices *)

(** The positions that [start:stop:step] selects from [n] items (the python documentation); a
    negative start or stop counts from the end. *)
Definition sliced (n : Z) (start stop : option Z) (step x : Z) : Prop :=
  let at_ z := if z <? 0 then z + n else z in
  0 <= x < n /\
  exists k, 0 <= k /\
    if 0 <? step
    then x = Z.max 0 (match start with Some z => at_ z | None => 0 end) + k * step /\
         x < match stop with Some z => at_ z | None => n end
    else x = Z.min (n - 1) (match start with Some z => at_ z | None => n - 1 end) + k * step /\
         match stop with Some z => at_ z | None => -1 end < x.
Definition in_slice_order (step : Z) : list Z -> Prop :=
  StronglySorted (fun a b => if 0 <? step then a < b else b < a).
