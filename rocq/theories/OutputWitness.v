(** Concrete cases for OutputProofs.v. *)

From Coq Require Import String.
From Verif Require Import Py Edit SpecEdit GroupObj SpecGroup GroupWitness Json Ops Elements SpecElements Pipe Concrete TextForms Output SpecOutput OutputProofs.
From Coq Require Import List Lia ZArith Permutation.
Local Open Scope Z_scope.

(** "go to LA": the runs begin at 0 and 6, from the right at 0 and 2 *)
Example ex_pack_prints : pack_output (lit "go to LA") [1] [0; 0; 0; 0; 0; 0; 7; 7] = [Prints (lit "[0, 6]"); Prints (lit "[0, 2]")] /\
  beginnings [0; 0; 0; 0; 0; 0; 7; 7] [0; 6] /\
  length (lit "go to LA") = length [0; 0; 0; 0; 0; 0; 7; 7] /\ lit "go to LA" <> [] /\ Forall i32 [1].
Proof.
  split; [reflexivity|]. split; [|split; [reflexivity|split; [discriminate|repeat constructor; unfold i32; lia]]].
  destruct (beginnings_spec [0; 0; 0; 0; 0; 0; 7; 7] ltac:(discriminate)) as (l & E & B). cbv in E. injection E as <-. exact B.
Qed.
(** the lines are written even if the call raises afterwards *)
Theorem prints_only_if_packed_refuted : exists u ints ls e, pack_to_datum u ints ls = Err e /\ pack_output u ints ls <> [].
Proof. exists (lit "a"), [], [2 ^ 31], OverflowErr. split; [vm_compute; reflexivity|discriminate]. Qed.

(** a group without [done], one with, and one in which an overlapping replacement is added after [done] *)
Definition unfinished : list (rcall Z) := [CAdd 0 1 (true, lit "x")].
Definition id_order (l : list (item Z)) := l.
Example ex_warns : rg_output (after_calls unfinished) ReadLen = [Warns (lit "UserWarning") (lit "ReplacementGroup needs validation, please call `done`.")] /\
  ~ finished unfinished /\ finished (unfinished ++ [CDone id_order false]) /\ rg_output (after_calls (unfinished ++ [CDone id_order false])) ReadLen = [].
Proof.
  split; [reflexivity|]. split; [|split; [exists unfinished, id_order, false, []; split; reflexivity|reflexivity]].
  intros (h1 & ord & skip & h2 & E & _). destruct h1 as [|? [|? ?]]; discriminate.
Qed.
Theorem silent_is_valid_refuted : exists h : list (rcall Z), Forall rcall_ok h /\ (forall ord, ~ In (CDone ord true) h) /\
  rg_output (after_calls h) ReadLen = [] /\ overlapping h.
Proof.
  exists (unfinished ++ [CDone id_order false; CAdd 0 2 (true, lit "y")]). split; [repeat constructor; intros l; apply Permutation_refl|].
  split; [intros ord [H|[H|[H|[]]]]; discriminate|]. split; [reflexivity|].
  exists (true, mkR 0 1 (lit "x")), (true, mkR 0 2 (lit "y")). split; [|split; [|split; [discriminate|]]].
  - exists 0, 1, (true, lit "x"). cbn. repeat split; auto; lia.
  - exists 0, 2, (true, lit "y"). cbn. repeat split; auto; lia.
  - unfold non_overlapping. cbn. lia.
Qed.
Example ex_span_warns : sg_output (after_scalls [SAdd 0 1]) ReadLen = [Warns (lit "UserWarning") (lit "SpanGroup needs validation, please call `done`.")] /\
  ~ sfinished [SAdd 0 1] /\ sfinished [SAdd 0 1; SDone].
Proof.
  split; [reflexivity|]. split; [|exists [SAdd 0 1], []; split; reflexivity].
  intros (h1 & h2 & E & _). destruct h1 as [|? [|? ?]]; discriminate.
Qed.

(** two calls of [add], the first of them refused: two warnings *)
Example ex_add_warns : length (snd (build_all env0 (map lit ["Lowercase"%string]) pipe_new [ByName (lit "Nothing") None None; ByName (lit "Lowercase") None None])) = 2%nat.
Proof. reflexivity. Qed.
