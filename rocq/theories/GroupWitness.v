(** Concrete histories that meet the hypotheses of the theorems about groups, and the
    witnesses of the refuted claims. *)

From Verif Require Import Py PyFacts Edit GroupObj SpecEdit SpecGroup GroupProofs.
From Coq Require Import Sorted.
Local Open Scope Z_scope.

Definition oid (l : list (item Z)) : list (item Z) := l.
Definition orev (l : list (item Z)) : list (item Z) := rev l.
Lemma oid_ok l : Permutation (oid l) l. Proof. reflexivity. Qed.
Ltac calls_ok := repeat (apply Forall_cons; [first [exact I|exact oid_ok]|]); apply Forall_nil.
Lemma orev_ok l : Permutation (orev l) l. Proof. symmetry; apply Permutation_rev. Qed.

(** "abcd"; two replacements, an insertion, a repetition, a reversed and an out of range
    interval *)
Definition h0 : list (rcall Z) :=
  [CAdd 2 3 (true, [120; 121]); CAdd 0 1 (true, []); CAdd 2 2 (true, [122]);
   CAdd 0 1 (true, []); CAdd 3 1 (true, [119]); CAdd (-1) 4 (true, [119]); CAdd 1 (2 ^ 32) (true, [119])].
Example h0_ok : Forall rcall_ok h0. Proof. calls_ok. Qed.
Example h0_run :
  map (fun k => outcome (firstn k h0) (nth k h0 (CDone oid false))) (seq 0 8) =
  [None; None; None; None; None; Some OverflowErr; Some OverflowErr; None] /\
  rg_iter (after_calls h0) = Err RuntimeErr /\
  rg_iter (after_calls (h0 ++ [CDone orev false])) =
    Ok [(true, mkR 0 1 []); (true, mkR 2 2 [122]); (true, mkR 2 3 [120; 121])] /\
  rg_apply true [97; 98; 99; 100] (after_calls (h0 ++ [CDone oid false])) = Ok [98; 122; 120; 121; 100] /\
  rg_apply false [97; 98; 99; 100] (after_calls (h0 ++ [CDone oid false])) = Err TypeErr.
Proof. vm_compute. repeat split; reflexivity. Qed.

Definition h_overlap : list (rcall Z) := [CAdd 0 2 (true, [97]); CAdd 1 3 (true, [98])].
Definition h_mixed : list (rcall Z) := [CAdd 0 2 (true, []); CAdd 0 2 (false, [])].
Example h_overlap_run : overlapping h_overlap /\ ~ mixed h_overlap /\
  outcome h_overlap (CDone oid false) = Some ValueErr /\
  outcome (h_overlap ++ [CDone oid false; CAdd 7 9 (true, [])]) (CDone orev false) = Some ValueErr.
Proof.
  split; [|split; [|split; vm_compute; reflexivity]].
  - exists (true, mkR 0 2 [97]), (true, mkR 1 3 [98]).
    split; [exists 0, 2, (true, [97]); cbn; split; [auto|]; repeat split; lia|].
    split; [exists 1, 3, (true, [98]); cbn; split; [auto|]; repeat split; lia|].
    split; [discriminate|]. unfold non_overlapping. cbn. lia.
  - intros (x & y & (s & e & v & [E|[E|[]]] & _ & _ & ->) & (s' & e' & v' & [E'|[E'|[]]] & _ & _ & ->) & N);
      injection E as <- <- <-; injection E' as <- <- <-; now apply N.
Qed.
Example h_mixed_run : mixed h_mixed /\ outcome h_mixed (CDone oid false) = Some TypeErr /\
  outcome h_mixed (CDone oid true) = None.
Proof.
  split; [|split; vm_compute; reflexivity].
  exists (true, mkR 0 2 []), (false, mkR 0 2 []).
  split; [exists 0, 2, (true, []); cbn; split; [auto|]; repeat split; lia|].
  split; [exists 0, 2, (false, []); cbn; split; [auto|]; repeat split; lia|]. discriminate.
Qed.
Example equal_run :
  rg_eq (after_calls (h0 ++ [CDone oid false])) (after_calls (rev h0 ++ [CDone orev false])) = Ok true /\
  rg_eq (after_calls (h0 ++ [CDone oid false])) (after_calls (tl h0 ++ [CDone oid false])) = Ok false.
Proof. vm_compute. split; reflexivity. Qed.

(** *** Refuted *)

Lemma finished_at h ord skip h2 : outcome h (CDone ord skip) = None -> finished (A := Z) (h ++ CDone ord skip :: h2).
Proof. intros O. exists h, ord, skip, h2. auto. Qed.

(** [add] after [done]: the group can be read, unchecked *)
Lemma add_after_done_refuted : exists h l, Forall rcall_ok h /\ (forall ord, ~ In (CDone ord true) h) /\
  rg_iter (after_calls h) = Ok l /\ ~ pairwise_ok (map snd l) /\
  exists s out, rg_apply true s (after_calls h) = Ok out /\ out <> splice_all (A := Z) s (map snd l).
Proof.
  exists [CAdd 0 2 (true, [120]); CDone oid false; CAdd 1 3 (true, [121])],
    [(true, mkR 0 2 [120]); (true, mkR 1 3 [121])].
  split; [calls_ok|]. split.
  { intros ord [E|[E|[E|[]]]]; discriminate. }
  split; [reflexivity|]. split.
  - intros H. destruct (H (mkR 0 2 [120]) (mkR 1 3 [121])) as [L|L]; cbn in *; auto; [discriminate|lia|lia].
  - exists [97; 98; 99; 100]. eexists. split; [vm_compute; reflexivity|]. vm_compute. discriminate.
Qed.

Lemma skip_sort_refuted : exists h l, Forall rcall_ok h /\ finished h /\
  rg_iter (after_calls h) = Ok l /\ ~ pairwise_ok (A := Z) (map snd l).
Proof.
  exists (h_overlap ++ [CDone oid true]), [(true, mkR 0 2 [97]); (true, mkR 1 3 [98])].
  split; [calls_ok|]. split; [now apply finished_at|]. split; [reflexivity|].
  intros H. destruct (H (mkR 0 2 [97]) (mkR 1 3 [98])) as [L|L]; cbn in *; auto; [discriminate|lia|lia].
Qed.

(** the last call of [done] raised, but the group can be read *)
Lemma failed_done_readable_refuted : exists h ord e l, Forall rcall_ok h /\ (forall m, Permutation (ord m) m) /\
  outcome h (CDone ord false) = Some e /\ rg_iter (after_calls (A := Z) (h ++ [CDone ord false])) = Ok l.
Proof.
  exists [CAdd 0 2 (true, [120]); CDone oid false; CAdd 1 3 (true, [121])], oid.
  do 2 eexists. split; [calls_ok|]. split; [apply oid_ok|].
  split; vm_compute; reflexivity.
Qed.

Lemma eq_symmetric_refuted : exists h1 h2 : list (rcall Z), Forall rcall_ok h1 /\ Forall rcall_ok h2 /\
  rg_eq (after_calls h1) (after_calls h2) = Ok true /\
  rg_eq (after_calls h2) (after_calls h1) = Err RuntimeErr.
Proof.
  exists h_overlap, (h_overlap ++ [CDone oid true]).
  split; [calls_ok|]. split; [calls_ok|].
  split; vm_compute; reflexivity.
Qed.

(** ** SpanGroup *)

Definition s0 : list scall := [SAdd 3 5; SAdd 0 1; SAdd 4 2; SAdd (-1) 2; SAdd 1 3].
Example s0_run : sadded s0 = [(3, 5); (0, 1); (1, 3)]%nat /\ ~ sfinished s0 /\
  sg_iter (after_scalls s0) = Err RuntimeErr /\ soutcome s0 SDone = None /\
  sg_iter (after_scalls (s0 ++ [SDone])) = Ok [(0, 1); (1, 3); (3, 5)]%nat /\
  soutcome (firstn 2 s0) SDone = Some ValueErr /\
  tiles 0 [(0, 1); (1, 3); (3, 5)]%nat 5.
Proof.
  split; [reflexivity|]. split.
  { intros H. apply sdone_flag in H. vm_compute in H. discriminate. }
  split; [reflexivity|]. split; [reflexivity|]. split; [reflexivity|]. split; [reflexivity|].
  cbn. repeat split; lia.
Qed.
Example s0_never : soutcome (s0 ++ [SAdd 2 4; SDone; SAdd 0 1]) SDone = Some ValueErr /\
  sadded (s0 ++ [SAdd 2 4]) = [(3, 5); (0, 1)]%nat ++ (1, 3)%nat :: [] ++ (2, 4)%nat :: [].
Proof. split; reflexivity. Qed.
Example s0_equal : sg_eq (after_scalls (s0 ++ [SDone])) (after_scalls (rev s0 ++ [SDone])) = Ok true /\
  sg_eq (after_scalls (s0 ++ [SDone])) (after_scalls [SAdd 0 5; SDone]) = Ok false.
Proof. split; reflexivity. Qed.

Lemma span_add_after_done_refuted : exists h l, sg_iter (after_scalls h) = Ok l /\ forall n, ~ tiles 0 l n.
Proof.
  exists [SAdd 0 2; SDone; SAdd 5 6]. exists [(0, 2); (5, 6)]%nat. split; [reflexivity|]. intros n H.
  destruct H as (_ & _ & H & _). discriminate.
Qed.
Lemma span_equal_cut_refuted : exists h1 h2 l1 l2, soutcome h1 SDone = None /\ soutcome h2 SDone = None /\
  sg_eq (after_scalls (h1 ++ [SDone])) (after_scalls (h2 ++ [SDone])) = Ok true /\
  sg_iter (after_scalls (h1 ++ [SDone])) = Ok l1 /\ sg_iter (after_scalls (h2 ++ [SDone])) = Ok l2 /\ l1 <> l2.
Proof.
  exists [SAdd 0 0; SAdd 0 0; SAdd 0 1; SAdd 1 1], [SAdd 0 0; SAdd 0 1; SAdd 1 1; SAdd 1 1].
  do 2 eexists. do 5 (split; [vm_compute; reflexivity|]). discriminate.
Qed.
