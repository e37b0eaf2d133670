(** Property theorems C58, C59 (the life of a ReplacementGroup and of a SpanGroup).  The concrete
    cases that meet the hypotheses are in [GroupWitness.v] and [SpanExact.v]. *)

From Verif Require Import Py Edit GroupObj SpecEdit SpecElements SpecGroup GroupProofs GroupWitness SpanExact.
From Coq Require Import Sorted.

(** C58 *)
Theorem C58_add : forall (A : Type) (EA : Eqb A) (h : list (rcall A)) s e v,
  (outcome h (CAdd s e v) = None <-> (0 <= s < 2 ^ 32)%Z /\ (0 <= e < 2 ^ 32)%Z) /\
  (outcome h (CAdd s e v) = None \/ outcome h (CAdd s e v) = Some OverflowErr) /\
  (~ ((0 <= s <= e)%Z /\ (e < 2 ^ 32)%Z) -> after_calls (h ++ [CAdd s e v]) = after_calls h).
Proof. exact @add_outcome. Qed.
Print Assumptions C58_add.

Theorem C58_reading : forall (A : Type) (EA : Eqb A) (h : list (rcall A)), Forall rcall_ok h ->
  (~ finished h -> rg_iter (after_calls h) = Err RuntimeErr /\
     (forall i, rg_getitem (after_calls h) i = Err RuntimeErr) /\
     (forall b s, rg_apply b s (after_calls h) = Err RuntimeErr) /\
     (forall g, rg_eq g (after_calls h) = Err RuntimeErr)) /\
  (finished h -> exists l, rg_iter (after_calls h) = Ok l /\ (forall x, In x l <-> added h x) /\
     rg_len (after_calls h) = length l).
Proof. exact @reading. Qed.
Print Assumptions C58_reading.

Theorem C58_items : forall (A : Type) (EA : Eqb A) (h : list (rcall A)), Forall rcall_ok h -> finished h ->
  exists l, rg_iter (after_calls h) = Ok l /\
    (forall k x, nth_error l k = Some x -> rg_getitem (after_calls h) (Z.of_nat k) = Ok x /\
       rg_getitem (after_calls h) (Z.of_nat k - Z.of_nat (length l)) = Ok x) /\
    (forall i, ~ (- Z.of_nat (length l) <= i < Z.of_nat (length l))%Z -> rg_getitem (after_calls h) i = Err IndexErr).
Proof. exact @items. Qed.
Print Assumptions C58_items.

Theorem C58_is_empty : forall (A : Type) (EA : Eqb A) (h : list (rcall A)), Forall rcall_ok h ->
  (rg_is_empty (after_calls h) = true <-> forall x, ~ added h x).
Proof. exact @empty. Qed.
Print Assumptions C58_is_empty.

Theorem C58_wrong_type : forall (A : Type) (EA : Eqb A) (h : list (rcall A)), Forall rcall_ok h -> finished h ->
  forall b x, added h x -> fst x <> b -> forall s, rg_apply b s (after_calls h) = Err TypeErr.
Proof. exact @wrong_type. Qed.
Print Assumptions C58_wrong_type.

Theorem C58_done : forall (A : Type) (EA : Eqb A) (h : list (rcall A)) ord, Forall rcall_ok h -> (forall l, Permutation (ord l) l) ->
  (mixed h -> outcome h (CDone ord false) = Some TypeErr) /\
  (~ mixed h -> overlapping h -> outcome h (CDone ord false) = Some ValueErr) /\
  (~ mixed h -> ~ overlapping h -> outcome h (CDone ord false) = None /\
     exists l, rg_iter (after_calls (h ++ [CDone ord false])) = Ok l /\ NoDup l /\
       (forall x, In x l <-> added h x) /\ StronglySorted pos_le (map snd l) /\
       (forall n, (forall x, added h x -> r_end (snd x) <= n) -> group_in 0 n (map snd l)) /\
       (forall b, (forall x, added h x -> fst x = b) ->
        forall s, (forall x, added h x -> r_end (snd x) <= length s) ->
        rg_apply b s (after_calls (h ++ [CDone ord false])) = Ok (splice_all s (map snd l)))).
Proof. exact @done_outcome. Qed.
Print Assumptions C58_done.

Theorem C58_failed_done : forall (A : Type) (EA : Eqb A) (h : list (rcall A)) ord skip e, Forall rcall_ok h -> (forall l, Permutation (ord l) l) ->
  outcome h (CDone ord skip) = Some e ->
  skip = false /\ (finished (h ++ [CDone ord skip]) <-> finished h) /\
  (forall x, added (h ++ [CDone ord skip]) x <-> added h x).
Proof. exact @failed_done. Qed.
Print Assumptions C58_failed_done.

Theorem C58_overlap_is_permanent : forall (A : Type) (EA : Eqb A) (h h' : list (rcall A)) ord, Forall rcall_ok (h ++ h') ->
  (forall l, Permutation (ord l) l) -> overlapping h -> outcome (h ++ h') (CDone ord false) <> None.
Proof. exact @overlap_is_permanent. Qed.
Print Assumptions C58_overlap_is_permanent.

Theorem C58_equality : forall (A : Type) (EA : Eqb A) (h1 h2 : list (rcall A)) ord1 ord2 s1 s2, Forall rcall_ok h1 -> Forall rcall_ok h2 ->
  (forall l, Permutation (ord1 l) l) -> (forall l, Permutation (ord2 l) l) ->
  outcome h1 (CDone ord1 s1) = None -> outcome h2 (CDone ord2 s2) = None ->
  exists b, rg_eq (after_calls (h1 ++ [CDone ord1 s1])) (after_calls (h2 ++ [CDone ord2 s2])) = Ok b /\
    (b = true <-> (forall x, added h1 x <-> added h2 x)).
Proof. exact @equality. Qed.
Print Assumptions C58_equality.

Theorem C58_readable_is_disjoint_refuted : exists h l, Forall rcall_ok h /\ (forall ord, ~ In (CDone ord true) h) /\
  rg_iter (after_calls h) = Ok l /\ ~ pairwise_ok (map snd l) /\
  exists s out, rg_apply true s (after_calls h) = Ok out /\ out <> splice_all (A := Z) s (map snd l).
Proof. exact add_after_done_refuted. Qed.
Print Assumptions C58_readable_is_disjoint_refuted.

Theorem C58_skip_sort_is_disjoint_refuted : exists h l, Forall rcall_ok h /\ finished h /\
  rg_iter (after_calls h) = Ok l /\ ~ pairwise_ok (A := Z) (map snd l).
Proof. exact skip_sort_refuted. Qed.
Print Assumptions C58_skip_sort_is_disjoint_refuted.

Theorem C58_failed_done_is_unreadable_refuted : exists h ord e l, Forall rcall_ok h /\ (forall m, Permutation (ord m) m) /\
  outcome h (CDone ord false) = Some e /\ rg_iter (after_calls (A := Z) (h ++ [CDone ord false])) = Ok l.
Proof. exact failed_done_readable_refuted. Qed.
Print Assumptions C58_failed_done_is_unreadable_refuted.

Theorem C58_equality_symmetric_refuted : exists h1 h2 : list (rcall Z), Forall rcall_ok h1 /\ Forall rcall_ok h2 /\
  rg_eq (after_calls h1) (after_calls h2) = Ok true /\
  rg_eq (after_calls h2) (after_calls h1) = Err RuntimeErr.
Proof. exact eq_symmetric_refuted. Qed.
Print Assumptions C58_equality_symmetric_refuted.

(** C59 *)
Theorem C59_add : forall hs s e,
  (soutcome hs (SAdd s e) = None <-> (0 <= s < 2 ^ 32)%Z /\ (0 <= e < 2 ^ 32)%Z) /\
  (soutcome hs (SAdd s e) = None \/ soutcome hs (SAdd s e) = Some OverflowErr) /\
  (~ ((0 <= s <= e)%Z /\ (e < 2 ^ 32)%Z) -> after_scalls (hs ++ [SAdd s e]) = after_scalls hs).
Proof. exact span_add_outcome. Qed.
Print Assumptions C59_add.

Theorem C59_reading : forall hs,
  (~ sfinished hs -> sg_iter (after_scalls hs) = Err RuntimeErr /\
     (forall i, sg_getitem (after_scalls hs) i = Err RuntimeErr) /\
     (forall g, sg_eq g (after_scalls hs) = Err RuntimeErr)) /\
  (sfinished hs -> exists l, sg_iter (after_scalls hs) = Ok l /\ Permutation l (sadded hs)).
Proof. exact span_reading. Qed.
Print Assumptions C59_reading.

Theorem C59_items : forall hs, sfinished hs -> exists l, sg_iter (after_scalls hs) = Ok l /\
    (forall k x, nth_error l k = Some x -> sg_getitem (after_scalls hs) (Z.of_nat k) = Ok x /\
       sg_getitem (after_scalls hs) (Z.of_nat k - Z.of_nat (length l)) = Ok x) /\
    (forall i, ~ (- Z.of_nat (length l) <= i < Z.of_nat (length l))%Z -> sg_getitem (after_scalls hs) i = Err IndexErr).
Proof. exact span_items. Qed.
Print Assumptions C59_items.

Theorem C59_count : forall hs, sg_len (after_scalls hs) = length (sadded hs) /\
  (sg_is_empty (after_scalls hs) = true <-> sadded hs = []).
Proof. exact span_count. Qed.
Print Assumptions C59_count.

Theorem C59_done : forall hs,
  (soutcome hs SDone = None \/ soutcome hs SDone = Some ValueErr) /\
  (soutcome hs SDone = None -> exists l n, sg_iter (after_scalls (hs ++ [SDone])) = Ok l /\
     Permutation l (sadded hs) /\ tiles 0 l n) /\
  (forall g n, tiles 0 g n -> Forall (fun sp => fst sp < snd sp) g -> Permutation (sadded hs) g ->
     soutcome hs SDone = None /\ sg_iter (after_scalls (hs ++ [SDone])) = Ok g) /\
  (forall g n, tiles 0 g n -> sadded hs = g -> ~ In SDone hs ->
     soutcome hs SDone = None /\ sg_iter (after_scalls (hs ++ [SDone])) = Ok g).
Proof. exact span_done_outcome. Qed.
Print Assumptions C59_done.

Theorem C59_failed_done : forall hs e, soutcome hs SDone = Some e ->
  (sfinished (hs ++ [SDone]) <-> sfinished hs) /\ sadded (hs ++ [SDone]) = sadded hs.
Proof. exact span_failed_done. Qed.
Print Assumptions C59_failed_done.

Theorem C59_overlap_is_permanent : forall hs hs' l1 l2 l3 a b p,
  sadded hs = l1 ++ a :: l2 ++ b :: l3 -> fst a <= p < snd a -> fst b <= p < snd b ->
  soutcome (hs ++ hs') SDone <> None.
Proof. exact span_overlap_is_permanent. Qed.
Print Assumptions C59_overlap_is_permanent.

Theorem C59_equality : forall h1 h2, soutcome h1 SDone = None -> soutcome h2 SDone = None ->
  exists b, sg_eq (after_scalls (h1 ++ [SDone])) (after_scalls (h2 ++ [SDone])) = Ok b /\
    (b = true <-> length (sadded h1) = length (sadded h2) /\
                  (forall x, In x (sadded h1) <-> In x (sadded h2))) /\
    (Forall (fun sp => fst sp < snd sp) (sadded h1 ++ sadded h2) ->
     (b = true <-> sg_iter (after_scalls (h1 ++ [SDone])) = sg_iter (after_scalls (h2 ++ [SDone])))).
Proof. exact span_equality. Qed.
Print Assumptions C59_equality.

Theorem C59_readable_is_tiling_refuted : exists h l, sg_iter (after_scalls h) = Ok l /\ forall n, ~ tiles 0 l n.
Proof. exact span_add_after_done_refuted. Qed.
Print Assumptions C59_readable_is_tiling_refuted.

Theorem C59_equal_groups_cut_alike_refuted : exists h1 h2 l1 l2, soutcome h1 SDone = None /\ soutcome h2 SDone = None /\
  sg_eq (after_scalls (h1 ++ [SDone])) (after_scalls (h2 ++ [SDone])) = Ok true /\
  sg_iter (after_scalls (h1 ++ [SDone])) = Ok l1 /\ sg_iter (after_scalls (h2 ++ [SDone])) = Ok l2 /\ l1 <> l2.
Proof. exact span_equal_cut_refuted. Qed.
Print Assumptions C59_equal_groups_cut_alike_refuted.

Theorem C59_done_iff : forall hs g,
  soutcome hs SDone = None /\ sg_iter (after_scalls (hs ++ [SDone])) = Ok g <->
  stably_sorted (fun sp : span => Z.of_nat (snd sp)) (sadded hs) g /\ exists n, tiles 0 g n.
Proof. exact span_done_iff. Qed.
Print Assumptions C59_done_iff.

(** C07 (the rest is in PropsEdit.v) *)
Theorem C07_accepted_iff : forall l g, sadd_all l = Ok g <->
  Forall pair_in_range l /\
  stably_sorted (fun sp : span => Z.of_nat (snd sp)) (map as_span (filter proper_pair l)) g /\
  exists n, tiles 0 g n.
Proof. exact sadd_all_iff. Qed.
Print Assumptions C07_accepted_iff.
