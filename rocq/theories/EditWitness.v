(** Concrete cases: hypotheses of the edit-layer theorems are met, and witnesses for the
    refuted variants. *)

From Verif Require Import Py PyFacts Edit Labels SpecEdit SpecLabels EditProofs SpanProofs
  LabelProofs EditApiProofs.
From Coq Require Import Sorted.

(** Two set iteration orders. *)
Definition ord_id {A} (l : list (repl A)) : list (repl A) := l.
Definition ord_rev {A} (l : list (repl A)) : list (repl A) := rev l.

Lemma ord_id_ok {A} : ord_ok (@ord_id A).
Proof. intros l. apply Permutation_refl. Qed.
Lemma ord_rev_ok {A} : ord_ok (@ord_rev A).
Proof. intros l. symmetry. apply Permutation_rev. Qed.

Definition ex_s : str := [10; 11; 12; 13; 14; 15]%Z.
(** delete [1,3), insert at 3, replace [5,6) *)
Definition ex_g : list (repl Z) := [mkR 1 3 []; mkR 3 3 [7; 8]; mkR 5 6 [9]]%Z.

Example ex_g_in : group_in 0 (length ex_s) ex_g.
Proof. cbn. lia. Qed.
Example ex_g_nt : no_touching_deletions ex_g.
Proof. cbn. repeat split; intros (H1 & H2 & H3); try discriminate. Qed.
Example ex_apply : apply ex_s ex_g = [10; 7; 8; 13; 14; 9]%Z.
Proof. reflexivity. Qed.
Example ex_inverse : inverse ord_rev ex_s ex_g =
  Ok [mkR 1 1 [11; 12]; mkR 1 3 []; mkR 5 6 [15]]%Z.
Proof. reflexivity. Qed.
Example ex_inverse_nt : no_touching_deletions [mkR 1 1 [11; 12]; mkR 1 3 []; mkR 5 6 [15]]%Z.
Proof. cbn. repeat split; intros (H1 & H2 & H3); try discriminate. Qed.

(** C02 without the side condition: AssertionError. *)
Lemma inverse_assertion_witness :
  group_in 0 2 [mkR 0 1 []; mkR 1 2 (A := Z) []] /\
  inverse ord_id [5; 5]%Z [mkR 0 1 []; mkR 1 2 []] = Err AssertionErr.
Proof. split; [cbn; lia|reflexivity]. Qed.

(** ... and pieces restored in the wrong order under one set order, right under another. *)
Lemma inverse_order_witness :
  group_in 0 2 [mkR 0 1 []; mkR 1 2 (A := Z) []] /\
  (exists h, inverse ord_id [5; 6]%Z [mkR 0 1 []; mkR 1 2 []] = Ok h /\
             apply (apply [5; 6]%Z [mkR 0 1 []; mkR 1 2 []]) h = [5; 6]%Z) /\
  (exists h, inverse ord_rev [5; 6]%Z [mkR 0 1 []; mkR 1 2 []] = Ok h /\
             apply (apply [5; 6]%Z [mkR 0 1 []; mkR 1 2 []]) h = [6; 5]%Z).
Proof. split; [cbn; lia|split; eexists; split; reflexivity]. Qed.

Definition ex_tuples : list (Z * Z * list Z) := [(5, 6, [9]); (1, 3, []); (3, 3, [7; 8]); (1, 3, [])]%Z.
Example ex_tuples_range : Forall tuple_in_range ex_tuples.
Proof. unfold ex_tuples, tuple_in_range. repeat constructor; cbn; lia. Qed.
Example ex_tuples_ok : radd_all ord_rev ex_tuples = Ok ex_g.
Proof. reflexivity. Qed.
Example ex_tuples_pairwise : pairwise_ok (map as_repl (filter proper ex_tuples)).
Proof.
  destruct (rdone_cases ord_rev (map as_repl (filter proper ex_tuples)) ord_rev_ok
    (as_repl_wf _ ex_tuples_range)) as [(_ & P)|(E & _)]; [exact P|discriminate E].
Qed.
Example ex_tuples_overlap :
  radd_all ord_id [(0, 3, [1]); (2, 4, [2])]%Z = Err ValueErr /\
  ~ pairwise_ok (map as_repl (filter proper [(0, 3, [1]); (2, 4, [2])]%Z)).
Proof.
  split; [reflexivity|]. intros P.
  destruct (P (mkR 0 3 [1%Z]) (mkR 2 4 [2%Z])) as [H|H]; cbn in *; auto; try congruence; lia.
Qed.
Example ex_tuples_distinct : distinct_positions (map as_repl (filter proper ex_tuples)).
Proof.
  intros a b Ha Hb. cbn in Ha, Hb.
  repeat (destruct Ha as [<-|Ha]); repeat (destruct Hb as [<-|Hb]); cbn; try tauto; try discriminate.
Qed.

(** C05: two insertions at one point. *)
Lemma order_dependence_witness :
  exists g1 g2,
    radd_all ord_id [(0, 0, [1]); (0, 0, [2])]%Z = Ok g1 /\
    radd_all ord_rev [(0, 0, [1]); (0, 0, [2])]%Z = Ok g2 /\
    apply [] g1 = [1; 2]%Z /\ apply [] g2 = [2; 1]%Z.
Proof. do 2 eexists. repeat split; reflexivity. Qed.

(** C07: zero-width spans. *)
Lemma span_order_witness :
  sadd_all [(0, 2); (2, 2)]%Z = Ok [(0, 2); (2, 2)] /\
  sadd_all [(2, 2); (0, 2)]%Z = Err ValueErr.
Proof. split; reflexivity. Qed.

Example ex_spans : sadd_all [(2, 5); (0, 2); (5, 6)]%Z = Ok [(0, 2); (2, 5); (5, 6)].
Proof. reflexivity. Qed.
Example ex_spans_tiles : tiles 0 [(0, 2); (2, 5); (5, 6)] 6.
Proof. cbn. lia. Qed.

Example ex_spans_range : Forall pair_in_range [(2, 5); (7, 6); (0, 2)]%Z /\
  sadd_all [(2, 5); (7, 6); (0, 2)]%Z = Ok [(0, 2); (2, 5)] /\
  sadd_all [(2, 5); (0, 1)]%Z = Err ValueErr /\
  ~ Forall pair_in_range [(0, 2); (2, -1)]%Z /\ sadd_all [(0, 2); (2, -1)]%Z = Err OverflowErr.
Proof.
  split; [repeat constructor; cbn; lia|]. split; [reflexivity|]. split; [reflexivity|].
  split; [|reflexivity]. intros F. inversion F as [|? ? _ F']; inversion F' as [|? ? R _].
  unfold pair_in_range in R. cbn in R. lia.
Qed.
Example ex_joining : lst2str_apply [[1]; []; [2; 3]]%Z [(0, 1); (1, 1); (1, 3)] = Ok [1; 2; 3]%Z /\
  lst2str_apply [[1]; [2]; [3]]%Z [(0, 1); (1, 1); (1, 3)] = Err ValueErr /\
  lst2str_apply [[1]]%Z [(0, 1); (1, 1)] = Err ValueErr.
Proof. repeat split. Qed.

Example ex_gen_span : gen_span_group [1; 1; 1; 2]%Z [[1]; []; [1; 1]; [2]]%Z
  = Ok [(0, 1); (1, 1); (1, 3); (3, 4)].
Proof. reflexivity. Qed.
Example ex_gen_repl : occurs_in_order [[1]; [2; 3]]%Z [9; 1; 9; 9; 2; 3]%Z /\
  gen_replacement_group ord_id [9; 1; 9; 9; 2; 3]%Z [[1]; [2; 3]]%Z
  = Ok [mkR 0 1 []; mkR 2 4 []].
Proof.
  split; [|reflexivity].
  apply (occ_cons [9]%Z [1]%Z [[2; 3]]%Z [9; 9; 2; 3]%Z).
  apply (occ_cons [9; 9]%Z [2; 3]%Z [] []). apply occ_nil.
Qed.

Example ex_propagate :
  propagate [1; 2; 3; 4; 5; 6]%Z ex_g get_most_common_except_not_entity
  = Ok [1; 0; 0; 4; 5; 6]%Z /\ untouched ex_g 4 /\ net_growth ex_g 4 = 0%Z.
Proof.
  split; [reflexivity|]. split; [|reflexivity].
  intros r Hr. cbn in Hr. repeat destruct Hr as [<-|Hr]; cbn; lia || destruct Hr.
Qed.

Example ex_first_mode : first_mode 3%Z [2; 3; 3; 2; 3; 1]%Z.
Proof.
  exists [2%Z], [3; 2; 3; 1]%Z. repeat split; auto.
  - intros y. destruct (in_dec Z.eq_dec y [2; 3; 3; 2; 3; 1]%Z) as [I|N].
    + cbn in I. repeat destruct I as [<-|I]; solve [vm_compute; lia | destruct I].
    + apply (count_occ_not_In Z.eq_dec) in N. unfold occ. rewrite N. lia.
  - intros y [<-|[]]. vm_compute. lia.
Qed.

Example ex_reduce :
  reduce_by_span_group [1; 1; 2; 0; 0; 7]%Z [(0, 3); (3, 5); (5, 6)] get_most_common_label
  = Ok [1; 0; 7]%Z.
Proof. reflexivity. Qed.
Example ex_reduce_bad :
  reduce_by_span_group [1; -1; 1; 2; 2; 7]%Z [(0, 3); (3, 5); (5, 6)] get_most_common_label
  = Ok [0; 2; 7]%Z.
Proof. vm_compute. reflexivity. Qed.
Example ex_u32 : u32_labels [1; 0; 7]%Z /\ ~ u32_labels [1; -1]%Z.
Proof.
  split; [repeat constructor; lia|]. intros H. inversion H as [|? ? _ H']. inversion H'. lia.
Qed.
Example ex_constant : constant_on [1; 1; 2]%Z (0, 2) /\ ~ constant_on [1; 1; 2]%Z (0, 3).
Proof.
  split.
  - intros i j Hi Hj. cbn in Hi, Hj. destruct i as [|[|i]]; destruct j as [|[|j]]; try reflexivity; lia.
  - intros H. specialize (H 0 2). cbn in H. assert (Some 1%Z = Some 2%Z) by (apply H; lia). discriminate.
Qed.

Lemma inverse_order_refuted : exists (s : str) g ord h,
  ord_ok ord /\ group_in 0 (length s) g /\ inverse ord s g = Ok h /\ apply (apply s g) h <> s.
Proof.
  exists [5; 6]%Z, [mkR 0 1 []; mkR 1 2 []], ord_rev.
  eexists. split; [apply ord_rev_ok|]. split; [cbn; lia|]. split; [reflexivity|].
  vm_compute. discriminate.
Qed.

Lemma order_dependence_refuted : exists (l : list (Z * Z * str)) ord1 ord2 g1 g2 s,
  ord_ok ord1 /\ ord_ok ord2 /\ radd_all ord1 l = Ok g1 /\ radd_all ord2 l = Ok g2 /\
  group_in 0 (length s) g1 /\ group_in 0 (length s) g2 /\ apply s g1 <> apply s g2.
Proof.
  exists [(0, 0, [1]); (0, 0, [2])]%Z, ord_id, ord_rev,
    [mkR 0 0 [1]; mkR 0 0 [2]]%Z, [mkR 0 0 [2]; mkR 0 0 [1]]%Z, [].
  split; [apply ord_id_ok|]. split; [apply ord_rev_ok|].
  split; [reflexivity|]. split; [reflexivity|]. split; [cbn; lia|]. split; [cbn; lia|].
  vm_compute. discriminate.
Qed.

Lemma span_order_refuted : exists l1 l2 g,
  Permutation l1 l2 /\ sadd_all l1 = Ok g /\ sadd_all l2 = Err ValueErr.
Proof.
  exists [(0, 2); (2, 2)]%Z, [(2, 2); (0, 2)]%Z, [(0, 2); (2, 2)].
  split; [apply perm_swap|split; reflexivity].
Qed.
