(** Proofs for C98: the overlapping ratio and the parts of annotated texts put together. *)

From Coq Require Import QArith Lqa.
From Verif Require Import Py PyFacts Elements SpecElements DatumProofs PackProofs RatioProofs SpecJoin JoinProofs.
From Coq Require Import List Lia Sorted.
Import ListNotations.
Local Open Scope Z_scope.

Lemma labelled_of_join d1 d2 d i x : at_home d1 -> at_home d2 -> joined d1 d2 d -> 0 <= i ->
  (i < Z.of_nat (length (d_utterance d1)) -> labelled (d_entities d1) i x -> labelled (d_entities d) i x) /\
  (Z.of_nat (length (d_utterance d1)) <= i ->
     labelled (d_entities d2) (i - Z.of_nat (length (d_utterance d1))) x -> labelled (d_entities d) i x).
Proof.
  intros (_ & I1) (_ & I2) (_ & ->) I0. apply labelled_join; [exact I0| |].
  - eapply Forall_impl; [|exact I1]. unfold inside. cbn. lia.
  - eapply Forall_impl; [|exact I2]. unfold inside. cbn. lia.
Qed.

Lemma costs_join rate d1 d2 d e1 e2 e p q : at_home d1 -> at_home d2 -> at_home e1 -> at_home e2 ->
  joined d1 d2 d -> joined e1 e2 e -> d_utterance d1 = d_utterance e1 ->
  costs rate d1 e1 p -> costs rate d2 e2 q -> costs rate d e (p ++ q).
Proof.
  intros H1 H2 G1 G2 J K EU (LP & CP) (LQ & CQ). split.
  { rewrite app_length, LP, LQ. destruct J as (-> & _). now rewrite app_length. }
  intros i x HX. destruct (Nat.lt_ge_cases i (length p)) as [LT|GE].
  - rewrite nth_error_app1 in HX by exact LT. destruct (CP i x HX) as (a & b & A & B & C). exists a, b.
    split; [apply (proj1 (labelled_of_join d1 d2 d (Z.of_nat i) a H1 H2 J ltac:(lia))); [lia|exact A]|]. split; [|exact C].
    apply (proj1 (labelled_of_join e1 e2 e (Z.of_nat i) b G1 G2 K ltac:(lia))); [rewrite <- EU; lia|exact B].
  - rewrite nth_error_app2 in HX by exact GE. destruct (CQ _ x HX) as (a & b & A & B & C). exists a, b.
    rewrite Nat2Z.inj_sub in A, B by exact GE. rewrite LP in *.
    split; [apply (proj2 (labelled_of_join d1 d2 d (Z.of_nat i) a H1 H2 J ltac:(lia))); [lia|exact A]|]. split; [|exact C].
    apply (proj2 (labelled_of_join e1 e2 e (Z.of_nat i) b G1 G2 K ltac:(lia))); [rewrite <- EU; lia|rewrite <- EU; exact B].
Qed.

Lemma sum_app p q : (sum (p ++ q) == sum p + sum q)%Q.
Proof.
  induction p as [|x p IH].
  - cbn [app]. change (sum []) with 0%Q. lra.
  - cbn [app]. change (sum (x :: p ++ q)) with (x + sum (p ++ q))%Q. change (sum (x :: p)) with (x + sum p)%Q. lra.
Qed.

(** The ratio of the whole is the mean of the ratios of the parts, weighted by their lengths. *)
Theorem joined_ratio fl rate d1 d2 d e1 e2 e : exact fl -> at_home d1 -> at_home d2 -> at_home e1 -> at_home e2 ->
  is_datum d -> is_datum e -> joined d1 d2 d -> joined e1 e2 e ->
  d_utterance d1 = d_utterance e1 -> d_utterance d2 = d_utterance e2 -> d_utterance d1 <> [] -> d_utterance d2 <> [] ->
  exists r1 r2 r, entity_overlapping_ratio fl d1 e1 rate = Ok r1 /\ entity_overlapping_ratio fl d2 e2 rate = Ok r2 /\
    entity_overlapping_ratio fl d e rate = Ok r /\
    (r * inject_Z (Z.of_nat (length (d_utterance d))) ==
       r1 * inject_Z (Z.of_nat (length (d_utterance d1))) + r2 * inject_Z (Z.of_nat (length (d_utterance d2))))%Q.
Proof.
  intros EX H1 H2 G1 G2 HD HE J K EU1 EU2 N1 N2.
  destruct (ratio_exact fl d1 e1 rate EX (proj1 H1) (proj1 G1) EU1 N1) as (r1 & q1 & R1 & C1 & V1).
  destruct (ratio_exact fl d2 e2 rate EX (proj1 H2) (proj1 G2) EU2 N2) as (r2 & q2 & R2 & C2 & V2).
  destruct (ratio_exact fl d e rate EX HD HE) as (r & q & R & C & V).
  { rewrite (proj1 J), (proj1 K). congruence. }
  { rewrite (proj1 J). destruct (d_utterance d1); [congruence|discriminate]. }
  exists r1, r2, r. split; [exact R1|]. split; [exact R2|]. split; [exact R|].
  pose proof (costs_join rate d1 d2 d e1 e2 e q1 q2 H1 H2 G1 G2 J K EU1 C1 C2) as CQ.
  rewrite (costs_unique rate d e q (q1 ++ q2) HD HE C CQ), sum_app in V. rewrite V, V1, V2.
  rewrite (proj1 J), app_length, Nat2Z.inj_add, inject_Z_plus.
  assert (P : forall u : str, u <> [] -> ~ (inject_Z (Z.of_nat (length u)) == 0)%Q).
  { intros u NU. unfold Qeq. cbn. destruct u; [congruence|cbn; lia]. }
  assert (P2 : ~ (inject_Z (Z.of_nat (length (d_utterance d1))) + inject_Z (Z.of_nat (length (d_utterance d2))) == 0)%Q).
  { rewrite <- inject_Z_plus, <- Nat2Z.inj_add, <- app_length. apply P. destruct (d_utterance d1); [congruence|discriminate]. }
  field. repeat split; auto.
Qed.

(** ** The parts *)

Lemma partition_moved u1 u2 io : forall es s, Forall (inside u2) es -> 0 <= s <= Z.of_nat (length u2) ->
  Forall (fun e => s <= e_start e) es -> StronglySorted before es ->
  partition_loop (u1 ++ u2) io (s + Z.of_nat (length u1)) (map (moved (Z.of_nat (length u1))) es) = partition_loop u2 io s es.
Proof.
  set (k := Z.of_nat (length u1)). induction es as [|e es IH]; intros s HI HS HB HO; cbn [map partition_loop].
  - rewrite app_length, Nat2Z.inj_add. fold k.
    destruct (Z.eqb_spec s (Z.of_nat (length u2))), (Z.eqb_spec (s + k) (k + Z.of_nat (length u2))); try lia; [reflexivity|].
    cbn [negb]. rewrite (Z.add_comm k). unfold k. now rewrite slice_r by lia.
  - apply Forall_cons_iff in HI, HB. destruct HI as (I1 & HI), HB as (B1 & HB). apply StronglySorted_inv in HO. destruct HO as (HO & HF).
    unfold inside in I1. cbn [moved e_start e_end e_value e_label e_replacements no_replacements].
    change (no_replacements (moved k e)) with (no_replacements e). rewrite IH; auto; [|lia].
    destruct (partition_loop u2 io (e_end e) es) as [parts labels].
    destruct (Z.eqb_spec s (e_start e)), (Z.eqb_spec (s + k) (e_start e + k)); try lia; cbn [negb]; [reflexivity|].
    unfold k. now rewrite slice_r by lia.
Qed.

Lemma slice_over (u v : str) i j : 0 <= i <= Z.of_nat (length u) -> Z.of_nat (length u) <= j <= Z.of_nat (length u + length v) ->
  slice_z (u ++ v) i j = slice_z u i (Z.of_nat (length u)) ++ slice_z v 0 (j - Z.of_nat (length u)).
Proof.
  intros H1 H2. unfold slice_z, slice, adj. rewrite app_length.
  repeat match goal with |- context [?a <? 0] => destruct (Z.ltb_spec a 0); [lia|] end.
  replace (Nat.min (length u + length v) (Z.to_nat i)) with (Z.to_nat i) by lia.
  replace (Nat.min (length u + length v) (Z.to_nat j)) with (Z.to_nat j) by lia.
  replace (Nat.min (length u) (Z.to_nat i)) with (Z.to_nat i) by lia.
  replace (Nat.min (length u) (Z.to_nat (Z.of_nat (length u)))) with (length u) by lia.
  replace (Nat.min (length v) (Z.to_nat 0)) with 0%nat by lia.
  replace (Nat.min (length v) (Z.to_nat (j - Z.of_nat (length u)))) with (Z.to_nat j - length u)%nat by lia.
  rewrite skipn_app. replace (Z.to_nat i - length u)%nat with 0%nat by lia. cbn [skipn]. rewrite firstn_app, skipn_length.
  rewrite !firstn_all2 with (l := skipn (Z.to_nat i) u) by (rewrite skipn_length; lia). do 2 f_equal. lia.
Qed.
Lemma parts_joined_cons p1 m1 p2 m2 p m ps ms :
  (ms = [] \/ exists a l, ms = a ++ [Some l]) ->
  parts_joined (p1, m1) (p2, m2) (p, m) -> parts_joined (ps ++ p1, ms ++ m1) (p2, m2) (ps ++ p, ms ++ m).
Proof.
  intros HM H. inversion H as [q1 n1 q2 n2 NN|q1 n1 u v q2 n2]; subst.
  - rewrite !app_assoc. constructor. destruct NN as [N|N]; [left|now right]. intros a Q.
    destruct (exists_last' m1) as [->|(b & x & ->)].
    + rewrite app_nil_r in Q. destruct HM as [->|(c & l & ->)]; [symmetry in Q; now apply app_eq_nil in Q|].
      apply app_inj_tail in Q. destruct Q. discriminate.
    + rewrite app_assoc in Q. apply app_inj_tail in Q. destruct Q as (_ & ->). now apply (N b).
  - rewrite !app_assoc. apply pj_meet.
Qed.

Lemma partition_joined u1 u2 io es2 : Forall (inside u2) es2 -> StronglySorted before es2 ->
  forall es1 s, Forall (inside u1) es1 -> StronglySorted before es1 -> Forall (fun e => s <= e_start e) es1 ->
  0 <= s <= Z.of_nat (length u1) ->
  parts_joined (partition_loop u1 io s es1) (partition_loop u2 io 0 es2)
    (partition_loop (u1 ++ u2) io s (join_entities (Z.of_nat (length u1)) es1 es2)).
Proof.
  intros I2 O2. set (k := Z.of_nat (length u1)). induction es1 as [|e es1 IH]; intros s I1 O1 B1 HS.
  - cbn [join_entities app]. unfold join_entities. cbn [app].
    pose proof (partition_moved u1 u2 io es2 0 I2 ltac:(lia)) as PM. fold k in PM. cbn [Z.add] in PM.
    specialize (PM ltac:(eapply Forall_impl; [|exact I2]; unfold inside; cbn; lia) O2).
    cbn [partition_loop]. fold k. destruct (Z.eqb_spec s k) as [->|NE].
    + cbn [negb]. rewrite PM. destruct (partition_loop u2 io 0 es2) as [p2 m2]. apply (pj_apart [] []).
      left. intros a Q. symmetry in Q. now apply app_eq_nil in Q.
    + cbn [negb]. destruct es2 as [|e es2].
      * cbn [map partition_loop]. rewrite app_length, Nat2Z.inj_add. fold k.
        destruct (Z.eqb_spec s (k + Z.of_nat (length u2))); [lia|]. cbn [negb].
        destruct (Z.eqb_spec 0 (Z.of_nat (length u2))) as [L|L].
        -- destruct u2; [|discriminate]. rewrite app_nil_r. cbn [negb length]. rewrite Z.add_0_r.
           apply (pj_apart [[slice_z u1 s k]] [None] [] []). right. discriminate.
        -- cbn [negb]. rewrite (slice_over u1 u2 s (k + Z.of_nat (length u2))) by (fold k; lia). fold k.
           replace (k + Z.of_nat (length u2) - k) with (Z.of_nat (length u2)) by lia.
           apply (pj_meet [] [] _ _ [] []).
      * cbn [map partition_loop] in *. change (no_replacements (moved k e)) with (no_replacements e) in *.
        cbn [moved e_start e_end e_value e_label] in *. apply Forall_cons_iff in I2. destruct I2 as (IE & I2). unfold inside in IE.
        destruct (Z.eqb_spec s (e_start e + k)); [lia|]. cbn [negb].
        destruct (partition_loop (u1 ++ u2) io (e_end e + k) (map (moved k) es2)) as [p m].
        destruct (partition_loop u2 io (e_end e) es2) as [p' m'].
        destruct (Z.eqb_spec 0 (e_start e)) as [Z0|Z0], (Z.eqb_spec k (e_start e + k)); try lia; cbn [negb app] in *.
        -- injection PM as -> ->. rewrite <- Z0. cbn [Z.add]. unfold k at 2. rewrite slice_l by (unfold k in *; lia). fold k.
           apply (pj_apart [[slice_z u1 s k]] [None] (_ :: p') (Some (e_label e) :: m')). right. discriminate.
        -- injection PM as _ -> ->. rewrite (slice_over u1 u2 s (e_start e + k)) by (fold k; lia). fold k.
           replace (e_start e + k - k) with (e_start e) by lia. apply (pj_meet [] []).
  - apply Forall_cons_iff in I1, B1. destruct I1 as (IE & I1), B1 as (BE & B1). apply StronglySorted_inv in O1. destruct O1 as (O1 & F1).
    unfold inside in IE. unfold join_entities in *. cbn [app partition_loop].
    specialize (IH (e_end e) I1 O1 F1 ltac:(lia)).
    destruct (partition_loop u1 io (e_end e) es1) as [p1 m1]. destruct (partition_loop u2 io 0 es2) as [p2 m2].
    destruct (partition_loop (u1 ++ u2) io (e_end e) (es1 ++ map (moved k) es2)) as [p m].
    rewrite slice_l by (unfold k in *; lia).
    set (c := if no_replacements e then _ else _). 
    destruct (Z.eqb_spec s (e_start e)); cbn [negb app].
    + apply (parts_joined_cons p1 m1 p2 m2 p m [c] [Some (e_label e)]); auto. right. now exists [], (e_label e).
    + apply (parts_joined_cons p1 m1 p2 m2 p m [[slice_z u1 s (e_start e)]; c] [None; Some (e_label e)]); auto.
      right. now exists [None], (e_label e).
Qed.

Theorem joined_partition d1 d2 d io : at_home d1 -> at_home d2 -> joined d1 d2 d ->
  parts_joined (partition_by_entities d1 io) (partition_by_entities d2 io) (partition_by_entities d io).
Proof.
  intros (D1 & I1) (D2 & I2) (JU & JE). unfold partition_by_entities. rewrite JU, JE.
  pose proof (is_datum_inv d1 D1) as (_ & _ & _ & _ & S1 & _). pose proof (is_datum_inv d2 D2) as (_ & _ & _ & _ & S2 & _).
  apply partition_joined; auto; [|lia]. eapply Forall_impl; [|exact I1]. unfold inside. cbn. lia.
Qed.
