(** entity_overlapping_ratio as a distance (C112). *)

From Coq Require Import QArith Qabs Sorted Lqa.
From Verif Require Import Py PyFacts Json Elements SpecElements DatumProofs PackProofs RatioProofs SpecRound RatioRound SpecMetric SpecJoin ElementsLaws.
From Coq Require Import List Lia.
Import ListNotations.
Local Open Scope Z_scope.

Definition is_ratio (fl : Q -> Q) (rate : Q) (d1 : datum) (l1 l2 : list Z) : Q :=
  fl (1 - fl (rounded_sum fl 0 (pens rate l1 l2) / inject_Z (Z.of_nat (length (d_utterance d1)))))%Q.

Lemma ratio_ok fl d1 d2 rate r : is_datum d1 -> is_datum d2 -> entity_overlapping_ratio fl d1 d2 rate = Ok r ->
  d_utterance d1 = d_utterance d2 /\ d_utterance d1 <> [].
Proof.
  intros D1 D2 E. destruct (list_eq_dec Z.eq_dec (d_utterance d1) (d_utterance d2)) as [EU|N].
  2:{ apply (ratio_errors fl d1 d2 rate D1 D2) in N. congruence. }
  split; [exact EU|]. intros EN. apply (ratio_errors fl d1 d2 rate D1 D2) in EN; [congruence|exact EU].
Qed.

Lemma ratio_lists fl d1 d2 rate r l1 l2 : is_datum d1 -> is_datum d2 -> entity_overlapping_ratio fl d1 d2 rate = Ok r ->
  expand_entity_to_list d1 = Ok l1 -> expand_entity_to_list d2 = Ok l2 -> r = is_ratio fl rate d1 l1 l2.
Proof.
  intros D1 D2 E E1 E2. destruct (ratio_ok fl d1 d2 rate r D1 D2 E) as (EU & HN).
  unfold entity_overlapping_ratio, has_same_utterance_as in E.
  destruct (eqb_spec (d_utterance d1) (d_utterance d2)); [|congruence]. cbn [guard bind] in E.
  rewrite E1, E2 in E. cbn [bind] in E.
  destruct (Z.eqb_spec (Z.of_nat (length (d_utterance d1))) 0) as [C|_].
  { destruct (d_utterance d1); [congruence|discriminate]. }
  cbn [negb guard bind] in E. rewrite fold_pens in E. injection E as <-. reflexivity.
Qed.

(** ** Triangle inequality *)

Lemma penalty_triangle rate a b c : (0 <= rate <= 2)%Q ->
  (penalty_on a c rate <= penalty_on a b rate + penalty_on b c rate)%Q.
Proof.
  intros H. unfold penalty_on.
  destruct (Z.eqb_spec a c), (Z.eqb_spec a b), (Z.eqb_spec b c), (Z.eqb_spec a 0), (Z.eqb_spec b 0), (Z.eqb_spec c 0);
    cbn [orb]; try lra; congruence.
Qed.

Lemma pens_triangle rate : (0 <= rate <= 2)%Q -> forall a b c, length a = length b -> length b = length c ->
  (sum (pens rate a c) <= sum (pens rate a b) + sum (pens rate b c))%Q.
Proof.
  intros H. induction a as [|x a IH]; intros [|y b] [|z c] L1 L2; try discriminate.
  injection L1 as L1. injection L2 as L2. specialize (IH b c L1 L2).
  cbn [pens combine map fst snd sum fold_right]. fold (pens rate a c) (pens rate a b) (pens rate b c).
  fold (sum (pens rate a c)) (sum (pens rate a b)) (sum (pens rate b c)).
  pose proof (penalty_triangle rate x y z H). lra.
Qed.

Lemma ratio_sum fl rate d l1 l2 : exact fl ->
  (is_ratio fl rate d l1 l2 == 1 - sum (pens rate l1 l2) / inject_Z (Z.of_nat (length (d_utterance d))))%Q.
Proof.
  intros EX. unfold is_ratio. rewrite (EX (1 - _)%Q), (EX (_ / _)%Q), (sum_exact fl _ EX). rewrite Qplus_0_l. reflexivity.
Qed.

Lemma div_le x y n : (0 < n)%Q -> (x <= y)%Q -> (x / n <= y / n)%Q.
Proof. intros H1 H2. unfold Qdiv. apply Qmult_le_compat_r; [exact H2|]. apply Qlt_le_weak, Qinv_lt_0_compat, H1. Qed.

Lemma sums_triangle rate d1 d2 d3 p q s : is_datum d1 -> is_datum d2 -> is_datum d3 -> (0 <= rate <= 2)%Q ->
  d_utterance d1 = d_utterance d2 -> d_utterance d2 = d_utterance d3 ->
  costs rate d1 d2 p -> costs rate d2 d3 q -> costs rate d1 d3 s -> (sum s <= sum p + sum q)%Q.
Proof.
  intros D1 D2 D3 HR U1 U2 P1 P2 P3.
  destruct (expand_labels d1 D1) as (l1 & _ & L1 & H1). destruct (expand_labels d2 D2) as (l2 & _ & L2 & H2).
  destruct (expand_labels d3 D3) as (l3 & _ & L3 & H3).
  pose proof (f_equal (@length _) U1) as N1. pose proof (f_equal (@length _) U2) as N2.
  rewrite (costs_unique rate d1 d2 p (pens rate l1 l2) D1 D2 P1) by (apply pens_costs; try congruence; intros; [apply H1|apply H2]; lia).
  rewrite (costs_unique rate d2 d3 q (pens rate l2 l3) D2 D3 P2) by (apply pens_costs; try congruence; intros; [apply H2|apply H3]; lia).
  rewrite (costs_unique rate d1 d3 s (pens rate l1 l3) D1 D3 P3) by (apply pens_costs; try congruence; intros; [apply H1|apply H3]; lia).
  apply pens_triangle; [exact HR|congruence|congruence].
Qed.

Theorem ratio_triangle fl d1 d2 d3 rate p q s : exact fl -> is_datum d1 -> is_datum d2 -> is_datum d3 -> (0 <= rate <= 2)%Q ->
  entity_overlapping_ratio fl d1 d2 rate = Ok p -> entity_overlapping_ratio fl d2 d3 rate = Ok q ->
  entity_overlapping_ratio fl d1 d3 rate = Ok s -> (1 - s <= (1 - p) + (1 - q))%Q.
Proof.
  intros EX D1 D2 D3 HR E1 E2 E3.
  destruct (ratio_ok fl d1 d2 rate p D1 D2 E1) as (U1 & HN). destruct (ratio_ok fl d2 d3 rate q D2 D3 E2) as (U2 & _).
  destruct (ratio_exact fl d1 d2 rate EX D1 D2 U1 HN) as (p' & ps & F1 & C1 & V1).
  destruct (ratio_exact fl d2 d3 rate EX D2 D3 U2 ltac:(congruence)) as (q' & qs & F2 & C2 & V2).
  destruct (ratio_exact fl d1 d3 rate EX D1 D3 ltac:(congruence) HN) as (s' & ss & F3 & C3 & V3).
  assert (p' = p) as -> by congruence. assert (q' = q) as -> by congruence. assert (s' = s) as -> by congruence.
  pose proof (sums_triangle rate d1 d2 d3 ps qs ss D1 D2 D3 HR U1 U2 C1 C2 C3) as T.
  rewrite <- U1 in V2. pose proof (length_pos _ HN) as HP.
  set (n := inject_Z (Z.of_nat (length (d_utterance d1)))) in *. clearbody n.
  pose proof (div_le _ _ n HP T) as T'.
  assert (A : ((sum ps + sum qs) / n == sum ps / n + sum qs / n)%Q) by (unfold Qdiv; ring).
  rewrite A in T'. rewrite V1, V2, V3. lra.
Qed.

Theorem ratio_triangle_near fl d1 d2 d3 rate p q s : to_nearest fl -> is_datum d1 -> is_datum d2 -> is_datum d3 -> in01 rate ->
  Z.of_nat (length (d_utterance d1)) <= 2 ^ 53 ->
  entity_overlapping_ratio fl d1 d2 rate = Ok p -> entity_overlapping_ratio fl d2 d3 rate = Ok q ->
  entity_overlapping_ratio fl d1 d3 rate = Ok s ->
  (1 - s <= (1 - p) + (1 - q) + 3 * (inject_Z (Z.of_nat (length (d_utterance d1)) + 6) * (1 # 2 ^ 54)))%Q.
Proof.
  intros EX D1 D2 D3 HR HB E1 E2 E3.
  destruct (ratio_ok fl d1 d2 rate p D1 D2 E1) as (U1 & HN). destruct (ratio_ok fl d2 d3 rate q D2 D3 E2) as (U2 & _).
  destruct (ratio_near fl d1 d2 rate EX HR D1 D2 U1 HN HB) as (p' & ps & F1 & C1 & V1).
  rewrite U1 in HN, HB. destruct (ratio_near fl d2 d3 rate EX HR D2 D3 U2 HN HB) as (q' & qs & F2 & C2 & V2).
  rewrite <- U1 in HN, HB. destruct (ratio_near fl d1 d3 rate EX HR D1 D3 ltac:(congruence) HN HB) as (s' & ss & F3 & C3 & V3).
  assert (p' = p) as -> by congruence. assert (q' = q) as -> by congruence. assert (s' = s) as -> by congruence.
  assert (H2 : (0 <= rate <= 2)%Q) by (unfold in01 in HR; lra).
  pose proof (sums_triangle rate d1 d2 d3 ps qs ss D1 D2 D3 H2 U1 U2 C1 C2 C3) as T.
  rewrite <- U1 in V2. pose proof (length_pos _ HN) as HP. unfold almost in *.
  apply Qabs_Qle_condition in V1, V2, V3.
  set (w := (inject_Z (Z.of_nat (length (d_utterance d1)) + 6) * (1 # 2 ^ 54))%Q) in *. clearbody w.
  set (n := inject_Z (Z.of_nat (length (d_utterance d1)))) in *. clearbody n.
  pose proof (div_le _ _ n HP T) as T'.
  assert (A : ((sum ps + sum qs) / n == sum ps / n + sum qs / n)%Q) by (unfold Qdiv; ring).
  rewrite A in T'. lra.
Qed.

(** ** The rate *)

Lemma rounded_mono fl : rounding fl -> forall ps qs, Forall2 Qle ps qs -> forall p q, (p <= q)%Q ->
  (rounded_sum fl p ps <= rounded_sum fl q qs)%Q.
Proof.
  intros (M & _). induction 1 as [|a b ps qs HA _ IH]; intros p q H; [exact H|]. cbn [rounded_sum fold_left].
  apply IH, M. lra.
Qed.

Lemma pens_mono rate rate' : (rate <= rate')%Q -> forall l m, Forall2 Qle (pens rate l m) (pens rate' l m).
Proof.
  intros H. induction l as [|a l IH]; intros [|b m]; cbn; try constructor; [|apply IH].
  unfold penalty_on. cbn [fst snd]. destruct (a =? b); [apply Qle_refl|]. destruct (_ || _); [apply Qle_refl|exact H].
Qed.

Theorem ratio_rate fl d1 d2 rate rate' r r' : rounding fl -> is_datum d1 -> is_datum d2 -> (rate <= rate')%Q ->
  entity_overlapping_ratio fl d1 d2 rate = Ok r -> entity_overlapping_ratio fl d1 d2 rate' = Ok r' -> (r' <= r)%Q.
Proof.
  intros R D1 D2 H E E'. destruct (ratio_ok fl d1 d2 rate r D1 D2 E) as (_ & HN).
  destruct (expand_labels d1 D1) as (l1 & E1 & _). destruct (expand_labels d2 D2) as (l2 & E2 & _).
  rewrite (ratio_lists fl d1 d2 rate r l1 l2 D1 D2 E E1 E2), (ratio_lists fl d1 d2 rate' r' l1 l2 D1 D2 E' E1 E2).
  unfold is_ratio. pose proof (rounded_mono fl R _ _ (pens_mono rate rate' H l1 l2) 0%Q 0%Q (Qle_refl 0)) as M.
  pose proof (div_le _ _ _ (length_pos _ HN) M) as M'. destruct R as (MM & _). apply MM.
  apply MM in M'. lra.
Qed.

(** ** Only the labels of the characters count *)

Theorem ratio_annotation fl d1 e1 d2 rate : is_datum d1 -> is_datum e1 -> is_datum d2 ->
  d_utterance d1 = d_utterance e1 -> same_annotation d1 e1 ->
  entity_overlapping_ratio fl d1 d2 rate = entity_overlapping_ratio fl e1 d2 rate.
Proof.
  intros D1 D1' D2 U S.
  assert (E : expand_entity_to_list d1 = expand_entity_to_list e1).
  { destruct (expand_labels d1 D1) as (l & -> & L1 & H1). destruct (expand_labels e1 D1') as (m & -> & L2 & H2).
    f_equal. apply nth_error_ext'; [congruence|]. intros i x y HX HY.
    assert (HI : 0 <= Z.of_nat i < Z.of_nat (length (d_utterance d1))).
    { assert (i < length l)%nat by (apply nth_error_Some; congruence). lia. }
    pose proof (S (Z.of_nat i) _ _ HI (H1 _ HI) ltac:(apply H2; rewrite <- U; exact HI)) as EQ.
    unfold at_ in EQ. rewrite Nat2Z.id in EQ. now rewrite (nth_error_nth _ _ 0 HX), (nth_error_nth _ _ 0 HY) in EQ. }
  unfold entity_overlapping_ratio, has_same_utterance_as. now rewrite E, U.
Qed.

(** ** Counting *)

Lemma penalty_count rate a b :
  (penalty_on a b rate == inject_Z (if one_sided a b then 1 else 0) + rate * inject_Z (if two_labels a b then 1 else 0))%Q.
Proof.
  unfold penalty_on, one_sided, two_labels.
  destruct (Z.eqb_spec a b), (Z.eqb_spec a 0), (Z.eqb_spec b 0); cbn [xorb negb andb orb]; try congruence;
    change (inject_Z 0) with 0%Q; change (inject_Z 1) with 1%Q; ring.
Qed.

Lemma sum_count rate : forall l m,
  (sum (pens rate l m) == inject_Z (places one_sided l m) + rate * inject_Z (places two_labels l m))%Q.
Proof.
  induction l as [|a l IH]; intros [|b m]; cbn [pens combine map sum fold_right places fst snd];
    try (change (inject_Z 0) with 0%Q; ring).
  fold (pens rate l m) (sum (pens rate l m)). rewrite IH, penalty_count, !inject_Z_plus. ring.
Qed.

Theorem ratio_counts fl d1 d2 rate : exact fl -> at_home d1 -> at_home d2 ->
  d_utterance d1 = d_utterance d2 -> d_utterance d1 <> [] ->
  exists l1 l2 r, unpack_datum d1 = Ok (d_utterance d1, d_intents d1, l1) /\ unpack_datum d2 = Ok (d_utterance d2, d_intents d2, l2) /\
    entity_overlapping_ratio fl d1 d2 rate = Ok r /\
    (r == 1 - (inject_Z (places one_sided l1 l2) + rate * inject_Z (places two_labels l1 l2)) /
              inject_Z (Z.of_nat (length (d_utterance d1))))%Q.
Proof.
  intros EX (D1 & I1) (D2 & I2) U HN.
  destruct (expand_is_unpack d1 D1 I1) as (l1 & E1 & P1). destruct (expand_is_unpack d2 D2 I2) as (l2 & E2 & P2).
  destruct (ratio_exact fl d1 d2 rate EX D1 D2 U HN) as (r & _ & E & _ & _).
  exists l1, l2, r. split; [exact P1|]. split; [exact P2|]. split; [exact E|].
  rewrite (ratio_lists fl d1 d2 rate r l1 l2 D1 D2 E E1 E2), ratio_sum, sum_count by exact EX. reflexivity.
Qed.
