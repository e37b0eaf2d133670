(** entity_overlapping_ratio in floating point arithmetic: how far from the exact value. *)

From Coq Require Import QArith Qabs Sorted Lqa.
From Verif Require Import Py PyFacts Json Elements SpecElements DatumProofs PackProofs RatioProofs SpecRound DoubleProofs.
From Coq Require Import List Lia.
Local Open Scope Z_scope.

Section Near.
Context (fl : Q -> Q) (R : rounding fl) (u h : Q).
Context (U : (0 <= u)%Q) (H : (0 <= h)%Q).
Context (N : forall x, (0 <= x <= inject_Z (2 ^ 53))%Q -> (Qabs (fl x - x) <= x * u + h)%Q).

Lemma near x b : (0 <= x <= b)%Q -> (b <= inject_Z (2 ^ 53))%Q -> (- (b * u + h) <= fl x - x <= b * u + h)%Q.
Proof.
  intros (H1 & H2) HB. assert (E : (x * u <= b * u)%Q) by (apply Qmult_le_compat_r; assumption).
  assert (HX : (0 <= x <= inject_Z (2 ^ 53))%Q) by (split; [exact H1|lra]).
  specialize (N x HX). apply Qabs_Qle_condition in N. lra.
Qed.

Definition drift (k m : Q) : Q := ((m * k + m * (m + 1) / 2) * u + m * h)%Q.

Lemma sum_near qs : Forall in01 qs -> forall p k, 0 <= k -> k + Z.of_nat (length qs) <= 2 ^ 53 ->
  (inject_Z 0 <= p <= inject_Z k)%Q ->
  let d := drift (inject_Z k) (inject_Z (Z.of_nat (length qs))) in
  (- d <= rounded_sum fl p qs - (p + sum qs) <= d)%Q.
Proof.
  induction 1 as [|q qs HQ _ IH]; intros p k HK HB HP; cbv zeta.
  - cbn [rounded_sum fold_left sum fold_right length]. unfold drift. change (inject_Z (Z.of_nat 0)) with 0%Q.
    assert (E : ((0 * inject_Z k + 0 * (0 + 1) / 2) * u + 0 * h == 0)%Q) by field. rewrite E. lra.
  - cbn [rounded_sum fold_left sum fold_right]. cbn [length] in HB |- *. fold (sum qs).
    change (fold_left (fun p q => fl (p + q)) qs (fl (p + q)))%Q with (rounded_sum fl (fl (p + q)%Q) qs).
    unfold in01 in HQ. change (inject_Z 0) with 0%Q in HP.
    assert (HS : (inject_Z 0 <= p + q <= inject_Z (k + 1))%Q).
    { rewrite inject_Z_plus. change (inject_Z 0) with 0%Q. change (inject_Z 1) with 1%Q. lra. }
    pose proof (near (p + q)%Q (inject_Z (k + 1)) HS) as HN.
    assert (HK1 : (inject_Z (k + 1) <= inject_Z (2 ^ 53))%Q) by (rewrite <- Zle_Qle; lia).
    specialize (HN HK1). clear HK1.
    apply (fl_between fl R) in HS; [|lia|lia].
    specialize (IH (fl (p + q)%Q) (k + 1) ltac:(lia) ltac:(lia) HS). cbv zeta in IH.
    unfold drift in *. rewrite Nat2Z.inj_succ, <- Z.add_1_r. rewrite inject_Z_plus in *.
    change (inject_Z 1) with 1%Q in *. set (m := inject_Z (Z.of_nat (length qs))) in *.
    set (K := inject_Z k) in *. set (r := rounded_sum fl (fl (p + q)) qs) in *. clearbody m K r.
    assert (E : (((m + 1) * K + (m + 1) * (m + 1 + 1) / 2) * u + (m + 1) * h ==
                (K + 1) * u + h + ((m * (K + 1) + m * (m + 1) / 2) * u + m * h))%Q) by field.
    rewrite E. lra.
Qed.

(** the division and the subtraction *)
Lemma value_near n p s : 1 <= n <= 2 ^ 53 -> (0 <= p <= inject_Z n)%Q ->
  (- drift 0 (inject_Z n) <= p - s <= drift 0 (inject_Z n))%Q ->
  let d := (((inject_Z n + 1) / 2 + 2) * u + 3 * h)%Q in
  (- d <= fl (1 - fl (p / inject_Z n)) - (1 - s / inject_Z n) <= d)%Q.
Proof.
  intros HN HP HD. cbv zeta.
  assert (P : (0 < inject_Z n)%Q) by (change 0%Q with (inject_Z 0); rewrite <- Zlt_Qlt; lia).
  assert (B : (inject_Z 1 <= inject_Z (2 ^ 53))%Q) by (rewrite <- Zle_Qle; lia).
  set (m := inject_Z n) in *. clearbody m.
  assert (B1 : (inject_Z 0 <= p / m <= inject_Z 1)%Q).
  { change (inject_Z 0) with 0%Q. change (inject_Z 1) with 1%Q. split.
    - apply Qle_shift_div_l; [exact P|]. lra.
    - apply Qle_shift_div_r; [exact P|]. lra. }
  pose proof (near (p / m)%Q (inject_Z 1) B1 B) as N1.
  apply (fl_between fl R) in B1; [|lia|lia]. change (inject_Z 0) with 0%Q in B1. change (inject_Z 1) with 1%Q in *.
  assert (B2 : (inject_Z 0 <= 1 - fl (p / m) <= inject_Z 1)%Q).
  { change (inject_Z 0) with 0%Q. change (inject_Z 1) with 1%Q. lra. }
  pose proof (near (1 - fl (p / m))%Q (inject_Z 1) B2 B) as N2. change (inject_Z 1) with 1%Q in *.
  assert (ED : (drift 0 m == m * ((m + 1) / 2 * u + h))%Q) by (unfold drift; field).
  rewrite ED in HD. set (e := ((m + 1) / 2 * u + h)%Q) in *.
  assert (D1 : (- e <= p / m - s / m <= e)%Q).
  { assert (E1 : (p / m - s / m == (p - s) / m)%Q) by (field; lra). rewrite E1. split.
    - apply Qle_shift_div_l; [exact P|]. lra.
    - apply Qle_shift_div_r; [exact P|]. lra. }
  assert (EE : (((m + 1) / 2 + 2) * u + 3 * h == e + 2 * u + 2 * h)%Q) by (unfold e; field).
  rewrite EE. clearbody e. lra.
Qed.
End Near.

Lemma tiny : (6 * (1 # 2 ^ 1075) <= (1 # 2 ^ 53))%Q.
Proof. unfold Qle. vm_compute. discriminate. Qed.

(** the computed ratio is close to the exact one *)
Lemma ratio_near fl d1 d2 rate : to_nearest fl -> in01 rate -> is_datum d1 -> is_datum d2 ->
  d_utterance d1 = d_utterance d2 -> d_utterance d1 <> [] -> Z.of_nat (length (d_utterance d1)) <= 2 ^ 53 ->
  exists r qs, entity_overlapping_ratio fl d1 d2 rate = Ok r /\ costs rate d1 d2 qs /\
    almost (length (d_utterance d1)) r (1 - sum qs / inject_Z (Z.of_nat (length (d_utterance d1)))).
Proof.
  intros P HR D1 D2 EU HN HB. pose proof (nearest_rounding fl P) as R.
  assert (N : forall x, (0 <= x <= inject_Z (2 ^ 53))%Q -> (Qabs (fl x - x) <= x * (1 # 2 ^ 53) + (1 # 2 ^ 1075))%Q).
  { intros x (HX & _). now apply nearest_error. }
  destruct (ratio_value fl d1 d2 rate D1 D2 EU HN) as (qs & HC & E).
  eexists. exists qs. split; [exact E|]. split; [exact HC|]. unfold almost. apply Qabs_Qle_condition.
  pose proof tiny as T. set (h := (1 # 2 ^ 1075)%Q) in *. assert (H0 : (0 <= h)%Q) by (unfold h, Qle; cbn; lia).
  clearbody h. set (u := (1 # 2 ^ 53)%Q) in *. assert (U0 : (0 <= u)%Q) by (unfold u, Qle; cbn; lia).
  assert (UH : ((1 # 2 ^ 54) == u / 2)%Q) by reflexivity. clearbody u.
  pose proof (costs_in01 _ _ _ _ HR HC) as HQ. destruct HC as (LQ & _).
  pose proof (sum_range fl R qs HQ 0%Q 0 (Z.le_refl 0) ltac:(lia) ltac:(split; apply Qle_refl)) as SR.
  pose proof (sum_near fl R u h U0 N qs HQ 0%Q 0 (Z.le_refl 0) ltac:(lia) ltac:(split; apply Qle_refl)) as SN.
  cbv zeta in SN. rewrite LQ, Z.add_0_l in SR. rewrite LQ in SN. change (inject_Z 0) with 0%Q in *.
  assert (n0 : (0 < length (d_utterance d1))%nat).
  { destruct (d_utterance d1); [congruence|cbn [length]; lia]. }
  assert (n1 : 1 <= Z.of_nat (length (d_utterance d1)) <= 2 ^ 53) by lia.
  set (n := Z.of_nat (length (d_utterance d1))) in *.
  pose proof (value_near fl R u h U0 N n (rounded_sum fl 0 qs) (0 + sum qs)%Q n1 SR SN) as V. cbv zeta in V.
  rewrite inject_Z_plus, UH. change (inject_Z 6) with 6%Q.
  assert (E0 : ((0 + sum qs) / inject_Z n == sum qs / inject_Z n)%Q) by (unfold Qdiv; rewrite Qplus_0_l; reflexivity).
  rewrite E0 in V. set (m := inject_Z n) in *. clearbody m.
  assert (E1 : ((m + 6) * (u / 2) == ((m + 1) / 2 + 2) * u + (1 # 2) * u)%Q) by field. rewrite E1.
  set (w := (((m + 1) / 2 + 2) * u)%Q) in *. clearbody w. clear - T V.
  set (x := (fl _ - _)%Q) in *. clearbody x. lra.
Qed.

(** 1 for identical annotations only, unless the rate is tiny *)
Lemma ratio_one_near fl d1 d2 rate r : to_nearest fl -> in01 rate -> is_datum d1 -> is_datum d2 ->
  let n := Z.of_nat (length (d_utterance d1)) in
  n <= 2 ^ 53 -> (inject_Z (n * (n + 6)) * (1 # 2 ^ 54) < rate)%Q ->
  entity_overlapping_ratio fl d1 d2 rate = Ok r -> (r == 1)%Q -> same_annotation d1 d2.
Proof.
  cbv zeta. intros P HR D1 D2 HB HT E HE.
  destruct (list_eq_dec Z.eq_dec (d_utterance d1) (d_utterance d2)) as [EU|N].
  2:{ apply (ratio_errors fl d1 d2 rate D1 D2) in N. congruence. }
  destruct (list_eq_dec Z.eq_dec (d_utterance d1) []) as [EN|HN].
  { apply (ratio_errors fl d1 d2 rate D1 D2) in EN; [congruence|exact EU]. }
  destruct (ratio_near fl d1 d2 rate P HR D1 D2 EU HN HB) as (r' & qs & E' & HC & HA).
  assert (r' = r) as -> by congruence. unfold almost in HA. apply Qabs_Qle_condition in HA. rewrite HE in HA.
  pose proof (length_pos _ HN) as HP. rewrite inject_Z_mult in HT.
  set (n := Z.of_nat (length (d_utterance d1))) in *. set (w := (inject_Z (n + 6) * (1 # 2 ^ 54))%Q) in *.
  assert (S0 : (sum qs <= inject_Z n * w)%Q).
  { assert (S1 : (sum qs / inject_Z n <= w)%Q) by lra.
    apply (Qmult_le_compat_r _ _ (inject_Z n)) in S1; [|lra].
    assert (S2 : (sum qs / inject_Z n * inject_Z n == sum qs)%Q) by (field; lra). rewrite S2 in S1. lra. }
  assert (S1 : (sum qs < rate)%Q).
  { assert (EW : (inject_Z n * inject_Z (n + 6) * (1 # 2 ^ 54) == inject_Z n * w)%Q) by (unfold w; ring). lra. }
  pose proof (costs_in01 _ _ _ _ HR HC) as H01.
  assert (ALL : Forall (fun q => q < rate)%Q qs).
  { clear - S1 H01. induction H01 as [|q qs HQ HF IH]; [constructor|]. cbn in S1. fold (sum qs) in S1.
    pose proof (sum_nonneg qs HF). unfold in01 in HQ. constructor; [lra|]. apply IH. lra. }
  intros i a b HI HAa HBb. destruct HC as (LQ & HQ).
  destruct (nth_error qs (Z.to_nat i)) as [q|] eqn:EQ; [|apply nth_error_None in EQ; lia].
  destruct (HQ _ _ EQ) as (a' & b' & HA' & HB' & HCo). rewrite Z2Nat.id in HA', HB' by lia.
  apply is_datum_inv in D1, D2. destruct D1 as (_ & _ & _ & _ & T1 & _), D2 as (_ & _ & _ & _ & T2 & _).
  rewrite (labelled_unique _ _ _ _ T1 HAa HA'), (labelled_unique _ _ _ _ T2 HBb HB').
  rewrite Forall_forall in ALL. specialize (ALL q (nth_error_In _ _ EQ)). unfold in01 in HR.
  destruct HCo as [(He & _)|[(_ & _ & ->)|(_ & _ & _ & ->)]]; [exact He|exfalso; lra|exfalso; lra].
Qed.
