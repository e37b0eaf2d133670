(** Rounding to the nearest double: monotone, exact on doubles, relative error 2^-53; and the
    rounding of IEEE 754 (ties to even) is one. *)

From Coq Require Import QArith Qabs Qround Lqa.
From Verif Require Import Py Json Elements SpecElements SpecRound.
From Coq Require Import List Lia.
Local Open Scope Z_scope.

(** ** Nearest integers, ties to even *)

Definition to_even (y : Q) : Z :=
  let f := Qfloor y in
  match (y - inject_Z f ?= 1 # 2)%Q with
  | Lt => f
  | Gt => f + 1
  | Eq => if Z.even f then f else f + 1
  end.

Lemma floor_bounds y : (inject_Z (Qfloor y) <= y)%Q /\ (y < inject_Z (Qfloor y) + 1)%Q.
Proof.
  split; [apply Qfloor_le|]. pose proof (Qlt_floor y) as H. rewrite inject_Z_plus in H. exact H.
Qed.

Lemma to_even_half y : (- (1 # 2) <= inject_Z (to_even y) - y <= 1 # 2)%Q.
Proof.
  unfold to_even. cbv zeta. destruct (floor_bounds y) as (H1 & H2).
  destruct (Qcompare_spec (y - inject_Z (Qfloor y)) (1 # 2)) as [C|C|C].
  - destruct (Z.even _); [|rewrite inject_Z_plus; change (inject_Z 1) with 1%Q]; lra.
  - lra.
  - rewrite inject_Z_plus; change (inject_Z 1) with 1%Q. lra.
Qed.

Lemma to_even_cases y : to_even y = Qfloor y \/ to_even y = Qfloor y + 1.
Proof. unfold to_even. cbv zeta. destruct (_ ?= _)%Q; auto. destruct (Z.even _); auto. Qed.

Lemma to_even_nearest y n : (Qabs (inject_Z (to_even y) - y) <= Qabs (inject_Z n - y))%Q.
Proof.
  pose proof (to_even_half y) as H. set (t := to_even y) in *. clearbody t.
  destruct (Z.lt_trichotomy n t) as [L|[->|L]]; [|apply Qle_refl|].
  - assert (L' : (inject_Z n + 1 <= inject_Z t)%Q).
    { change 1%Q with (inject_Z 1). rewrite <- inject_Z_plus, <- Zle_Qle. lia. }
    apply Qabs_case; intros ?; apply Qabs_case; intros ?; lra.
  - assert (L' : (inject_Z t + 1 <= inject_Z n)%Q).
    { change 1%Q with (inject_Z 1). rewrite <- inject_Z_plus, <- Zle_Qle. lia. }
    apply Qabs_case; intros ?; apply Qabs_case; intros ?; lra.
Qed.

Lemma to_even_eq y z : (y == z)%Q -> to_even y = to_even z.
Proof.
  intros E. unfold to_even. cbv zeta. rewrite (Qfloor_comp _ _ E).
  assert (F : (y - inject_Z (Qfloor z) == z - inject_Z (Qfloor z))%Q) by now rewrite E.
  rewrite (Qcompare_comp _ _ F _ _ (Qeq_refl (1 # 2))). reflexivity.
Qed.

(** ** binary64, for numbers from 0 on, in multiples of 2^-1074 *)

Definition spacing (X : Q) : Z := Z.max 0 (Z.log2 (Qfloor X) - 52).
Definition round_from_0 (X : Q) : Z := to_even (X / inject_Z (2 ^ spacing X)) * 2 ^ spacing X.

(** [fl x] of IEEE 754: nearest, ties to even *)
Definition binary64 (x : Q) : Q :=
  let X := (x * inject_Z (2 ^ 1074))%Q in
  ((if Qlt_le_dec x 0 then - inject_Z (round_from_0 (- X)) else inject_Z (round_from_0 X)) * (1 # 2 ^ 1074))%Q.

Lemma pow_pos e : 0 <= e -> 0 < 2 ^ e.
Proof. intros. now apply Z.pow_pos_nonneg. Qed.
Lemma powQ_pos e : 0 <= e -> (0 < inject_Z (2 ^ e))%Q.
Proof. intros. change 0%Q with (inject_Z 0). rewrite <- Zlt_Qlt. now apply pow_pos. Qed.
Lemma spacing_nonneg X : 0 <= spacing X.
Proof. unfold spacing. lia. Qed.

Lemma floor_nonneg X : (0 <= X)%Q -> 0 <= Qfloor X.
Proof. intros H. change 0 with (Qfloor (inject_Z 0)). now apply Qfloor_resp_le. Qed.

(** below 2^(spacing + 53), and from 2^(spacing + 52) on unless the spacing is the smallest one *)
Lemma spacing_above X : (0 <= X)%Q -> Qfloor X < 2 ^ (spacing X + 53).
Proof.
  intros H. apply floor_nonneg in H. unfold spacing. set (m := Qfloor X) in *. clearbody m.
  destruct (Z.eq_dec m 0) as [->|N]; [reflexivity|]. pose proof (Z.log2_spec m ltac:(lia)) as (_ & L).
  pose proof (Z.log2_nonneg m). eapply Z.lt_le_trans; [exact L|]. apply Z.pow_le_mono_r; lia.
Qed.
Lemma spacing_below X : 0 < spacing X -> (inject_Z (2 ^ (spacing X + 52)) <= X)%Q.
Proof.
  intros H. eapply Qle_trans; [|apply Qfloor_le]. rewrite <- Zle_Qle. revert H. unfold spacing.
  set (m := Qfloor X). clearbody m. intros H.
  assert (L : Z.log2 m = Z.max 0 (Z.log2 m - 52) + 52) by lia. rewrite <- L.
  destruct (Z.le_gt_cases m 0) as [N|P]; [rewrite Z.log2_nonpos in H by lia; lia|].
  now apply Z.log2_spec.
Qed.

Lemma scaled_floor X e : (0 <= X)%Q -> 0 <= e -> Qfloor X < 2 ^ (e + 53) ->
  0 <= to_even (X / inject_Z (2 ^ e)) <= 2 ^ 53.
Proof.
  intros H HE HF. pose proof (powQ_pos e HE) as P.
  set (y := (X / inject_Z (2 ^ e))%Q).
  assert (Y0 : (0 <= y)%Q) by (apply Qle_shift_div_l; [exact P|lra]).
  assert (Y1 : (y < inject_Z (2 ^ 53))%Q).
  { apply Qlt_shift_div_r; [exact P|]. rewrite <- inject_Z_mult, <- Z.pow_add_r by lia.
    eapply Qlt_le_trans; [apply (Qlt_floor X)|]. rewrite <- Zle_Qle.
    replace (53 + e) with (e + 53) by lia. lia. }
  apply floor_nonneg in Y0. assert (F1 : Qfloor y < 2 ^ 53).
  { rewrite Zlt_Qlt. eapply Qle_lt_trans; [apply Qfloor_le|exact Y1]. }
  destruct (to_even_cases y) as [-> | ->]; lia.
Qed.

(** |r - x| * 2^e, scaled back *)
Lemma scale_abs (n : Z) X e : 0 <= e ->
  (Qabs (inject_Z (n * 2 ^ e) - X) == Qabs (inject_Z n - X / inject_Z (2 ^ e)) * inject_Z (2 ^ e))%Q.
Proof.
  intros HE. pose proof (powQ_pos e HE) as P. rewrite inject_Z_mult. set (w := inject_Z (2 ^ e)) in *. clearbody w.
  rewrite <- (Qabs_pos w) at 3 by lra. rewrite <- Qabs_Qmult. apply Qabs_wd. field. lra.
Qed.

(** nearest among the m * 2^e *)
Lemma round_nearest X m e : (0 <= X)%Q -> Z.abs m < 2 ^ 53 -> 0 <= e ->
  (Qabs (inject_Z (round_from_0 X) - X) <= Qabs (inject_Z (m * 2 ^ e) - X))%Q.
Proof.
  intros H HM HE. unfold round_from_0. pose proof (spacing_nonneg X) as HS. pose proof (spacing_below X) as HB.
  set (s := spacing X) in *. clearbody s.
  assert (MULT : forall n, (Qabs (inject_Z (to_even (X / inject_Z (2 ^ s)) * 2 ^ s) - X) <= Qabs (inject_Z (n * 2 ^ s) - X))%Q).
  { intros n. rewrite !scale_abs by exact HS. apply Qmult_le_compat_r; [apply to_even_nearest|].
    apply Qlt_le_weak. now apply powQ_pos. }
  destruct (Z.le_gt_cases s e) as [L|L].
  - replace (m * 2 ^ e) with (m * 2 ^ (e - s) * 2 ^ s); [apply MULT|].
    rewrite <- Z.mul_assoc, <- Z.pow_add_r by lia. do 2 f_equal. lia.
  - eapply Qle_trans; [apply (MULT (2 ^ 52))|]. rewrite <- Z.pow_add_r by lia.
    specialize (HB ltac:(lia)). replace (52 + s) with (s + 52) by lia.
    assert (LT : (inject_Z (m * 2 ^ e) <= inject_Z (2 ^ (s + 52)))%Q).
    { rewrite <- Zle_Qle. replace (s + 52) with (52 + s) by lia. rewrite Z.pow_add_r by lia.
      replace s with (1 + (s - 1)) by lia. rewrite Z.pow_add_r by lia.
      assert (PE : 2 ^ e <= 2 ^ (s - 1)) by (apply Z.pow_le_mono_r; lia). pose proof (pow_pos e HE).
      pose proof (pow_pos (s - 1) ltac:(lia)). nia. }
    set (a := inject_Z (m * 2 ^ e)) in *. set (b := inject_Z (2 ^ (s + 52))) in *. clearbody a b.
    apply Qabs_case; intros ?; apply Qabs_case; intros ?; lra.
Qed.

Lemma round_double X : (0 <= X)%Q -> exists m e, Z.abs m < 2 ^ 53 /\ 0 <= e /\ round_from_0 X = m * 2 ^ e.
Proof.
  intros H. unfold round_from_0. pose proof (spacing_nonneg X) as HS.
  pose proof (scaled_floor X (spacing X) H HS (spacing_above X H)) as T. set (t := to_even _) in *. clearbody t.
  destruct (Z.eq_dec t (2 ^ 53)) as [->|N]; [|exists t, (spacing X); repeat split; lia].
  exists 1, (53 + spacing X). split; [reflexivity|]. split; [lia|]. rewrite Z.mul_1_l. now rewrite Z.pow_add_r by lia.
Qed.

Lemma unscale (z : Z) : (inject_Z z * (1 # 2 ^ 1074) * inject_Z (2 ^ 1074) == inject_Z z)%Q.
Proof.
  assert (E : ((1 # 2 ^ 1074) * inject_Z (2 ^ 1074) == 1)%Q) by (unfold Qeq; vm_compute; reflexivity).
  rewrite <- Qmult_assoc, E. ring.
Qed.
Lemma scale_pos : (0 < inject_Z (2 ^ 1074))%Q.
Proof. unfold Qlt. cbn. lia. Qed.

Lemma binary64_scaled x : (binary64 x * inject_Z (2 ^ 1074) ==
  if Qlt_le_dec x 0 then - inject_Z (round_from_0 (- (x * inject_Z (2 ^ 1074))))
  else inject_Z (round_from_0 (x * inject_Z (2 ^ 1074))))%Q.
Proof.
  unfold binary64. cbv zeta. destruct (Qlt_le_dec x 0); [rewrite <- inject_Z_opp|]; apply unscale.
Qed.

(** distances, scaled *)
Lemma scaled_le a b x : 
  (Qabs (a * inject_Z (2 ^ 1074) - x * inject_Z (2 ^ 1074)) <= Qabs (b * inject_Z (2 ^ 1074) - x * inject_Z (2 ^ 1074)))%Q ->
  (Qabs (a - x) <= Qabs (b - x))%Q.
Proof.
  pose proof scale_pos as P. set (w := inject_Z (2 ^ 1074)) in *. clearbody w. intros H.
  assert (E : forall c, (Qabs (c * w - x * w) == Qabs (c - x) * w)%Q).
  { intros c. rewrite <- (Qabs_pos w) at 3 by lra. rewrite <- Qabs_Qmult. apply Qabs_wd. ring. }
  rewrite !E in H. apply Qmult_lt_0_le_reg_r in H; assumption.
Qed.

Lemma spacing_eq X Y : (X == Y)%Q -> spacing X = spacing Y.
Proof. intros E. unfold spacing. now rewrite (Qfloor_comp _ _ E). Qed.
Lemma round_eq X Y : (X == Y)%Q -> round_from_0 X = round_from_0 Y.
Proof.
  intros E. unfold round_from_0. rewrite (spacing_eq _ _ E). f_equal. apply to_even_eq. now rewrite E.
Qed.

Theorem binary64_nearest : to_nearest binary64.
Proof.
  pose proof scale_pos as P. split.
  - intros x y E. unfold binary64. cbv zeta.
    destruct (Qlt_le_dec x 0) as [L|L], (Qlt_le_dec y 0) as [M|M]; try (exfalso; lra).
    + rewrite (round_eq (- (x * inject_Z (2 ^ 1074))) (- (y * inject_Z (2 ^ 1074)))); [reflexivity|]. now rewrite E.
    + rewrite (round_eq (x * inject_Z (2 ^ 1074)) (y * inject_Z (2 ^ 1074))); [reflexivity|]. now rewrite E.
  - intros x. pose proof (binary64_scaled x) as E. split.
    + unfold double. setoid_rewrite E. clear E. set (w := inject_Z (2 ^ 1074)) in *. clearbody w.
      destruct (Qlt_le_dec x 0) as [L|L].
      * assert (H : (0 <= - (x * w))%Q).
        { assert (x * w <= 0 * w)%Q by (apply Qmult_le_compat_r; lra). lra. }
        destruct (round_double _ H) as (m & e & HM & HE & ->). exists (- m), e. rewrite Z.abs_opp.
        split; [exact HM|]. split; [exact HE|]. rewrite <- inject_Z_opp, Z.mul_opp_l. reflexivity.
      * assert (H : (0 <= x * w)%Q) by (apply Qmult_le_0_compat; lra).
        destruct (round_double _ H) as (m & e & HM & HE & ->). exists m, e. now split.
    + intros q (m & e & HM & HE & Q). apply scaled_le. rewrite E, Q. clear E Q q.
      set (w := inject_Z (2 ^ 1074)) in *. clearbody w. destruct (Qlt_le_dec x 0) as [L|L].
      * assert (H : (0 <= - (x * w))%Q).
        { assert (x * w <= 0 * w)%Q by (apply Qmult_le_compat_r; lra). lra. }
        pose proof (round_nearest _ (- m) e H ltac:(rewrite Z.abs_opp; exact HM) HE) as N.
        rewrite Z.mul_opp_l, inject_Z_opp in N. set (r := round_from_0 _) in *. clearbody r.
        assert (E1 : forall a, (Qabs (- a - x * w) == Qabs (a - - (x * w)))%Q).
        { intros a. rewrite <- Qabs_opp. apply Qabs_wd. ring. }
        rewrite E1. eapply Qle_trans; [exact N|]. rewrite <- Qabs_opp. apply Qle_lteq. right. apply Qabs_wd. ring.
      * assert (H : (0 <= x * w)%Q) by (apply Qmult_le_0_compat; lra). exact (round_nearest _ m e H HM HE).
Qed.

(** ** What follows for any rounding to nearest *)

Lemma double_int z : Z.abs z <= 2 ^ 53 -> double (inject_Z z).
Proof.
  intros H. destruct (Z.eq_dec (Z.abs z) (2 ^ 53)) as [E|N].
  - exists (Z.sgn z), (53 + 1074). split; [destruct z; reflexivity|]. split; [lia|].
    rewrite <- inject_Z_mult, Z.pow_add_r by lia. rewrite <- E at 1. rewrite Z.mul_assoc, <- (Z.mul_comm (Z.abs z)).
    rewrite Z.abs_sgn || rewrite (Z.mul_comm (Z.abs z)), Z.sgn_abs. reflexivity.
  - exists z, 1074. split; [lia|]. split; [lia|]. rewrite <- inject_Z_mult. reflexivity.
Qed.

Theorem nearest_exact fl : to_nearest fl -> forall x, double x -> (fl x == x)%Q.
Proof.
  intros (_ & H) x D. destruct (H x) as (_ & N). specialize (N x D).
  assert (E : (Qabs (x - x) == 0)%Q) by (rewrite Qabs_pos; lra). rewrite E in N.
  apply Qabs_Qle_condition in N. lra.
Qed.

Theorem nearest_rounding fl : to_nearest fl -> rounding fl.
Proof.
  intros H. split.
  - intros x y L. destruct (Qlt_le_dec x y) as [L'|L'].
    2:{ assert (E : (x == y)%Q) by lra. destruct H as (HP & _). rewrite (HP x y E). apply Qle_refl. }
    destruct H as (_ & H). destruct (H x) as (DX & NX). destruct (H y) as (DY & NY).
    specialize (NX _ DY). specialize (NY _ DX). destruct (Qlt_le_dec (fl y) (fl x)) as [C|C]; [exfalso|exact C].
    revert NX NY. apply Qabs_case; intros ?; apply Qabs_case; intros ?; intros ?; apply Qabs_case; intros ?; apply Qabs_case; intros ?; lra.
  - intros z HZ. apply nearest_exact; [exact H|]. now apply double_int.
Qed.

Theorem nearest_error fl : to_nearest fl -> forall x, (0 <= x)%Q ->
  (Qabs (fl x - x) <= x * (1 # 2 ^ 53) + (1 # 2 ^ 1075))%Q.
Proof.
  intros H x HX. destruct H as (_ & H). destruct (H x) as (_ & N). clear H.
  destruct (proj2 binary64_nearest x) as (D & _). specialize (N _ D). eapply Qle_trans; [exact N|]. clear N D fl.
  pose proof scale_pos as P. pose proof (binary64_scaled x) as E.
  destruct (Qlt_le_dec x 0) as [L|_]; [exfalso; lra|].
  assert (W : ((1 # 2 ^ 1075) * inject_Z (2 ^ 1074) == 1 # 2)%Q) by (unfold Qeq; vm_compute; reflexivity).
  set (w := inject_Z (2 ^ 1074)) in *. clearbody w.
  assert (HW : (0 <= x * w)%Q) by (apply Qmult_le_0_compat; lra).
  apply (Qmult_lt_0_le_reg_r _ _ w P). set (h := (1 # 2 ^ 1075)%Q) in *. clearbody h.
  assert (A : (Qabs (binary64 x - x) * w == Qabs (inject_Z (round_from_0 (x * w)) - x * w))%Q).
  { rewrite <- (Qabs_pos w) at 1 by lra. rewrite <- Qabs_Qmult. apply Qabs_wd. rewrite <- E. ring. }
  rewrite A. clear A E. assert (B : ((x * (1 # 2 ^ 53) + h) * w == (x * w) * (1 # 2 ^ 53) + (1 # 2))%Q) by (rewrite <- W; ring).
  rewrite B. clear B W. set (X := (x * w)%Q) in *. clearbody X. clear - HW.
  pose proof (spacing_nonneg X) as HS. pose proof (spacing_below X) as HB.
  unfold round_from_0. rewrite scale_abs by exact HS.
  pose proof (to_even_half (X / inject_Z (2 ^ spacing X))) as T. apply Qabs_Qle_condition in T.
  set (t := Qabs _) in *. clearbody t. pose proof (powQ_pos _ HS) as PS.
  destruct (Z.eq_dec (spacing X) 0) as [->|NZ].
  - change (inject_Z (2 ^ 0)) with 1%Q. assert (0 <= X * (1 # 2 ^ 53))%Q by (apply Qmult_le_0_compat; [exact HW|discriminate]).
    lra.
  - specialize (HB ltac:(lia)). rewrite Z.pow_add_r, inject_Z_mult in HB by lia.
    set (s := inject_Z (2 ^ spacing X)) in *. clearbody s.
    assert (M : (t * s <= (1 # 2) * s)%Q) by (apply Qmult_le_compat_r; lra).
    assert (K : (s * inject_Z (2 ^ 52) * (1 # 2 ^ 53) <= X * (1 # 2 ^ 53))%Q) by (apply Qmult_le_compat_r; [exact HB|discriminate]).
    assert (K2 : (s * inject_Z (2 ^ 52) * (1 # 2 ^ 53) == (1 # 2) * s)%Q).
    { rewrite <- Qmult_assoc. setoid_replace (inject_Z (2 ^ 52) * (1 # 2 ^ 53))%Q with (1 # 2)%Q by (unfold Qeq; reflexivity). ring. }
    rewrite K2 in K. set (k := (X * (1 # 2 ^ 53))%Q) in *. clearbody k. lra.
Qed.
