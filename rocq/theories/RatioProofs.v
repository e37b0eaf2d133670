(** Proofs about entity_overlapping_ratio. *)

From Coq Require Import QArith Qabs Sorted Lqa.
From Verif Require Import Py PyFacts Json Elements SpecElements DatumProofs PackProofs.
Local Open Scope Z_scope.

(** ** The labels of the characters *)

Lemma expand_loop_spec n : forall fuel es ind acc,
  StronglySorted before es -> StronglySorted (fun a b => e_start a <= e_start b) es ->
  (0 <= ind) -> (Z.to_nat (n - ind) + length es < fuel)%nat ->
  exists ls, expand_loop fuel n ind es acc = Ok (acc ++ ls)%list /\
    length ls = Z.to_nat (n - ind) /\
    forall i, ind <= i < n -> labelled es i (at_ ls (i - ind)).
Proof.
  induction fuel as [|fuel IH]; intros es ind acc HB HS HI HF; [lia|]. cbn [expand_loop].
  destruct (Z.leb_spec n ind) as [L|L].
  - exists []. rewrite app_nil_r. split; [reflexivity|]. split; [cbn [length]; lia|]. lia.
  - destruct es as [|e es].
    + destruct (IH [] (ind + 1) (acc ++ [0])%list) as (ls & E & LL & HL); try assumption; try lia.
      exists (0 :: ls). rewrite E, <- app_assoc. split; [reflexivity|]. split; [cbn [length]; lia|].
      intros i Hi. right. split; [intros ? []|].
      destruct (Z.eq_dec i ind) as [->|N]; [now rewrite Z.sub_diag|].
      destruct (HL i ltac:(lia)) as [(? & [] & _)|(_ & E0)].
      rewrite <- E0. unfold at_. replace (Z.to_nat (i - ind)) with (S (Z.to_nat (i - (ind + 1)))) by lia.
      reflexivity.
    + assert (NXT : forall x, labelled (e :: es) ind x ->
        exists ls, expand_loop fuel n (ind + 1) (e :: es) (acc ++ [x]) = Ok (acc ++ ls)%list /\
        length ls = Z.to_nat (n - ind) /\
        forall i, ind <= i < n -> labelled (e :: es) i (at_ ls (i - ind))).
      { intros x HX. destruct (IH (e :: es) (ind + 1) (acc ++ [x])%list) as (ls & E & LL & HL);
          try assumption; try lia.
        exists (x :: ls). rewrite E, <- app_assoc. split; [reflexivity|]. split; [cbn [length]; lia|].
        intros i Hi. destruct (Z.eq_dec i ind) as [->|N]; [now rewrite Z.sub_diag|].
        unfold at_. replace (Z.to_nat (i - ind)) with (S (Z.to_nat (i - (ind + 1)))) by lia.
        apply HL. lia. }
      pose proof HB as HB0. pose proof HS as HS0.
      apply StronglySorted_inv in HB0, HS0. destruct HB0 as (HB' & HBe), HS0 as (HS' & HSe).
      rewrite Forall_forall in HBe, HSe.
      destruct (Z.leb_spec (e_start e) ind), (Z.ltb_spec ind (e_end e)); cbn [andb].
      * apply NXT. left. exists e. split; [now left|]. split; [unfold covers; lia|reflexivity].
      * destruct (Z.leb_spec (e_end e) ind); [|lia].
        destruct (IH es ind acc) as (ls & E & LL & HL); try assumption; [cbn [length] in *; lia|].
        exists ls. split; [exact E|]. split; [exact LL|]. intros i Hi.
        destruct (HL i Hi) as [(a & HA & CA & EA)|(NA & EA)].
        -- left. exists a. split; [now right|]. now split.
        -- right. split; [|exact EA]. intros a [<-|HA]; [unfold covers; lia|now apply NA].
      * destruct (Z.leb_spec (e_end e) ind); [lia|].
        apply NXT. right. split; [|reflexivity]. intros a [<-|HA]; [unfold covers; lia|].
        specialize (HSe a HA). cbn in HSe. unfold covers. lia.
      * destruct (Z.leb_spec (e_end e) ind).
        -- destruct (IH es ind acc) as (ls & E & LL & HL); try assumption; [cbn [length] in *; lia|].
           exists ls. split; [exact E|]. split; [exact LL|]. intros i Hi.
           destruct (HL i Hi) as [(a & HA & CA & EA)|(NA & EA)].
           ++ left. exists a. split; [now right|]. now split.
           ++ right. split; [|exact EA]. intros a [<-|HA]; [unfold covers; lia|now apply NA].
        -- lia.
Qed.

Lemma expand_labels d : is_datum d -> exists ls, expand_entity_to_list d = Ok ls /\
  length ls = length (d_utterance d) /\
  forall i, 0 <= i < Z.of_nat (length (d_utterance d)) -> labelled (d_entities d) i (at_ ls i).
Proof.
  intros HD. apply is_datum_inv in HD. destruct HD as (_ & _ & _ & HS & HB & _).
  unfold expand_entity_to_list.
  destruct (expand_loop_spec (Z.of_nat (length (d_utterance d)))
    (S (length (d_utterance d) + length (d_entities d))) (d_entities d) 0 [] HB HS) as (ls & E & LL & HL); [lia|lia|].
  exists ls. split; [exact E|]. split; [lia|]. intros i Hi. specialize (HL i Hi). now rewrite Z.sub_0_r in HL.
Qed.

(** ** The sum *)

Lemma penalty_cost rate a b : cost rate a b (penalty_on a b rate).
Proof.
  unfold cost, penalty_on. destruct (Z.eqb_spec a b); [left; auto|]. right.
  destruct (Z.eqb_spec a 0), (Z.eqb_spec b 0); cbn; tauto.
Qed.

Lemma cost_unique rate a b p q : cost rate a b p -> cost rate a b q -> p = q.
Proof.
  unfold cost. intros [(H1 & ->)|[(H1 & H2 & ->)|(H1 & H2 & H3 & ->)]]
    [(G1 & ->)|[(G1 & G2 & ->)|(G1 & G2 & G3 & ->)]]; try reflexivity; try congruence; tauto.
Qed.

Definition pens (rate : Q) (l1 l2 : list Z) : list Q :=
  map (fun xy => penalty_on (fst xy) (snd xy) rate) (combine l1 l2).

Lemma pens_costs rate d1 d2 l1 l2 :
  length l1 = length (d_utterance d1) -> length l2 = length (d_utterance d1) ->
  (forall i, 0 <= i < Z.of_nat (length (d_utterance d1)) -> labelled (d_entities d1) i (at_ l1 i)) ->
  (forall i, 0 <= i < Z.of_nat (length (d_utterance d1)) -> labelled (d_entities d2) i (at_ l2 i)) ->
  costs rate d1 d2 (pens rate l1 l2).
Proof.
  intros L1 L2 H1 H2. unfold pens. split; [rewrite map_length, combine_length; lia|].
  intros i q HQ.
  assert (HI : (i < length (d_utterance d1))%nat).
  { enough (i < length (combine l1 l2))%nat by (rewrite combine_length in *; lia).
    rewrite <- (map_length (fun xy => penalty_on (fst xy) (snd xy) rate)).
    apply nth_error_Some. congruence. }
  exists (at_ l1 (Z.of_nat i)), (at_ l2 (Z.of_nat i)). split; [apply H1; lia|]. split; [apply H2; lia|].
  rewrite nth_error_map in HQ. destruct (nth_error (combine l1 l2) i) as [[a b]|] eqn:E; [|discriminate].
  injection HQ as <-. apply (nth_error_nth _ _ (0, 0)) in E.
  rewrite combine_nth in E by lia. injection E as <- <-.
  unfold at_. rewrite Nat2Z.id. apply penalty_cost.
Qed.

Lemma nth_error_ext' {A} (l m : list A) : length l = length m ->
  (forall i x y, nth_error l i = Some x -> nth_error m i = Some y -> x = y) -> l = m.
Proof.
  revert m; induction l as [|x l IH]; intros [|y m] HL H; try discriminate; [reflexivity|]. f_equal.
  - exact (H 0%nat x y eq_refl eq_refl).
  - apply IH; [now injection HL|]. intros i. apply (H (S i)).
Qed.

Lemma costs_unique rate d1 d2 p q : is_datum d1 -> is_datum d2 ->
  costs rate d1 d2 p -> costs rate d1 d2 q -> p = q.
Proof.
  intros D1 D2 (LP & HP) (LQ & HQ). apply nth_error_ext'; [congruence|].
  intros i x y HX HY. destruct (HP i x HX) as (a & b & A1 & A2 & A3).
  destruct (HQ i y HY) as (a' & b' & B1 & B2 & B3).
  apply is_datum_inv in D1, D2. destruct D1 as (_ & _ & _ & _ & S1 & _), D2 as (_ & _ & _ & _ & S2 & _).
  rewrite (labelled_unique _ _ _ _ S1 B1 A1), (labelled_unique _ _ _ _ S2 B2 A2) in B3.
  eapply cost_unique; eassumption.
Qed.

Definition rounded_sum (fl : Q -> Q) (p : Q) (qs : list Q) : Q :=
  fold_left (fun p q => fl (p + q))%Q qs p.

Lemma fold_pens fl rate l : forall p,
  fold_left (fun p xy => fl (p + penalty_on (fst xy) (snd xy) rate))%Q l p =
  rounded_sum fl p (map (fun xy => penalty_on (fst xy) (snd xy) rate) l).
Proof. induction l as [|x l IH]; intros p; [reflexivity|]. cbn. apply IH. Qed.


Section Float.
Context (fl : Q -> Q) (R : rounding fl).

Lemma fl_eq x y : (x == y)%Q -> (fl x == fl y)%Q.
Proof. intros H. destruct R as (M & _). apply Qle_antisym; apply M; lra. Qed.

Lemma fl_int q z : Z.abs z <= 2 ^ 53 -> (q == inject_Z z)%Q -> (fl q == inject_Z z)%Q.
Proof. intros HZ H. rewrite (fl_eq _ _ H). now apply R. Qed.

Lemma fl_between q a b : Z.abs a <= 2 ^ 53 -> Z.abs b <= 2 ^ 53 ->
  (inject_Z a <= q <= inject_Z b)%Q -> (inject_Z a <= fl q <= inject_Z b)%Q.
Proof.
  intros HA HB (H1 & H2). destruct R as (M & EX). split.
  - rewrite <- (EX a HA). now apply M.
  - rewrite <- (EX b HB). now apply M.
Qed.

Lemma inject_plus a b : (inject_Z (a + b) == inject_Z a + inject_Z b)%Q.
Proof. rewrite inject_Z_plus; reflexivity. Qed.

Lemma sum_range qs : Forall in01 qs -> forall p k, 0 <= k -> k + Z.of_nat (length qs) <= 2 ^ 53 ->
  (inject_Z 0 <= p <= inject_Z k)%Q ->
  (inject_Z 0 <= rounded_sum fl p qs <= inject_Z (k + Z.of_nat (length qs)))%Q.
Proof.
  induction 1 as [|q qs HQ _ IH]; intros p k HK HB HP.
  - cbn [rounded_sum fold_left length]. now rewrite Z.add_0_r.
  - cbn [rounded_sum fold_left]. cbn [length] in HB |- *.
    replace (k + Z.of_nat (S (length qs))) with (k + 1 + Z.of_nat (length qs)) by lia.
    apply IH; [lia|lia|]. apply fl_between; [lia|lia|]. rewrite inject_plus.
    unfold in01 in HQ. change (inject_Z 1) with 1%Q. lra.
Qed.

Lemma sum_int qs : Forall (fun q => q == 0 \/ q == 1)%Q qs -> forall p k, 0 <= k ->
  k + Z.of_nat (length qs) <= 2 ^ 53 -> (p == inject_Z k)%Q ->
  (rounded_sum fl p qs == p + sum qs)%Q.
Proof.
  induction 1 as [|q qs HQ _ IH]; intros p k HK HB HP.
  - cbn. lra.
  - cbn [rounded_sum fold_left sum fold_right]. cbn [length] in HB. fold (sum qs).
    assert (E : exists z, 0 <= z <= 1 /\ (q == inject_Z z)%Q).
    { destruct HQ as [HQ|HQ]; [exists 0|exists 1]; (split; [lia|exact HQ]). }
    destruct E as (z & HZ & EZ).
    assert (EF : (fl (p + q) == inject_Z (k + z))%Q).
    { apply fl_int; [lia|]. rewrite inject_plus. lra. }
    change (fold_left (fun p q => fl (p + q)) qs (fl (p + q)))%Q with (rounded_sum fl (fl (p + q)%Q) qs).
    rewrite (IH (fl (p + q))%Q (k + z)); [|lia|lia|exact EF]. rewrite EF, inject_plus. lra.
Qed.
End Float.

Lemma sum_exact fl qs : exact fl -> forall p, (rounded_sum fl p qs == p + sum qs)%Q.
Proof.
  intros EX. induction qs as [|q qs IH]; intros p; cbn [rounded_sum fold_left sum fold_right]; [lra|].
  fold (sum qs). change (fold_left (fun p q => fl (p + q)) qs (fl (p + q)))%Q with (rounded_sum fl (fl (p + q)%Q) qs).
  rewrite IH, (EX (p + q)%Q). lra.
Qed.

Lemma costs_in01 rate d1 d2 qs : in01 rate -> costs rate d1 d2 qs -> Forall in01 qs.
Proof.
  intros HR (_ & HQ). apply Forall_forall. intros q HIn. apply In_nth_error in HIn. destruct HIn as (i & HI).
  destruct (HQ i q HI) as (a & b & _ & _ & [(_ & ->)|[(_ & _ & ->)|(_ & _ & _ & ->)]]);
    unfold in01 in *; lra.
Qed.

Lemma costs_exist rate d1 d2 : is_datum d1 -> is_datum d2 -> d_utterance d1 = d_utterance d2 ->
  exists qs, costs rate d1 d2 qs.
Proof.
  intros D1 D2 EU. destruct (expand_labels d1 D1) as (l1 & E1 & L1 & H1).
  destruct (expand_labels d2 D2) as (l2 & E2 & L2 & H2). rewrite <- EU in L2, H2.
  exists (pens rate l1 l2). now apply pens_costs.
Qed.

(** the result in terms of the costs *)
Lemma ratio_value fl d1 d2 rate : is_datum d1 -> is_datum d2 ->
  d_utterance d1 = d_utterance d2 -> d_utterance d1 <> [] ->
  exists qs, costs rate d1 d2 qs /\
    entity_overlapping_ratio fl d1 d2 rate =
    Ok (fl (1 - fl (rounded_sum fl 0 qs / inject_Z (Z.of_nat (length (d_utterance d1))))))%Q.
Proof.
  intros D1 D2 EU HN. unfold entity_overlapping_ratio, has_same_utterance_as.
  destruct (eqb_spec (d_utterance d1) (d_utterance d2)); [|congruence]. cbn [guard bind].
  destruct (expand_labels d1 D1) as (l1 & -> & L1 & H1).
  destruct (expand_labels d2 D2) as (l2 & -> & L2 & H2). cbn [bind]. rewrite <- EU in L2, H2.
  exists (pens rate l1 l2). split; [now apply pens_costs|].
  destruct (Z.eqb_spec (Z.of_nat (length (d_utterance d1))) 0) as [E|_].
  { destruct (d_utterance d1); [congruence|discriminate]. }
  cbn [negb guard bind]. rewrite fold_pens. reflexivity.
Qed.

Lemma ratio_errors fl d1 d2 rate : is_datum d1 -> is_datum d2 ->
  (d_utterance d1 <> d_utterance d2 ->
   entity_overlapping_ratio fl d1 d2 rate = Err DifferentUtteranceErr) /\
  (d_utterance d1 = d_utterance d2 -> d_utterance d1 = [] ->
   entity_overlapping_ratio fl d1 d2 rate = Err ZeroDivisionErr).
Proof.
  intros D1 D2. unfold entity_overlapping_ratio, has_same_utterance_as. split.
  - intros N. destruct (eqb_spec (d_utterance d1) (d_utterance d2)); [contradiction|reflexivity].
  - intros EU EN. destruct (eqb_spec (d_utterance d1) (d_utterance d2)); [|contradiction]. cbn [guard bind].
    destruct (expand_labels d1 D1) as (l1 & -> & _). destruct (expand_labels d2 D2) as (l2 & -> & _).
    cbn [bind]. rewrite EN. reflexivity.
Qed.

Lemma length_pos (u : str) : u <> [] -> (0 < inject_Z (Z.of_nat (length u)))%Q.
Proof.
  intros H. destruct u; [congruence|]. cbn [length]. change 0%Q with (inject_Z 0). rewrite <- Zlt_Qlt. lia.
Qed.

Lemma ratio_range fl d1 d2 rate r : rounding fl -> is_datum d1 -> is_datum d2 -> in01 rate ->
  Z.of_nat (length (d_utterance d1)) <= 2 ^ 53 ->
  entity_overlapping_ratio fl d1 d2 rate = Ok r -> in01 r.
Proof.
  intros R D1 D2 HR HB E.
  destruct (list_eq_dec Z.eq_dec (d_utterance d1) (d_utterance d2)) as [EU|N].
  2:{ apply (ratio_errors fl d1 d2 rate D1 D2) in N. congruence. }
  destruct (list_eq_dec Z.eq_dec (d_utterance d1) []) as [EN|HN].
  { apply (ratio_errors fl d1 d2 rate D1 D2) in EN; [congruence|exact EU]. }
  destruct (ratio_value fl d1 d2 rate D1 D2 EU HN) as (qs & HC & E'). rewrite E' in E. clear E'.
  assert (r = fl (1 - fl (rounded_sum fl 0 qs / inject_Z (Z.of_nat (length (d_utterance d1))))))%Q as -> by congruence.
  pose proof (length_pos _ HN) as HP. set (n := inject_Z (Z.of_nat (length (d_utterance d1)))) in *.
  pose proof (costs_in01 _ _ _ _ HR HC) as HQ. destruct HC as (LQ & _).
  pose proof (sum_range fl R qs HQ 0%Q 0 (Z.le_refl 0) ltac:(lia) ltac:(split; apply Qle_refl)) as (S1 & S2).
  rewrite LQ, Z.add_0_l in S2. fold n in S2. set (p := rounded_sum fl 0 qs) in *.
  change (inject_Z 0) with 0%Q in S1.
  assert (B1 : (inject_Z 0 <= p / n <= inject_Z 1)%Q).
  { change (inject_Z 0) with 0%Q. change (inject_Z 1) with 1%Q. split.
    - apply Qle_shift_div_l; [exact HP|]. lra.
    - apply Qle_shift_div_r; [exact HP|]. lra. }
  apply (fl_between fl R) in B1; [|lia|lia]. change (inject_Z 0) with 0%Q in B1. change (inject_Z 1) with 1%Q in B1.
  assert (B2 : (inject_Z 0 <= 1 - fl (p / n) <= inject_Z 1)%Q).
  { change (inject_Z 0) with 0%Q. change (inject_Z 1) with 1%Q. lra. }
  apply (fl_between fl R) in B2; [|lia|lia]. exact B2.
Qed.

(** exact when no rounding happens *)
Lemma ratio_exact fl d1 d2 rate : exact fl -> is_datum d1 -> is_datum d2 ->
  d_utterance d1 = d_utterance d2 -> d_utterance d1 <> [] ->
  exists r qs, entity_overlapping_ratio fl d1 d2 rate = Ok r /\ costs rate d1 d2 qs /\
    (r == 1 - sum qs / inject_Z (Z.of_nat (length (d_utterance d1))))%Q.
Proof.
  intros EX D1 D2 EU HN. destruct (ratio_value fl d1 d2 rate D1 D2 EU HN) as (qs & HC & E).
  eexists. exists qs. split; [exact E|]. split; [exact HC|].
  rewrite (EX (1 - _)%Q), (EX (_ / _)%Q), (sum_exact fl qs EX). rewrite Qplus_0_l. reflexivity.
Qed.

(** with a rate of 0 or 1 the sum is a count: only the division and the subtraction round *)
Lemma ratio_count fl d1 d2 rate : rounding fl -> (rate == 0 \/ rate == 1)%Q -> is_datum d1 -> is_datum d2 ->
  d_utterance d1 = d_utterance d2 -> d_utterance d1 <> [] ->
  Z.of_nat (length (d_utterance d1)) <= 2 ^ 53 ->
  exists r qs, entity_overlapping_ratio fl d1 d2 rate = Ok r /\ costs rate d1 d2 qs /\
    (r == fl (1 - fl (sum qs / inject_Z (Z.of_nat (length (d_utterance d1))))))%Q.
Proof.
  intros R HR D1 D2 EU HN HB. destruct (ratio_value fl d1 d2 rate D1 D2 EU HN) as (qs & HC & E).
  eexists. exists qs. split; [exact E|]. split; [exact HC|].
  apply (fl_eq fl R). assert (ES : (rounded_sum fl 0 qs == sum qs)%Q).
  { rewrite (sum_int fl R qs) with (k := 0); [lra| |lia| |reflexivity].
    - apply Forall_forall. intros q HIn. apply In_nth_error in HIn. destruct HIn as (i & HI).
      destruct (proj2 HC i q HI) as (a & b & _ & _ & [(_ & ->)|[(_ & _ & ->)|(_ & _ & _ & ->)]]);
        [left; reflexivity|right; reflexivity|exact HR].
    - rewrite (proj1 HC). lia. }
  assert (EF : (fl (rounded_sum fl 0 qs / inject_Z (Z.of_nat (length (d_utterance d1)))) ==
                fl (sum qs / inject_Z (Z.of_nat (length (d_utterance d1)))))%Q).
  { apply (fl_eq fl R). now rewrite ES. }
  rewrite EF. reflexivity.
Qed.

Lemma labelled_exists d i : is_datum d -> 0 <= i < Z.of_nat (length (d_utterance d)) ->
  exists a, labelled (d_entities d) i a.
Proof. intros HD HI. destruct (expand_labels d HD) as (ls & _ & _ & H). exists (at_ ls i). now apply H. Qed.

Lemma same_costs rate d1 d2 qs : same_annotation d1 d2 -> costs rate d1 d2 qs ->
  Forall (fun q => q = 0%Q) qs.
Proof.
  intros HS (LQ & HQ). apply Forall_forall. intros q HIn. apply In_nth_error in HIn. destruct HIn as (i & HI).
  assert (Hi : (i < length qs)%nat) by (apply nth_error_Some; congruence).
  destruct (HQ i q HI) as (a & b & HA & HB & HCo).
  assert (a = b) as <- by (eapply (HS (Z.of_nat i)); [lia|exact HA|exact HB]).
  destruct HCo as [(_ & ->)|[(N & _)|(N & _)]]; congruence.
Qed.

Lemma sum_zero fl qs : rounding fl -> Forall (fun q => q = 0%Q) qs -> forall p, (p == 0)%Q ->
  (rounded_sum fl p qs == 0)%Q.
Proof.
  intros R. induction 1 as [|q qs -> _ IH]; intros p HP; [exact HP|]. cbn [rounded_sum fold_left].
  apply IH. change 0%Q with (inject_Z 0). apply (fl_int fl R); [lia|]. change (inject_Z 0) with 0%Q. lra.
Qed.

Lemma ratio_same fl d1 d2 rate : rounding fl -> is_datum d1 -> is_datum d2 ->
  d_utterance d1 = d_utterance d2 -> d_utterance d1 <> [] -> same_annotation d1 d2 ->
  exists r, entity_overlapping_ratio fl d1 d2 rate = Ok r /\ (r == 1)%Q.
Proof.
  intros R D1 D2 EU HN HS. destruct (ratio_value fl d1 d2 rate D1 D2 EU HN) as (qs & HC & E).
  eexists. split; [exact E|]. apply (same_costs _ _ _ _ HS) in HC.
  pose proof (sum_zero fl qs R HC 0%Q (Qeq_refl 0)) as ES.
  change 1%Q with (inject_Z 1) at 2. apply (fl_int fl R); [lia|].
  assert (E0 : (fl (rounded_sum fl 0 qs / inject_Z (Z.of_nat (length (d_utterance d1)))) == inject_Z 0)%Q).
  { apply (fl_int fl R); [lia|]. rewrite ES. unfold Qdiv. apply Qmult_0_l. }
  rewrite E0. reflexivity.
Qed.

Lemma same_annotation_refl d : is_datum d -> same_annotation d d.
Proof.
  intros HD i a b _ HA HB. apply is_datum_inv in HD. destruct HD as (_ & _ & _ & _ & S1 & _).
  eapply labelled_unique; eassumption.
Qed.

Lemma penalty_sym a b rate : penalty_on a b rate = penalty_on b a rate.
Proof. unfold penalty_on. rewrite Z.eqb_sym. now rewrite orb_comm. Qed.

Lemma ratio_sym fl d1 d2 rate : is_datum d1 -> is_datum d2 ->
  entity_overlapping_ratio fl d1 d2 rate = entity_overlapping_ratio fl d2 d1 rate.
Proof.
  intros D1 D2. unfold entity_overlapping_ratio, has_same_utterance_as.
  destruct (eqb_spec (d_utterance d1) (d_utterance d2)) as [EU|N],
    (eqb_spec (d_utterance d2) (d_utterance d1)) as [EU'|N']; try congruence; try reflexivity.
  cbn [guard bind]. destruct (expand_labels d1 D1) as (l1 & -> & L1 & _).
  destruct (expand_labels d2 D2) as (l2 & -> & L2 & _). cbn [bind]. rewrite EU.
  assert (E : forall p, fold_left (fun p xy => fl (p + penalty_on (fst xy) (snd xy) rate))%Q (combine l1 l2) p =
              fold_left (fun p xy => fl (p + penalty_on (fst xy) (snd xy) rate))%Q (combine l2 l1) p).
  { clear. revert l2; induction l1 as [|a l1 IH]; intros [|b l2] p; try reflexivity.
    cbn [combine fold_left fst snd]. rewrite penalty_sym. apply IH. }
  now rewrite E.
Qed.

Lemma sum_nonneg qs : Forall in01 qs -> (0 <= sum qs)%Q.
Proof. induction 1 as [|q qs H _ IH]; cbn; [lra|]. fold (sum qs). unfold in01 in H. lra. Qed.

(** without rounding, only equal annotations give 1 *)
Lemma ratio_one fl d1 d2 rate r : exact fl -> is_datum d1 -> is_datum d2 -> in01 rate -> ~ (rate == 0)%Q ->
  entity_overlapping_ratio fl d1 d2 rate = Ok r -> (r == 1)%Q -> same_annotation d1 d2.
Proof.
  intros EX D1 D2 HR HR0 E HE.
  destruct (list_eq_dec Z.eq_dec (d_utterance d1) (d_utterance d2)) as [EU|N].
  2:{ apply (ratio_errors fl d1 d2 rate D1 D2) in N. congruence. }
  destruct (list_eq_dec Z.eq_dec (d_utterance d1) []) as [EN|HN].
  { apply (ratio_errors fl d1 d2 rate D1 D2) in EN; [congruence|exact EU]. }
  destruct (ratio_exact fl d1 d2 rate EX D1 D2 EU HN) as (r' & qs & E' & HC & HR').
  assert (r' = r) as -> by congruence. rewrite HE in HR'.
  pose proof (length_pos _ HN) as HP.
  assert (S0 : (sum qs == 0)%Q).
  { assert (EQ : (sum qs / inject_Z (Z.of_nat (length (d_utterance d1))) == 0)%Q) by lra.
    apply (Qmult_inj_r _ _ (/ inject_Z (Z.of_nat (length (d_utterance d1))))).
    - intros C. apply Qinv_lt_0_compat in HP. lra.
    - rewrite Qmult_0_l. exact EQ. }
  pose proof (costs_in01 _ _ _ _ HR HC) as H01.
  assert (ALL : Forall (fun q => q == 0)%Q qs).
  { clear - S0 H01. induction H01 as [|q qs HQ HF IH]; [constructor|]. cbn in S0. fold (sum qs) in S0.
    pose proof (sum_nonneg qs HF). unfold in01 in HQ. constructor; [lra|]. apply IH. lra. }
  intros i a b HI HA HB. destruct HC as (LQ & HQ).
  destruct (nth_error qs (Z.to_nat i)) as [q|] eqn:EQ; [|apply nth_error_None in EQ; lia].
  destruct (HQ _ _ EQ) as (a' & b' & HA' & HB' & HCo). rewrite Z2Nat.id in HA', HB' by lia.
  apply is_datum_inv in D1, D2. destruct D1 as (_ & _ & _ & _ & S1 & _), D2 as (_ & _ & _ & _ & S2 & _).
  rewrite (labelled_unique _ _ _ _ S1 HA HA'), (labelled_unique _ _ _ _ S2 HB HB').
  rewrite Forall_forall in ALL. specialize (ALL q (nth_error_In _ _ EQ)).
  destruct HCo as [(H & _)|[(_ & _ & ->)|(_ & _ & _ & ->)]]; [exact H|discriminate|contradiction].
Qed.

(** the two functions that give labels to characters agree *)
Lemma expand_is_unpack d : is_datum d -> Forall (inside (d_utterance d)) (d_entities d) ->
  exists ls, expand_entity_to_list d = Ok ls /\ unpack_datum d = Ok (d_utterance d, d_intents d, ls).
Proof.
  intros HD HI. destruct (expand_labels d HD) as (l1 & E1 & L1 & H1).
  destruct (unpack_inside d HD HI) as (l2 & E2 & L2 & H2). exists l1. split; [exact E1|]. rewrite E2.
  repeat f_equal. apply at_nth_ext; [congruence|]. intros i Hi. rewrite L2 in Hi.
  apply is_datum_inv in HD. destruct HD as (_ & _ & _ & _ & S1 & _).
  eapply labelled_unique; [exact S1|apply H2; exact Hi|apply H1; exact Hi].
Qed.
