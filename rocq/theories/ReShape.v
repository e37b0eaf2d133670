(** Widths. *)

From Verif Require Import Py SpecOps PyRe SpecRe ReProofs ReParse.
From Coq Require Import List Lia PeanoNat Bool.

Lemma list_sum_repeat w n : list_sum (repeat w n) = n * w.
Proof. induction n as [|n IH]; cbn; [reflexivity|]. fold (list_sum (repeat w n)). lia. Qed.

Lemma shape_min r : counted r -> shape r (minw r).
Proof.
  induction r as [| | |a IHa b IHb|a IHa b IHb|lo hi g a IHa|[] [] a IHa| | | |]; cbn [shape minw counted]; intros C; auto.
  - destruct C. exists (minw a), (minw b). auto.
  - destruct C as (CA & CB). destruct (Nat.min_spec (minw a) (minw b)) as [(_ & ->)|(_ & ->)]; auto.
  - destruct C as (CA & CL). exists (repeat (minw a) lo). rewrite repeat_length, list_sum_repeat.
    split; [lia|]. split; [auto|]. split; [|reflexivity]. apply Forall_forall. intros x HX. apply repeat_spec in HX. subst. auto.
Qed.
Lemma shape_ge r : forall n, shape r n -> minw r <= n.
Proof.
  induction r as [| | |a IHa b IHb|a IHa b IHb|lo hi g a IHa|[] [] a IHa| | | |]; cbn [shape minw]; intros n H; try lia.
  - destruct H as (x & y & A & B & ->). apply IHa in A. apply IHb in B. lia.
  - destruct H as [H|H]; [apply IHa in H|apply IHb in H]; lia.
  - destruct H as (l & L & _ & F & ->). assert (Q : length l * minw a <= list_sum l); [|nia].
    clear L. induction F as [|x l HX F IH]; [cbn; lia|]. apply IHa in HX. change (list_sum (x :: l)) with (x + list_sum l). cbn [length]. nia.
Qed.

(** the greatest width, if there is one *)
Definition upper (r : rx) : Prop :=
  match maxw r with
  | Some w => shape r w /\ forall n, shape r n -> n <= w
  | None => forall N, exists n, N <= n /\ shape r n
  end.

Lemma shape_max r : counted r -> upper r.
Proof.
  unfold upper.
  induction r as [| | |a IHa b IHb|a IHa b IHb|lo hi g a IHa|[] [] a IHa| | | |]; cbn [maxw counted]; intros C;
    try (split; [reflexivity|intros n H; cbn in H; lia]).
  - destruct C as (CA & CB). specialize (IHa CA). specialize (IHb CB).
    pose proof (shape_min a CA) as MA. pose proof (shape_min b CB) as MB.
    destruct (maxw a) as [x|]; [destruct (maxw b) as [y|]|]; cbn [w_add shape].
    + destruct IHa as (A1 & A2), IHb as (B1 & B2). split; [eauto|]. intros n (u & v & U & V & ->).
      apply A2 in U. apply B2 in V. lia.
    + intros N. destruct (IHb N) as (n & LE & H). exists (minw a + n). split; [lia|]. eauto.
    + intros N. destruct (IHa N) as (n & LE & H). exists (n + minw b). split; [lia|]. eauto.
  - destruct C as (CA & CB). specialize (IHa CA). specialize (IHb CB).
    destruct (maxw a) as [x|]; [destruct (maxw b) as [y|]|]; cbn [w_max shape].
    + destruct IHa as (A1 & A2), IHb as (B1 & B2). split.
      * destruct (Nat.max_spec x y) as [(_ & ->)|(_ & ->)]; auto.
      * intros n [H|H]; [apply A2 in H|apply B2 in H]; lia.
    + intros N. destruct (IHb N) as (n & LE & H). eauto.
    + intros N. destruct (IHa N) as (n & LE & H). eauto.
  - destruct C as (CA & CL). specialize (IHa CA). pose proof (shape_min a CA) as MA.
    assert (ZERO : hi = Some 0 -> shape (XRep lo hi g a) 0 /\ forall n, shape (XRep lo hi g a) n -> n <= 0).
    { intros ->. specialize (CL 0 eq_refl). split.
      - exists []. cbn. split; [lia|]. split; [intros h _; lia|]. split; [constructor|reflexivity].
      - intros n (l & _ & LH & _ & ->). specialize (LH 0 eq_refl). destruct l; [apply Nat.le_refl|cbn in LH; lia]. }
    assert (REP : forall w k, shape a w -> lo <= k -> (forall h, hi = Some h -> k <= h) -> shape (XRep lo hi g a) (k * w)).
    { intros w k W1 W2 W3. exists (repeat w k). rewrite repeat_length, list_sum_repeat. repeat split; auto.
      apply Forall_forall. intros x HX. apply repeat_spec in HX. now subst. }
    assert (SUM : forall w l, (forall n, shape a n -> n <= w) -> Forall (shape a) l -> list_sum l <= length l * w).
    { intros w l W F. induction F as [|x l HX F IH]; [cbn; lia|]. apply W in HX.
      change (list_sum (x :: l)) with (x + list_sum l). cbn [length]. nia. }
    assert (BIG : maxw a = None -> hi <> Some 0 -> forall N, exists n, N <= n /\ shape (XRep lo hi g a) n).
    { intros EM NZ N. rewrite EM in IHa. destruct (IHa N) as (x & LE & H).
      exists (x + (lo - 1) * minw a). split; [generalize ((lo - 1) * minw a); lia|]. exists (x :: repeat (minw a) (lo - 1)).
      cbn [length]. rewrite repeat_length. split; [lia|]. split.
      - intros h ->. specialize (CL h eq_refl). destruct h; [congruence|lia].
      - split.
        + constructor; [exact H|]. apply Forall_forall. intros y HY. apply repeat_spec in HY. now subst.
        + change (list_sum (x :: repeat (minw a) (lo - 1))) with (x + list_sum (repeat (minw a) (lo - 1))). now rewrite list_sum_repeat. }
    destruct hi as [[|h]|].
    + now apply ZERO.
    + destruct (maxw a) as [[|w]|]; [| |apply BIG; [reflexivity|discriminate]].
      * destruct IHa as (A1 & A2). split.
        -- replace 0 with (lo * 0) by lia. apply REP; auto.
        -- intros n (l & _ & _ & F & ->). pose proof (SUM 0 l A2 F). lia.
      * destruct IHa as (A1 & A2). split.
        -- apply (REP (S w) (S h)); auto. intros k [= <-]. lia.
        -- intros n (l & _ & LH & F & ->). specialize (LH _ eq_refl). pose proof (SUM (S w) l A2 F). nia.
    + destruct (maxw a) as [[|w]|]; [| |apply BIG; [reflexivity|discriminate]].
      * destruct IHa as (A1 & A2). split.
        -- replace 0 with (lo * 0) by lia. apply REP; auto.
        -- intros n (l & _ & _ & F & ->). pose proof (SUM 0 l A2 F). lia.
      * destruct IHa as (A1 & A2). intros N. exists (Nat.max N lo * S w). split; [nia|].
        apply REP; [exact A1|lia|discriminate].
Qed.

Lemma one_width_iff r : counted r ->
  (match maxw r with Some w => w =? minw r | None => false end = true <-> one_width r).
Proof.
  intros C. pose proof (shape_min r C) as M. pose proof (shape_max r C) as U. unfold upper in U. split.
  - destruct (maxw r) as [w|]; [|discriminate]. rewrite Nat.eqb_eq. intros ->. destruct U as (_ & U).
    intros n m N1 N2. pose proof (shape_ge r n N1). pose proof (shape_ge r m N2). apply U in N1. apply U in N2. lia.
  - intros ONE. destruct (maxw r) as [w|].
    + destruct U as (U & _). apply Nat.eqb_eq. now apply ONE.
    + destruct (U (S (minw r))) as (n & LE & H). specialize (ONE n (minw r) H M). lia.
Qed.
