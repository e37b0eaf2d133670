(** Taking labels back through pieces that touch: if no text is deleted twice in the same place, the
    result does not depend on the order of the set. *)

From Verif Require Import Py PyFacts Edit Labels SpecEdit SpecLabels SpecSeg SpecRuns SpecWords
  EditProofs SpanProofs LabelProofs EditApiProofs SegProofs SpecOps.

(** Where the pieces of a group end up *)
Lemma grp_app_olds {A} (a b : list (seg A)) lo : grp lo (a ++ b) = grp lo a ++ grp (lo + length (olds a)) b.
Proof.
  revert lo. induction a as [|[o [v|]] a IH]; intros lo; cbn [app grp].
  - unfold olds. cbn. now rewrite Nat.add_0_r.
  - rewrite IH, olds_cons. cbn [old_of fst]. rewrite app_length. cbn [app]. do 2 f_equal. f_equal. lia.
  - rewrite IH, olds_cons. cbn [old_of fst]. rewrite app_length. do 2 f_equal. lia.
Qed.

Lemma grp_swap_In {A} (sg : list (seg A)) lo k e v : In (mkR k e v) (grp lo (swap sg)) ->
  exists a n c, sg = a ++ (v, Some n) :: c /\ k = lo + length (news a) /\ e = k + length n.
Proof.
  revert lo. induction sg as [|[o [n|]] sg IH]; intros lo; cbn [swap map swap1 fst snd grp]; [intros []| |].
  - intros [Q|H].
    + injection Q as <- <- <-. exists [], n, sg. cbn. split; [reflexivity|]. lia.
    + destruct (IH _ H) as (a & n' & c & -> & -> & ->). exists (@cons (seg A) (o, Some n) a), n', c.
      split; [reflexivity|]. rewrite news_cons. cbn [new_of snd]. rewrite app_length. lia.
  - intros H. destruct (IH _ H) as (a & n' & c & -> & -> & ->). exists (@cons (seg A) (o, None) a), n', c.
    split; [reflexivity|]. rewrite news_cons. cbn [new_of snd fst]. rewrite app_length. lia.
Qed.

Lemma twice_dup {A} {EA : Eqb A} (sg : list (seg A)) lo : deleted_twice sg <-> ~ NoDup (grp lo (swap sg)).
Proof.
  assert (RM : forall l1 l2 : list (repl A), NoDup (l1 ++ l2) -> NoDup l2).
  { clear. induction l1 as [|x l1 IH]; intros l2 H; [exact H|]. inversion H. now apply IH. }
  assert (DEC : forall x y : repl A, {x = y} + {x <> y}) by (intros x y; destruct (eqb_spec x y); auto).
  split.
  - intros (a & o & mid & c & -> & Q) ND. unfold swap in ND. rewrite map_app in ND. cbn [map swap1 fst snd] in ND.
    rewrite map_app in ND. cbn [map swap1 fst snd] in ND. rewrite grp_app_olds in ND. apply RM in ND.
    cbn [grp length] in ND. rewrite grp_app_olds in ND. inversion ND as [|? ? NI _]. apply NI.
    apply in_or_app. right. change (map swap1 mid) with (swap mid). rewrite swap_olds, Q. cbn [grp length]. left. f_equal; lia.
  - assert (N : deleted_twice sg \/ NoDup (grp lo (swap sg))); [|tauto].
    assert (C : forall x sg, deleted_twice sg -> @deleted_twice A (x :: sg)).
    { clear. intros x sg (a & o' & mid & c & -> & Q). exists (x :: a), o', mid, c. auto. }
    revert lo. induction sg as [|[o [n|]] sg IH]; intros lo; cbn [swap map swap1 fst snd grp].
    + right. constructor.
    + destruct (IH (lo + length n)) as [T|T]; [left; now apply C|].
      destruct (in_dec DEC (mkR lo (lo + length n) o) (grp (lo + length n) (swap sg))) as [HI|HI];
        [left|right; now constructor].
      destruct (grp_swap_In _ _ _ _ _ HI) as (a & n' & c & -> & Q1 & Q2).
      exists [], o, a, c. assert (length n = 0 /\ length (news a) = 0 /\ length n' = 0) as (L1 & L2 & L3) by lia.
      apply length_zero_iff_nil in L1, L2, L3. subst. auto.
    + destruct (IH (lo + length o)) as [T|T]; [left; now apply C|now right].
Qed.

(** ** Insertions at the same place *)

Definition zero_on_empty (f : transducer) : Prop := forall k, f [] k = Ok (repeat 0%Z k).

Lemma slice_same {B} (l : list B) p : slice l p p = [].
Proof. unfold slice. now rewrite Nat.sub_diag. Qed.

Section Order.
Context {A : Type}.
Implicit Types g x : list (repl A).

Lemma prop_rec_swap f labels p (a b : repl A) g lo : zero_on_empty f ->
  r_start a = p -> r_end a = p -> r_start b = p -> r_end b = p ->
  prop_rec labels lo (a :: b :: g) f = prop_rec labels lo (b :: a :: g) f.
Proof.
  intros Z A1 A2 B1 B2. cbn [prop_rec]. rewrite A1, A2, B1, B2, !slice_same, !Z. cbn [bind app].
  destruct (prop_rec labels p g f) as [rest|e]; [|reflexivity]. cbn [bind]. do 2 f_equal.
  rewrite !app_assoc. f_equal. rewrite <- !repeat_app. f_equal. lia.
Qed.

Lemma prop_rec_move f labels p (a : repl A) x1 x2 lo : zero_on_empty f ->
  r_start a = p -> r_end a = p -> Forall (fun r => r_start r = p /\ r_end r = p) x1 ->
  prop_rec labels lo (x1 ++ a :: x2) f = prop_rec labels lo (a :: x1 ++ x2) f.
Proof.
  intros Z A1 A2 F. revert lo. induction F as [|b x1 (B1 & B2) F IH]; intros lo; [reflexivity|].
  cbn [app]. transitivity (prop_rec labels lo (b :: a :: x1 ++ x2) f).
  - cbn [prop_rec]. now rewrite (IH (r_end b)).
  - now apply (prop_rec_swap f labels p).
Qed.

Lemma prop_rec_perm f labels g1 : zero_on_empty f -> forall g2 lo,
  Permutation g1 g2 -> NoDup g1 -> StronglySorted pos_le g1 -> StronglySorted pos_le g2 ->
  (forall a b, In a g1 -> In b g1 -> a <> b -> r_start a = r_start b -> r_end a = r_end b -> r_start a = r_end a) ->
  prop_rec labels lo g1 f = prop_rec labels lo g2 f.
Proof.
  intros Z. induction g1 as [|a g1 IH]; intros g2 lo HP ND S1 S2 HT.
  - apply Permutation_nil in HP. now subst.
  - assert (HI : In a g2) by (apply (Permutation_in _ HP); now left).
    destruct (in_split _ _ HI) as (x1 & x2 & ->).
    assert (HP' : Permutation g1 (x1 ++ x2)) by (apply (Permutation_cons_inv (a := a)); rewrite HP; symmetry; apply Permutation_middle).
    inversion ND as [|? ? NI ND']. subst. inversion S1 as [|? ? S1' F1]. subst.
    assert (SS : StronglySorted pos_le (x1 ++ x2) /\ Forall (fun r => pos_le r a) x1).
    { clear -S2. induction x1 as [|b x1 IH]; cbn [app] in *.
      - inversion S2. subst. split; [assumption|constructor].
      - inversion S2 as [|? ? S F]. subst. destruct (IH S) as (Q1 & Q2). split.
        + constructor; [exact Q1|]. rewrite Forall_forall in *. intros r HR. apply F.
          apply in_app_or in HR. apply in_or_app. destruct HR; [now left|right; now right].
        + constructor; [|exact Q2]. rewrite Forall_forall in F. apply F. apply in_or_app. right. now left. }
    destruct SS as (SS & F2).
    assert (E : Forall (fun r => r_start r = r_start a /\ r_end r = r_end a /\ r_start a = r_end a) x1).
    { rewrite Forall_forall in *. intros r HR. assert (HG : In r g1).
      { apply (Permutation_in _ (Permutation_sym HP')). apply in_or_app. now left. }
      specialize (F2 r HR). specialize (F1 r HG). unfold pos_le in *.
      assert (Q : r_start r = r_start a /\ r_end r = r_end a) by lia. destruct Q as (Q1 & Q2).
      split; [exact Q1|]. split; [exact Q2|]. apply (HT a r); [now left|now right| |congruence|congruence].
      intros ->. contradiction. }
    transitivity (prop_rec labels lo (a :: x1 ++ x2) f).
    + cbn [prop_rec]. rewrite (IH (x1 ++ x2) (r_end a) HP' ND' S1' SS); [reflexivity|].
      intros u v HU HV. apply HT; now right.
    + symmetry. destruct x1 as [|b x1]; [reflexivity|].
      assert (QA : r_start a = r_end a) by (inversion E; tauto).
      apply (prop_rec_move f labels (r_end a)); auto.
      eapply Forall_impl; [|exact E]. cbv beta. intros r (Q1 & Q2 & Q3). split; congruence.
Qed.

Lemma group_in_sorted g lo n : group_in lo n g -> StronglySorted pos_le g.
Proof.
  revert lo. induction g as [|r g IH]; intros lo H; [constructor|]. destruct H as (H1 & H2 & H3).
  constructor; [now apply (IH (r_end r))|]. rewrite Forall_forall. intros x HX.
  pose proof (group_in_In _ _ _ _ H3 HX). unfold pos_le. lia.
Qed.

Lemma group_in_ties g lo n a b : group_in lo n g -> In a g -> In b g -> a <> b ->
  r_start a = r_start b -> r_end a = r_end b -> r_start a = r_end a.
Proof.
  revert lo. induction g as [|r g IH]; intros lo H HA HB N Q1 Q2; [destruct HA|]. destruct H as (H1 & H2 & H3).
  destruct HA as [->|HA], HB as [->|HB]; [congruence| | |eapply IH; eauto].
  - pose proof (group_in_In _ _ _ _ H3 HB). lia.
  - pose proof (group_in_In _ _ _ _ H3 HA). lia.
Qed.
End Order.

(** Taking labels back if nothing is deleted twice *)
Lemma inverse_propagate_once {A} {EA : Eqb A} ord f h (sg : list (seg A)) labels :
  ord_ok ord -> ~ deleted_twice sg -> rule_ok f h (swap sg) -> zero_on_empty f ->
  length labels = length (news sg) ->
  (x <- inverse ord (olds sg) (grp 0 sg) ;; propagate labels x f) = Ok (relabel h (swap sg) labels).
Proof.
  intros HO HD HR HZ HL. pose proof (grp_group_in 0 sg) as HG. cbn [Nat.add] in HG.
  pose proof (inv_list_group_in (olds sg) (grp 0 sg) HG) as GI. rewrite apply_grp in GI.
  assert (ND0 : NoDup (inv_list (olds sg) (grp 0 sg))).
  { rewrite inv_list_grp.
    destruct (inverse_total ord (olds sg) (grp 0 sg) HO HG) as [(ND & _)|(ND & _)]; rewrite inv_list_grp in ND; [exact ND|].
    destruct HD. now apply (twice_dup sg 0). }
  destruct (inverse_total ord (olds sg) (grp 0 sg) HO HG) as [(ND & x & EI & HP)|(ND & EI)]; [|contradiction].
  rewrite EI. cbn [bind].
  assert (GH : group_in 0 (length (news sg)) x).
  { unfold inverse in EI. rewrite gen_inverse_inv_list in EI.
    destruct (rdone ord (inv_list (olds sg) (grp 0 sg))) as [h'|] eqn:ER; [|discriminate]. cbn [bind] in EI.
    destruct (guard _ AssertionErr); [|discriminate]. cbn [bind] in EI. injection EI as ->.
    destruct (rdone_ok ord _ _ HO (inv_list_well_formed (olds sg) (grp 0 sg) HG) ER) as (_ & _ & _ & _ & Q).
    apply Q. intros r HR'. apply (group_in_In _ _ _ _ GI HR'). }
  rewrite inv_list_grp in *.
  assert (LS : length labels = length (olds (swap sg))) by now rewrite swap_olds.
  rewrite <- (propagate_grp f h (swap sg) labels HR LS).
  assert (SZ : forall r, In r (grp 0 (swap sg)) -> forall new,
             f (slice labels (r_start r) (r_end r)) (length (r_new r)) = Ok new -> length new = length (r_new r)).
  { intros r Hr new HN. destruct (grp_In _ _ _ Hr) as (o & HI & HE).
    pose proof (group_in_In _ _ _ _ GI Hr) as (B1 & B2 & B3).
    assert (LO : length (slice labels (r_start r) (r_end r)) = length o).
    { unfold slice. rewrite firstn_length, skipn_length. lia. }
    destruct (HR o (r_new r) _ HI LO) as (E1 & E2). rewrite E1 in HN. injection HN as <-. exact E2. }
  rewrite (propagate_gen labels x f); [|intros r Hr; apply SZ; now apply (Permutation_in _ HP)|now rewrite HL].
  rewrite (propagate_gen labels (grp 0 (swap sg)) f); [|exact SZ|now rewrite HL].
  symmetry. apply prop_rec_perm; auto.
  - now symmetry.
  - now apply (group_in_sorted _ 0 (length (news sg))).
  - now apply (group_in_sorted _ 0 (length (news sg))).
  - intros a b HA HB. now apply (group_in_ties (grp 0 (swap sg)) 0 (length (news sg))).
Qed.

Lemma except_zero : zero_on_empty get_most_common_except_not_entity.
Proof. intros k. rewrite except_by_entity_mode. reflexivity. Qed.

(** Nothing is deleted if every new text is not empty. *)
Lemma nonempty_once {A} (sg : list (seg A)) : (forall o, ~ In (o, Some []) sg) -> ~ deleted_twice sg.
Proof. intros H (a & o & mid & c & -> & _). apply (H o). apply in_or_app. right. now left. Qed.

(** A text deleted twice *)
Lemma inverse_twice {A} {EA : Eqb A} ord (sg : list (seg A)) :
  ord_ok ord -> deleted_twice sg -> inverse ord (olds sg) (grp 0 sg) = Err AssertionErr.
Proof.
  intros HO HD. pose proof (grp_group_in 0 sg) as HG. cbn [Nat.add] in HG.
  destruct (inverse_total ord (olds sg) (grp 0 sg) HO HG) as [(ND & _)|(_ & EI)]; [|exact EI].
  rewrite inv_list_grp in ND. now apply (twice_dup sg 0) in HD.
Qed.
