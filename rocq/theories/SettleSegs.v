(** Sending labels through a segmented sequence and back, any number of times. *)

From Verif Require Import Py PyFacts Edit Labels SpecEdit SpecLabels SpecSeg EditProofs LabelProofs EditApiProofs SegProofs.
From Coq Require Import Sorted Permutation.
From Coq Require Import List Lia.

(** ** Order of insertions at one place *)

Section order.
Context {A : Type} {EA : Eqb A} (f : transducer) (F0 : forall k, f [] k = Ok (repeat 0%Z k)).

Lemma slice_empty (l : list Z) i : slice l i i = [].
Proof. unfold slice. now rewrite Nat.sub_diag. Qed.

Lemma insertions_move labels p (r : repl A) (a b : list (repl A)) :
  r_start r = p -> r_end r = p -> Forall (fun x => r_start x = p /\ r_end x = p) a -> forall lo,
  prop_rec labels lo (a ++ r :: b) f = prop_rec labels lo (r :: a ++ b) f.
Proof.
  intros H1 H2. induction a as [|x a IH]; intros HA lo; [reflexivity|].
  inversion HA as [|? ? (X1 & X2) HA']; subst. cbn [app]. cbn [prop_rec].
  rewrite X1, X2, H2, !slice_empty, !F0. cbn [bind]. rewrite (IH HA').
  cbn [prop_rec]. rewrite H2, !slice_empty, F0. cbn [bind].
  rewrite ?X2. destruct (prop_rec labels _ (a ++ b) f) as [rest|e]; cbn [bind]; [|reflexivity].
  do 2 f_equal. cbn [app]. rewrite !app_assoc, <- !repeat_app. f_equal. f_equal. lia.
Qed.

Lemma group_in_same n (g : list (repl A)) : forall lo, group_in lo n g ->
  forall a r b, g = a ++ r :: b -> (forall x, In x a -> r_start x = r_start r /\ r_end x = r_end r) ->
  a <> [] -> r_start r = r_end r.
Proof.
  intros lo H a r b -> HA N. destruct a as [|x a]; [congruence|]. cbn [app group_in] in H.
  destruct H as (_ & _ & H). destruct (HA x (or_introl eq_refl)) as (_ & X).
  assert (HI : In r (a ++ r :: b)) by (apply in_or_app; right; now left).
  pose proof (group_in_In _ _ _ _ H HI). lia.
Qed.

Lemma group_in_app_remove n (r : repl A) a b : forall lo,
  group_in lo n (a ++ r :: b) -> (forall x, In x a -> r_start x = r_start r /\ r_end x = r_end r) ->
  group_in (r_end r) n (a ++ b).
Proof.
  induction a as [|x a IH]; intros lo H HA; cbn [app group_in] in *.
  - destruct H as (_ & _ & H). exact H.
  - destruct (HA x (or_introl eq_refl)) as (X1 & X2). destruct H as (H1 & H2 & H3).
    assert (EQ : r_start r = r_end r).
    { pose proof (group_in_In _ _ _ _ H3 (in_or_app a (r :: b) r (or_intror (or_introl eq_refl)))). lia. }
    split; [lia|]. split; [exact H2|]. rewrite X2. apply (IH (r_end x)); [exact H3|].
    intros y HY. apply HA. now right.
Qed.

Lemma prop_rec_perm n labels (g h : list (repl A)) : Permutation g h ->
  StronglySorted pos_le g -> StronglySorted pos_le h -> forall lo lo', group_in lo n g -> group_in lo' n h ->
  lo = lo' -> prop_rec labels lo g f = prop_rec labels lo h f.
Proof.
  revert h. induction g as [|r g IH]; intros h P SG SH lo lo' GG GH EL; subst lo'.
  - apply Permutation_nil in P. now subst.
  - assert (HI : In r h) by (apply (Permutation_in r P); now left).
    apply in_split in HI. destruct HI as (a & b & ->).
    assert (HA : forall x, In x a -> r_start x = r_start r /\ r_end x = r_end r).
    { intros x HX. assert (HXg : In x (r :: g)).
      { apply (Permutation_in x (Permutation_sym P)). apply in_or_app. now left. }
      assert (L1 : pos_le x r).
      { clear -SH HX. induction a as [|y a IHa]; [destruct HX|]. cbn [app] in SH.
        inversion SH as [|? ? S1 S2]; subst. destruct HX as [->|HX].
        - rewrite Forall_forall in S2. apply S2, in_or_app. right. now left.
        - now apply IHa. }
      destruct HXg as [<-|HXg]; [now split|].
      inversion SG as [|? ? S1 S2]; subst. rewrite Forall_forall in S2. specialize (S2 x HXg).
      unfold pos_le in *. lia. }
    assert (P' : Permutation g (a ++ b)) by (now apply Permutation_cons_app_inv in P).
    assert (SH' : StronglySorted pos_le (a ++ b)).
    { clear -SH. induction a as [|y a IHa]; cbn [app] in *.
      - now inversion SH.
      - inversion SH as [|? ? S1 S2]; subst. constructor; [now apply IHa|].
        rewrite Forall_forall in *. intros z HZ. apply S2. apply in_app_or in HZ. apply in_or_app.
        destruct HZ; [now left|right; now right]. }
    inversion SG as [|? ? SG' _]; subst. cbn [group_in] in GG. destruct GG as (G1 & G2 & G3).
    pose proof (group_in_app_remove n r a b lo GH HA) as GH'.
    assert (EQ : prop_rec labels lo (a ++ r :: b) f = prop_rec labels lo (r :: a ++ b) f).
    { destruct a as [|x a]; [reflexivity|].
      assert (ER : r_start r = r_end r) by (apply (group_in_same n _ _ GH (x :: a) r b eq_refl HA); discriminate).
      apply (insertions_move labels (r_end r)); [exact ER|reflexivity|].
      rewrite Forall_forall. intros y HY. destruct (HA y HY). lia. }
    rewrite EQ. cbn [prop_rec]. destruct (f _ _); cbn [bind]; [|reflexivity].
    now rewrite (IH (a ++ b) P' SG' SH' _ _ G3 GH' eq_refl).
Qed.

Lemma group_in_sorted n (g : list (repl A)) lo : group_in lo n g -> StronglySorted pos_le g.
Proof.
  revert lo. induction g as [|r g IH]; intros lo H; constructor; cbn [group_in] in H; destruct H as (H1 & H2 & H3).
  - now apply (IH (r_end r)).
  - rewrite Forall_forall. intros x HX. pose proof (group_in_In _ _ _ _ H3 HX). unfold pos_le. lia.
Qed.

(** The way back follows the rule whenever it does not raise. *)
Lemma inverse_propagate_any ord h (sg : list (seg A)) labels l' :
  ord_ok ord -> rule_ok f h (swap sg) -> sized f -> length labels = length (news sg) ->
  (x <- inverse ord (olds sg) (grp 0 sg) ;; propagate labels x f) = Ok l' -> l' = relabel h (swap sg) labels.
Proof.
  intros HO HR HS HL H.
  pose proof (grp_group_in 0 sg) as HG. cbn [Nat.add] in HG.
  pose proof (inv_list_group_in (olds sg) (grp 0 sg) HG) as GI.
  rewrite inv_list_grp in GI. rewrite apply_grp in GI.
  destruct (inverse_total ord (olds sg) (grp 0 sg) HO HG) as [(_ & g & EI & HP)|(_ & EI)]; rewrite EI in H; [|discriminate].
  rewrite inv_list_grp in HP. cbn [bind] in H.
  assert (GH : StronglySorted pos_le g /\ group_in 0 (length (news sg)) g).
  { unfold inverse in EI. rewrite gen_inverse_inv_list, inv_list_grp in EI.
    destruct (rdone ord (grp 0 (swap sg))) as [g'|] eqn:ER; [|discriminate]. cbn [bind] in EI.
    destruct (guard _ AssertionErr); [|discriminate]. cbn [bind] in EI. injection EI as ->.
    assert (HW : Forall well_formed (grp 0 (swap sg))).
    { rewrite <- inv_list_grp. now apply inv_list_well_formed. }
    destruct (rdone_ok ord _ _ HO HW ER) as (_ & _ & SS & _ & Q). split; [exact SS|].
    apply Q. intros r HIr. apply (group_in_In _ _ _ _ GI HIr). }
  destruct GH as (SS & GH).
  rewrite (propagate_rec labels g f HS) in H by (now rewrite HL).
  rewrite (prop_rec_perm (length (news sg)) labels g _ HP SS (group_in_sorted _ _ _ GI) 0 0 GH GI eq_refl) in H.
  rewrite <- (propagate_rec labels (grp 0 (swap sg)) f HS) in H by (now rewrite HL).
  rewrite (propagate_grp f h) in H; [now injection H|exact HR|now rewrite swap_olds].
Qed.
End order.

(** ** Laws of a pair of rules, piece by piece *)

Lemma app_inj_len {B} (a b c d : list B) : a ++ b = c ++ d -> length a = length c -> a = c /\ b = d.
Proof.
  revert c. induction a as [|x a IH]; intros [|y c] H L; try discriminate; [auto|].
  cbn [app] in H. injection H as -> H. destruct (IH c H) as (-> & ->); [now injection L|auto].
Qed.

Section laws.
Context {A : Type}.
Implicit Types (sg : list (seg A)) (h k : rule).

(** The rules give labels of the announced length. *)
Definition sizes h sg : Prop :=
  forall o v ls, In (o, Some v) sg -> length ls = length o -> length (h ls (length v)) = length v.

Lemma sizes_tl h x sg : sizes h (x :: sg) -> sizes h sg.
Proof. intros H o v ls I. apply H. now right. Qed.

Definition back_sizes k sg : Prop :=
  forall o v ls, In (o, Some v) sg -> length ls = length v -> length (k ls (length o)) = length o.

Lemma back_sizes_tl k x sg : back_sizes k (x :: sg) -> back_sizes k sg.
Proof. intros H o v ls I. apply H. now right. Qed.

Lemma trip_cons h k o nv sg l : sizes h ((o, nv) :: sg) -> length o <= length l ->
  relabel k (swap ((o, nv) :: sg)) (relabel h ((o, nv) :: sg) l) =
  match nv with Some v => k (h (firstn (length o) l) (length v)) (length o) | None => firstn (length o) l end ++
  relabel k (swap sg) (relabel h sg (skipn (length o) l)).
Proof.
  intros HS HL. assert (LF : length (firstn (length o) l) = length o) by (rewrite firstn_length; lia).
  destruct nv as [v|]; cbn [swap map swap1 relabel old_of fst snd].
  - pose proof (HS o v _ (or_introl eq_refl) LF) as LV.
    now rewrite (firstn_app_len _ _ _ LV), (skipn_app_len _ _ _ LV).
  - now rewrite (firstn_app_len _ _ _ LF), (skipn_app_len _ _ _ LF).
Qed.

(** Which labels come back. *)
Definition piece_survives h k sg (l : list Z) : Prop :=
  forall sg1 w v sg2, sg = sg1 ++ (w, Some v) :: sg2 ->
  let here := slice l (length (olds sg1)) (length (olds sg1) + length w) in
  k (h here (length v)) (length w) = here.

Lemma relabel_survives h k sg l : sizes h sg -> back_sizes k sg -> length l = length (olds sg) ->
  (relabel k (swap sg) (relabel h sg l) = l <-> piece_survives h k sg l).
Proof.
  revert l. induction sg as [|[o nv] sg IH]; intros l HS HB HL.
  - split; [intros _ [|? ?] w v sg2 Q; discriminate|]. intros _. cbn in *. now destruct l.
  - rewrite olds_cons, app_length in HL. cbn [old_of fst] in HL.
    rewrite trip_cons by (auto; lia).
    assert (LF : length (firstn (length o) l) = length o) by (rewrite firstn_length; lia).
    assert (LK : skipn (length o) l = skipn (length o) l) by reflexivity.
    specialize (IH (skipn (length o) l) (sizes_tl _ _ _ HS) (back_sizes_tl _ _ _ HB)).
    assert (LS : length (skipn (length o) l) = length (olds sg)) by (rewrite skipn_length; lia).
    specialize (IH LS).
    assert (ES : forall sg1 w v sg2, sg = sg1 ++ (w, Some v) :: sg2 ->
      slice l (length (olds (@cons (seg A) (o, nv) sg1))) (length (olds (@cons (seg A) (o, nv) sg1)) + length w) =
      slice (skipn (length o) l) (length (olds sg1)) (length (olds sg1) + length w)).
    { intros sg1 w v sg2 _. change (olds (@cons (seg A) (o, nv) sg1)) with (o ++ olds sg1). rewrite app_length. unfold slice.
      rewrite skipn_skipn_add. f_equal. lia. }
    set (here := firstn (length o) l) in *.
    set (back := match nv with Some v => k (h here (length v)) (length o) | None => here end).
    assert (LB : length back = length o).
    { unfold back. destruct nv as [v|]; [|exact LF]. apply (HB o v); [now left|]. apply (HS o v); [now left|exact LF]. }
    assert (EH : l = here ++ skipn (length o) l) by (symmetry; apply firstn_skipn).
    split.
    + intros Q. rewrite EH in Q at 2. apply app_inj_len in Q; [|now rewrite LB, LF]. destruct Q as (Q1 & Q2).
      apply IH in Q2. intros [|[o' n'] sg1] w v sg2 EQ; cbn [app] in EQ; [injection EQ as <- -> EQ|injection EQ as <- <- EQ].
      * cbn [olds map concat length Nat.add]. unfold slice. rewrite Nat.sub_0_r. cbn [skipn].
        exact Q1.
      * cbn zeta. rewrite (ES sg1 w v sg2 EQ). exact (Q2 sg1 w v sg2 EQ).
    + intros Q. rewrite EH at 2. f_equal.
      * unfold back. destruct nv as [v|]; [|reflexivity].
        specialize (Q [] o v sg eq_refl). cbn [olds map concat length Nat.add] in Q. unfold slice in Q.
        rewrite Nat.sub_0_r in Q. cbn [skipn] in Q. exact Q.
      * apply IH. intros sg1 w v sg2 EQ. cbn zeta. rewrite <- (ES sg1 w v sg2 EQ).
        apply (Q ((o, nv) :: sg1) w v sg2). cbn [app]. now rewrite EQ.
Qed.

(** Back and forward again gives the labels that were sent back. *)
Definition returning h k sg : Prop :=
  forall o v ls, In (o, Some v) sg -> length ls = length v -> h (k ls (length o)) (length v) = ls.

Lemma relabel_returns h k sg m : back_sizes k sg -> returning h k sg -> length m = length (news sg) ->
  relabel h sg (relabel k (swap sg) m) = m.
Proof.
  revert m. induction sg as [|[o nv] sg IH]; intros m HB HT HL; [cbn in *; now destruct m|].
  rewrite news_cons, app_length in HL.
  assert (IHm : forall n, length n = length (news sg) -> relabel h sg (relabel k (swap sg) n) = n).
  { intros n HN. apply IH; [exact (back_sizes_tl _ _ _ HB)| |exact HN]. intros o' v' ls I. apply HT. now right. }
  destruct nv as [v|]; cbn [new_of snd fst] in HL; cbn [swap map swap1 relabel old_of fst snd]; fold (swap sg).
  - assert (LF : length (firstn (length v) m) = length v) by (rewrite firstn_length; lia).
    pose proof (HB o v _ (or_introl eq_refl) LF) as LB.
    rewrite (firstn_app_len _ _ _ LB), (skipn_app_len _ _ _ LB), IHm by (rewrite skipn_length; lia).
    rewrite (HT o v _ (or_introl eq_refl) LF). apply firstn_skipn.
  - assert (LF : length (firstn (length o) m) = length o) by (rewrite firstn_length; lia).
    rewrite (firstn_app_len _ _ _ LF), (skipn_app_len _ _ _ LF), IHm by (rewrite skipn_length; lia).
    apply firstn_skipn.
Qed.
End laws.

(** ** Labels set to 0 *)

(** The labels at the places where [c] is false become 0. *)
Fixpoint mask (c : nat -> bool) (l : list Z) : list Z :=
  match l with
  | [] => []
  | x :: l => (if c 0 then x else 0%Z) :: mask (fun i => c (S i)) l
  end.

Lemma mask_length c l : length (mask c l) = length l.
Proof. revert c. induction l as [|x l IH]; intros c; cbn; [reflexivity|now rewrite IH]. Qed.
Lemma mask_ext c d l : (forall i, i < length l -> c i = d i) -> mask c l = mask d l.
Proof.
  revert c d. induction l as [|x l IH]; intros c d H; [reflexivity|]. cbn [mask].
  rewrite (H 0) by (cbn; lia). f_equal. apply IH. intros i L. apply H. cbn. lia.
Qed.
Lemma mask_app c l m : mask c (l ++ m) = mask c l ++ mask (fun i => c (length l + i)) m.
Proof. revert c. induction l as [|x l IH]; intros c; [reflexivity|]. cbn [app mask length]. now rewrite IH. Qed.
Lemma mask_all l : mask (fun _ => true) l = l.
Proof. induction l as [|x l IH]; [reflexivity|]. cbn [mask]. now rewrite IH. Qed.
Lemma mask_none l : mask (fun _ => false) l = repeat 0%Z (length l).
Proof. induction l as [|x l IH]; [reflexivity|]. cbn [mask length repeat]. now rewrite IH. Qed.
Lemma mask_firstn c l n : firstn n (mask c l) = mask c (firstn n l).
Proof. revert c n. induction l as [|x l IH]; intros c [|n]; try reflexivity. cbn [mask firstn]. now rewrite IH. Qed.
Lemma mask_skipn c l n : skipn n (mask c l) = mask (fun i => c (n + i)) (skipn n l).
Proof. revert c n. induction l as [|x l IH]; intros c [|n]; try reflexivity. cbn [mask skipn]. now rewrite IH. Qed.
Lemma mask_zeros c n : mask c (repeat 0%Z n) = repeat 0%Z n.
Proof. revert c. induction n as [|n IH]; intros c; [reflexivity|]. cbn [repeat mask]. rewrite IH. now destruct (c 0). Qed.
Lemma mask_nth c l i : nth i (mask c l) 0%Z = if c i then nth i l 0%Z else 0%Z.
Proof.
  revert c i. induction l as [|x l IH]; intros c [|i]; cbn [mask nth]; try (now destruct (c _)). apply (IH (fun j => c (S j))).
Qed.

(** First [n] places as in [b], the others as in [d]. *)
Definition cat (n : nat) (b d : nat -> bool) : nat -> bool := fun i => if i <? n then b i else d (i - n).

Lemma mask_cat n b d l : n <= length l -> mask (cat n b d) l = mask b (firstn n l) ++ mask d (skipn n l).
Proof.
  intros L. rewrite <- (firstn_skipn n l) at 1. rewrite mask_app. rewrite firstn_length, Nat.min_l by exact L.
  f_equal; apply mask_ext; intros i H; unfold cat.
  - rewrite firstn_length in H. destruct (Nat.ltb_spec i n); [reflexivity|lia].
  - destruct (Nat.ltb_spec (n + i) n); [lia|]. f_equal. lia.
Qed.

Lemma mask_twice c l : mask c (mask c l) = mask c l.
Proof.
  revert c. induction l as [|x l IH]; intros c; [reflexivity|]. cbn [mask]. rewrite IH. now destruct (c 0).
Qed.

Section masks.
Context {A : Type}.

(** Labels that were set to 0 on the way only set labels to 0 at the start, and those do not
    matter. *)
Definition gentle (h k : rule) (sg : list (seg A)) : Prop :=
  forall o v, In (o, Some v) sg -> forall c, exists b, forall ls, length ls = length o ->
    k (mask c (h ls (length v))) (length o) = mask b ls /\
    mask c (h (mask b ls) (length v)) = mask c (h ls (length v)).

Lemma relabel_gentle h k (sg : list (seg A)) : sizes h sg -> gentle h k sg -> forall c, exists b, forall l,
  length l = length (olds sg) ->
  relabel k (swap sg) (mask c (relabel h sg l)) = mask b l /\
  mask c (relabel h sg (mask b l)) = mask c (relabel h sg l).
Proof.
  induction sg as [|[o nv] sg IH]; intros HS HG c.
  - exists (fun _ => true). intros l HL. cbn in *. destruct l; [auto|discriminate].
  - destruct (IH (sizes_tl _ _ _ HS) (fun o' v' I => HG o' v' (or_intror I))
      (fun i => c (match nv with Some v => length v | None => length o end + i))) as (b' & HB').
    assert (HP : exists b0, forall ls, length ls = length o ->
      match nv with
      | Some v => k (mask c (h ls (length v))) (length o) = mask b0 ls /\
                  mask c (h (mask b0 ls) (length v)) = mask c (h ls (length v))
      | None => b0 = c
      end).
    { destruct nv as [v|]; [apply (HG o v); now left|now exists c]. }
    destruct HP as (b0 & HP). exists (cat (length o) b0 b'). intros l HL.
    rewrite olds_cons, app_length in HL. cbn [old_of fst] in HL.
    assert (LF : length (firstn (length o) l) = length o) by (rewrite firstn_length; lia).
    assert (LS : length (skipn (length o) l) = length (olds sg)) by (rewrite skipn_length; lia).
    destruct (HB' _ LS) as (B1 & B2). specialize (HP _ LF). rewrite mask_cat by lia.
    destruct nv as [v|].
    + destruct HP as (P1 & P2). pose proof (HS o v _ (or_introl eq_refl) LF) as LV.
      assert (LM : length (mask b0 (firstn (length o) l)) = length o) by (now rewrite mask_length).
      pose proof (HS o v _ (or_introl eq_refl) LM) as LW.
      cbn [swap map swap1 relabel old_of fst snd]. fold (swap sg).
      rewrite mask_app, LV. rewrite (firstn_app_len (length v)) by (now rewrite mask_length).
      rewrite (skipn_app_len (length v)) by (now rewrite mask_length).
      split; [now rewrite P1, B1|].
      rewrite (firstn_app_len _ _ _ LM), (skipn_app_len _ _ _ LM), !mask_app, LW.
      now rewrite P2, B2.
    + subst b0. cbn [swap map swap1 relabel old_of fst snd]. fold (swap sg).
      assert (LM : length (mask c (firstn (length o) l)) = length o) by (now rewrite mask_length).
      rewrite mask_app, LF. rewrite (firstn_app_len _ _ _ LM), (skipn_app_len _ _ _ LM).
      split; [now rewrite B1|].
      rewrite (firstn_app_len _ _ _ LM), (skipn_app_len _ _ _ LM), !mask_app, LM.
      rewrite B2. f_equal. clear. revert c. induction (firstn (length o) l) as [|x m IH]; intros c; [reflexivity|].
      cbn [mask]. rewrite IH. now destruct (c 0).
Qed.

(** Labels that were set to 0 on the way matter for nothing else. *)
Definition softly (h k : rule) (sg : list (seg A)) : Prop :=
  forall o v, In (o, Some v) sg -> forall c ls, length ls = length o ->
    mask c (h (k (mask c (h ls (length v))) (length o)) (length v)) = mask c (h ls (length v)).

Lemma relabel_soft h k (sg : list (seg A)) : sizes h sg -> back_sizes k sg -> softly h k sg -> forall c l,
  length l = length (olds sg) ->
  mask c (relabel h sg (relabel k (swap sg) (mask c (relabel h sg l)))) = mask c (relabel h sg l).
Proof.
  induction sg as [|[o nv] sg IH]; intros HS HB HG c l HL; [reflexivity|].
  rewrite olds_cons, app_length in HL. cbn [old_of fst] in HL.
  assert (LF : length (firstn (length o) l) = length o) by (rewrite firstn_length; lia).
  assert (LS : length (skipn (length o) l) = length (olds sg)) by (rewrite skipn_length; lia).
  specialize (fun c => IH (sizes_tl _ _ _ HS) (back_sizes_tl _ _ _ HB) (fun o' v' I => HG o' v' (or_intror I)) c _ LS).
  set (r := skipn (length o) l) in *. set (f := firstn (length o) l) in *.
  destruct nv as [v|]; cbn [swap map swap1 relabel old_of fst snd]; fold (swap sg); fold r f.
  - pose proof (HS o v f (or_introl eq_refl) LF) as LV.
    assert (LM : length (mask c (h f (length v))) = length v) by (now rewrite mask_length).
    pose proof (HB o v (mask c (h f (length v))) (or_introl eq_refl) LM) as LB.
    rewrite (mask_app c (h f (length v))). rewrite (firstn_app_len _ _ _ LM), (skipn_app_len _ _ _ LM).
    rewrite (firstn_app_len _ _ _ LB), (skipn_app_len _ _ _ LB).
    rewrite mask_app. rewrite (HG o v (or_introl eq_refl) c f LF). f_equal.
    rewrite (HS o v _ (or_introl eq_refl) LB), LV. apply IH.
  - assert (LM : length (mask c f) = length o) by (now rewrite mask_length).
    rewrite (mask_app c f). rewrite (firstn_app_len _ _ _ LM), (skipn_app_len _ _ _ LM).
    rewrite (firstn_app_len _ _ _ LM), (skipn_app_len _ _ _ LM).
    rewrite mask_app. rewrite mask_twice, mask_length. f_equal. apply IH.
Qed.
End masks.
