(** Laws of the list operators and of the tokenizer by words (C76). *)

From Coq Require Import String Ascii Bool.
From Verif Require Import Py PyFacts Edit Labels SpecEdit SpecLabels SpecSeg SpecRuns SpecWords SpecOps Ops Json Elements Pipe SpecLaws RegexProofs PatternProofs RunsProofs SegProofs StrOpProofs ListOpProofs TokProofs WordProofs OpLaws LawsTok LawsProofs LawsCommute.
From Coq Require Import List Lia.
Local Open Scope Z_scope.

Lemma firstn_repeat {A} (x : A) a b : firstn a (repeat x b) = repeat x (Nat.min a b).
Proof. revert b. induction a as [|a IH]; intros [|b]; cbn; [reflexivity..|]. now rewrite IH. Qed.

Lemma pad_cut {A} (x : A) m n l : (m <= n)%nat ->
  firstn m (firstn n l ++ repeat x (n - length l)) = firstn m l ++ repeat x (m - length l).
Proof.
  intros H. rewrite firstn_app, firstn_firstn, Nat.min_l by exact H. f_equal.
  rewrite firstn_repeat, firstn_length. f_equal. lia.
Qed.

Theorem pad_pad E n m t l : ord_ok (ord_e E) -> 0 <= m <= n -> n < 2 ^ 32 -> Z.of_nat (length l) < 2 ^ 32 ->
  interchangeable E [Pad n t; Pad m t] [Pad m t] (SLst l).
Proof.
  intros OE H N L. pose proof (pad_maps E n t l OE ltac:(lia) (or_introl L)) as M1. cbv zeta in M1.
  set (y := firstn (Z.to_nat n) l ++ repeat t (Z.to_nat n - length l)) in *.
  assert (LY : length y = Z.to_nat n) by (unfold y; rewrite app_length, repeat_length, firstn_length; lia).
  pose proof (pad_maps E m t y OE ltac:(lia)) as M2. cbv zeta in M2. rewrite LY in M2. specialize (M2 ltac:(left; rewrite Z2Nat.id; lia)).
  pose proof (pad_maps E m t l OE ltac:(lia) (or_introl L)) as M3. cbv zeta in M3.
  assert (Q : firstn (Z.to_nat m) y ++ repeat t (Z.to_nat m - Z.to_nat n) = firstn (Z.to_nat m) l ++ repeat t (Z.to_nat m - length l)).
  { unfold y. rewrite pad_cut by lia. replace (Z.to_nat m - Z.to_nat n)%nat with 0%nat by lia. apply app_nil_r. }
  rewrite Q in M2. apply acts_maps in M1, M2, M3. pose proof (acts_app _ _ _ _ _ _ _ _ _ _ M1 M2) as A.
  eapply acts_same; [exact A|exact M3| |]; intros ls HL; cbn [pseq_length] in HL.
  - replace (Z.to_nat m - Z.to_nat n)%nat with 0%nat by lia. cbn [repeat]. rewrite app_nil_r, <- HL. apply pad_cut. lia.
  - assert (LM : length ls = Z.to_nat m) by (rewrite HL, app_length, repeat_length, firstn_length; lia).
    cbn [bind]. f_equal. rewrite (@firstn_all2 _ (Z.to_nat n) ls) by lia. rewrite firstn_app, firstn_repeat, <- app_assoc. f_equal.
    rewrite <- repeat_app. f_equal. lia.
Qed.

Lemma index_of_fun d u x y y' : is_dict d -> index_of d u x y -> index_of d u x y' -> y = y'.
Proof.
  intros D (i & -> & H) (j & -> & H'). f_equal.
  assert (F : forall k a b, In (k, a) d -> In (k, b) d -> a = b).
  { clear H H'. unfold is_dict in D. induction d as [|[k v] d IH]; intros k' a b Ha Hb; [destruct Ha|].
    cbn in D. inversion D as [|? ? NI D']; subst. destruct Ha as [Ha|Ha], Hb as [Hb|Hb].
    - congruence.
    - injection Ha as -> ->. apply (in_map fst) in Hb. now destruct NI.
    - injection Hb as -> ->. apply (in_map fst) in Ha. now destruct NI.
    - eapply IH; eauto. }
  destruct x as [k|z]; [|exact (F _ _ _ H H')].
  destruct H as [H|[N H]], H' as [H'|[N' H']]; [exact (F _ _ _ H H')| |  |exact (F _ _ _ H H')].
  - apply (in_map fst) in H. now destruct N'.
  - apply (in_map fst) in H'. now destruct N.
Qed.

Lemma indices_fun d u l : is_dict d -> forall a b, Forall2 (index_of d u) l a -> Forall2 (index_of d u) l b -> a = b.
Proof.
  intros D. induction l as [|x l IH]; intros a b HA HB; inversion HA; subst; inversion HB; subst; [reflexivity|].
  f_equal; [eapply index_of_fun; eauto|now apply IH].
Qed.

Lemma index_act E d u l a : python E -> is_dict d -> In u (map fst d) -> Forall2 (index_of d u) l a ->
  maps E (Token2Index d u) any_labels (SLst l) (SLst a) keep keep.
Proof.
  intros (_ & OE & _) D HU H. destruct (token2index_maps E d u l OE HU) as (b & HB & M). now rewrite (indices_fun d u l D a b H HB).
Qed.

Lemma Forall2_firstn_ {A B} (R : A -> B -> Prop) n : forall l l', Forall2 R l l' -> Forall2 R (firstn n l) (firstn n l').
Proof. induction n as [|n IH]; intros l l' H; [constructor|]. destruct H; cbn; constructor; auto. Qed.
Lemma Forall2_repeat_ {A B} (R : A -> B -> Prop) x y n : R x y -> Forall2 R (repeat x n) (repeat y n).
Proof. intros H. induction n; constructor; auto. Qed.
Lemma Forall2_len {A B} (R : A -> B -> Prop) l l' : Forall2 R l l' -> length l' = length l.
Proof. induction 1; cbn; congruence. Qed.

Theorem index_pad E d u n t i l : python E -> is_dict d -> In u (map fst d) -> 0 <= n -> Z.of_nat (length l) < 2 ^ 32 ->
  index_of d u t i ->
  interchangeable E [Pad n t; Token2Index d u] [Token2Index d u; Pad n i] (SLst l).
Proof.
  intros PY D HU N L HI. pose proof PY as (_ & OE & _).
  destruct (token2index_maps E d u l OE HU) as (a & HA & M2).
  pose proof (Forall2_len _ _ _ HA) as LA.
  pose proof (pad_maps E n t l OE N (or_introl L)) as M1. cbv zeta in M1.
  pose proof (pad_maps E n i a OE N) as M2'. cbv zeta in M2'. rewrite LA in M2'. specialize (M2' (or_introl L)).
  assert (M1' : maps E (Token2Index d u) any_labels (SLst (firstn (Z.to_nat n) l ++ repeat t (Z.to_nat n - length l)))
    (SLst (firstn (Z.to_nat n) a ++ repeat i (Z.to_nat n - length l))) keep keep).
  { apply index_act; auto. apply Forall2_app; [now apply Forall2_firstn_|now apply Forall2_repeat_]. }
  apply acts_maps in M1, M1', M2, M2'. pose proof (acts_app _ _ _ _ _ _ _ _ _ _ M1 M1') as A1. pose proof (acts_app _ _ _ _ _ _ _ _ _ _ M2 M2') as A2.
  eapply acts_same; [exact A1|exact A2| |]; intros ls HL; reflexivity.
Qed.

Theorem index_soseos E d u sos eos i j l : python E -> is_dict d -> In u (map fst d) -> l <> [] -> Z.of_nat (length l) < 2 ^ 32 ->
  index_of d u sos i -> index_of d u eos j ->
  interchangeable E [AddSosEos sos eos; Token2Index d u] [Token2Index d u; AddSosEos i j] (SLst l).
Proof.
  intros PY D HU N L HI HJ. pose proof PY as (_ & OE & _).
  destruct (token2index_maps E d u l OE HU) as (a & HA & M2).
  pose proof (Forall2_len _ _ _ HA) as LA.
  pose proof (soseos_maps E sos eos l OE N L) as M1.
  assert (NA : a <> []) by (intros ->; destruct l; [congruence|discriminate]).
  pose proof (soseos_maps E i j a OE NA) as M2'. rewrite LA in M2'. specialize (M2' L).
  assert (M1' : maps E (Token2Index d u) any_labels (SLst (sos :: l ++ [eos])) (SLst (i :: a ++ [j])) keep keep).
  { apply index_act; auto. constructor; [exact HI|]. apply Forall2_app; [exact HA|]. constructor; [exact HJ|constructor]. }
  apply acts_maps in M1, M1', M2, M2'. pose proof (acts_app _ _ _ _ _ _ _ _ _ _ M1 M1') as A1. pose proof (acts_app _ _ _ _ _ _ _ _ _ _ M2 M2') as A2.
  eapply acts_same; [exact A1|exact A2| |]; intros ls HL; reflexivity.
Qed.

(** ** Words that do not occur *)

Lemma munched_single sh ws s ps : munched sh ws s ps ->
  (forall w a b, In w ws -> s = a ++ w ++ b -> (length w <= 1)%nat) -> map fst ps = map (fun c => [c]) s.
Proof.
  induction 1 as [|w rest ps HB H IH|c rest ps HB H IH]; intros HW; [reflexivity| |].
  - destruct (best_prefix _ _ _ _ HB) as (N & _ & HI).
    assert (L : (length w <= 1)%nat) by (apply (HW w [] rest HI); reflexivity).
    destruct w as [|c [|]]; [congruence| |cbn in L; lia]. cbn [app map fst]. f_equal. apply IH.
    intros w a b Hw ->. apply (HW w (c :: a) b Hw). reflexivity.
  - cbn [map fst]. f_equal. apply IH. intros w a b Hw ->. apply (HW w (c :: a) b Hw). reflexivity.
Qed.

Theorem custom_is_char E ws sh o s : python E -> make_custom (Some ws) sh = Ok o ->
  (forall w a b, In w ws -> s = a ++ w ++ b -> (length w <= 1)%nat) ->
  interchangeable E [o] [CharTokenizer] (SStr s).
Proof.
  intros (OC & _) HM HW. destruct (munched_exists sh ws s) as (ps & HP).
  pose proof (custom_tokenizes E ws sh o s ps OC HM HP) as T1. pose proof (char_tokenizes E s OC) as T2.
  rewrite (munched_single _ _ _ _ HP HW) in T1. apply acts_tokenizes in T1, T2.
  unfold all_kept in T1. rewrite map_map in T1.
  eapply acts_same; [exact T1|exact T2| |]; intros; reflexivity.
Qed.

Lemma munched_spaced sh ws s ps : munched sh ws s ps ->
  (forall w a b, In w ws -> s = a ++ w ++ b -> exists c, w = [c] /\ cjk c = true) -> word_spaced ps = spaced cjk s.
Proof.
  induction 1 as [|w rest ps HB H IH|c rest ps HB H IH]; intros HW; [reflexivity| |].
  - destruct (best_prefix _ _ _ _ HB) as (N & _ & HI).
    destruct (HW w [] rest HI eq_refl) as (c & -> & HC). cbn [app]. unfold word_spaced, spaced in *. cbn [map fst snd orb]. rewrite HC.
    f_equal. apply IH. intros w a b Hw ->. apply (HW w (c :: a) b Hw). reflexivity.
  - unfold word_spaced, spaced in *. cbn [map fst snd orb forallb]. rewrite andb_true_r. f_equal.
    apply IH. intros w a b Hw ->. apply (HW w (c :: a) b Hw). reflexivity.
Qed.

Theorem wordn_is_cjk E ws sh o s : python E -> make_wordn (Some ws) sh = Ok o ->
  (forall w a b, In w ws -> s = a ++ w ++ b -> exists c, w = [c] /\ cjk c = true) ->
  same_forward E [o] [AddWhitespaceAroundCJK] (SStr s).
Proof.
  intros (OC & _) HM HW. destruct (munched_exists sh ws s) as (ps & HP).
  pose proof (wordn_ok E ws sh o s ps OC HM HP) as (_ & M1). destruct (cjk_rewrites E s OC) as (_ & M2).
  rewrite (munched_spaced _ _ _ _ HP HW) in M1. apply acts_maps in M1, M2.
  intros p q HPm HQ. destruct (M1 _ HPm) as (als1 & c1 & R1 & F1 & F1' & _). destruct (M2 _ HQ) as (als2 & c2 & R2 & F2 & F2' & _).
  eexists _, als1, c1, als2, c2. split; [exact R1|]. split; [exact R2|]. intros l.
  destruct (Nat.eq_dec (length l) (pseq_length (SStr s))) as [H|H].
  - destruct (F1 l H) as [-> _]. destruct (F2 l H) as [-> _]. reflexivity.
  - now rewrite F1', F2'.
Qed.
