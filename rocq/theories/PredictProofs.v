(** Which labels of the output of an operator stick (C108). *)

From Coq Require Import String.
From Verif Require Import Py PyFacts Edit Labels SpecEdit SpecLabels SpecSeg SpecRuns SpecWords SpecScan SpecOps SpecHash
  EditProofs LabelProofs EditApiProofs SegProofs RunsProofs WordProofs TrieProofs Ops OpProofs StrOpProofs ScanProofs ListOpProofs
  TokProofs HashProofs AlignProofs OpLaws Json Elements Pipe SpecElements SpecTrip TripProofs SpecRelabel SpecLaws LawsProofs LawsText LawsCommute LawsMaps LawsList
  SpecSettle SettleSegs SettleOps SettleTable SettlePipe SettleSurvive SpecPredict RelabelProofs RelabelFree.
From Coq Require Import List Lia.

Lemma sticks_one E a m : sticks E [a] m <-> exists l, align_inverse E a m = Ok l /\ align a l = Ok m.
Proof. unfold sticks. split; intros (l & H); exists l; rewrite align_one, align_inverse_one in *; exact H. Qed.

Lemma maps_sticks E o x y F G P : maps E o any_labels x y F G ->
  (forall m, length m = pseq_length y -> (F (G m) = m <-> P m)) -> sticks_when E o x P.
Proof.
  intros M HP y0 a T m. destruct (maps_inv _ _ _ _ _ _ _ _ _ M T) as [-> (A1 & A2 & A3 & A4)].
  rewrite sticks_one. split.
  - intros (l & H1 & H2). destruct (Nat.eq_dec (length m) (pseq_length y)) as [L|L]; [|rewrite (A4 m L) in H1; discriminate].
    split; [exact L|]. apply HP; [exact L|]. destruct (A3 m L Logic.I) as (Q1 & L1). rewrite Q1 in H1. injection H1 as <-.
    destruct (A1 _ L1 Logic.I) as (Q2 & _). congruence.
  - intros (L & H). destruct (A3 m L Logic.I) as (Q1 & L1). destruct (A1 _ L1 Logic.I) as (Q2 & _).
    exists (G m). split; [exact Q1|]. rewrite Q2. f_equal. now apply HP.
Qed.

Lemma swap_In {A} (sg : list (seg A)) w v : In (v, Some w) (swap sg) -> In (w, Some v) sg.
Proof.
  intros I. rewrite <- (swap_swap sg). unfold swap at 1. apply in_map_iff. exists (v, Some w). split; [reflexivity|exact I].
Qed.

Lemma rewrites_sticks E o s sg h k (P : list Z -> list Z -> Prop) : rewrites E o s sg h k -> sizes h sg -> back_sizes k sg ->
  (forall w v ls, In (w, Some v) sg -> length ls = length v -> (h (k ls (length w)) (length v) = ls <-> P w ls)) ->
  sticks_when E o (SStr s) (in_new sg P).
Proof.
  intros (EO & M) HS HB HP. apply (maps_sticks _ _ _ _ _ _ _ M). intros m L. cbn [pseq_length] in L.
  assert (HS' : sizes k (swap sg)) by (intros v w ls I HL; apply (HB w v ls); [now apply swap_In|exact HL]).
  assert (HB' : back_sizes h (swap sg)) by (intros v w ls I HL; apply (HS w v ls); [now apply swap_In|exact HL]).
  pose proof (relabel_survives k h (swap sg) m HS' HB' ltac:(now rewrite swap_olds)) as R. rewrite swap_swap in R. rewrite R. clear R.
  unfold piece_survives, in_new.
  assert (K : forall sg1 w v sg2, sg = sg1 ++ (w, Some v) :: sg2 ->
    In (w, Some v) sg /\ length (firstn (length v) (skipn (length (news sg1)) m)) = length v).
  { intros sg1 w v sg2 Q. split; [rewrite Q; apply in_or_app; right; now left|].
    assert (LO : length (news sg) = length (news sg1) + (length v + length (news sg2))).
    { unfold news. rewrite Q, map_app, concat_app, app_length. cbn [map concat new_of fst snd]. now rewrite app_length. }
    rewrite firstn_length, skipn_length. lia. }
  split.
  - intros H sg1 w v sg2 Q. destruct (K sg1 w v sg2 Q) as (K1 & K2).
    specialize (H (swap sg1) v w (swap sg2)). rewrite Q in H. unfold swap in H at 1. rewrite map_app in H.
    specialize (H eq_refl). cbv zeta in H. rewrite swap_olds in H. unfold slice in H.
    replace (length (news sg1) + length v - length (news sg1)) with (length v) in H by lia.
    now apply (HP w v).
  - intros H sg1' v w sg2' Q. pose proof (f_equal swap Q) as Q'. rewrite swap_swap in Q'.
    unfold swap in Q' at 1. rewrite map_app in Q'. cbn [map swap1 fst snd] in Q'. fold (swap sg1') in Q'. fold (swap sg2') in Q'.
    destruct (K _ _ _ _ Q') as (K1 & K2). specialize (H _ _ _ _ Q'). rewrite swap_news in H, K2.
    cbv zeta. unfold slice.
    replace (length (olds sg1') + length v - length (olds sg1')) with (length v) by lia.
    now apply (HP w v).
Qed.

(** ** Operators that change pieces *)

Lemma by_entity_mode_one ls k : one_label ls -> by_entity_mode ls k = repeat (mode ls) k.
Proof.
  intros H. destruct ls as [|x ls]; [reflexivity|]. pose proof (one_label_is _ H) as Q. rewrite Q at 1.
  apply by_entity_mode_repeat. cbn. lia.
Qed.
Lemma by_mode_repeat x n k : 0 < n -> by_mode (repeat x n) k = repeat x k.
Proof. intros H. unfold by_mode. now rewrite mode_repeat. Qed.

Lemma number_sticks E o p (choice : str -> bool) tok s :
  let sg := seg_runs p (fun r => if choice r then Some tok else None) s in
  rewrites E o s sg by_mode by_entity_mode -> 
  sticks_when E o (SStr s) (in_new sg (fun _ => one_label)).
Proof.
  intros sg R. apply (rewrites_sticks _ _ _ _ _ _ _ R); [apply sizes_by_mode|apply back_by_entity|].
  intros w v ls I LL. assert (NW : 0 < length w).
  { destruct w; [|cbn; lia]. now destruct (seg_runs_nonempty _ _ _ _ _ I). }
  split.
  - intros <-. unfold by_entity_mode. rewrite by_mode_repeat by exact NW. apply one_label_repeat.
  - intros H. rewrite by_entity_mode_one by exact H. rewrite by_mode_repeat by exact NW.
    now apply (same_mode ls (length v) LL).
Qed.

Lemma framed_number_sticks E o p (choice : str -> bool) tok s : 3 <= length tok ->
  let sg := seg_runs p (fun r => if choice r then Some tok else None) s in
  rewrites E o s sg (around by_mode) by_entity_mode ->
  sticks_when E o (SStr s) (in_new sg (fun _ => framed one_label)).
Proof.
  intros LT sg R.
  assert (NV : forall w v, In (w, Some v) sg -> v = tok) by (intros w v I; exact (seg_runs_new _ _ _ _ _ _ I)).
  apply (rewrites_sticks _ _ _ _ _ _ _ R); [|apply back_by_entity|].
  - intros w v ls I _. rewrite (NV w v I). unfold around, by_mode. cbn [length]. rewrite app_length, repeat_length. cbn [length]. lia.
  - intros w v ls I LL. rewrite (NV w v I) in *. assert (NW : 0 < length w).
    { destruct w; [|cbn; lia]. now destruct (seg_runs_nonempty _ _ _ _ _ I). }
    split.
    + intros <-. unfold around, by_entity_mode. rewrite by_mode_repeat by exact NW.
      eexists. split; [reflexivity|apply one_label_repeat].
    + intros (mid & -> & H). cbn [length] in LL. rewrite app_length in LL. cbn [length] in LL.
      pose proof (one_label_is _ H) as Q. rewrite Q at 1. rewrite around_entity by lia.
      unfold around. rewrite by_mode_repeat by exact NW. do 2 f_equal. rewrite Q at 2. f_equal. lia.
Qed.

Theorem spaced_number_lists E s : ord_ok (ord_c E) ->
  sticks_when E IntToken (SStr s) (in_new (int_like E (txt "_int_") s) (fun _ => one_label)) /\
  sticks_when E FloatToken (SStr s) (in_new (float_like E (txt "_float_") s) (fun _ => one_label)) /\
  sticks_when E IntTokenWithSpace (SStr s) (in_new (int_like E (txt " _int_ ") s) (fun _ => framed one_label)) /\
  sticks_when E NumTokenWithSpace (SStr s) (in_new (int_like E (txt " _num_ ") s) (fun _ => framed one_label)) /\
  sticks_when E FloatTokenWithSpace (SStr s) (in_new (float_like E (txt " _float_ ") s) (fun _ => framed one_label)).
Proof.
  intros OC. split; [|split; [|split; [|split]]].
  - eapply number_sticks. exact (int_rewrites E s OC).
  - eapply number_sticks. exact (float_rewrites E s OC).
  - eapply framed_number_sticks; [|exact (int_space_rewrites E s OC)]. cbn; lia.
  - eapply framed_number_sticks; [|exact (num_space_rewrites E s OC)]. cbn; lia.
  - eapply framed_number_sticks; [|exact (float_space_rewrites E s OC)]. cbn; lia.
Qed.

Lemma spaced_sticks E o cls s : rewrites E o s (spaced cls s) (around same) by_entity_mode ->
  sticks_when E o (SStr s) (in_new (spaced cls s) (fun _ => framed (fun _ => True))).
Proof.
  intros R. apply (rewrites_sticks _ _ _ _ _ _ _ R); [apply spaced_sizes|apply back_by_entity|].
  intros w v ls I LL. apply spaced_In in I. destruct I as (d & -> & -> & _).
  change (length (blank ++ [d] ++ blank)) with 3 in *. split.
  - intros <-. unfold around, same. eexists. split; [reflexivity|exact Logic.I].
  - intros (mid & -> & _). cbn [length] in LL. rewrite app_length in LL. cbn [length] in LL.
    destruct mid as [|x [|y mid]]; cbn [length] in LL; try lia.
    unfold around, same. change ([x]) with (repeat x 1). rewrite around_entity by lia. reflexivity.
Qed.
Theorem spacers_stick E s : ord_ok (ord_c E) ->
  sticks_when E AddWhitespaceAroundCJK (SStr s) (in_new (spaced cjk s) (fun _ => framed (fun _ => True))) /\
  sticks_when E AddWhitespaceAroundPunctuation (SStr s) (in_new (spaced (punctuation E) s) (fun _ => framed (fun _ => True))).
Proof.
  intros OC. split; apply spaced_sticks; [apply cjk_rewrites|apply punct_rewrites]; exact OC.
Qed.

Theorem wordn_sticks E ws sh o s ps : ord_ok (ord_c E) -> make_wordn (Some ws) sh = Ok o -> munched sh ws s ps ->
  sticks_when E o (SStr s) (in_new (word_spaced ps) (fun _ => framed (fun _ => True))).
Proof.
  intros OC HM HP. destruct (make_wordn_inv ws sh o HM) as (t & -> & HH).
  destruct (wordn_rewrites E t ws sh s OC HH) as (ps' & HP' & R).
  rewrite (munched_unique _ _ _ _ _ HP HP'). clear ps HP.
  apply (rewrites_sticks _ _ _ _ _ _ _ R); [apply words_sizes| |].
  - intros w v ls I HL. destruct (word_spaced_In _ _ _ I) as (-> & _). unfold without_ends. rewrite firstn_length.
    rewrite !app_length in HL. change (length blank) with 1 in HL. destruct ls as [|z ls]; cbn [length tl] in *; lia.
  - intros w v ls I LL. destruct (word_spaced_In _ _ _ I) as (-> & _). rewrite !app_length in LL. change (length blank) with 1 in LL.
    split.
    + intros <-. unfold around, same. eexists. split; [reflexivity|exact Logic.I].
    + intros (mid & -> & _). cbn [length] in LL. rewrite app_length in LL. cbn [length] in LL.
      unfold around, same, without_ends. cbn [tl]. rewrite firstn_app_len by lia. reflexivity.
Qed.

Theorem stop_sticks E s ps : ord_ok (ord_c E) -> munched false stopword_set s ps ->
  sticks_when E StopwordsToWhitespace (SStr s) (in_new (stop_spaced ps) (fun _ => all_zero)).
Proof.
  intros OC HM. destruct (stop_rewrites E s OC) as (ps' & HM' & R). rewrite (munched_unique _ _ _ _ _ HM HM').
  apply (rewrites_sticks _ _ _ _ _ _ _ R); [apply sizes_by_zero|apply back_by_zero|].
  intros w v ls _ L. unfold by_zero. rewrite all_zero_repeat, L. split; intros H; now symmetry.
Qed.

Theorem endpoint_sticks E s : ord_ok (ord_c E) ->
  sticks_when E PunctuationExceptEndpointToWhitespace (SStr s)
    (zero_at (fun i => exists c, nth_error s i = Some c /\ endless_punct E c = true)).
Proof.
  intros OC y a T m. pose proof (endpoint_survives E s OC y a T m) as S.
  destruct (maps_inv _ _ _ _ _ _ _ _ _ (endpoint_maps E s OC) T) as [-> (A1 & A2 & A3 & A4)].
  cbn [pseq_length] in *. rewrite map_length in *. rewrite <- S, survives_one, sticks_one. split.
  - intros (l & H1 & H2). destruct (Nat.eq_dec (length m) (length s)) as [L|L]; [|rewrite (A4 m L) in H1; discriminate].
    exists l. destruct (A3 m L Logic.I) as (Q1 & L1). destruct (A1 m L Logic.I) as (Q2 & L2). rewrite Q1 in H1. injection H1 as <-.
    split; [exact Q2|]. destruct (A1 _ L1 Logic.I) as (Q3 & _). destruct (A3 _ L1 Logic.I) as (Q4 & _). rewrite Q4. congruence.
  - intros (l & H1 & H2). destruct (Nat.eq_dec (length m) (length s)) as [L|L]; [|rewrite (A2 m L) in H1; discriminate].
    exists l. destruct (A3 m L Logic.I) as (Q1 & L1). destruct (A1 m L Logic.I) as (Q2 & L2). rewrite Q2 in H1. injection H1 as <-.
    split; [exact Q1|]. destruct (A1 _ L1 Logic.I) as (Q3 & _). destruct (A3 _ L1 Logic.I) as (Q4 & _). rewrite Q3. congruence.
Qed.

Theorem replace_sticks E p b find s sg : ord_ok (ord_c E) -> re_compile E p = Some find -> in_bounds find ->
  replaced find (fun _ => b) s 0 sg -> ~ deleted_twice sg ->
  sticks_when E (ReplaceAwithB p b) (SStr s)
    (in_new sg (fun w ls => one_label ls /\ (w = [] -> all_zero ls))).
Proof.
  intros OC HC HB HR HT. apply (rewrites_sticks _ _ _ _ _ _ _ (replace_rewrites E p b find s sg OC HC HB HR HT));
    [apply sizes_by_entity|apply back_by_entity|].
  intros w v ls _ L. destruct w as [|c w].
  - cbn [length]. change (by_entity_mode ls 0) with (@nil Z). unfold by_entity_mode. cbn [filter]. change (mode []) with 0%Z. split.
    + intros <-. split; [apply one_label_repeat|]. intros _ x HX. now apply repeat_spec in HX.
    + intros (_ & H). rewrite <- L. symmetry. now apply all_zero_repeat, H.
  - split.
    + intros <-. unfold by_entity_mode at 2. rewrite by_entity_mode_repeat by (cbn; lia). split; [apply one_label_repeat|discriminate].
    + intros (H & _). rewrite (by_entity_mode_one ls) by exact H. rewrite by_entity_mode_repeat by (cbn; lia).
      now apply (same_mode ls (length v) L).
Qed.
Theorem replace_twice_sticks E p b find s sg : ord_ok (ord_c E) -> re_compile E p = Some find -> in_bounds find ->
  replaced find (fun _ => b) s 0 sg -> deleted_twice sg -> sticks_when E (ReplaceAwithB p b) (SStr s) (fun _ => False).
Proof.
  intros OC HC HB HR HT y a T l. destruct (replace_lost E p b find s sg OC HC HB HR HT) as (a' & T' & _ & A2).
  rewrite T' in T. injection T as <- <-. rewrite sticks_one. split; [|tauto].
  intros (m & H1 & _). exfalso.
  destruct (Nat.eq_dec (length l) (length (news sg))) as [L|L]; [rewrite (A2 l L) in H1; discriminate|].
  destruct (replace_sound E p b find s _ _ OC HC HB T') as (_ & S2 & _). rewrite (S2 l L) in H1. discriminate.
Qed.

(** ** Lists *)

Theorem pad_sticks E m t l : ord_ok (ord_e E) ->
  sticks_when E (Pad m t) (SLst l) (zero_at (fun i => length l <= i)).
Proof.
  intros OE y a T.
  destruct (Z.ltb_spec m 0) as [L|L]; [rewrite pad_negative in T by exact L; discriminate|].
  assert (HL : (Z.of_nat (length l) < 2 ^ 32)%Z \/ Z.of_nat (length l) = m).
  { destruct (Z.ltb_spec (Z.of_nat (length l)) (2 ^ 32)) as [Q|Q]; [now left|].
    destruct (Z.eq_dec (Z.of_nat (length l)) m) as [R|R]; [now right|].
    rewrite pad_too_long in T by assumption. discriminate. }
  revert y a T. apply (maps_sticks _ _ _ _ _ _ _ (pad_maps E m t l OE L HL)). intros ls LL. cbn [pseq_length] in LL.
  rewrite app_length, firstn_length, repeat_length in LL.
  set (k := Z.to_nat m) in *. set (n := length l) in *. rewrite (zero_at_skipn _ ls n) by tauto.
  destruct (Nat.le_gt_cases k n) as [Q|Q].
  - replace (k - n) with 0 by lia. cbn [repeat]. rewrite app_nil_r. rewrite (firstn_all2 (n := n) ls) by lia.
    rewrite firstn_app_len by lia. rewrite skipn_all2 by lia. replace (length ls - n) with 0 by lia. tauto.
  - replace (n - k) with 0 by lia. cbn [repeat]. rewrite app_nil_r.
    rewrite (firstn_all2 (n := k)) by (rewrite firstn_length; lia).
    replace (length ls - n) with (k - n) by lia. rewrite <- (firstn_skipn n ls) at 2.
    split; [intros H; apply app_inv_head in H; now symmetry|now intros ->].
Qed.

Theorem end_sticks E t l : ord_ok (ord_e E) -> sticks_when E (AddEndToken t) (SLst l) (zero_at (fun i => length l <= i)).
Proof.
  intros OE y a T.
  destruct (Z.ltb_spec (Z.of_nat (length l)) (2 ^ 32)) as [Q|Q]; [|rewrite end_too_long in T by exact Q; discriminate].
  revert y a T. apply (maps_sticks _ _ _ _ _ _ _ (end_maps E t l OE Q)). intros ls LL. cbn [pseq_length] in LL.
  rewrite app_length in LL. cbn [length] in LL. rewrite (zero_at_skipn _ ls (length l)) by tauto.
  replace (length ls - length l) with 1 by lia. cbn [repeat]. rewrite <- (firstn_skipn (length l) ls) at 2.
  split; [intros H; apply app_inv_head in H; now symmetry|now intros ->].
Qed.

Theorem soseos_sticks E s e l : ord_ok (ord_e E) ->
  sticks_when E (AddSosEos s e) (SLst l) (zero_at (fun i => i = 0 \/ length l < i)).
Proof.
  intros OE y a T. destruct l as [|x0 l].
  - destruct (soseos_empty E s e y a OE T) as (_ & S1 & S2 & S3 & S4 & S5). intros m. rewrite sticks_one.
    assert (ZA : forall out, align a [] = Ok out -> all_zero out).
    { intros out H. pose proof (proj1 (others_any_labels E (AddSosEos s e) _ _ _ eq_refl T []) out H) as F. rewrite Forall_forall in F.
      intros z HZ. destruct (F z HZ) as [|[]]. assumption. }
    assert (ZI : zero_at (fun i => i = 0 \/ length (@nil elem) < i) m <-> all_zero m).
    { split; intros H; [intros z HZ; apply In_nth_error in HZ; destruct HZ as (i & HI); apply (H i z); [cbn; lia|exact HI]|].
      intros i z _ HZ. apply H. eapply nth_error_In; eauto. }
    rewrite ZI. destruct (S3 [] eq_refl) as (out & A & LA). pose proof (ZA out A) as ZO. split.
    + intros (z & H1 & H2). destruct (Nat.eq_dec (length m) (pseq_length y)) as [L|L]; [|rewrite (S2 m L) in H1; discriminate].
      split; [exact L|]. destruct z as [|z0 z]; [now apply ZA|]. rewrite S1 in H2 by discriminate. discriminate.
    + intros (L & H). destruct (S4 m L ltac:(now left)) as [(_ & l' & H1 & L1)|([] & _)].
      destruct l' as [|]; [|discriminate]. exists []. split; [exact H1|]. rewrite A. f_equal.
      apply all_zero_repeat in ZO, H. rewrite ZO, H. congruence.
  - destruct (Z.ltb_spec (Z.of_nat (length (x0 :: l))) (2 ^ 32)) as [Q|Q]; [|rewrite soseos_too_long in T by exact Q; discriminate].
    revert y a T. apply (maps_sticks _ _ _ _ _ _ _ (soseos_maps E s e (x0 :: l) OE ltac:(discriminate) Q)). intros ls LL.
    cbn [pseq_length] in LL. set (n := length (x0 :: l)) in *.
    assert (L2 : length ls = S (S n)) by (rewrite LL; change (length (s :: (x0 :: l) ++ [e])) with (S (length ((x0 :: l) ++ [e]))); rewrite app_length; unfold n; cbn [length]; lia).
    destruct ls as [|z ls]; [discriminate|]. cbn [tl]. assert (LN : length ls = S n) by (now injection L2).
    assert (ZI : zero_at (fun i => i = 0 \/ n < i) (z :: ls) <-> z = 0%Z /\ skipn n ls = [0%Z]).
    { rewrite zero_at_or, (zero_at_skipn (fun i => n < i) (z :: ls) (S n)) by (intros; lia). cbn [skipn length].
      replace (S (length ls) - S n) with 1 by lia. cbn [repeat].
      assert (Z0 : zero_at (fun i => i = 0) (z :: ls) <-> z = 0%Z).
      { split; [intros H; exact (H 0 z eq_refl eq_refl)|]. intros -> i x -> [= <-]. reflexivity. }
      rewrite Z0. tauto. }
    rewrite ZI. split.
    + intros H. injection H as H1 H2. split; [now symmetry|]. rewrite <- (firstn_skipn n ls) in H2 at 2.
      apply app_inv_head in H2. now symmetry.
    + intros (-> & H). f_equal. rewrite <- H. apply firstn_skipn.
Qed.

Lemma pieces_stick outs l : length l = length (concat outs) ->
  (repeat_each outs (gather outs l) = l <-> in_pieces outs one_label l).
Proof.
  revert l. induction outs as [|o outs IH]; intros l L.
  - destruct l; [|discriminate]. split; [intros _ [|? ?] ? ? Q; discriminate|reflexivity].
  - cbn [concat] in L. rewrite app_length in L. cbn [gather]. unfold repeat_each. cbn [combine map fst snd concat].
    fold (repeat_each outs (gather outs (skipn (length o) l))).
    specialize (IH (skipn (length o) l) ltac:(rewrite skipn_length; lia)).
    assert (LF : length (firstn (length o) l) = length o) by (rewrite firstn_length; lia).
    assert (H1 : repeat (mode (filter (fun x => negb (x =? 0)%Z) (firstn (length o) l))) (length o) = firstn (length o) l <-> one_label (firstn (length o) l)).
    { split; [intros <-; apply one_label_repeat|]. intros H. change (by_entity_mode (firstn (length o) l) (length o) = firstn (length o) l).
      rewrite by_entity_mode_one by exact H. now apply same_mode. }
    assert (H2 : in_pieces (o :: outs) one_label l <-> one_label (firstn (length o) l) /\ in_pieces outs one_label (skipn (length o) l)).
    { unfold in_pieces. split.
      - intros H. split; [exact (H [] o outs eq_refl)|]. intros o1 w o2 Q. specialize (H (o :: o1) w o2).
        cbn [app concat] in H. rewrite app_length in H. rewrite skipn_skipn_add. apply H. now rewrite Q.
      - intros (Q1 & Q2) [|w o1] z o2 Q; cbn [app] in Q; injection Q as -> Q.
        + exact Q1.
        + cbn [concat]. rewrite app_length, <- skipn_skipn_add. exact (Q2 _ _ _ Q). }
    rewrite H2, <- H1, <- IH. rewrite <- (firstn_skipn (length o) l) at 3. split.
    + intros H. apply app_inj_len in H; [exact H|]. rewrite repeat_length. lia.
    + intros (Q1 & Q2). now rewrite Q1, Q2.
Qed.

Theorem subwords_stick E v u m ts outs : ord_ok (ord_e E) -> ~ ((0 <= m)%Z /\ two_empty ts) -> Forall2 (subwords v u m) ts outs ->
  sticks_when E (SpanSubwords v u m) (SLst (map ETok ts)) (in_pieces outs one_label).
Proof.
  intros OE NT HF. destruct (subwords_maps_all E v u m ts OE NT) as (outs' & HF' & M).
  assert (outs' = outs) as ->.
  { clear -HF HF'. revert outs' HF'. induction HF as [|t o ts outs H1 H2 IH]; intros outs' HF'; inversion HF'; subst; [reflexivity|].
    f_equal; [eapply subwords_det; eauto|now apply IH]. }
  apply (maps_sticks _ _ _ _ _ _ _ M). intros l L. cbn [pseq_length] in L. now apply pieces_stick.
Qed.

Theorem subwords_twice_stick E v u m ts : ord_ok (ord_e E) -> (0 <= m)%Z -> two_empty ts ->
  sticks_when E (SpanSubwords v u m) (SLst (map ETok ts)) (fun _ => False).
Proof.
  intros OE M T y a H k. rewrite sticks_one. split; [|tauto]. intros (l & H2 & _). exfalso.
  destruct (subwords_sound E v u m _ y a OE H) as (_ & S2 & _ & S4 & _).
  destruct (Nat.eq_dec (length k) (pseq_length y)) as [L|L]; [|rewrite (S2 k L) in H2; discriminate].
  destruct (S4 k L ltac:(now left)) as [(N & _)|(_ & Q)]; [|congruence].
  apply N. split; [exact M|]. exists ts. auto.
Qed.

(** ** The others *)

Lemma transparent_reversible o : transparent o -> reversible o /\ input_type o = output_type o /\ forall E x, ~ deletes_twice E o x.
Proof. destruct o; cbn [transparent]; intros []; split; try exact Logic.I; split; try reflexivity; intros E [|]; cbn; tauto. Qed.
Lemma tokenizer_reversible o : tokenizer o -> reversible o /\ input_type o <> output_type o /\ forall E x, ~ deletes_twice E o x.
Proof. destruct o; intros (H1 & H2); try discriminate; (split; [exact Logic.I|]; split; [discriminate|]; intros E [|]; cbn; tauto). Qed.

Lemma reversible_sticks E o x : python E -> built E o -> reversible o -> (forall E x, ~ deletes_twice E o x) ->
  sticks_when E o x (representable o).
Proof.
  intros PY B HO ND y a T m. rewrite sticks_one.
  destruct (all_sound E o x y a PY B T) as (S1 & S2 & S3 & S4 & S5).
  destruct (op_table E o x y a PY B T) as (_ & T2 & _). specialize (T2 HO).
  split.
  - intros (l & H & _). destruct (Nat.eq_dec (length m) (pseq_length y)) as [L|L]; [|rewrite (S2 m L) in H; discriminate].
    split; [exact L|]. destruct (u32_dec m) as [U|U]; [now right|].
    destruct (seqtype_eqb (input_type o) (output_type o)) eqn:Q; [left; now destruct (input_type o), (output_type o)|].
    exfalso. rewrite S5 in H; [discriminate|exact L|]. intros [R|R]; [|tauto]. rewrite R in Q. now destruct (output_type o).
  - intros (L & R). destruct (S4 m L R) as [(_ & l & A & _)|(W & _)]; [|destruct (ND _ _ W)].
    exists l. split; [exact A|]. exact (T2 _ _ A).
Qed.

Theorem transparent_sticks E o x : python E -> built E o -> transparent o -> sticks_when E o x (fun _ => True).
Proof.
  intros PY B HO y a T m. destruct (transparent_reversible o HO) as (R & I & D).
  rewrite (reversible_sticks E o x PY B R D y a T m). unfold representable. tauto.
Qed.
Theorem tokenizer_sticks E o x : python E -> built E o -> tokenizer o -> sticks_when E o x u32_labels.
Proof.
  intros PY B HO y a T m. destruct (tokenizer_reversible o HO) as (R & I & D).
  rewrite (reversible_sticks E o x PY B R D y a T m). unfold representable. tauto.
Qed.
