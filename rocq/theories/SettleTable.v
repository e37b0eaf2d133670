(** What every operator does with labels that make the trip more than once (C93). *)

From Coq Require Import String.
From Verif Require Import Py PyFacts Edit Labels SpecEdit SpecLabels SpecSeg SpecRuns SpecWords SpecScan SpecOps SpecHash
  EditProofs LabelProofs EditApiProofs SegProofs RunsProofs WordProofs TrieProofs Ops OpProofs StrOpProofs ScanProofs ListOpProofs
  TokProofs HashProofs AlignProofs OpLaws Pipe SpecTrip SpecSettle SettleSegs SettleOps.
From Coq Require Import List Lia.

Definition table (E : env) (o : op) (x : pseq) (a : aligner) : Prop :=
  soft1 E a /\ (reversible o -> returns1 E a) /\ (harmless o x -> lossless1 E a) /\ (keeps_or_drops o -> gentle1 E a).

Lemma keep_table E o x a n m : follows E a n m keep keep -> table E o x a.
Proof.
  intros H. pose proof (follows_returns _ _ _ _ _ _ H (fun l _ => eq_refl)) as R.
  repeat split; [now apply returns_soft|intros; exact R| |].
  - intros _. apply (follows_lossless _ _ _ _ _ _ H (fun l _ => eq_refl)).
  - intros _. apply (follows_gentle _ _ _ _ _ _ H (gentle_keep n)).
Qed.

(** Replaced pieces, with soft rules and nothing more. *)
Lemma soft_table E o s sg h k y a x : rewrites E o s sg h k -> sizes h sg -> back_sizes k sg -> softly h k sg ->
  ~ reversible o -> ~ harmless o x -> ~ keeps_or_drops o -> transform_op E o (SStr s) = Ok (y, a) -> table E o x a.
Proof.
  intros R S B T N1 N2 N3 HT. split; [exact (rewrites_soft _ _ _ _ _ _ _ _ R S B T HT)|]. tauto.
Qed.

Lemma spaced_table E o x a : lossless1 E a -> gentle1 E a -> ~ reversible o -> table E o x a.
Proof. intros L G N. split; [now apply gentle_soft|]. split; [tauto|]. split; intros _; assumption. Qed.

Lemma u32_dec (m : list Z) : u32_labels m \/ ~ u32_labels m.
Proof.
  unfold u32_labels. induction m as [|z m [IH|IH]]; [left; constructor| |].
  - destruct (Z.le_gt_cases 0 z) as [Q|Q]; [|right; intros F; inversion F; lia].
    destruct (Z.lt_ge_cases z (2 ^ 32)) as [P|P]; [left; constructor; [split; assumption|exact IH]|].
    right; intros F; inversion F; subst. lia.
  - right. intros F. inversion F; subst. tauto.
Qed.

Lemma back_table E o s y a : python E -> built E o -> input_type o <> output_type o -> 
  restores_back E o (SStr s) u32_labels ->
  ~ harmless o (SStr s) -> ~ keeps_or_drops o -> transform_op E o (SStr s) = Ok (y, a) -> table E o (SStr s) a.
Proof.
  intros PY B TY R N2 N3 HT. assert (RT : returns1 E a).
  { intros m l' H. destruct (all_sound E o _ _ _ PY B HT) as (_ & S2 & _ & S4 & S5).
    destruct (Nat.eq_dec (length m) (pseq_length y)) as [L|L]; [|rewrite (S2 m L) in H; discriminate].
    pose proof (u32_dec m) as D.
    destruct D as [U|U].
    - destruct (R y a HT m L U) as (l2 & Q1 & Q2). congruence.
    - rewrite (S5 m L) in H; [discriminate|]. intros [Q|Q]; [now apply TY|now apply U]. }
  split; [now apply returns_soft|]. split; [intros _; exact RT|]. tauto.
Qed.

Lemma null_follows E o newv l y a :
  ord_ok (ord_e E) ->
  (forall l, transform_op E o (SLst l) =
    (r <- lst_result_null l (elem_group E newv l) ;;
     _ <- guard (seqtype_eqb (type_of (fst r)) TList) TypeErr ;; Ok r)) ->
  (forall x v, newv x = Ok (Some v) -> exists z, v = [z]) ->
  transform_op E o (SLst l) = Ok (y, a) -> follows E a (length l) (pseq_length y) keep keep.
Proof.
  intros HO HT HV H.
  assert (HI : forall x, In x l -> exists v, newv x = Ok v).
  { rewrite HT in H. unfold lst_result_null, elem_group in H.
    destruct (elem_edits newv 0 l []) as [g|] eqn:EG; [|discriminate]. eapply elem_edits_inv; eauto. }
  set (f := fun x => match newv x with Ok (Some [z]) => z | _ => x end).
  apply (maps_follows E o (SLst l) (SLst (map f l)) keep keep); auto.
  apply (null_maps E o newv); auto. intros x HX. destruct (HI x HX) as (v & EV).
  destruct v as [v|].
  - destruct (HV x v EV) as (z & ->). exists true. split; [|discriminate]. unfold f. now rewrite EV.
  - exists false. split; [exact EV|]. unfold f. now rewrite EV.
Qed.

Lemma seg_runs_new p (choice : str -> bool) tok s o v :
  In (o, Some v) (seg_runs p (fun r => if choice r then Some tok else None) s) -> v = tok.
Proof.
  intros I. apply seg_runs_In in I. cbn in I. destruct (choice o); [now inversion I|discriminate].
Qed.

Lemma number_table E o p (choice : str -> bool) tok s h y a :
  ~ reversible o -> ~ harmless o (SStr s) -> ~ keeps_or_drops o ->
  let sg := seg_runs p (fun r => if choice r then Some tok else None) s in
  rewrites E o s sg h by_entity_mode -> 3 <= length tok -> h = by_mode \/ h = around by_mode ->
  transform_op E o (SStr s) = Ok (y, a) -> table E o (SStr s) a.
Proof.
  intros N1 N2 N3 sg R L D HT.
  assert (NO : nonempty_olds sg) by apply seg_runs_nonempty.
  assert (NN : forall o v, In (o, Some v) sg -> 3 <= length v).
  { intros o' v I. now rewrite (seg_runs_new _ _ _ _ _ _ I). }
  assert (NE : nonempty_news sg) by (intros o' v I Q; pose proof (NN o' v I); subst; cbn in *; lia).
  destruct D as [-> | ->].
  - apply (soft_table _ _ _ _ _ _ y a _ R); auto using sizes_by_mode, back_by_entity. now apply softly_numbers.
  - apply (soft_table _ _ _ _ _ _ y a _ R); auto using back_by_entity.
    + intros o' v ls I _. unfold around, by_mode. cbn [length]. rewrite app_length, repeat_length. cbn [length].
      pose proof (NN o' v I). lia.
    + now apply softly_around.
Qed.

Lemma merge_table E s y a : ord_ok (ord_c E) -> transform_op E MergeWhiteSpaceCharacters (SStr s) = Ok (y, a) ->
  table E MergeWhiteSpaceCharacters (SStr s) a.
Proof.
  intros OC HT. pose proof (merge_rewrites E s OC) as R.
  set (sg := seg_runs (is_space E) (fun _ => Some blank) s) in R.
  assert (RT : returns1 E a).
  { destruct R as (EO & M). destruct (maps_inv _ _ _ _ _ _ _ _ _ M HT) as (EY & _).
    pose proof (maps_follows _ _ _ _ _ _ _ _ M HT) as F. rewrite EY in F.
    apply (follows_returns _ _ _ _ _ _ F). intros l L. apply relabel_returns; [apply back_by_mode| |exact L].
    intros o v ls I HL. pose proof (seg_runs_nonempty _ _ _ _ _ I) as NO.
    apply seg_runs_In in I. cbn in I. injection I as <-. destruct ls as [|z [|]]; try discriminate.
    unfold by_mode at 2. change (length blank) with 1. change (mode [z]) with (mode (repeat z 1)).
    rewrite mode_repeat by lia. rewrite by_mode_repeat; [reflexivity|]. destruct o; [congruence|cbn; lia]. }
  split; [now apply returns_soft|]. split; [intros _; exact RT|]. split; intros [].
Qed.

Lemma spaced_sizes cls s : sizes (around same) (spaced cls s).
Proof.
  intros o v ls I HL. apply spaced_In in I. destruct I as (d & -> & -> & _). unfold around, same. cbn [length].
  rewrite app_length, HL. reflexivity.
Qed.
Lemma words_sizes ps : sizes (around same) (word_spaced ps).
Proof.
  intros o v ls I HL. destruct (word_spaced_In _ _ _ I) as (-> & _). unfold around, same. cbn [length].
  rewrite !app_length, HL. change (length blank) with 1. cbn [length]. lia.
Qed.

Theorem op_table E o x y a : python E -> built E o -> transform_op E o x = Ok (y, a) -> table E o x a.
Proof.
  intros PY HB HT. pose proof (transform_type _ _ _ _ HT) as TY. pose proof HB as HB'.
  destruct (all_sound E o x y a PY HB HT) as (SL & _). destruct PY as (OC & OE & HS) eqn:EPY. clear EPY.
  destruct HB as [o HI|p b find HC HBo|ws sh o HM|ws sh o HM|tok|m tok|s e|t o HM|v u m|d u o HM|d o HM].
  - assert (HSS : exists s, x = SStr s).
    { destruct x as [s|l]; [eauto|]. exfalso. cbn [type_of] in TY.
      repeat (destruct HI as [<-|HI]; [discriminate TY|]). destruct HI. }
    destruct HSS as (s & ->).
    destruct HI as [<-|HI]. { eapply keep_table, maps_follows; [exact (lowercase_maps E s OC)|exact HT]. }
    destruct HI as [<-|HI]. { exact (merge_table E s y a OC HT). }
    destruct HI as [<-|HI].
    { pose proof (maps_follows _ _ _ _ _ _ _ _ (strip_maps E s OC) HT) as F. cbn zeta in F.
      destruct (strip_size (is_space E) s) as (q & LQ).
      assert (RT : returns1 E a).
      { intros m l' H. destruct (all_sound E _ _ _ _ PY HB' HT) as (_ & S2 & _).
        destruct (Nat.eq_dec (length m) (pseq_length y)) as [L|L]; [|rewrite (S2 m L) in H; discriminate].
        destruct (strip_restores_back E s OC y a HT m L I) as (l2 & Q1 & Q2). congruence. }
      split; [now apply returns_soft|]. split; [intros _; exact RT|]. split; [intros []|]. intros _.
      apply (follows_gentle _ _ _ _ _ _ F). intros c.
      destruct (gentle_strip (lead (is_space E) s) (length (strip (is_space E) s)) q c) as (b & HBB).
      exists b. intros l L. cbn [pseq_length] in L.
      replace (length s - lead (is_space E) s - length (strip (is_space E) s)) with q by lia.
      apply HBB. lia. }
    destruct HI as [<-|HI].
    { eapply (number_table E IntToken); try exact (int_rewrites E s OC); try exact HT; try exact id; cbn; auto; lia. }
    destruct HI as [<-|HI].
    { eapply (number_table E IntTokenWithSpace); try exact (int_space_rewrites E s OC); try exact HT; try exact id; cbn; auto; lia. }
    destruct HI as [<-|HI].
    { eapply (number_table E FloatToken); try exact (float_rewrites E s OC); try exact HT; try exact id; cbn; auto; lia. }
    destruct HI as [<-|HI].
    { eapply (number_table E FloatTokenWithSpace); try exact (float_space_rewrites E s OC); try exact HT; try exact id; cbn; auto; lia. }
    destruct HI as [<-|HI].
    { eapply (number_table E NumTokenWithSpace); try exact (num_space_rewrites E s OC); try exact HT; try exact id; cbn; auto; lia. }
    destruct HI as [<-|HI].
    { destruct (stop_rewrites E s OC) as (ps & _ & R).
      assert (G : gentle1 E a).
      { apply (rewrites_gentle _ _ _ _ _ _ y a R); [apply sizes_by_zero|apply gentle_zero|exact HT]. }
      split; [now apply gentle_soft|]. split; [intros []|]. split; [intros []|intros _; exact G]. }
    destruct HI as [<-|HI].
    { apply spaced_table; [exact (restores_lossless _ _ _ _ _ (cjk_restores E s OC) HT SL)| |exact id].
      apply (rewrites_gentle _ _ _ _ _ _ y a (cjk_rewrites E s OC)); [apply spaced_sizes|apply gentle_spaced|exact HT]. }
    destruct HI as [<-|HI].
    { apply spaced_table; [exact (restores_lossless _ _ _ _ _ (punct_restores E s OC) HT SL)| |exact id].
      apply (rewrites_gentle _ _ _ _ _ _ y a (punct_rewrites E s OC)); [apply spaced_sizes|apply gentle_spaced|exact HT]. }
    destruct HI as [<-|HI].
    { pose proof (maps_follows _ _ _ _ _ _ _ _ (endpoint_maps E s OC) HT) as F. cbn [pseq_length] in F.
      assert (G : gentle1 E a) by (apply (follows_gentle _ _ _ _ _ _ F), gentle_zero_where).
      split; [now apply gentle_soft|]. split; [intros []|]. split; [intros []|intros _; exact G]. }
    destruct HI as [<-|HI].
    { destruct (accent_maps E s OC) as (H1 & H2).
      destruct (Nat.eq_dec (length (stripped E s)) (length s)) as [Q|Q]; [|rewrite (H2 Q) in HT; discriminate].
      eapply keep_table, maps_follows; [exact (H1 Q)|exact HT]. }
    destruct HI as [<-|HI]. { apply (back_table E _ s y a PY HB'); [discriminate|exact (char_back E s OC)|exact id|exact id|exact HT]. }
    destruct HI as [<-|HI]. { apply (back_table E _ s y a PY HB'); [discriminate|exact (ws_back E s OC)|exact id|exact id|exact HT]. }
    destruct HI as [<-|HI]. { apply (back_table E _ s y a PY HB'); [discriminate|exact (eng_back E s PY)|exact id|exact id|exact HT]. }
    destruct HI as [<-|HI]. { apply (back_table E _ s y a PY HB'); [discriminate|exact (zh_back E s PY)|exact id|exact id|exact HT]. }
    destruct HI.
  - destruct x as [s|l]; [|discriminate]. split; [|split; [intros []|split; intros []]].
    destruct (replaced_or_stuck find (fun _ => b) HBo s 0 ltac:(lia)) as [(sg & HR)|HST].
    + destruct (replace_follows E p b find s sg y a OC HC HBo HR HT) as (EO & EY & F).
      apply (follows_soft _ _ _ _ _ _ F). intros c l L. apply relabel_soft;
        [apply sizes_by_entity|apply back_by_entity|apply softly_entity|now rewrite EO].
    + destruct (replace_diverges E p b find s HC HBo HST) as (_ & Q). congruence.
  - destruct x as [s|l]; [|unfold make_wordn in HM; destruct (make_trie ws); [injection HM as <-; discriminate|discriminate]].
    destruct ws as [ws|]; [|discriminate]. destruct (make_wordn_inv _ _ _ HM) as (t & -> & _).
    destruct (munched_exists sh ws s) as (ps & P).
    pose proof (wordn_ok E ws sh _ s ps OC HM P) as R.
    apply spaced_table; [exact (restores_lossless _ _ _ _ _ (wordn_restores E ws sh _ s OC HM) HT SL)| |exact id].
    apply (rewrites_gentle _ _ _ _ _ _ y a R); [apply words_sizes|apply gentle_words|exact HT].
  - assert (TY' : exists t, o = CustomWordTokenizer t sh).
    { unfold make_custom in HM. destruct (make_trie ws); [|discriminate]. injection HM as <-. eauto. }
    destruct TY' as (t & Eo). subst o. destruct x as [s|l]; [|discriminate].
    destruct ws as [ws|]; [|discriminate].
    apply (back_table E _ s y a PY HB'); [discriminate|exact (custom_back E ws sh _ s OC HM)|exact id|exact id|exact HT].
  - destruct x as [s|l]; [discriminate|]. eapply keep_table.
    apply (null_follows E (PureNum2Token tok) (purenum_newv E tok) l y a); auto. intros x v. apply purenum_one.
  - destruct x as [s|l]; [discriminate|].
    destruct (Z.ltb_spec m 0) as [L|L]; [rewrite pad_negative in HT by exact L; discriminate|].
    assert (HL : (Z.of_nat (length l) < 2 ^ 32)%Z \/ Z.of_nat (length l) = m).
    { destruct (Z.ltb_spec (Z.of_nat (length l)) (2 ^ 32)) as [Q|Q]; [now left|].
      destruct (Z.eq_dec (Z.of_nat (length l)) m) as [R|R]; [now right|].
      rewrite pad_too_long in HT by assumption. discriminate. }
    pose proof (maps_follows _ _ _ _ _ _ _ _ (pad_maps E m tok l OE L HL) HT) as F. cbn zeta beta in F.
    assert (G : gentle1 E a) by (apply (follows_gentle _ _ _ _ _ _ F), gentle_pad).
    split; [now apply gentle_soft|]. split; [intros []|]. split; [|intros _; exact G].
    intros HH. cbn [harmless pseq_length] in HH. apply (follows_lossless _ _ _ _ _ _ F). intros ls LL. cbn [pseq_length] in LL.
    rewrite (firstn_all2 (n := Z.to_nat m) ls) by lia. rewrite (firstn_app_len _ _ _ LL).
    replace (length l - Z.to_nat m) with 0 by lia. apply app_nil_r.
  - destruct x as [s'|l]; [discriminate|]. destruct l as [|x0 l].
    + assert (K : forall ls r, align a ls = Ok r -> ls = []).
      { intros ls r H. destruct ls as [|z ls]; [reflexivity|]. rewrite SL in H by discriminate. discriminate. }
      assert (K2 : forall r l', align_inverse E a r = Ok l' -> l' = []).
      { intros r l' H. destruct (all_sound E _ _ _ _ PY HB' HT) as (_ & S2 & _ & S4 & _).
        destruct (Nat.eq_dec (length r) (pseq_length y)) as [L|L]; [|rewrite (S2 r L) in H; discriminate].
        destruct (S4 r L) as [(_ & l2 & Q & L2)|(_ & Q)]; [now left| |congruence].
        rewrite Q in H. injection H as <-. destruct l2; [reflexivity|discriminate]. }
      apply spaced_table; [| |exact id].
      * intros ls r l' H1 H2. now rewrite (K _ _ H1), (K2 _ _ H2).
      * intros c. exists (fun _ => true). intros z r H1. pose proof (K _ _ H1) as ->. split.
        -- intros l' H2. exact (K2 _ _ H2).
        -- exists r. split; [exact H1|reflexivity].
    + destruct (Z.ltb_spec (Z.of_nat (length (x0 :: l))) (2 ^ 32)) as [Q|Q]; [|rewrite soseos_too_long in HT by exact Q; discriminate].
      apply spaced_table; [| |exact id].
      * exact (restores_lossless _ _ _ _ _ (soseos_restores E s e (x0 :: l) OE ltac:(discriminate) Q) HT SL).
      * apply (follows_gentle _ _ _ _ _ _ (maps_follows _ _ _ _ _ _ _ _ (soseos_maps E s e (x0 :: l) OE ltac:(discriminate) Q) HT)).
        apply gentle_soseos.
  - assert (o = AddEndToken t) as -> by (destruct t; inversion HM; reflexivity).
    destruct x as [s|l]; [discriminate|].
    destruct (Z.ltb_spec (Z.of_nat (length l)) (2 ^ 32)) as [Q|Q]; [|rewrite end_too_long in HT by exact Q; discriminate].
    apply spaced_table; [| |exact id].
    + exact (restores_lossless _ _ _ _ _ (end_restores E t l OE Q) HT SL).
    + apply (follows_gentle _ _ _ _ _ _ (maps_follows _ _ _ _ _ _ _ _ (end_maps E t l OE Q) HT)). apply gentle_end.
  - destruct x as [s|l]; [discriminate|].
    assert (HL : exists ts, l = map ETok ts).
    { pose proof HT as H. unfold transform_op in H. cbn [type_of input_type seqtype_eqb guard bind transform_lst] in H.
      unfold lst_result, elem_group in H.
      destruct (elem_edits _ 0 l []) as [g|] eqn:EG; [|discriminate].
      apply (all_toks (subwords_newv v u m)); [intros i; eexists; reflexivity|].
      eapply elem_edits_inv; eauto. }
    destruct HL as (ts & ->).
    destruct (subwords_follows E v u m ts y a OE HT) as (outs & sg & _ & _ & EN & ESG & LO & F).
    assert (G : gentle1 E a).
    { apply (follows_gentle _ _ _ _ _ _ F). rewrite <- LO. apply relabel_gentle; [apply sizes_by_mode|].
      apply gentle_pieces. intros o w I. rewrite ESG in I. apply in_map_iff in I. destruct I as (to & Q & _).
      now inversion Q. }
    split; [now apply gentle_soft|]. split; [intros []|]. split; [|intros _; exact G].
    intros HH. cbn [harmless] in HH.
    apply (restores_lossless _ _ _ _ _ (subwords_restores E v u m ts OE (fun t HI Q => HH _ eq_refl (in_map ETok ts [] (eq_ind t (fun t => In t ts) HI [] Q)))) HT SL).
  - assert (o = Token2Index d u) as ->.
    { unfold make_token2index in HM. destruct (validate_continuity d); [|discriminate]. cbn [bind] in HM.
      destruct (guard _ KeyErr); [|discriminate]. now injection HM. }
    destruct x as [s|l]; [discriminate|]. eapply keep_table.
    apply (null_follows E (Token2Index d u) (index_newv d u) l y a); auto. intros x v. apply index_one.
  - assert (o = Token2IndexwithHash d) as ->.
    { unfold make_hash in HM. destruct (validate_continuity d); [|discriminate]. now injection HM. }
    destruct x as [s|l]; [discriminate|]. eapply keep_table.
    apply (null_follows E (Token2IndexwithHash d) (hash_newv d) l y a); auto. intros x v. apply hash_one.
Qed.
