(** Patterns and the scanning loop of the recognisers. *)

From Verif Require Import Py PyFacts Edit Labels SpecEdit SpecLabels SpecSeg SpecRuns SpecWords
  SpecScan SpecOps EditProofs SpanProofs LabelProofs EditApiProofs SegProofs Regex Trie Ops
  RegexProofs PatternProofs TouchProofs OpProofs.
From Coq Require Import Sorted.

(** ** The matcher finds exactly the matches *)

Lemma run_length_spec c s k : k <= run_length c s <-> k <= length s /\ forall j, j < k -> char_in s c j.
Proof.
  revert k; induction s as [|x s IH]; intros k; cbn [run_length].
  - split; intros H.
    + split; [exact H|]. intros; lia.
    + apply (proj1 H).
  - destruct (c x) eqn:EC.
    + destruct k as [|k]; [split; [split; [lia|intros; lia]|lia]|].
      specialize (IH k). split; intros H.
      * destruct IH as (IH & _). destruct IH as (I1 & I2); [lia|]. split; [cbn; lia|].
        intros [|j] HJ; [exists x; auto|]. destruct (I2 j ltac:(lia)) as (y & Y1 & Y2). exists y. auto.
      * destruct H as (H1 & H2). enough (k <= run_length c s) by lia. apply IH.
        split; [cbn in H1; lia|]. intros j HJ. destruct (H2 (S j) ltac:(lia)) as (y & Y1 & Y2).
        exists y; auto.
    + split; intros H.
      * split; [lia|]. intros; lia.
      * destruct k as [|k]; [lia|]. destruct H as (_ & H). destruct (H 0 ltac:(lia)) as (y & Y1 & Y2).
        cbn in Y1. congruence.
Qed.

Lemma char_in_skipn s c i j : char_in (skipn i s) c j <-> char_in s c (i + j).
Proof.
  unfold char_in. enough (nth_error (skipn i s) j = nth_error s (i + j)) as -> by tauto.
  revert s; induction i as [|i IH]; intros s; [reflexivity|]. destruct s as [|x s]; [now destruct j|].
  cbn. apply IH.
Qed.

Lemma run_from c s i k :
  i <= length s ->
  (k <= run_length c (skipn i s) <-> i + k <= length s /\ forall j, i <= j < i + k -> char_in s c j).
Proof.
  intros HI. rewrite run_length_spec, skipn_length. split; intros (H1 & H2); (split; [lia|]).
  - intros j HJ. replace j with (i + (j - i)) by lia. apply char_in_skipn, H2. lia.
  - intros j HJ. apply char_in_skipn, H2. lia.
Qed.

Lemma char_in_lt s c j : char_in s c j -> j < length s.
Proof. intros (x & H & _). apply nth_error_Some. congruence. Qed.

Lemma ends_rmatch r s : forall i e, i <= length s -> (In e (ends r s i) <-> rmatch s r i e).
Proof.
  induction r as [l|c|c|a IHa b IHb|a IHa b IHb|c|c| |]; intros i e HI; cbn [ends].
  - destruct (prefixb l (skipn i s)) eqn:EP.
    + assert (EX : exists t, skipn i s = l ++ t)
        by now apply prefixb_spec.
      destruct EX as (t & EX). split.
      * intros [<-|[]]. apply m_lit with (pre := firstn i s) (post := t).
        -- rewrite <- EX. symmetry. apply firstn_skipn.
        -- rewrite firstn_length. lia.
      * intros H. inversion H; subst. now left.
    + split; [intros []|]. intros H. inversion H as [l' i' pre post ES EI| | | | | | | | |]; subst.
      rewrite skipn_app_exact, prefixb_app in EP. discriminate.
  - rewrite in_map_iff. split.
    + intros (k & <- & HK). rewrite <- in_rev, in_seq in HK.
      assert (K : k <= run_length c (skipn i s)) by lia. apply run_from in K; [|exact HI].
      constructor; [lia|apply K].
    + intros H. inversion H as [|c' i' e' L HJ| | | | | | | |]; subst.
      assert (LE : e <= length s). { specialize (HJ (e - 1) ltac:(lia)). apply char_in_lt in HJ. lia. }
      exists (e - i). split; [lia|]. rewrite <- in_rev, in_seq.
      enough (e - i <= run_length c (skipn i s)) by lia. apply run_from; [exact HI|].
      split; [lia|]. intros j HJ'. apply HJ. lia.
  - rewrite in_map_iff. split.
    + intros (k & <- & HK). rewrite <- in_rev, in_seq in HK.
      assert (K : k <= run_length c (skipn i s)) by lia. apply run_from in K; [|exact HI].
      constructor; [lia|apply K|apply K].
    + intros H. inversion H as [| |c' i' e' L LE HJ| | | | | | |]; subst.
      exists (e - i). split; [lia|]. rewrite <- in_rev, in_seq.
      enough (e - i <= run_length c (skipn i s)) by lia. apply run_from; [exact HI|].
      split; [lia|]. intros j HJ'. apply HJ. lia.
  - rewrite in_flat_map. split.
    + intros (m & HM & HE). assert (BM := ends_bounds _ _ _ _ HI HM).
      apply m_seq with (m := m); [now apply IHa|apply IHb; [lia|exact HE]].
    + intros H. inversion H as [| | |a' b' i' m e' HA HB| | | | | |]; subst.
      apply IHa in HA; [|exact HI]. assert (BM := ends_bounds _ _ _ _ HI HA).
      exists m. split; [exact HA|]. apply IHb; [lia|exact HB].
  - rewrite in_app_iff. split.
    + intros [H|H]; [apply m_left, IHa|apply m_right, IHb]; assumption.
    + intros H. inversion H; subst; [left; apply IHa|right; apply IHb]; assumption.
  - assert (D : (In e (match i with 0 => [i] | S j => match nth_error s j with Some x => if c x then [] else [i] | None => [i] end end))
                <-> e = i /\ ~ (0 < i /\ char_in s c (i - 1))).
    { destruct i as [|j].
      - cbn. split; [intros [<-|[]]; split; [reflexivity|lia]|intros (-> & _); now left].
      - cbn [Nat.sub]. rewrite Nat.sub_0_r. unfold char_in. destruct (nth_error s j) as [x|].
        + destruct (c x) eqn:EC.
          * split; [intros []|]. intros (_ & H). exfalso. apply H. split; [lia|]. exists x; auto.
          * split.
            -- intros [<-|[]]. split; [reflexivity|]. intros (_ & y & Y1 & Y2). congruence.
            -- intros (-> & _). now left.
        + split.
          * intros [<-|[]]. split; [reflexivity|]. intros (_ & y & Y1 & Y2). congruence.
          * intros (-> & _). now left. }
    rewrite D. split.
    + intros (-> & H). now constructor.
    + intros H. inversion H; subst. auto.
  - assert (D : (In e (match nth_error s i with Some x => if c x then [] else [i] | None => [i] end))
                <-> e = i /\ ~ char_in s c i).
    { unfold char_in. destruct (nth_error s i) as [x|].
      - destruct (c x) eqn:EC.
        + split; [intros []|]. intros (_ & H). exfalso. apply H. exists x; auto.
        + split.
          * intros [<-|[]]. split; [reflexivity|]. intros (y & Y1 & Y2). congruence.
          * intros (-> & _). now left.
      - split.
        + intros [<-|[]]. split; [reflexivity|]. intros (y & Y1 & Y2). congruence.
        + intros (-> & _). now left. }
    rewrite D. split.
    + intros (-> & H). now constructor.
    + intros H. inversion H; subst. auto.
  - destruct (Nat.eqb_spec i 0) as [->|N].
    + split; [intros [<-|[]]; constructor|]. intros H. inversion H; subst. now left.
    + split; [intros []|]. intros H. inversion H; subst. congruence.
  - destruct (Nat.eqb_spec i (length s)) as [->|N].
    + split; [intros [<-|[]]; constructor|]. intros H. inversion H; subst. now left.
    + split; [intros []|]. intros H. inversion H; subst. congruence.
Qed.

Lemma search_leftmost r s p :
  p <= length s ->
  match search r s p with
  | Some (i, e) => p <= i /\ i <= e /\ e <= length s /\ rmatch s r i e /\
                   forall j e', p <= j < i -> ~ rmatch s r j e'
  | None => forall j e', p <= j <= length s -> ~ rmatch s r j e'
  end.
Proof.
  intros HP. destruct (search r s p) as [[i e]|] eqn:ES.
  - apply search_some in ES. destruct ES as (B1 & B2 & HH & HK).
    split; [lia|]. split; [lia|]. split; [lia|]. split.
    + apply ends_rmatch; [lia|]. destruct (ends r s i) as [|x l]; [discriminate|].
      cbn in HH. injection HH as ->. now left.
    + intros j e' HJ HM. apply ends_rmatch in HM; [|lia]. now rewrite HK in HM.
  - intros j e' HJ HM. apply ends_rmatch in HM; [|lia].
    now rewrite (search_none _ _ _ ES j) in HM.
Qed.

Lemma search_in_bounds r : in_bounds (search r).
Proof.
  intros s p i e HP ES. pose proof (search_leftmost r s p HP) as H. rewrite ES in H. tauto.
Qed.

(** ** The loop *)

Section Scan.
Context (find : finder) (newv : str -> str) (HB : in_bounds find).

Lemma replaced_ge s p sg : p <= length s -> replaced find newv s p sg -> olds sg = skipn p s.
Proof.
  intros HP H. induction H as [p HE|p i e sg HL HF H IH].
  - unfold olds. cbn. now rewrite app_nil_r.
  - destruct (HB s p i e HP HF) as (B1 & B2 & B3).
    unfold olds in *. cbn [map concat old_of fst]. rewrite IH by lia.
    rewrite <- (firstn_skipn (i - p) (skipn p s)) at 2. f_equal.
    rewrite skipn_skipn_add. replace (p + (i - p)) with i by lia.
    rewrite <- (firstn_skipn (e - i) (skipn i s)) at 2. f_equal.
    rewrite skipn_skipn_add. f_equal. lia.
Qed.

Lemma replaced_advances s p i e sg :
  p < length s -> find s p = Some (i, e) -> replaced find newv s e sg -> p < e.
Proof.
  intros HL HF H. destruct (HB s p i e ltac:(lia) HF) as (B1 & B2 & B3).
  destruct (Nat.eq_dec e p) as [->|N]; [|lia]. exfalso.
  assert (i = p) as -> by lia.
  remember p as q eqn:EQ in H. revert EQ. induction H as [q HE|q i' e' sg HL' HF' H IH]; intros ->.
  - destruct HE as [HE|HE]; [lia|congruence].
  - rewrite HF in HF'. injection HF' as <- <-. now apply IH.
Qed.

Lemma scan_replaced s p sg : p <= length s -> replaced find newv s p sg ->
  forall fuel acc, length s - p <= fuel -> scan fuel find newv s p acc = Ok (acc ++ grp p sg).
Proof.
  intros HP H. induction H as [p HE|p i e sg HL HF H IH]; intros fuel acc HFu.
  - cbn [grp]. rewrite app_nil_r. destruct (Nat.leb_spec (length s) p) as [L|L]; [now apply scan_stop|].
    destruct fuel as [|fuel]; [lia|]. cbn [scan].
    destruct (Nat.leb_spec (length s) p); [lia|]. destruct HE as [HE|HE]; [lia|]. now rewrite HE.
  - destruct (HB s p i e ltac:(lia) HF) as (B1 & B2 & B3).
    pose proof (replaced_advances s p i e sg HL HF H) as AD.
    destruct fuel as [|fuel]; [lia|]. cbn [scan].
    destruct (Nat.leb_spec (length s) p); [lia|]. rewrite HF.
    rewrite IH by lia. rewrite radd_ok, <- app_assoc by lia. f_equal. f_equal. cbn [app].
    cbn [grp]. rewrite !firstn_length, !skipn_length.
    replace (p + Nat.min (i - p) (length s - p)) with i by lia.
    replace (i + Nat.min (e - i) (length s - i)) with e by lia. reflexivity.
Qed.

Lemma scan_stuck s p : p <= length s -> stuck find s p ->
  forall fuel acc, scan fuel find newv s p acc = Err OutOfFuel.
Proof.
  intros HP H fuel. revert p HP H. induction fuel as [|fuel IH]; intros p HP H acc; cbn [scan].
  - destruct (Nat.leb_spec (length s) p); [|reflexivity]. inversion H; subst; lia.
  - destruct (Nat.leb_spec (length s) p); [inversion H; subst; lia|].
    inversion H as [p' HL HF|p' i e HL HF HS]; subst; rewrite HF.
    + apply IH; [exact HP|exact H].
    + apply IH; [|exact HS]. destruct (HB s p i e HP HF). lia.
Qed.

Lemma replaced_or_stuck s p : p <= length s -> (exists sg, replaced find newv s p sg) \/ stuck find s p.
Proof.
  remember (length s - p) as n eqn:EN. revert p EN. induction n as [n IH] using lt_wf_ind.
  intros p EN HP. destruct (Nat.eq_dec p (length s)) as [->|NE]; [left; eexists; constructor; auto|].
  destruct (find s p) as [[i e]|] eqn:EF; [|left; eexists; constructor; auto].
  destruct (HB s p i e HP EF) as (B1 & B2 & B3).
  destruct (Nat.eq_dec e p) as [->|NEp].
  - right. assert (i = p) as -> by lia. constructor; [lia|exact EF].
  - destruct (IH (length s - e) ltac:(lia) e eq_refl ltac:(lia)) as [(sg & H)|H].
    + left. eexists. eapply rep_match; eauto. lia.
    + right. eapply stuck_later; eauto. lia.
Qed.

Lemma not_both s p sg : p <= length s -> replaced find newv s p sg -> ~ stuck find s p.
Proof.
  intros HP HR HS. pose proof (scan_replaced s p sg HP HR (length s - p) [] ltac:(lia)) as E.
  rewrite scan_stuck in E by assumption. discriminate.
Qed.

Lemma replaced_ends s p sg :
  p <= length s -> replaced find newv s p sg -> Forall (fun r => p < r_end r) (grp p sg).
Proof.
  intros HP H. induction H as [p HE|p i e sg HL HF H IH]; [constructor|].
  destruct (HB s p i e ltac:(lia) HF) as (B1 & B2 & B3).
  pose proof (replaced_advances s p i e sg HL HF H) as AD.
  cbn [grp]. rewrite !firstn_length, !skipn_length.
  replace (p + Nat.min (i - p) (length s - p)) with i by lia.
  replace (i + Nat.min (e - i) (length s - i)) with e by lia.
  constructor; [exact AD|]. eapply Forall_impl; [|apply IH; lia]. cbn. intros; lia.
Qed.

Lemma replaced_strict s p sg :
  p <= length s -> replaced find newv s p sg -> StronglySorted pos_lt (grp p sg).
Proof.
  intros HP H. induction H as [p HE|p i e sg HL HF H IH]; [constructor|].
  destruct (HB s p i e ltac:(lia) HF) as (B1 & B2 & B3).
  cbn [grp]. rewrite !firstn_length, !skipn_length.
  replace (p + Nat.min (i - p) (length s - p)) with i by lia.
  replace (i + Nat.min (e - i) (length s - i)) with e by lia.
  constructor; [apply IH; lia|]. rewrite Forall_forall. intros r HI.
  pose proof (grp_start_ge e sg) as F. rewrite Forall_forall in F. specialize (F r HI).
  pose proof (replaced_ends s e sg ltac:(lia) H) as G. rewrite Forall_forall in G. specialize (G r HI).
  unfold pos_lt. cbn [r_start r_end]. lia.
Qed.

Lemma replaced_no_touching s p sg :
  p <= length s -> replaced find newv s p sg -> ~ touching sg -> no_touching_deletions (grp p sg).
Proof.
  intros HP H. induction H as [p HE|p i e sg HL HF H IH]; intros HT; [exact I|].
  destruct (HB s p i e ltac:(lia) HF) as (B1 & B2 & B3).
  cbn [grp]. rewrite !firstn_length, !skipn_length.
  replace (p + Nat.min (i - p) (length s - p)) with i by lia.
  replace (i + Nat.min (e - i) (length s - i)) with e by lia.
  inversion H as [q HE EQ ESG|q i' e' sg' HL' HF' H' EQ ESG]; subst.
  - exact I.
  - destruct (HB s e i' e' ltac:(lia) HF') as (C1 & C2 & C3).
    set (x := firstn (i' - e) (skipn e s)) in *.
    assert (LX : length x = i' - e) by (unfold x; rewrite firstn_length, skipn_length; lia).
    cbn [touching] in HT.
    assert (IH' : no_touching_deletions (grp e ((x, None) ::
              (firstn (e' - i') (skipn i' s), Some (newv (firstn (e' - i') (skipn i' s)))) :: sg'))).
    { apply IH; [lia|]. intros Q. apply HT. destruct x; [exact I|exact Q]. }
    cbn [grp] in *. split; [|exact IH'].
    cbn [r_new r_end r_start]. intros (_ & _ & Q).
    assert (L0 : length x = 0) by lia. destruct x; [|discriminate]. apply HT. exact I.
Qed.

End Scan.

Lemma scan_group_replaced E find newv s sg :
  ord_ok (ord_c E) -> in_bounds find -> replaced find newv s 0 sg ->
  scan_group E find newv s = Ok (grp 0 sg).
Proof.
  intros HO HB HR. unfold scan_group.
  rewrite (scan_replaced find newv HB s 0 sg) by (auto; lia). cbn [bind app].
  apply rdone_strict with (n := length (olds sg)); auto.
  - apply (replaced_strict find newv HB s); [lia|exact HR].
  - exact (grp_group_in 0 sg).
Qed.

(** ** ReplaceAwithB *)

Lemma replaced_news find (b s : str) p sg o v :
  replaced find (fun _ => b) s p sg -> In (o, Some v) sg -> v = b.
Proof.
  intros HR HI. induction HR as [p HE|p i e sg HL HF H IH].
  - destruct HI as [HI|[]]. discriminate.
  - destruct HI as [HI|[HI|HI]]; [discriminate|congruence|auto].
Qed.

Lemma replaced_once find (b s : str) p sg :
  replaced find (fun _ => b) s p sg -> b <> [] -> ~ deleted_twice sg.
Proof. intros HR NE. apply nonempty_once. intros o HI. apply NE. symmetry. exact (replaced_news _ _ _ _ _ _ _ HR HI). Qed.

Lemma replace_rewrites E a b find s sg :
  ord_ok (ord_c E) -> re_compile E a = Some find -> in_bounds find ->
  replaced find (fun _ => b) s 0 sg -> ~ deleted_twice sg ->
  rewrites E (ReplaceAwithB a b) s sg by_entity_mode by_entity_mode.
Proof.
  intros HO HC HB HR HT.
  assert (ES : olds sg = s) by exact (replaced_ge find (fun _ => b) HB s 0 sg ltac:(lia) HR).
  pose proof (scan_group_replaced E find _ s sg HO HB HR) as HG.
  rewrite <- ES at 1.
  apply (str_rewrites_back E _ sg (scan_group E find (fun _ => b) (olds sg)) except_ne except_ne); auto.
  - unfold transform_op. cbn [type_of input_type seqtype_eqb guard bind transform_str]. now rewrite HC.
  - now rewrite ES.
  - apply rule_except.
  - apply rule_except.
  - intros l HL. apply inverse_propagate_once; auto using rule_except, except_zero.
Qed.

(** and if a text is deleted twice the labels cannot be taken back *)
Lemma replace_lost E a b find s sg :
  ord_ok (ord_c E) -> re_compile E a = Some find -> in_bounds find ->
  replaced find (fun _ => b) s 0 sg -> deleted_twice sg ->
  exists al, transform_op E (ReplaceAwithB a b) (SStr s) = Ok (SStr (news sg), al) /\
    (forall l, length l = length s -> align al l = Ok (relabel by_entity_mode sg l)) /\
    forall l, length l = length (news sg) -> align_inverse E al l = Err AssertionErr.
Proof.
  intros HO HC HB HR HT.
  assert (ES : olds sg = s) by exact (replaced_ge find (fun _ => b) HB s 0 sg ltac:(lia) HR).
  pose proof (scan_group_replaced E find _ s sg HO HB HR) as HG.
  exists (AStr s (grp 0 sg) (length (news sg)) except_ne except_ne). subst s.
  split; [|split].
  - unfold transform_op. cbn [type_of input_type seqtype_eqb guard bind transform_str]. rewrite HC.
    unfold str_result. rewrite HG. cbn [bind]. now rewrite apply_grp.
  - intros l HL. unfold align. cbn [input_length output_length align_raw]. rewrite HL, Nat.eqb_refl. cbn [guard bind].
    rewrite (propagate_grp except_ne by_entity_mode sg l (rule_except sg) HL). cbn [bind].
    rewrite (relabel_length by_entity_mode except_ne sg l (rule_except sg) HL), Nat.eqb_refl. reflexivity.
  - intros l HL. unfold align_inverse. cbn [input_length output_length align_inverse_raw]. rewrite HL, Nat.eqb_refl. cbn [guard bind].
    now rewrite (inverse_twice (ord_c E) sg HO HT).
Qed.

Lemma replace_diverges E a b find s :
  re_compile E a = Some find -> in_bounds find -> stuck find s 0 ->
  (forall fuel, scan fuel find (fun _ => b) s 0 [] = Err OutOfFuel) /\
  transform_op E (ReplaceAwithB a b) (SStr s) = Err OutOfFuel.
Proof.
  intros HC HB HS. pose proof (scan_stuck find (fun _ => b) HB s 0 ltac:(lia) HS) as H.
  split; [intros fuel; apply H|].
  unfold transform_op. cbn [type_of input_type seqtype_eqb guard bind transform_str]. rewrite HC.
  unfold str_result, scan_group. now rewrite H.
Qed.
