(** Labels keep their order: proofs. *)

From Coq Require Import Lia ZArith Bool Sorted.
From Verif Require Import Py PyFacts Edit Labels SpecEdit SpecLabels SpecSeg SpecRuns SpecWords
  SpecScan SpecHash EditProofs SpanProofs LabelProofs EditApiProofs SegProofs Regex Trie Ops
  RegexProofs PatternProofs TrieProofs WordProofs RunsProofs SpecOps OpProofs StrOpProofs
  ScanProofs ListOpProofs TokProofs HashProofs TouchProofs AlignProofs ClosureProofs Elements SpecReading.
From Coq Require Import List Permutation.
Import ListNotations.
Local Open Scope nat_scope.

(** ** [in_order] *)

Lemma order_refl l : in_order l l.
Proof. exists (fun i => i). split; auto. Qed.
Lemma order_trans a b c : in_order a b -> in_order b c -> in_order a c.
Proof.
  intros (f & F1 & F2) (g & G1 & G2). exists (fun i => f (g i)). split; [auto|].
  intros i z H N. apply F2; auto.
Qed.
Lemma order_app a b a' b' : in_order a a' -> in_order b b' -> in_order (a ++ b) (a' ++ b').
Proof.
  intros (f & F1 & F2) (g & G1 & G2).
  exists (fun i => if i <? length a' then Nat.min (f i) (length a) else length a + g (i - length a')). split.
  - intros i j L. destruct (Nat.ltb_spec i (length a')), (Nat.ltb_spec j (length a')); try lia.
    + specialize (F1 i j L). lia.
    + specialize (G1 (i - length a') (j - length a') ltac:(lia)). lia.
  - intros i z H N. destruct (Nat.ltb_spec i (length a')) as [L|L].
    + rewrite nth_error_app1 in H by exact L. specialize (F2 i z H N).
      assert (f i < length a) by (apply nth_error_Some; congruence).
      rewrite Nat.min_l by lia. now rewrite nth_error_app1 by lia.
    + rewrite nth_error_app2 in H by exact L. rewrite nth_error_app2 by lia.
      replace (length a + g (i - length a') - length a) with (g (i - length a')) by lia. auto.
Qed.
Lemma order_const l z k : z = 0%Z \/ In z l -> in_order l (repeat z k).
Proof.
  intros [-> |H].
  - exists (fun i => i). split; [auto|]. intros i y H N. apply nth_error_In, repeat_spec in H. congruence.
  - apply In_nth_error in H. destruct H as (n & H). exists (fun _ => n). split; [auto|].
    intros i y Q _. apply nth_error_In, repeat_spec in Q. congruence.
Qed.
Lemma order_zero l k : in_order l (repeat 0%Z k).
Proof. apply order_const. now left. Qed.
Lemma order_all_zero l l' : (forall z, In z l' -> z = 0%Z) -> in_order l l'.
Proof. intros H. exists (fun i => i). split; [auto|]. intros i z Q N. apply nth_error_In in Q. destruct (N (H z Q)). Qed.
Lemma order_skip l n : in_order l (skipn n l).
Proof.
  exists (fun i => n + i). split; [intros; lia|]. intros i z H _. now rewrite nth_error_skipn in H.
Qed.
Lemma order_first l n : in_order l (firstn n l).
Proof.
  exists (fun i => i). split; [auto|]. intros i z H _. rewrite <- (firstn_skipn n l).
  rewrite nth_error_app1; [exact H|]. apply nth_error_Some. congruence.
Qed.
Lemma order_around l l' : in_order l l' -> in_order l (0%Z :: l' ++ [0%Z]).
Proof.
  intros H. change (0%Z :: l' ++ [0%Z]) with ([0%Z] ++ (l' ++ [0%Z])). rewrite <- (app_nil_r l).
  change (l ++ []) with ([] ++ (l ++ [])).
  apply order_app; [apply (order_zero [] 1)|]. apply order_app; [exact H|apply (order_zero [] 1)].
Qed.

Lemma mode_cases l : mode l = 0%Z \/ In (mode l) l.
Proof.
  destruct l as [|x l]; [now left|]. right. apply first_mode_In, mode_first_mode. discriminate.
Qed.
Lemma entity_mode_cases l : let m := mode (filter (fun x => negb (x =? 0)%Z) l) in m = 0%Z \/ In m l.
Proof.
  cbn zeta. destruct (mode_cases (filter (fun x => negb (x =? 0)%Z) l)) as [H|H]; [now left|].
  apply filter_In in H. right. apply H.
Qed.

Definition order_rule (h : rule) : Prop := forall ls k, in_order ls (h ls k).
Lemma order_by_mode : order_rule by_mode.
Proof. intros ls k. apply order_const, mode_cases. Qed.
Lemma order_by_entity : order_rule by_entity_mode.
Proof. intros ls k. apply order_const, entity_mode_cases. Qed.
Lemma order_by_zero : order_rule by_zero.
Proof. intros ls k. apply order_zero. Qed.
Lemma order_rule_around h : order_rule h -> order_rule (around h).
Proof. intros H ls k. apply order_around, H. Qed.
Lemma order_same : order_rule same.
Proof. intros ls k. apply order_refl. Qed.
Lemma order_without_ends : order_rule without_ends.
Proof.
  intros ls k. unfold without_ends. eapply order_trans; [|apply order_first].
  replace (tl ls) with (skipn 1 ls) by (destruct ls; reflexivity). apply order_skip.
Qed.
#[global] Hint Resolve order_by_mode order_by_entity order_by_zero order_rule_around order_same order_without_ends
  order_refl order_zero : order.

Lemma order_relabel {A} h (sg : list (seg A)) : order_rule h -> forall l, in_order l (relabel h sg l).
Proof.
  intros H. induction sg as [|x sg IH]; intros l; cbn [relabel]; [apply (order_zero l 0)|].
  rewrite <- (firstn_skipn (length (old_of x)) l) at 1. apply order_app; [|apply IH].
  destruct (snd x); [apply H|apply order_refl].
Qed.

(** ** Aligners *)

Definition orderly (E : env) (a : aligner) : Prop :=
  (forall l l', align a l = Ok l' -> in_order l l') /\ (forall l l', align_inverse E a l = Ok l' -> in_order l l').

Lemma maps_orderly E o x y y0 a F G : maps E o any_labels x y F G ->
  (forall l, length l = pseq_length x -> in_order l (F l)) -> (forall l, length l = pseq_length y -> in_order l (G l)) ->
  transform_op E o x = Ok (y0, a) -> orderly E a.
Proof.
  intros (a' & HT & H1 & H2 & H3 & H4) HF HG HT'. rewrite HT in HT'. injection HT' as <- <-. split; intros l l' HA.
  - destruct (Nat.eq_dec (length l) (pseq_length x)) as [Q|Q]; [|rewrite (H2 l Q) in HA; discriminate].
    destruct (H1 l Q I) as (R & _). rewrite R in HA. injection HA as <-. auto.
  - destruct (Nat.eq_dec (length l) (pseq_length y)) as [Q|Q]; [|rewrite (H4 l Q) in HA; discriminate].
    destruct (H3 l Q I) as (R & _). rewrite R in HA. injection HA as <-. auto.
Qed.

Lemma order_token_labels ps : forall l, in_order l (token_labels32 ps l).
Proof.
  induction ps as [|[w kp] ps IH]; intros l; cbn [token_labels32]; [apply (order_zero l 0)|].
  destruct kp.
  - rewrite <- (firstn_skipn (length w) l) at 1.
    change (?x :: ?y) with ([x] ++ y). apply order_app; [|apply IH].
    apply (order_const _ _ 1). destruct (forallb fits _); [apply mode_cases|now left].
  - eapply order_trans; [apply (order_skip l (length w))|apply IH].
Qed.
Lemma order_char_labels ps : forall l, in_order l (char_labels ps l).
Proof.
  induction ps as [|[w kp] ps IH]; intros l; cbn [char_labels]; [apply (order_zero l 0)|].
  destruct kp.
  - destruct l as [|x l]; cbn [hd tl].
    + apply (order_app [] []); [apply order_zero|apply IH].
    + apply (order_app [x] l); [apply order_const; right; now left|apply IH].
  - apply (order_app [] l); [apply order_zero|apply IH].
Qed.

Lemma u32_dec l : u32_labels l \/ ~ u32_labels l.
Proof. rewrite u32_labels_b. destruct (forallb u32b l); [now left|right; discriminate]. Qed.

Lemma tokenizes_orderly E o s ps y a : tokenizes E o s ps -> transform_op E o (SStr s) = Ok (y, a) -> orderly E a.
Proof.
  intros (ES & a' & HT & (H1 & H2 & H3 & H4) & H5 & H6) HT'. rewrite HT in HT'. injection HT' as <- <-.
  split; intros l l' HA.
  - destruct (Nat.eq_dec (length l) (length s)) as [Q|Q]; [|rewrite (H2 l Q) in HA; discriminate].
    rewrite (H5 l Q) in HA. injection HA as <-. apply order_token_labels.
  - destruct (Nat.eq_dec (length l) (length (tokens_of ps))) as [Q|Q]; [|rewrite (H4 l Q) in HA; discriminate].
    destruct (u32_dec l) as [U|U]; [|rewrite (H6 l Q U) in HA; discriminate].
    destruct (H3 l Q U) as (R & _). rewrite R in HA. injection HA as <-. apply order_char_labels.
Qed.

(** with a group that may delete twice *)
Definition order_tr (f : transducer) : Prop := forall ls k out, f ls k = Ok out -> in_order ls out.
Lemma order_except : order_tr except_ne.
Proof.
  intros ls k out H. unfold except_ne in H. rewrite except_by_entity_mode in H. injection H as <-. apply order_by_entity.
Qed.

Lemma order_prop {A} (f : transducer) labels n (g : list (repl A)) : order_tr f -> forall lo out,
  group_in lo n g -> prop_rec labels lo g f = Ok out -> in_order (skipn lo labels) out.
Proof.
  intros HF. induction g as [|r g IH]; intros lo out HG H.
  - cbn in H. injection H as <-. apply order_refl.
  - cbn [group_in] in HG. destruct HG as (H1 & H2 & H3). cbn [prop_rec] in H.
    destruct (f (slice labels (r_start r) (r_end r)) (length (r_new r))) as [new|] eqn:EF; cbn [bind] in H; [|discriminate].
    destruct (prop_rec labels (r_end r) g f) as [rest|] eqn:ER; cbn [bind] in H; [|discriminate]. injection H as <-.
    assert (Q : skipn lo labels = slice labels lo (r_start r) ++ slice labels (r_start r) (r_end r) ++ skipn (r_end r) labels).
    { unfold slice. rewrite <- (firstn_skipn (r_start r - lo) (skipn lo labels)) at 1. f_equal.
      rewrite skipn_skipn_add. replace (lo + (r_start r - lo)) with (r_start r) by lia.
      rewrite <- (firstn_skipn (r_end r - r_start r) (skipn (r_start r) labels)) at 1. f_equal.
      rewrite skipn_skipn_add. f_equal. lia. }
    rewrite Q. apply order_app; [apply order_refl|]. apply order_app; [apply (HF _ _ _ EF)|]. now apply IH.
Qed.
Lemma order_propagate {A} (f : transducer) labels (g : list (repl A)) out : order_tr f -> sized f ->
  group_in 0 (length labels) g -> propagate labels g f = Ok out -> in_order labels out.
Proof.
  intros HF HS HG H. rewrite propagate_rec in H by assumption.
  change labels with (skipn 0 labels). exact (order_prop f labels (length labels) g HF 0 out HG H).
Qed.

Lemma order_inverse {A} {EA : Eqb A} ord (s : list A) g : ord_ok ord -> group_in 0 (length s) g ->
  forall l l', length l = length (apply s g) -> (h <- inverse ord s g ;; propagate l h except_ne) = Ok l' -> in_order l l'.
Proof.
  intros HO HG l l' HL H. pose proof (inv_list_group_in s g HG) as GI.
  destruct (inverse_total ord s g HO HG) as [(ND & h & EI & HP)|(ND & EI)]; rewrite EI in H; cbn [bind] in H; [|discriminate].
  assert (GH : group_in 0 (length (apply s g)) h).
  { unfold inverse in EI. rewrite gen_inverse_inv_list in EI.
    destruct (rdone ord (inv_list s g)) as [h'|] eqn:ER; [|discriminate]. cbn [bind] in EI.
    destruct (guard _ AssertionErr); [|discriminate]. cbn [bind] in EI. injection EI as ->.
    destruct (rdone_ok ord _ _ HO (inv_list_well_formed s g HG) ER) as (_ & _ & _ & _ & Q).
    apply Q. intros r HR. apply (group_in_In _ _ _ _ GI HR). }
  rewrite <- HL in GH. exact (order_propagate except_ne l h l' order_except sized_except GH H).
Qed.

Lemma str_orderly E s sg fwd h : ord_ok (ord_c E) -> olds sg = s -> rule_ok fwd h sg -> order_rule h ->
  orderly E (AStr s (grp 0 sg) (length (apply s (grp 0 sg))) fwd except_ne).
Proof.
  intros HO <- HR HH. pose proof (grp_group_in 0 sg) as HG. cbn [Nat.add] in HG. split; intros l l' HA.
  - unfold align in HA. cbn [input_length output_length align_raw] in HA.
    destruct (Nat.eqb_spec (length l) (length (olds sg))) as [Q|Q]; cbn [guard bind] in HA; [|discriminate].
    rewrite (propagate_grp _ _ _ _ HR Q) in HA. cbn [bind] in HA.
    destruct (guard _ _); cbn [bind] in HA; [|discriminate]. injection HA as <-. now apply order_relabel.
  - unfold align_inverse in HA. cbn [input_length output_length align_inverse_raw] in HA.
    destruct (Nat.eqb_spec (length l) (length (apply (olds sg) (grp 0 sg)))) as [Q|Q]; cbn [guard bind] in HA; [|discriminate].
    destruct (h <- inverse (ord_c E) (olds sg) (grp 0 sg) ;; propagate l h except_ne) as [out|] eqn:EI; [|discriminate].
    cbn [bind] in HA. destruct (guard _ _); cbn [bind] in HA; [|discriminate]. injection HA as <-.
    exact (order_inverse (ord_c E) (olds sg) (grp 0 sg) HO HG l out Q EI).
Qed.
Lemma lst_orderly E s sg fwd h : ord_ok (ord_e E) -> olds sg = s -> rule_ok fwd h sg -> order_rule h ->
  orderly E (ALst s (grp 0 sg) (length (apply s (grp 0 sg))) fwd except_ne).
Proof.
  intros HO <- HR HH. pose proof (grp_group_in 0 sg) as HG. cbn [Nat.add] in HG. split; intros l l' HA.
  - unfold align in HA. cbn [input_length output_length align_raw] in HA.
    destruct (Nat.eqb_spec (length l) (length (olds sg))) as [Q|Q]; cbn [guard bind] in HA; [|discriminate].
    rewrite (propagate_grp _ _ _ _ HR Q) in HA. cbn [bind] in HA.
    destruct (guard _ _); cbn [bind] in HA; [|discriminate]. injection HA as <-. now apply order_relabel.
  - unfold align_inverse in HA. cbn [input_length output_length align_inverse_raw] in HA.
    destruct (Nat.eqb_spec (length l) (length (apply (olds sg) (grp 0 sg)))) as [Q|Q]; cbn [guard bind] in HA; [|discriminate].
    destruct (h <- inverse (ord_e E) (olds sg) (grp 0 sg) ;; propagate l h except_ne) as [out|] eqn:EI; [|discriminate].
    cbn [bind] in HA. destruct (guard _ _); cbn [bind] in HA; [|discriminate]. injection HA as <-.
    exact (order_inverse (ord_e E) (olds sg) (grp 0 sg) HO HG l out Q EI).
Qed.

Lemma subwords_orderly E v u m l y a :
  ord_ok (ord_e E) -> transform_op E (SpanSubwords v u m) (SLst l) = Ok (y, a) -> orderly E a.
Proof.
  intros HO H.
  assert (HL : exists ts, l = map ETok ts).
  { unfold transform_op in H. cbn [type_of input_type seqtype_eqb guard bind transform_lst] in H.
    unfold lst_result, elem_group in H.
    destruct (elem_edits _ 0 l []) as [g|] eqn:EG; [|discriminate].
    apply (all_toks (subwords_newv v u m)); [intros i; eexists; reflexivity|].
    eapply elem_edits_inv; eauto. }
  destruct HL as (ts & ->).
  destruct (subwords_rewrites E v u m ts HO) as (outs & HS & sg & E1 & E2 & E3 & E4).
  unfold transform_op in H. cbn [type_of input_type seqtype_eqb guard bind transform_lst] in H.
  unfold lst_result in H. rewrite E3 in H. cbn [bind fst type_of output_type seqtype_eqb guard] in H.
  injection H as <- <-.
  apply (lst_orderly E (map ETok ts) sg get_most_common by_mode); auto with order.
  apply rule_most_common. intros o w HI. rewrite E4 in HI. apply in_map_iff in HI.
  destruct HI as (to & Q & _). inversion Q. discriminate.
Qed.

Lemma replace_orderly E p b find s y a :
  ord_ok (ord_c E) -> re_compile E p = Some find -> in_bounds find ->
  transform_op E (ReplaceAwithB p b) (SStr s) = Ok (y, a) -> orderly E a.
Proof.
  intros HO HC HB H.
  destruct (replaced_or_stuck find (fun _ => b) HB s 0 ltac:(lia)) as [(sg & HR)|HS].
  - pose proof (scan_group_replaced E find _ s sg HO HB HR) as HG.
    assert (ES : olds sg = s) by exact (replaced_ge find (fun _ => b) HB s 0 sg ltac:(lia) HR).
    unfold transform_op in H. cbn [type_of input_type seqtype_eqb guard bind transform_str] in H.
    rewrite HC in H. unfold str_result in H. rewrite HG in H.
    cbn [bind fst type_of output_type seqtype_eqb guard] in H. injection H as <- <-.
    apply (str_orderly E s sg except_ne by_entity_mode); auto using rule_except with order.
  - destruct (replace_diverges E p b find s HC HB HS) as (_ & Q). congruence.
Qed.

Lemma null_orderly E n m : orderly E (ANull n m).
Proof.
  split; intros l l' HA; [unfold align in HA|unfold align_inverse in HA]; destruct (guard _ _); cbn [bind align_raw align_inverse_raw] in HA;
    try discriminate; destruct (guard _ _); cbn [bind] in HA; try discriminate; injection HA as <-; apply order_refl.
Qed.
Lemma lst_null_orderly E l g y a : lst_result_null l g = Ok (y, a) -> orderly E a.
Proof. unfold lst_result_null. destruct g; cbn [bind]; [|discriminate]. intros [= <- <-]. apply null_orderly. Qed.

Lemma order_zero_where p s l : in_order l (zero_where p s l).
Proof.
  revert l. induction s as [|c s IH]; intros l; [apply (order_zero l 0)|]. destruct l as [|x l]; [apply order_refl|].
  change (zero_where p (c :: s) (x :: l)) with ([if p c then 0%Z else x] ++ zero_where p s l).
  apply (order_app [x] l); [|apply IH]. apply (order_const _ _ 1). destruct (p c); [now left|right; now left].
Qed.

Theorem operator_orderly E o x y a : python E -> built E o -> transform_op E o x = Ok (y, a) -> orderly E a.
Proof.
  intros (OC & OE & HS) HB HT. pose proof (transform_type _ _ _ _ HT) as TY.
  destruct HB as [o HI|p b find HC HB|ws sh o HM|ws sh o HM|tok|m tok|s e|t o HM|v u m|d u o HM|d o HM].
  - assert (HSS : exists s, x = SStr s).
    { destruct x as [s|l]; [eauto|]. exfalso. cbn [type_of] in TY.
      repeat (destruct HI as [<-|HI]; [discriminate TY|]). destruct HI. }
    destruct HSS as (s & ->).
    assert (MR : forall o sg h k, rewrites E o s sg h k -> order_rule h -> order_rule k ->
      transform_op E o (SStr s) = Ok (y, a) -> orderly E a).
    { intros o' sg h k (_ & HM) H1 H2 H3. eapply (maps_orderly _ _ _ _ _ _ _ _ HM); [| |exact H3]; intros; now apply order_relabel. }
    repeat (destruct HI as [<-|HI]; [first
      [ eapply (maps_orderly _ _ _ _ _ _ _ _ (lowercase_maps E s OC)); [intros; apply order_refl|intros; apply order_refl|exact HT]
      | apply (MR _ _ _ _ (merge_rewrites E s OC)); auto with order; fail
      | eapply (maps_orderly _ _ _ _ _ _ _ _ (strip_maps E s OC)); [intros l _; eapply order_trans; [apply order_skip|apply order_first]| |exact HT];
        intros l _; apply (order_app [] l); [apply order_zero|]; rewrite <- (app_nil_r l) at 1; apply order_app; [apply order_refl|apply order_zero]
      | apply (MR _ _ _ _ (int_rewrites E s OC)); auto with order; fail
      | apply (MR _ _ _ _ (int_space_rewrites E s OC)); auto with order; fail
      | apply (MR _ _ _ _ (float_rewrites E s OC)); auto with order; fail
      | apply (MR _ _ _ _ (float_space_rewrites E s OC)); auto with order; fail
      | apply (MR _ _ _ _ (num_space_rewrites E s OC)); auto with order; fail
      | apply (MR _ _ _ _ (cjk_rewrites E s OC)); auto with order; fail
      | apply (MR _ _ _ _ (punct_rewrites E s OC)); auto with order; fail
      | eapply (maps_orderly _ _ _ _ _ _ _ _ (endpoint_maps E s OC)); [intros; apply order_zero_where|intros; apply order_zero_where|exact HT]
      | destruct (stop_rewrites E s OC) as (ps & _ & HM); apply (MR _ _ _ _ HM); auto with order; fail
      | destruct (accent_maps E s OC) as (H1 & H2);
          destruct (Nat.eq_dec (length (stripped E s)) (length s)) as [Q|Q];
          [ eapply (maps_orderly _ _ _ _ _ _ _ _ (H1 Q)); [intros; apply order_refl|intros; apply order_refl|exact HT]
          | rewrite (H2 Q) in HT; discriminate ]
      | exact (tokenizes_orderly E _ s _ y a (char_tokenizes E s OC) HT)
      | exact (tokenizes_orderly E _ s _ y a (ws_tokenizes E s _ OC (cut_by_cut _ s)) HT)
      | exact (tokenizes_orderly E _ s _ y a (eng_tokenizes E s _ OC HS (cut_by_cut _ s)) HT)
      | exact (tokenizes_orderly E _ s _ y a (zh_tokenizes E s _ OC HS (cut_by_cut _ s)) HT)
      ]|]).
    destruct HI.
  - destruct x as [s|l]; [|discriminate]. now apply (replace_orderly E p b find s y).
  - unfold make_wordn in HM. pose proof (make_trie_spec ws) as MT.
    destruct ws as [[|w ws]|]; [rewrite MT in HM; discriminate| |rewrite MT in HM; discriminate].
    destruct MT as [(_ & t & ET & HH)|(_ & ET)]; rewrite ET in HM; [|discriminate].
    injection HM as <-. destruct x as [s|l]; [|discriminate].
    destruct (wordn_rewrites E t (w :: ws) sh s OC HH) as (ps & _ & _ & HM).
    eapply (maps_orderly _ _ _ _ _ _ _ _ HM); [intros; apply order_relabel; auto with order|intros; apply order_relabel; auto with order|exact HT].
  - assert (TY' : exists t, o = CustomWordTokenizer t sh).
    { unfold make_custom in HM. destruct (make_trie ws); [|discriminate]. injection HM as <-. eauto. }
    destruct TY' as (t & Eo). subst o. destruct x as [s|l]; [|discriminate].
    destruct ws as [ws|]; [|discriminate].
    destruct (munched_exists sh ws s) as (ps & HP).
    exact (tokenizes_orderly E _ s _ y a (custom_tokenizes E ws sh _ s ps OC HM HP) HT).
  - destruct x as [s|l]; [discriminate|]. unfold transform_op in HT. cbn [type_of input_type seqtype_eqb guard bind transform_lst] in HT.
    destruct (lst_result_null _ _) as [[y' a']|] eqn:R; cbn [bind] in HT; [|discriminate]. destruct (guard _ _); [|discriminate].
    cbn [bind] in HT. injection HT as <- <-. eapply lst_null_orderly; exact R.
  - destruct x as [s|l]; [discriminate|].
    destruct (Z.ltb_spec m 0) as [L|L]; [rewrite pad_negative in HT by exact L; discriminate|].
    assert (HL : (Z.of_nat (length l) < 2 ^ 32)%Z \/ Z.of_nat (length l) = m).
    { destruct (Z.ltb_spec (Z.of_nat (length l)) (2 ^ 32)) as [Q|Q]; [now left|].
      destruct (Z.eq_dec (Z.of_nat (length l)) m) as [R|R]; [now right|].
      rewrite pad_too_long in HT by assumption. discriminate. }
    eapply (maps_orderly _ _ _ _ _ _ _ _ (pad_maps E m tok l OE L HL)); [| |exact HT]; intros ls _;
      rewrite <- (app_nil_r ls) at 1; (apply order_app; [apply order_first|apply order_zero]).
  - destruct x as [s'|l]; [discriminate|]. destruct l as [|x0 l].
    + pose proof (transform_closed _ _ _ _ _ HT) as C. destruct (soseos_empty E s e y a OE HT) as (_ & S1 & S2 & S3 & S4 & S5).
      split; intros l l' HA.
      * destruct l as [|z l]; [|rewrite S1 in HA by discriminate; discriminate].
        apply order_all_zero. apply Forall_forall.
        exact (align_closed (fun z => z = 0%Z) a [] l' eq_refl C (Forall_nil _) HA).
      * destruct (Nat.eq_dec (length l) (pseq_length y)) as [Q|Q]; [|rewrite (S2 l Q) in HA; discriminate].
        destruct (S4 l Q) as [(_ & l2 & H2 & L2)|(W & _)]; [left; reflexivity| |destruct W].
        rewrite H2 in HA. injection HA as <-. destruct l2; [apply (order_zero l 0)|discriminate].
    + destruct (Z.ltb_spec (Z.of_nat (length (x0 :: l))) (2 ^ 32)) as [Q|Q].
      * eapply (maps_orderly _ _ _ _ _ _ _ _ (soseos_maps E s e (x0 :: l) OE ltac:(discriminate) Q)); [| |exact HT]; intros ls _.
        -- apply order_around, order_refl.
        -- exact (order_without_ends ls (length (x0 :: l))).
      * rewrite soseos_too_long in HT by exact Q. discriminate.
  - assert (o = AddEndToken t) as -> by (destruct t; inversion HM; reflexivity).
    destruct x as [s|l]; [discriminate|].
    destruct (Z.ltb_spec (Z.of_nat (length l)) (2 ^ 32)) as [Q|Q].
    + eapply (maps_orderly _ _ _ _ _ _ _ _ (end_maps E t l OE Q)); [| |exact HT]; intros ls _.
      * rewrite <- (app_nil_r ls) at 1. apply order_app; [apply order_refl|apply (order_zero [] 1)].
      * apply order_first.
    + rewrite end_too_long in HT by exact Q. discriminate.
  - destruct x as [s|l]; [discriminate|]. now apply (subwords_orderly E v u m l y).
  - assert (o = Token2Index d u) as ->.
    { unfold make_token2index in HM. destruct (validate_continuity d); [|discriminate]. cbn [bind] in HM.
      destruct (guard _ KeyErr); [|discriminate]. now injection HM. }
    destruct x as [s|l]; [discriminate|]. unfold transform_op in HT. cbn [type_of input_type seqtype_eqb guard bind transform_lst] in HT.
    destruct (lst_result_null _ _) as [[y' a']|] eqn:R; cbn [bind] in HT; [|discriminate]. destruct (guard _ _); [|discriminate].
    cbn [bind] in HT. injection HT as <- <-. eapply lst_null_orderly; exact R.
  - assert (o = Token2IndexwithHash d) as ->.
    { unfold make_hash in HM. destruct (validate_continuity d); [|discriminate]. now injection HM. }
    destruct x as [s|l]; [discriminate|]. unfold transform_op in HT. cbn [type_of input_type seqtype_eqb guard bind transform_lst] in HT.
    destruct (lst_result_null _ _) as [[y' a']|] eqn:R; cbn [bind] in HT; [|discriminate]. destruct (guard _ _); [|discriminate].
    cbn [bind] in HT. injection HT as <- <-. eapply lst_null_orderly; exact R.
Qed.
