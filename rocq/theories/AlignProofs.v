(** Every operator's aligner returns labels of the right length. *)

From Verif Require Import Py PyFacts Edit Labels SpecEdit SpecLabels SpecSeg SpecRuns SpecWords
  SpecScan SpecHash EditProofs SpanProofs LabelProofs EditApiProofs SegProofs Regex Trie Ops
  RegexProofs PatternProofs TrieProofs WordProofs RunsProofs SpecOps OpProofs StrOpProofs
  ScanProofs ListOpProofs TokProofs HashProofs TouchProofs.

(** ** From [maps] *)

Lemma maps_sound E o x y a F G (ok : list Z -> Prop) weird :
  maps E o any_labels x y F G -> (forall l, ok l) -> ~ weird -> transform_op E o x = Ok (y, a) ->
  sound_lengths E a (pseq_length x) (pseq_length y) ok weird.
Proof.
  intros (a' & HT & H1 & H2 & H3 & H4) HK HW HT'. rewrite HT in HT'. injection HT' as <-.
  split; [exact H2|]. split; [exact H4|]. split; [|split].
  - intros l HL. destruct (H1 l HL I) as (Q1 & Q2). eauto.
  - intros l HL _. destruct (H3 l HL I) as (Q1 & Q2). left. split; [tauto|]. eauto.
  - intros l _ HN. destruct (HN (HK l)).
Qed.

(** The same when only the input is known. *)
Lemma maps_sound' E o x y y0 a F G (ok : list Z -> Prop) weird :
  maps E o any_labels x y F G -> (forall l, ok l) -> ~ weird -> transform_op E o x = Ok (y0, a) ->
  sound_lengths E a (pseq_length x) (pseq_length y0) ok weird.
Proof.
  intros HM HK HW HT. assert (y = y0) as <-.
  { destruct HM as (a' & HT' & _). rewrite HT' in HT. now injection HT. }
  eapply maps_sound; eauto.
Qed.

Lemma maps_null_sound E o s y y0 a F G :
  maps E o any_labels (SStr s) y F G -> input_type o = output_type o ->
  transform_op E o (SStr s) = Ok (y0, a) ->
  sound_lengths E a (length s) (pseq_length y0) (representable o) False.
Proof.
  intros HM HK HT. apply (maps_sound' E o (SStr s) y y0 a F G); auto. intros l. now left.
Qed.

Lemma tokenizes_sound E o s ps y a :
  tokenizes E o s ps -> input_type o <> output_type o -> transform_op E o (SStr s) = Ok (y, a) ->
  sound_lengths E a (length s) (pseq_length y) (representable o) False.
Proof.
  intros (ES & a' & HT & (H1 & H2 & H3 & H4) & H5 & H6) HD HT'. rewrite HT in HT'. injection HT' as <- <-.
  cbn [pseq_length]. rewrite map_length. unfold representable.
  split; [exact H2|]. split; [exact H4|]. split; [|split].
  - intros l HL. exists (token_labels32 ps l). split; [now apply H5|apply token_labels32_length].
  - intros l HL [Q|HU]; [congruence|]. destruct (H3 l HL HU) as (Q1 & Q2). left. split; [tauto|]. eauto.
  - intros l HL HN. apply H6; [exact HL|]. intros Q. apply HN. now right.
Qed.

(** ** In general *)

Lemma total_growth_perm {A} (g h : list (repl A)) :
  Permutation g h -> total_growth g = total_growth h.
Proof.
  unfold total_growth. induction 1; cbn [fold_right]; lia.
Qed.

Lemma inverse_lengths {A} {EA : Eqb A} ord (s : list A) g bwd :
  ord_ok ord -> group_in 0 (length s) g -> sized bwd ->
  (forall ls k, exists out, bwd ls k = Ok out) ->
  forall l, length l = length (apply s g) ->
  (NoDup (inv_list s g) /\
   exists l', (h <- inverse ord s g ;; propagate l h bwd) = Ok l' /\ length l' = length s) \/
  (~ NoDup (inv_list s g) /\ (h <- inverse ord s g ;; propagate l h bwd) = Err AssertionErr).
Proof.
  intros HO HG HS HT l HL. pose proof (inv_list_group_in s g HG) as GI.
  destruct (inverse_total ord s g HO HG) as [(ND & h & EI & HP)|(ND & EI)]; rewrite EI; cbn [bind];
    [left; split; [exact ND|]|now right].
  assert (GH : group_in 0 (length (apply s g)) h).
  { unfold inverse in EI. rewrite gen_inverse_inv_list in EI.
    destruct (rdone ord (inv_list s g)) as [h'|] eqn:ER; [|discriminate]. cbn [bind] in EI.
    destruct (guard _ AssertionErr); [|discriminate]. cbn [bind] in EI. injection EI as ->.
    destruct (rdone_ok ord _ _ HO (inv_list_well_formed s g HG) ER) as (_ & _ & _ & _ & Q).
    apply Q. intros r HR. apply (group_in_In _ _ _ _ GI HR). }
  destruct (propagate_succeeds A l h bwd HS HT) as (g' & _ & EP); [now rewrite HL|].
  exists (splice_all l g'). split; [exact EP|].
  destruct (propagate_positions bwd l h (apply s g) _ HS GH HL EP) as (Q & _). rewrite Q.
  apply Nat2Z.inj. rewrite (apply_length_growth A EA _ _ GH), (total_growth_perm _ _ HP).
  rewrite <- (apply_length_growth A EA _ _ GI). f_equal. f_equal.
  rewrite inv_list_rec. unfold apply. exact (inv_rec_apply g s 0 0 [] HG eq_refl).
Qed.

Lemma str_sound E s sg fwd h (ok : list Z -> Prop) :
  ord_ok (ord_c E) -> olds sg = s -> rule_ok fwd h sg -> (forall l, ok l) ->
  sound_lengths E (AStr s (grp 0 sg) (length (apply s (grp 0 sg))) fwd except_ne) (length s)
    (length (apply s (grp 0 sg))) ok (deleted_twice sg).
Proof.
  intros HO <- HR HK. pose proof (grp_group_in 0 sg) as HG. cbn [Nat.add] in HG.
  split; [|split; [|split; [|split]]].
  - intros l HL. unfold align. cbn [input_length]. now rewrite (proj2 (Nat.eqb_neq _ _) HL).
  - intros l HL. unfold align_inverse. cbn [output_length]. now rewrite (proj2 (Nat.eqb_neq _ _) HL).
  - intros l HL. unfold align. cbn [input_length output_length align_raw].
    rewrite HL, Nat.eqb_refl. cbn [guard bind]. rewrite (propagate_grp _ _ _ _ HR HL). cbn [bind].
    rewrite (relabel_length h fwd) by assumption. rewrite apply_grp, Nat.eqb_refl. eexists.
    split; [reflexivity|]. now apply (relabel_length h fwd).
  - intros l HL _. unfold align_inverse. cbn [input_length output_length align_inverse_raw].
    rewrite HL, Nat.eqb_refl. cbn [guard bind].
    destruct (inverse_lengths (ord_c E) (olds sg) (grp 0 sg) except_ne HO HG sized_except total_except l HL)
      as [(ND & l' & Q1 & Q2)|(ND & Q)]; rewrite inv_list_grp in ND; [left|right; split; [now apply (twice_dup sg 0)|now rewrite Q]].
    split; [intros W; now apply (twice_dup sg 0) in W|].
    rewrite Q1. cbn [bind]. rewrite Q2, Nat.eqb_refl. exists l'. split; [reflexivity|exact Q2].
  - intros l _ HN. destruct (HN (HK l)).
Qed.

Lemma lst_sound E s sg fwd h (ok : list Z -> Prop) :
  ord_ok (ord_e E) -> olds sg = s -> rule_ok fwd h sg -> (forall l, ok l) ->
  sound_lengths E (ALst s (grp 0 sg) (length (apply s (grp 0 sg))) fwd except_ne) (length s)
    (length (apply s (grp 0 sg))) ok (deleted_twice sg).
Proof.
  intros HO <- HR HK. pose proof (grp_group_in 0 sg) as HG. cbn [Nat.add] in HG.
  split; [|split; [|split; [|split]]].
  - intros l HL. unfold align. cbn [input_length]. now rewrite (proj2 (Nat.eqb_neq _ _) HL).
  - intros l HL. unfold align_inverse. cbn [output_length]. now rewrite (proj2 (Nat.eqb_neq _ _) HL).
  - intros l HL. unfold align. cbn [input_length output_length align_raw].
    rewrite HL, Nat.eqb_refl. cbn [guard bind]. rewrite (propagate_grp _ _ _ _ HR HL). cbn [bind].
    rewrite (relabel_length h fwd) by assumption. rewrite apply_grp, Nat.eqb_refl. eexists.
    split; [reflexivity|]. now apply (relabel_length h fwd).
  - intros l HL _. unfold align_inverse. cbn [input_length output_length align_inverse_raw].
    rewrite HL, Nat.eqb_refl. cbn [guard bind].
    destruct (inverse_lengths (ord_e E) (olds sg) (grp 0 sg) except_ne HO HG sized_except total_except l HL)
      as [(ND & l' & Q1 & Q2)|(ND & Q)]; rewrite inv_list_grp in ND; [left|right; split; [now apply (twice_dup sg 0)|now rewrite Q]].
    split; [intros W; now apply (twice_dup sg 0) in W|].
    rewrite Q1. cbn [bind]. rewrite Q2, Nat.eqb_refl. exists l'. split; [reflexivity|exact Q2].
  - intros l _ HN. destruct (HN (HK l)).
Qed.

(** ** Operators with a NullLabelAligner *)

Lemma elem_edits_inv newv l : forall i acc g,
  elem_edits newv i l acc = Ok g -> forall x, In x l -> exists v, newv x = Ok v.
Proof.
  induction l as [|y l IH]; intros i acc g H x [].
  - subst y. cbn [elem_edits] in H. destruct (newv x) as [v|]; [eauto|discriminate].
  - cbn [elem_edits] in H. destruct (newv y); [|discriminate]. cbn [bind] in H. eapply IH; eauto.
Qed.

Lemma null_sound E o newv l y a (ok : list Z -> Prop) :
  ord_ok (ord_e E) ->
  (forall l, transform_op E o (SLst l) =
    (r <- lst_result_null l (elem_group E newv l) ;;
     _ <- guard (seqtype_eqb (type_of (fst r)) TList) TypeErr ;; Ok r)) ->
  (forall x v, newv x = Ok (Some v) -> exists z, v = [z]) -> (forall l, ok l) ->
  transform_op E o (SLst l) = Ok (y, a) ->
  sound_lengths E a (length l) (pseq_length y) ok False.
Proof.
  intros HO HT HV HK H.
  assert (HI : forall x, In x l -> exists v, newv x = Ok v).
  { rewrite HT in H. unfold lst_result_null, elem_group in H.
    destruct (elem_edits newv 0 l []) as [g|] eqn:EG; [|discriminate]. eapply elem_edits_inv; eauto. }
  set (f := fun x => match newv x with Ok (Some [z]) => z | _ => x end).
  apply (maps_sound' E o (SLst l) (SLst (map f l)) y a keep keep); auto.
  apply (null_maps E o newv); auto. intros x HX. destruct (HI x HX) as (v & EV).
  destruct v as [v|].
  - destruct (HV x v EV) as (z & ->). exists true. split; [|discriminate]. unfold f. now rewrite EV.
  - exists false. split; [exact EV|]. unfold f. now rewrite EV.
Qed.

Lemma purenum_one E tok x v : purenum_newv E tok x = Ok (Some v) -> exists z, v = [z].
Proof.
  destruct x as [t|i]; [|discriminate]. rewrite purenum_newv_ok.
  destruct (pure_number E t); intros H; inversion H. eauto.
Qed.

Lemma index_one d u x v : index_newv d u x = Ok (Some v) -> exists z, v = [z].
Proof.
  unfold index_newv. destruct (match x with ETok t => dict_get d t | EIdx _ => None end).
  - intros H. inversion H. eauto.
  - destruct (dict_get d u); intros H; inversion H. eauto.
Qed.

Lemma hash_one d x v : hash_newv d x = Ok (Some v) -> exists z, v = [z].
Proof.
  destruct x as [t|i]; [|discriminate]. cbn [hash_newv]. destruct (dict_get d t).
  - intros H. inversion H. eauto.
  - destruct (consistent_hash t _); cbn [bind]; intros H; inversion H. eauto.
Qed.

(** ** SpanSubwords *)

Lemma two_empty_dec ts : two_empty ts \/ ~ two_empty ts.
Proof.
  induction ts as [|t ts IH]; [right; exact (fun H => H)|]. cbn [two_empty].
  destruct IH as [H|H]; [left; now right|].
  destruct t as [|c t]; [|right; intros [(Q & _)|Q]; [discriminate|exact (H Q)]].
  destruct ts as [|[|c u] ts]; cbn [hd_error].
  - right. intros [(_ & Q)|Q]; [discriminate|exact (H Q)].
  - left. left. auto.
  - right. intros [(_ & Q)|Q]; [discriminate|exact (H Q)].
Qed.

Lemma all_toks newv l :
  (forall i, exists e, newv (EIdx i) = Err e) ->
  (forall x, In x l -> exists v : option (list elem), newv x = Ok v) -> exists ts, l = map ETok ts.
Proof.
  intros HE. induction l as [|x l IH]; intros H; [exists []; reflexivity|].
  destruct IH as (ts & ->); [intros; apply H; now right|].
  destruct (H x (or_introl eq_refl)) as (v & EV). destruct x as [t|i].
  - now exists (t :: ts).
  - destruct (HE i) as (e & Q). congruence.
Qed.

Lemma weird_iff E a n m ok (W W' : Prop) :
  sound_lengths E a n m ok W -> (W <-> W') -> sound_lengths E a n m ok W'.
Proof.
  intros (S1 & S2 & S3 & S4 & S5) H. repeat (split; [assumption|]). split; [|exact S5].
  intros l L K. destruct (S4 l L K) as [(N & Q)|(N & Q)]; [left|right]; split; tauto.
Qed.

Lemma subwords_nil v u m t : subwords v u m t [] <-> (0 <= m)%Z /\ t = [].
Proof.
  split.
  - intros [(L & ps & HP & Q)|(_ & Q)]; [|discriminate]. destruct ps; [|discriminate]. inversion HP; subst.
    cbn in L. auto.
  - intros (L & ->). left. split; [exact L|]. exists []. split; [constructor|reflexivity].
Qed.

Lemma map_tok_inj ts ts' : map ETok ts = map ETok ts' -> ts = ts'.
Proof.
  revert ts'. induction ts as [|t ts IH]; intros [|t' ts'] H; try discriminate; [reflexivity|].
  cbn [map] in H. injection H as -> H. now rewrite (IH _ H).
Qed.

Lemma subwords_twice v u m ts outs : Forall2 (subwords v u m) ts outs ->
  deleted_twice (map (fun to : str * list elem =>
      ([ETok (fst to)], if eqb (snd to) [ETok (fst to)] then None else Some (snd to))) (combine ts outs)) <->
  (0 <= m)%Z /\ two_empty ts.
Proof.
  set (f := fun to : str * list elem =>
      ([ETok (fst to)], if eqb (snd to) [ETok (fst to)] then None else Some (snd to))).
  assert (F : forall t o, subwords v u m t o -> new_of (f (t, o)) = [] -> (0 <= m)%Z /\ t = [] /\ o = []).
  { intros t o H Q. assert (o = []) as ->.
    { unfold f, new_of in Q. cbn [fst snd] in Q. destruct (eqb_spec o [ETok t]) as [_|_]; [discriminate|exact Q]. }
    apply subwords_nil in H. tauto. }
  intros HF. split.
  - intros (a & o & mid & c & Q & NM). revert ts outs HF Q. induction a as [|x a IH]; intros ts outs HF Q.
    + destruct HF as [|t o1 ts outs H1 HF]; [discriminate|]. cbn [combine map app] in Q.
      assert (N1 : new_of (f (t, o1)) = []) by exact (f_equal (fun l => new_of (hd ([], None) l)) Q).
      assert (Q' : map f (combine ts outs) = mid ++ (o, Some []) :: c) by exact (f_equal (@tl (seg elem)) Q).
      destruct (F _ _ H1 N1) as (L & -> & _). split; [exact L|]. left. split; [reflexivity|].
      destruct HF as [|t2 o2 ts outs H2 HF]; [destruct mid; discriminate|]. cbn [combine map] in Q'.
      assert (N2 : new_of (f (t2, o2)) = []).
      { destruct mid as [|y mid]; cbn [app] in Q'; apply (f_equal (fun l => new_of (hd ([], None) l))) in Q';
          cbn [hd] in Q'; [exact Q'|]. rewrite Q'.
        change (new_of y ++ news mid = []) in NM. now apply app_eq_nil in NM. }
      destruct (F _ _ H2 N2) as (_ & -> & _). reflexivity.
    + destruct HF as [|t o1 ts outs H1 HF]; [discriminate|]. cbn [combine map app] in Q. apply (f_equal (@tl (seg elem))) in Q. cbn [tl] in Q.
      destruct (IH _ _ HF Q) as (L & T). split; [exact L|]. now right.
  - intros (L & TE).
    assert (K : forall o, subwords v u m [] o -> f ([], o) = ([ETok []], Some [])).
    { intros o H. assert (o = []) as ->; [|reflexivity].
      destruct H as [(_ & ps & HP & ->)|([H|H] & _)]; [|cbn in H; lia|].
      - inversion HP as [|? w r ps' W _ _ _ Q]; [reflexivity|]. destruct w; [congruence|discriminate].
      - destruct H. exists []. constructor. }
    induction HF as [|t o ts outs H1 HF IH]; [destruct TE|]. destruct TE as [(-> & Q)|TE].
    + destruct HF as [|t2 o2 ts outs H2 HF]; [discriminate|]. cbn [hd_error] in Q. injection Q as ->.
      exists [], [ETok []], [], (map f (combine ts outs)). cbn [combine map app].
      rewrite (K _ H1), (K _ H2). split; reflexivity.
    + destruct (IH TE) as (a & o' & mid & c & Q & NM). exists (f (t, o) :: a), o', mid, c.
      cbn [combine map app]. rewrite Q. auto.
Qed.

Lemma subwords_sound E v u m l y a :
  ord_ok (ord_e E) -> transform_op E (SpanSubwords v u m) (SLst l) = Ok (y, a) ->
  sound_lengths E a (length l) (pseq_length y) (representable (SpanSubwords v u m))
    (deletes_twice E (SpanSubwords v u m) (SLst l)).
Proof.
  intros HO H. assert (HK : forall l, representable (SpanSubwords v u m) l) by (intros; now left).
  assert (HL : exists ts, l = map ETok ts).
  { unfold transform_op in H. cbn [type_of input_type seqtype_eqb guard bind transform_lst] in H.
    unfold lst_result, elem_group in H.
    destruct (elem_edits _ 0 l []) as [g|] eqn:EG; [|discriminate].
    apply (all_toks (subwords_newv v u m)); [intros i; eexists; reflexivity|].
    eapply elem_edits_inv; eauto. }
  destruct HL as (ts & ->).
  destruct (subwords_rewrites E v u m ts HO) as (outs & HS & sg & E1 & E2 & E3 & E4).
  unfold transform_op in H. cbn [type_of input_type seqtype_eqb guard bind transform_lst] in H.
  unfold lst_result in H. rewrite E3 in H. cbn [bind fst type_of output_type seqtype_eqb guard] in H.
  injection H as <- <-. cbn [pseq_length].
  apply (weird_iff E _ _ _ _ (deleted_twice sg)).
  - apply (lst_sound E (map ETok ts) sg get_most_common by_mode); auto.
    apply rule_most_common. intros o w HI. rewrite E4 in HI. apply in_map_iff in HI.
    destruct HI as (to & Q & _). inversion Q. discriminate.
  - rewrite E4, (subwords_twice v u m ts outs HS). cbn [deletes_twice]. split.
    + intros (H1 & H2). split; [exact H1|]. exists ts. auto.
    + intros (H1 & ts' & Q & H2). apply map_tok_inj in Q. subst ts'. auto.
Qed.

(** ** ReplaceAwithB *)

Lemma replaced_unique find newv s p sg sg' :
  replaced find newv s p sg -> replaced find newv s p sg' -> sg = sg'.
Proof.
  intros H. revert sg'. induction H as [p HE|p i e sg HL HF HR IH]; intros sg' H'.
  - destruct H' as [p HE'|p i e sg HL HF HR]; [reflexivity|]. exfalso. destruct HE as [->|Q]; [lia|congruence].
  - destruct H' as [p HE'|p i' e' sg' HL' HF' HR']; [exfalso; destruct HE' as [->|Q]; [lia|congruence]|].
    rewrite HF in HF'. injection HF' as <- <-. now rewrite (IH _ HR').
Qed.

Lemma replace_sound E p b find s y a :
  ord_ok (ord_c E) -> re_compile E p = Some find -> in_bounds find ->
  transform_op E (ReplaceAwithB p b) (SStr s) = Ok (y, a) ->
  sound_lengths E a (length s) (pseq_length y) (representable (ReplaceAwithB p b))
    (deletes_twice E (ReplaceAwithB p b) (SStr s)).
Proof.
  intros HO HC HB H. assert (HK : forall l, representable (ReplaceAwithB p b) l) by (intros; now left).
  destruct (replaced_or_stuck find (fun _ => b) HB s 0 ltac:(lia)) as [(sg & HR)|HS].
  - destruct b as [|c b].
    + pose proof (scan_group_replaced E find _ s sg HO HB HR) as HG.
      assert (ES : olds sg = s) by exact (replaced_ge find (fun _ => []) HB s 0 sg ltac:(lia) HR).
      unfold transform_op in H. cbn [type_of input_type seqtype_eqb guard bind transform_str] in H.
      rewrite HC in H. unfold str_result in H. rewrite HG in H.
      cbn [bind fst type_of output_type seqtype_eqb guard] in H. injection H as <- <-. cbn [pseq_length].
      apply (weird_iff E _ _ _ _ (deleted_twice sg)).
      * apply (str_sound E s sg except_ne by_entity_mode); auto using rule_except.
      * cbn [deletes_twice]. split.
        -- intros W. split; [reflexivity|]. exists find, sg. auto.
        -- intros (_ & find' & sg' & Q & R' & W). rewrite HC in Q. injection Q as <-.
           now rewrite (replaced_unique _ _ _ _ _ _ HR R').
    + destruct (replace_rewrites E p (c :: b) find s sg HO HC HB HR) as (_ & HM); [eapply replaced_once; [exact HR|discriminate]|].
      apply (maps_sound' _ _ (SStr s) _ _ _ _ _ _ _ HM HK); [intros (Q & _); discriminate|exact H].
  - destruct (replace_diverges E p b find s HC HB HS) as (_ & Q). congruence.
Qed.

(** ** AddSosEos on an empty list *)

Lemma soseos_empty E sos eos y a :
  ord_ok (ord_e E) -> transform_op E (AddSosEos sos eos) (SLst []) = Ok (y, a) ->
  ((sos <> eos /\ (y = SLst [sos; eos] \/ y = SLst [eos; sos])) \/ (sos = eos /\ y = SLst [sos])) /\
  sound_lengths E a 0 (pseq_length y) (representable (AddSosEos sos eos)) False.
Proof.
  intros HO H. unfold transform_op in H. cbn [type_of input_type seqtype_eqb guard bind transform_lst] in H.
  unfold lst_result in H.
  destruct (soseos_group E sos eos []) as [g|] eqn:EG; [|discriminate].
  cbn [bind fst type_of output_type seqtype_eqb guard] in H. injection H as <- <-.
  unfold soseos_group, radd_all in EG. cbn [length] in EG.
  change (radd_each [] [(0%Z, 0%Z, [sos]); (Z.of_nat 0, Z.of_nat 0, [eos])])
    with (Ok [mkR 0 0 [sos]; mkR 0 0 [eos]]) in EG. cbn [bind] in EG.
  assert (HW : Forall well_formed [mkR 0 0 [sos]; mkR 0 0 [eos]]) by (repeat constructor).
  destruct (rdone_ok (ord_e E) _ _ HO HW EG) as (N & HI & _ & _ & _).
  assert (HG : exists sg : list (seg elem), olds sg = [] /\ g = grp 0 sg /\ nonempty_news sg /\
     ((sos <> eos /\ (news sg = [sos; eos] \/ news sg = [eos; sos])) \/ (sos = eos /\ news sg = [sos]))).
  { destruct (rdone_cases (ord_e E) _ HO HW) as [(EQ & _)|(EQ & _)]; [|congruence].
    assert (g = sort_replacements (ord_e E (dedup [mkR 0 0 [sos]; mkR 0 0 [eos]]))) as Eg by congruence.
    assert (P : Permutation g (dedup [mkR 0 0 [sos]; mkR 0 0 [eos]])).
    { rewrite Eg, sort_replacements_perm. apply HO. }
    clear Eg EQ. cbn [dedup] in P.
    assert (C : (sos <> eos /\ (g = [mkR 0 0 [sos]; mkR 0 0 [eos]] \/ g = [mkR 0 0 [eos]; mkR 0 0 [sos]])) \/
                (sos = eos /\ g = [mkR 0 0 [sos]])).
    { destruct (eqb_spec sos eos) as [Q|Q].
      - right. split; [exact Q|]. subst eos.
        destruct g as [|r1 [|r2 g]].
        + destruct (proj2 (HI (mkR 0 0 [sos])) (or_introl eq_refl)).
        + destruct (proj1 (HI r1) (or_introl eq_refl)) as [<-|[<-|[]]]; reflexivity.
        + exfalso. assert (r1 = r2).
          { destruct (proj1 (HI r1) (or_introl eq_refl)) as [<-|[<-|[]]];
            destruct (proj1 (HI r2) (or_intror (or_introl eq_refl))) as [<-|[<-|[]]]; reflexivity. }
          subst r2. inversion N as [|? ? NI _]. apply NI. now left.
      - left. split; [exact Q|]. assert (ND : dedup [mkR 0 0 [sos]; mkR 0 0 [eos]] = [mkR 0 0 [sos]; mkR 0 0 [eos]]).
        { apply dedup_id. constructor; [|constructor; [exact (fun H => H)|constructor]].
          intros [R|[]]. injection R as ->. congruence. }
        cbn [dedup] in ND. rewrite ND in P. apply Permutation_sym, Permutation_length_2_inv in P.
        destruct P as [-> | ->]; auto. }
    destruct C as [(Q & [-> | ->])|(Q & ->)].
    - exists [([], Some [sos]); ([], Some [eos])]. split; [reflexivity|]. split; [reflexivity|].
      split; [intros o v [R|[R|[]]]; inversion R; discriminate|]. left. auto.
    - exists [([], Some [eos]); ([], Some [sos])]. split; [reflexivity|]. split; [reflexivity|].
      split; [intros o v [R|[R|[]]]; inversion R; discriminate|]. left. auto.
    - exists [([], Some [sos])]. split; [reflexivity|]. split; [reflexivity|].
      split; [intros o v [R|[]]; inversion R; discriminate|]. right. auto. }
  destruct HG as (sg & EO & -> & NE & EN). pose proof (apply_grp sg) as EA. rewrite EO in EA. rewrite EA.
  split.
  { destruct EN as [(Q & [-> | ->])|(Q & ->)]; auto. }
  cbn [pseq_length]. set (al := ALst [] (grp 0 sg) (length (news sg)) get_not_entity get_not_entity).
  assert (HA : aligns E al any_labels (length (olds sg)) (length (news sg)) (relabel by_zero sg)
                 (relabel by_zero (swap sg))).
  { apply aligns_intro.
    - unfold al. cbn [input_length]. now rewrite EO.
    - reflexivity.
    - intros l HL _. cbn [align_raw al]. apply propagate_grp; [apply rule_zero|exact HL].
    - intros l HL _. apply (relabel_length by_zero get_not_entity); [apply rule_zero|exact HL].
    - intros l HL _. cbn [align_inverse_raw al]. rewrite <- EO.
      apply inverse_propagate_grp; auto using rule_zero.
      apply grp_no_touching. intros o HIn. exact (NE o [] HIn eq_refl).
    - intros l HL _. rewrite <- (swap_news sg).
      apply (relabel_length by_zero get_not_entity); [apply rule_zero|]. now rewrite swap_olds. }
  rewrite EO in HA. destruct HA as (H1 & H2 & H3 & H4).
  split; [exact H2|]. split; [exact H4|]. split; [|split].
  - intros l HL. destruct (H1 l HL I) as (Q1 & Q2). eauto.
  - intros l HL _. destruct (H3 l HL I) as (Q1 & Q2). left. split; [tauto|]. eauto.
  - intros l _ HN. destruct HN. now left.
Qed.

(** ** All operators *)

Lemma transform_type E o x r : transform_op E o x = Ok r -> type_of x = input_type o.
Proof.
  unfold transform_op. destruct (type_of x), (input_type o); intros H; try reflexivity; discriminate.
Qed.

Theorem all_sound E o x y a :
  python E -> built E o -> transform_op E o x = Ok (y, a) ->
  sound_lengths E a (pseq_length x) (pseq_length y) (representable o) (deletes_twice E o x).
Proof.
  intros (OC & OE & HS) HB HT. pose proof (transform_type _ _ _ _ HT) as TY.
  destruct HB as [o HI|p b find HC HB|ws sh o HM|ws sh o HM|tok|m tok|s e|t o HM|v u m|d u o HM|d o HM].
  - assert (HSS : exists s, x = SStr s).
    { destruct x as [s|l]; [eauto|]. exfalso. cbn [type_of] in TY.
      repeat (destruct HI as [<-|HI]; [discriminate TY|]). destruct HI. }
    destruct HSS as (s & ->).
    repeat (destruct HI as [<-|HI]; [first
      [ first
        [ exact (maps_null_sound E _ s _ y a _ _ (lowercase_maps E s OC) eq_refl HT)
        | exact (maps_null_sound E _ s _ y a _ _ (proj2 (merge_rewrites E s OC)) eq_refl HT)
        | exact (maps_null_sound E _ s _ y a _ _ (strip_maps E s OC) eq_refl HT)
        | exact (maps_null_sound E _ s _ y a _ _ (proj2 (int_rewrites E s OC)) eq_refl HT)
        | exact (maps_null_sound E _ s _ y a _ _ (proj2 (int_space_rewrites E s OC)) eq_refl HT)
        | exact (maps_null_sound E _ s _ y a _ _ (proj2 (float_rewrites E s OC)) eq_refl HT)
        | exact (maps_null_sound E _ s _ y a _ _ (proj2 (float_space_rewrites E s OC)) eq_refl HT)
        | exact (maps_null_sound E _ s _ y a _ _ (proj2 (num_space_rewrites E s OC)) eq_refl HT)
        | exact (maps_null_sound E _ s _ y a _ _ (proj2 (cjk_rewrites E s OC)) eq_refl HT)
        | exact (maps_null_sound E _ s _ y a _ _ (proj2 (punct_rewrites E s OC)) eq_refl HT)
        | exact (maps_null_sound E _ s _ y a _ _ (endpoint_maps E s OC) eq_refl HT)
        | destruct (stop_rewrites E s OC) as (ps & _ & _ & HM);
          exact (maps_null_sound E _ s _ y a _ _ HM eq_refl HT)
        | destruct (accent_maps E s OC) as (H1 & H2);
          destruct (Nat.eq_dec (length (stripped E s)) (length s)) as [Q|Q];
          [ exact (maps_null_sound E _ s _ y a _ _ (H1 Q) eq_refl HT)
          | rewrite (H2 Q) in HT; discriminate ] ]
      | apply (tokenizes_sound E _ s _ y a (char_tokenizes E s OC)); [discriminate|exact HT]
      | apply (tokenizes_sound E _ s _ y a (ws_tokenizes E s _ OC (cut_by_cut _ s))); [discriminate|exact HT]
      | apply (tokenizes_sound E _ s _ y a (eng_tokenizes E s _ OC HS (cut_by_cut _ s))); [discriminate|exact HT]
      | apply (tokenizes_sound E _ s _ y a (zh_tokenizes E s _ OC HS (cut_by_cut _ s))); [discriminate|exact HT]
      ]|]).
    destruct HI.
  - destruct x as [s|l]; [|discriminate]. now apply (replace_sound E p b find).
  - unfold make_wordn in HM. pose proof (make_trie_spec ws) as MT.
    destruct ws as [[|w ws]|]; [rewrite MT in HM; discriminate| |rewrite MT in HM; discriminate].
    destruct MT as [(_ & t & ET & HH)|(_ & ET)]; rewrite ET in HM; [|discriminate].
    injection HM as <-. destruct x as [s|l]; [|discriminate].
    destruct (wordn_rewrites E t (w :: ws) sh s OC HH) as (ps & _ & _ & HM).
    apply (maps_sound' _ _ (SStr s) _ _ _ _ _ _ _ HM); [|exact id|exact HT]. intros l. now left.
  - assert (TY' : exists t, o = CustomWordTokenizer t sh).
    { unfold make_custom in HM. destruct (make_trie ws); [|discriminate]. injection HM as <-. eauto. }
    destruct TY' as (t & Eo). subst o. destruct x as [s|l]; [|discriminate].
    destruct ws as [ws|]; [|discriminate].
    destruct (munched_exists sh ws s) as (ps & HP).
    apply (tokenizes_sound E _ s _ y a (custom_tokenizes E ws sh _ s ps OC HM HP)); [discriminate|exact HT].
  - destruct x as [s|l]; [discriminate|]. apply (null_sound E (PureNum2Token tok) (purenum_newv E tok)); auto.
    + intros x v. apply purenum_one.
    + intros l'. now left.
  - destruct x as [s|l]; [discriminate|].
    destruct (Z.ltb_spec m 0) as [L|L]; [rewrite pad_negative in HT by exact L; discriminate|].
    assert (HL : (Z.of_nat (length l) < 2 ^ 32)%Z \/ Z.of_nat (length l) = m).
    { destruct (Z.ltb_spec (Z.of_nat (length l)) (2 ^ 32)) as [Q|Q]; [now left|].
      destruct (Z.eq_dec (Z.of_nat (length l)) m) as [R|R]; [now right|].
      rewrite pad_too_long in HT by assumption. discriminate. }
    apply (maps_sound' _ _ (SLst l) _ _ _ _ _ _ _ (pad_maps E m tok l OE L HL)); [|exact id|exact HT]. intros; now left.
  - destruct x as [s'|l]; [discriminate|]. destruct l as [|x0 l].
    + now apply soseos_empty.
    + destruct (Z.ltb_spec (Z.of_nat (length (x0 :: l))) (2 ^ 32)) as [Q|Q].
      * apply (maps_sound' _ _ (SLst (x0 :: l)) _ _ _ _ _ _ _ (soseos_maps E s e (x0 :: l) OE ltac:(discriminate) Q)); [|exact id|exact HT]. intros; now left.
      * rewrite soseos_too_long in HT by exact Q. discriminate.
  - assert (o = AddEndToken t) as -> by (destruct t; inversion HM; reflexivity).
    destruct x as [s|l]; [discriminate|].
    destruct (Z.ltb_spec (Z.of_nat (length l)) (2 ^ 32)) as [Q|Q].
    + apply (maps_sound' _ _ (SLst l) _ _ _ _ _ _ _ (end_maps E t l OE Q)); [|exact id|exact HT]. intros; now left.
    + rewrite end_too_long in HT by exact Q. discriminate.
  - destruct x as [s|l]; [discriminate|]. now apply subwords_sound.
  - assert (o = Token2Index d u) as ->.
    { unfold make_token2index in HM. destruct (validate_continuity d); [|discriminate]. cbn [bind] in HM.
      destruct (guard _ KeyErr); [|discriminate]. now injection HM. }
    destruct x as [s|l]; [discriminate|]. apply (null_sound E (Token2Index d u) (index_newv d u)); auto.
    + intros x v. apply index_one.
    + intros l'. now left.
  - assert (o = Token2IndexwithHash d) as ->.
    { unfold make_hash in HM. destruct (validate_continuity d); [|discriminate]. now injection HM. }
    destruct x as [s|l]; [discriminate|]. apply (null_sound E (Token2IndexwithHash d) (hash_newv d)); auto.
    + intros x v. apply hash_one.
    + intros l'. now left.
Qed.
