(** Where exactly texts may be cut, and the pipes of pipeline/bert (C97). *)

From Coq Require Import String Ascii Bool.
From Verif Require Import Py PyFacts Edit Labels SpecEdit SpecLabels SpecSeg SpecRuns SpecWords SpecOps SpecElements SpecBert Ops Json Elements Pipe BertRef SpecTrip SpecLaws RegexProofs PatternProofs RunsProofs SegProofs OpProofs StrOpProofs WordProofs TokProofs ListOpProofs OpLaws LawsTok LawsProofs LawsText LawsCommute AlignProofs SettleDatum TripProofs SpecGlue GlueProofs.
From Coq Require Import List Lia.

(** ** Exactly *)

Lemma glue_str s t : glue (SStr s) (SStr t) = SStr (s ++ t).
Proof. reflexivity. Qed.

Lemma does_output E o x y F G y0 a : does E o x y F G -> transform_op E o x = Ok (y0, a) -> y0 = y.
Proof. intros (b & T & _) Q. rewrite T in Q. now injection Q. Qed.

Lemma does_same E o s t y1 y2 y F1 G1 F2 G2 F G :
  does E o (SStr s) y1 F1 G1 -> does E o (SStr t) y2 F2 G2 -> does E o (SStr (s ++ t)) y F G ->
  (same_output E o s t <-> y = glue y1 y2).
Proof.
  intros D1 D2 D. split.
  - intros (z1 & a1 & z2 & a2 & a & T1 & T2 & T). apply (does_output _ _ _ _ _ _ _ _ D1) in T1.
    apply (does_output _ _ _ _ _ _ _ _ D2) in T2. apply (does_output _ _ _ _ _ _ _ _ D) in T. now subst.
  - intros ->. destruct D1 as (a1 & T1 & _), D2 as (a2 & T2 & _), D as (a & T & _). exists y1, a1, y2, a2, a. auto.
Qed.

Lemma news_runs_cons p c s : news (seg_runs p (fun _ => Some blank) (c :: s)) =
  (if p c then match s with d :: _ => if p d then [] else blank | [] => blank end else [c]) ++
  news (seg_runs p (fun _ => Some blank) s).
Proof.
  unfold seg_runs. cbn [runs]. pose proof (runs_hd_flag p s) as H.
  destruct s as [|d s]; [cbn; destruct (p c); reflexivity|].
  destruct (runs p (d :: s)) as [|[b r] rs] eqn:R.
  { pose proof (RegexProofs.runs_concat p (d :: s)) as Q. rewrite R in Q. discriminate. }
  rewrite H in *. destruct (p c), (p d); reflexivity.
Qed.

Lemma merge_meet p s c d t : p c = true -> p d = true ->
  (length (news (seg_runs p (fun _ => Some blank) ((s ++ [c]) ++ d :: t))) + 1 =
   length (news (seg_runs p (fun _ => Some blank) (s ++ [c]))) + length (news (seg_runs p (fun _ => Some blank) (d :: t))))%nat.
Proof.
  intros HC HD. induction s as [|x s IH].
  - cbn [app]. rewrite (news_runs_cons p c (d :: t)), HC, HD. cbn [app]. unfold seg_runs at 2. cbn. rewrite HC. cbn. lia.
  - cbn [app]. rewrite (news_runs_cons p x ((s ++ [c]) ++ d :: t)), (news_runs_cons p x (s ++ [c])).
    rewrite !app_length. destruct s as [|y s]; cbn [app] in *; lia.
Qed.

Theorem merge_exactly E s t : python E -> (same_output E MergeWhiteSpaceCharacters s t <-> ~ meet (is_space E) s t).
Proof.
  intros PY. pose proof PY as (HO & _). split.
  - intros H (s' & c & d & t' & -> & -> & HC & HD).
    pose proof (proj2 (merge_rewrites E (s' ++ [c]) HO)) as M1. pose proof (proj2 (merge_rewrites E (d :: t') HO)) as M2.
    pose proof (proj2 (merge_rewrites E ((s' ++ [c]) ++ d :: t') HO)) as M3. apply does_maps in M1, M2, M3.
    apply (does_same _ _ _ _ _ _ _ _ _ _ _ _ _ M1 M2 M3) in H. cbn [glue] in H. injection H as H.
    apply (f_equal (@length Z)) in H. rewrite app_length in H. pose proof (merge_meet (is_space E) s' c d t' HC HD). lia.
  - intros H. pose proof (merge_glued E s t PY H) as G.
    destruct (merge_rewrites E s HO) as (_ & a1 & T1 & _). destruct (merge_rewrites E t HO) as (_ & a2 & T2 & _).
    destruct (G _ _ _ _ T1 T2) as (_ & _ & a & T & _). repeat eexists; eauto.
Qed.

Theorem strip_exactly E s t : python E -> (same_output E StripWhiteSpaceCharacters s t <->
  Forall (fun c => is_space E c = true) s \/ Forall (fun c => is_space E c = true) t \/
  meet (fun c => negb (is_space E c)) s t).
Proof.
  intros PY. destruct (trimmed_exists (is_space E) s) as (w1 & m & w2 & T1).
  destruct (trimmed_exists (is_space E) t) as (u1 & n & u2 & T2).
  pose proof (does_strip E _ _ _ _ PY T1) as D1. pose proof (does_strip E _ _ _ _ PY T2) as D2. split.
  - intros H. destruct m as [|c0 m].
    { left. destruct T1 as (ES & A1 & _ & A0 & _). rewrite ES, (A0 eq_refl), app_nil_r. exact A1. }
    destruct n as [|d0 n].
    { right; left. destruct T2 as (ET & B1 & _ & B0 & _). rewrite ET, (B0 eq_refl), app_nil_r. exact B1. }
    right; right. assert (T3 : trimmed (is_space E) (s ++ t) w1 ((c0 :: m) ++ w2 ++ u1 ++ d0 :: n) u2).
    { destruct T1 as (ES & A1 & A2 & A0 & A3 & A4). destruct T2 as (ET & B1 & B2 & B0 & B3 & B4).
      split; [rewrite ES, ET; now rewrite <- !app_assoc|]. repeat split; auto; [discriminate|].
      intros x Q. apply B4. rewrite !app_assoc, rev_app_distr in Q.
      destruct (rev (d0 :: n)) as [|y r] eqn:R; [apply (f_equal (@length Z)) in R; rewrite rev_length in R; discriminate|].
      cbn [app nth_error] in *. exact Q. }
    pose proof (does_strip E _ _ _ _ PY T3) as D3. apply (does_same _ _ _ _ _ _ _ _ _ _ _ _ _ D1 D2 D3) in H.
    cbn [glue] in H. injection H as H. apply app_inv_head in H.
    assert (w2 = [] /\ u1 = []) as (-> & ->).
    { apply (f_equal (@length Z)) in H. rewrite !app_length in H. destruct w2, u1; cbn in H; try lia. auto. }
    destruct T1 as (ES & _ & _ & _ & _ & A4). destruct T2 as (ET & _ & _ & _ & B3 & _).
    rewrite app_nil_r in ES. cbn [app] in ET.
    destruct (@exists_last _ (c0 :: m) ltac:(discriminate)) as (m' & c & EM). rewrite EM in *.
    exists (w1 ++ m'), c, d0, (n ++ u2). split; [now rewrite ES, app_assoc|]. split; [exact ET|].
    rewrite (A4 c), (B3 d0); [auto|reflexivity|]. now rewrite rev_app_distr.
  - intros H. destruct D1 as (a1 & X1 & _). destruct D2 as (a2 & X2 & _).
    destruct (strip_glued E s t PY H _ _ _ _ X1 X2) as (_ & _ & a & T & _). repeat eexists; eauto.
Qed.

Lemma tk_nonempty {A} (k : A -> kind) s : forall v w, v <> [] -> w <> [] -> length (tk k v s) = length (tk k w s).
Proof.
  induction s as [|c s IH]; intros v w NV NW; [destruct v, w; try congruence; reflexivity|].
  cbn [tk]. destruct (k c); [|destruct v, w; try congruence; reflexivity..|].
  - destruct v, w; try congruence; reflexivity.
  - apply IH; [now destruct v|now destruct w].
Qed.

Lemma tk_meet (k : Z -> kind) s : forall cur c d t, k c = Word -> k d = Word ->
  (length (tk k cur ((s ++ [c]) ++ d :: t)) + 1 = length (tk k cur (s ++ [c])) + length (tk k [] (d :: t)))%nat.
Proof.
  induction s as [|x s IH]; intros cur c d t HC HD.
  - cbn [app tk]. rewrite HC, HD. cbn [app]. rewrite (tk_nonempty k t ((cur ++ [c]) ++ [d]) [d]); [|now destruct cur|discriminate].
    rewrite flush_app. cbn [length]. lia.
  - remember (d :: t) as dt eqn:DT. cbn [app tk]. subst dt. destruct (k x).
    + rewrite !app_length. specialize (IH [] c d t HC HD). lia.
    + rewrite !app_length. cbn [length]. specialize (IH [] c d t HC HD). lia.
    + now apply IH.
Qed.

Theorem tokens_exactly E o k s t : python E ->
  In (o, k) [(WhiteSpaceTokenizer, by_space E); (EngTokenizer, by_punct E); (ZhCharTokenizer, by_punct_cjk E)] ->
  (same_output E o s t <-> ~ meet (wordy k) s t).
Proof.
  intros PY HI. pose proof (kinds_cut E o k PY HI) as HC.
  pose proof (does_cut E o k s (HC s)) as D1. pose proof (does_cut E o k t (HC t)) as D2. split.
  - intros H (s' & c & d & t' & -> & -> & KC & KD).
    pose proof (does_cut E o k ((s' ++ [c]) ++ d :: t') (HC _)) as D3.
    apply (does_same _ _ _ _ _ _ _ _ _ _ _ _ _ D1 D2 D3) in H. cbn [glue] in H.
    apply (f_equal pseq_length) in H. cbn [pseq_length] in H. rewrite app_length, !map_length in H.
    assert (K : forall x, wordy k x = true -> k x = Word) by (intros x; unfold wordy; destruct (k x); congruence).
    pose proof (tk_meet k s' [] c d t' (K c KC) (K d KD)). lia.
  - intros H. destruct D1 as (a1 & T1 & _). destruct D2 as (a2 & T2 & _).
    destruct (cut_glued E o k s t HC H _ _ _ _ T1 T2) as (_ & _ & a & T & _). repeat eexists; eauto.
Qed.

(** ** The pipes of pipeline/bert *)

Lemma accents_fit_parts E f s t : accents_fit E f (s ++ t) -> accents_fit E f s /\ accents_fit E f t.
Proof.
  intros (H1 & H2). rewrite map_app in *.
  split; (split; [intros u HU; apply H1|intros c HC; apply H2]).
  - intros x HX. specialize (HU x HX). cbn [In] in *. rewrite in_app_iff. tauto.
  - cbn [In] in *. rewrite in_app_iff. tauto.
  - intros x HX. specialize (HU x HX). cbn [In] in *. rewrite in_app_iff. tauto.
  - cbn [In] in *. rewrite in_app_iff. tauto.
Qed.

Lemma tok_inj (a b : list str) : map ETok a = map ETok b -> a = b.
Proof. revert b. induction a as [|x a IH]; intros [|y b] H; try discriminate; [reflexivity|]. injection H as -> H. f_equal. now apply IH. Qed.

Lemma gather_len (outs : list (list elem)) : forall l, length (gather outs l) = length outs.
Proof. induction outs as [|o outs IH]; intros l; [reflexivity|]. cbn [gather length]. now rewrite IH. Qed.

Lemma repeat_each_len (outs : list (list elem)) : forall l, length l = length outs -> length (repeat_each outs l) = length (concat outs).
Proof.
  unfold repeat_each. induction outs as [|o outs IH]; intros [|x l] H; try discriminate; [reflexivity|].
  cbn [combine map concat fst snd]. rewrite !app_length, repeat_length, IH; [reflexivity|]. now injection H.
Qed.

Theorem basic_glued E f s t p : python E -> letters E -> accents_fit E f (s ++ t) -> basic_pipe E = Ok p ->
  ~ meet (wordy (by_punct_cjk E)) s t -> glued_pipe E p (SStr s) (SStr t).
Proof.
  intros PY HL HA HP HM y1 als1 c1 y2 als2 c2 R1 R2. destruct (accents_fit_parts _ _ _ _ HA) as (HA1 & HA2).
  destruct (basic_labels E PY HL f s p HA1 HP) as (ts1 & a1 & b1 & d1 & T1 & U1 & L1).
  destruct (basic_labels E PY HL f t p HA2 HP) as (ts2 & a2 & b2 & d2 & T2 & U2 & L2).
  destruct (basic_labels E PY HL f (s ++ t) p HA HP) as (ts & a & b & d & T & U & L).
  rewrite U1 in R1. injection R1 as <- <- <-. rewrite U2 in R2. injection R2 as <- <- <-.
  assert (SM : seam E ZhCharTokenizer (SStr s) (SStr t)) by (eapply (seam_tokens E _ (by_punct_cjk E)); [cbn; tauto|exact HM]).
  destruct (seam_glued E _ _ _ PY SM _ _ _ _ T1 T2) as (a' & T' & G). cbn [glue] in T'. rewrite T in T'.
  injection T' as Q <-. rewrite <- map_app in Q. apply tok_inj in Q. subst ts. rewrite !map_app in U.
  exists b, d. split; [exact U|]. intros l1 l2. cbn [pseq_length] in *. rewrite !map_length in *.
  split; intros H1 H2.
  - rewrite (proj1 (L _)), (proj1 (L1 _)), (proj1 (L2 _)). now apply G.
  - rewrite (proj2 (L _)), (proj2 (L1 _)), (proj2 (L2 _)). now apply G.
Qed.

Lemma pieces_glued E o k v u n g s t p : python E ->
  In (o, k) [(WhiteSpaceTokenizer, by_space E); (EngTokenizer, by_punct E); (ZhCharTokenizer, by_punct_cjk E)] ->
  (forall w, In w [s; t; s ++ t] -> exists ts a outs als coll, transform_op E o (SStr w) = Ok (SLst (map ETok ts), a) /\
    Forall2 (subwords v u n) (map g ts) outs /\
    transform_sequence E p (SStr w) = Ok (SLst (concat outs), als, coll) /\ then_pieces E a outs als) ->
  ~ meet (wordy k) s t -> glued_pipe E p (SStr s) (SStr t).
Proof.
  intros PY HI H HM y1 als1 c1 y2 als2 c2 R1 R2.
  destruct (H s) as (ts1 & a1 & o1 & b1 & d1 & T1 & S1 & U1 & L1); [cbn; tauto|].
  destruct (H t) as (ts2 & a2 & o2 & b2 & d2 & T2 & S2 & U2 & L2); [cbn; tauto|].
  destruct (H (s ++ t)) as (ts & a & o3 & b & d & T & S3 & U & L); [cbn; tauto|]. clear H.
  rewrite U1 in R1. injection R1 as <- <- <-. rewrite U2 in R2. injection R2 as <- <- <-.
  assert (SM : seam E o (SStr s) (SStr t)) by (eapply (seam_tokens E o k); [exact HI|exact HM]).
  destruct (seam_glued2 E _ _ _ PY SM _ _ _ _ T1 T2) as ((C1 & C1') & (C2 & C2') & a' & T' & G). cbn [glue] in T'. rewrite T in T'.
  injection T' as Q <-. rewrite <- map_app in Q. apply tok_inj in Q. subst ts. rewrite map_app in S3.
  pose proof (Forall2_fun _ (subwords_fun v u n) _ _ _ S3 (Forall2_app S1 S2)) as ->. rewrite concat_app in U.
  pose proof (Forall2_len _ _ _ S1) as N1. pose proof (Forall2_len _ _ _ S2) as N2. rewrite map_length in N1, N2.
  exists b, d. split; [exact U|]. intros l1 l2. cbn [pseq_length] in *. rewrite !map_length in *.
  split; intros H1 H2.
  - rewrite (proj1 (L _)), (proj1 (L1 _)), (proj1 (L2 _)). rewrite (proj1 (G l1 l2) H1 H2).
    destruct (C1 l1 H1) as (m1 & -> & M1). destruct (C2 l2 H2) as (m2 & -> & M2). cbn [both bind]. f_equal.
    apply repeat_two. lia.
  - rewrite (proj2 (L _)), (proj2 (L1 _)), (proj2 (L2 _)). rewrite concat_app, !app_length, H1, H2, !Nat.eqb_refl.
    rewrite gather_two by exact H1. apply G; rewrite gather_len; lia.
Qed.

Theorem full_glued E f s t p : python E -> letters E -> accents_fit E f (s ++ t) -> full_pipe E = Ok p ->
  ~ meet (wordy (by_punct_cjk E)) s t -> glued_pipe E p (SStr s) (SStr t).
Proof.
  intros PY HL HA HP. destruct (accents_fit_parts _ _ _ _ HA) as (HA1 & HA2).
  eapply (pieces_glued E ZhCharTokenizer); [exact PY|cbn; tauto|].
  intros w [<-|[<-|[<-|[]]]]; apply (full_labels E PY HL f _ p); assumption.
Qed.

Theorem word_piece_glued E s t p : python E -> word_piece_pipe E = Ok p -> ~ meet (wordy (by_space E)) s t ->
  glued_pipe E p (SStr s) (SStr t).
Proof.
  intros PY HP. eapply (pieces_glued E WhiteSpaceTokenizer _ _ _ _ (fun x => x)); [exact PY|cbn; tauto|].
  intros w HW. destruct (word_piece_labels E PY w p HP) as (ts & a & outs & als & coll & Q).
  exists ts, a, outs, als, coll. now rewrite map_id.
Qed.
