(** Which outputs an operator can give (C107): proofs. *)

From Coq Require Import String.
From Verif Require Import Py PyFacts Edit Labels SpecEdit SpecLabels SpecSeg SpecRuns SpecWords SpecScan SpecHash SpecOps Ops Json SpecJson Elements Pipe SpecPipe SpecLaws
  RegexProofs PatternProofs RunsProofs SegProofs OpProofs StrOpProofs ListOpProofs HashProofs TokProofs OpLaws AlignProofs LawsTok LawsProofs LawsText PipeProofs BertProofs
  AcceptProofs SpecReadBack ReadBackProofs SpecSettle SpecOutcome.
From Coq Require Import List ZArith Lia.
Import ListNotations.

(** ** Texts *)

Lemma text_forms E o (f : str -> str) (P : str -> Prop) : input_type o = TStr ->
  (forall s, turns E o (SStr s) (SStr (f s))) -> (forall s, P (f s)) -> (forall s, P s -> f s = s) ->
  results E o (a_text P) /\ leaves E o (a_text P).
Proof.
  intros I T F1 F2. split; intros y; split.
  - intros (x & X). destruct (turns_str _ _ _ _ I X) as (s & ->). rewrite (turns_fun _ _ _ _ _ X (T s)). exists (f s). auto.
  - intros (s & -> & HP). exists (SStr s). rewrite <- (F2 s HP) at 2. apply T.
  - intros X. destruct (turns_str _ _ _ _ I X) as (s & ->). pose proof (turns_fun _ _ _ _ _ X (T s)) as Q. injection Q as Q.
    exists s. split; [reflexivity|]. rewrite Q. apply F1.
  - intros (s & -> & HP). rewrite <- (F2 s HP) at 2. apply T.
Qed.

Lemma capital_between c : ascii_capital c = ((65 <=? c) && (c <=? 90))%Z.
Proof. reflexivity. Qed.

Lemma lowercase_forms E : ord_ok (ord_c E) ->
  results E Lowercase (a_text (without ascii_capital)) /\ leaves E Lowercase (a_text (without ascii_capital)).
Proof.
  intros O. apply (text_forms E Lowercase (map lower)); [reflexivity| | |].
  - intros s. eapply maps_turns. now apply lowercase_maps.
  - intros s c Hc. apply in_map_iff in Hc as (d & <- & _). unfold lower. rewrite capital_between.
    destruct (ascii_capital d) eqn:Q; rewrite capital_between in Q; [|exact Q].
    apply andb_prop in Q as [Q1 Q2]. apply Z.leb_le in Q1, Q2. apply Bool.andb_false_iff. right. apply Z.leb_gt. lia.
  - intros s H. rewrite <- (map_id s) at 2. apply map_ext_in. intros c Hc. unfold lower. now rewrite (H c Hc).
Qed.

Lemma in_infix (A : Type) (x : A) (ls : list (list A)) l : In l ls -> exists a b, concat ls = a ++ l ++ b.
Proof.
  intros H. apply in_split in H as (l1 & l2 & ->). exists (concat l1), (concat l2). rewrite concat_app. cbn [concat]. reflexivity.
Qed.

Lemma merge_forms E : ord_ok (ord_c E) -> is_space E 32 = true ->
  results E MergeWhiteSpaceCharacters (a_text (single_blanks E)) /\ leaves E MergeWhiteSpaceCharacters (a_text (single_blanks E)).
Proof.
  intros O SP. apply (text_forms E MergeWhiteSpaceCharacters (fun s => news (seg_runs (is_space E) (fun _ => Some blank) s))); [reflexivity| | |].
  - intros s. eapply maps_turns. apply (merge_rewrites E s O).
  - intros s i c N SC. split.
    + apply nth_error_In in N. rewrite seg_runs_news in N. apply in_concat in N as (w & W & IC). apply in_map_iff in W as ([b r] & <- & HI).
      pose proof (runs_flags (is_space E) s) as F. rewrite Forall_forall in F. specialize (F _ HI). cbn [fst snd] in *.
      destruct b; [destruct IC as [<-|[]]; reflexivity|]. rewrite (F c IC) in SC. discriminate.
    + intros d N2. destruct (is_space E d) eqn:SD; [|reflexivity]. exfalso.
      exact (merged_no_adjacent (is_space E) 32%Z s SP i c d N N2 SC SD).
  - intros s H. rewrite seg_runs_news. rewrite <- (RegexProofs.runs_concat (is_space E) s) at 2. f_equal. apply map_ext_in.
    intros [[|] r] HI; [|reflexivity]. cbn [fst snd].
    pose proof (runs_flags (is_space E) s) as F. rewrite Forall_forall in F. specialize (F _ HI). cbn [fst snd] in F.
    assert (HR : In r (map snd (runs (is_space E) s))) by (change r with (snd (true, r)); now apply in_map).
    destruct (in_infix _ 0%Z _ _ HR) as (a & b & Q). rewrite RegexProofs.runs_concat in Q.
    assert (NR : r <> []).
    { pose proof (runs_wf (is_space E) s) as W. clear -W HI. induction (runs (is_space E) s) as [|[b' r'] rs IH]; [destruct HI|].
      destruct W as (W1 & _ & _ & W4). destruct HI as [[= -> ->]|HI]; [exact W1|now apply IH]. }
    destruct r as [|c [|d r]]; [congruence| |].
    + destruct (H (length a) c) as [-> _]; [|apply F; now left|reflexivity]. rewrite Q, nth_error_app2 by lia. now rewrite Nat.sub_diag.
    + exfalso. destruct (H (length a) c) as [_ N]; [|apply F; now left|].
      * rewrite Q, nth_error_app2 by lia. now rewrite Nat.sub_diag.
      * specialize (F d ltac:(right; now left)). rewrite (N d) in F; [discriminate|].
        rewrite Q, nth_error_app2 by lia. now replace (S (length a) - length a) with 1 by lia.
Qed.

Lemma strip_forms E : ord_ok (ord_c E) ->
  results E StripWhiteSpaceCharacters (a_text (trimmed E)) /\ leaves E StripWhiteSpaceCharacters (a_text (trimmed E)).
Proof.
  intros O. apply (text_forms E StripWhiteSpaceCharacters (strip (is_space E))); [reflexivity| | |].
  - intros s. eapply maps_turns. apply (strip_maps E s O).
  - intros s. destruct (strip_split (is_space E) s) as (w1 & w2 & _ & _ & _ & _ & H1 & H2). split.
    + intros c t Q. apply H1. now rewrite Q.
    + intros c t Q. apply H2. rewrite Q, rev_app_distr. reflexivity.
  - intros s (H1 & H2). rewrite <- (app_nil_r s) at 1. change (s ++ []) with ([] ++ s ++ []). apply strip_unique; try constructor.
    + intros c N. destruct s as [|d t]; [discriminate|]. injection N as ->. now apply (H1 c t).
    + intros c N. destruct (rev s) as [|d t] eqn:Q; [discriminate|]. injection N as ->. apply (H2 c (rev t)).
      rewrite <- (rev_involutive s), Q. reflexivity.
Qed.

Lemma endpoint_forms E : ord_ok (ord_c E) -> is_pcat E 32 = false ->
  results E PunctuationExceptEndpointToWhitespace (a_text (without (endless_punct E))) /\
  leaves E PunctuationExceptEndpointToWhitespace (a_text (without (endless_punct E))).
Proof.
  intros O SP. apply (text_forms E PunctuationExceptEndpointToWhitespace (map (fun c => if endless_punct E c then 32%Z else c))); [reflexivity| | |].
  - intros s. eapply maps_turns. apply (endpoint_maps E s O).
  - intros s c Hc. apply in_map_iff in Hc as (d & <- & _). destruct (endless_punct E d) eqn:Q; [|exact Q].
    unfold endless_punct, punctuation. rewrite SP. reflexivity.
  - intros s H. rewrite <- (map_id s) at 2. apply map_ext_in. intros c Hc. now rewrite (H c Hc).
Qed.

Lemma number_forms_by E o (choice : str -> bool) tok h k : input_type o = TStr ->
  tok <> [] -> (forall c, In c tok -> point c || digit E c = false) ->
  (forall s, rewrites E o s (seg_runs (fun c => point c || digit E c) (fun r => if choice r then Some tok else None) s) h k) ->
  results E o (a_text (no_number E choice)) /\ leaves E o (a_text (no_number E choice)).
Proof.
  intros I NT NC R. apply (text_forms E o (fun s => news (seg_runs (fun c => point c || digit E c) (fun r => if choice r then Some tok else None) s))); [exact I| | |].
  - intros s. eapply maps_turns. apply (R s).
  - intros s r Hr. pose proof (number_left E choice tok s NT NC) as F. rewrite Forall_forall in F. now apply F.
  - intros s H. apply seg_runs_id. rewrite Forall_forall. intros r Hr. now rewrite (H r Hr).
Qed.

Lemma letters_not_numbers E tok : token_letters E -> (forall c, In c tok -> In c (txt " _int_float_num_")) ->
  (forall c, In c tok -> point c = false) -> forall c, In c tok -> point c || digit E c = false.
Proof.
  intros T H P c Hc. rewrite (P c Hc). cbn [orb]. pose proof (T c (H c Hc)) as D. unfold digit. rewrite D.
  specialize (H c Hc). clear -H. cbn in H. repeat (destruct H as [<-|H]; [reflexivity|]). destruct H.
Qed.

Lemma number_forms E o number : ord_ok (ord_c E) -> token_letters E -> In (o, number) (number_ops E) ->
  results E o (a_text (no_number E number)) /\ leaves E o (a_text (no_number E number)).
Proof.
  intros O T HI. unfold number_ops in HI. cbn [In] in HI.
  assert (L : forall tok, In tok (map txt [" _int_ "; " _num_ "; "_int_"; "_float_"; " _float_ "]%string) -> forall c, In c tok -> point c || digit E c = false).
  { intros tok Ht. apply (letters_not_numbers E tok T); intros c Hc;
    repeat (destruct Ht as [<-|Ht]; [cbn in Hc |- *; intuition (subst; reflexivity)|]); destruct Ht. }
  destruct HI as [[= <- <-]|[[= <- <-]|[[= <- <-]|[[= <- <-]|[[= <- <-]|[]]]]]].
  - apply (number_forms_by E IntToken _ (txt "_int_") by_mode by_entity_mode); [reflexivity|discriminate|apply L; cbn; tauto|intros t; now apply int_rewrites].
  - apply (number_forms_by E IntTokenWithSpace _ (txt " _int_ ") (around by_mode) by_entity_mode); [reflexivity|discriminate|apply L; cbn; tauto|intros t; now apply int_space_rewrites].
  - apply (number_forms_by E NumTokenWithSpace _ (txt " _num_ ") (around by_mode) by_entity_mode); [reflexivity|discriminate|apply L; cbn; tauto|intros t; now apply num_space_rewrites].
  - apply (number_forms_by E FloatToken _ (txt "_float_") by_mode by_entity_mode); [reflexivity|discriminate|apply L; cbn; tauto|intros t; now apply float_rewrites].
  - apply (number_forms_by E FloatTokenWithSpace _ (txt " _float_ ") (around by_mode) by_entity_mode); [reflexivity|discriminate|apply L; cbn; tauto|intros t; now apply float_space_rewrites].
Qed.

(** ** Stopwords *)

Lemma stop_news_cons w b ps : news (stop_spaced ((w, b) :: ps)) = (if b then blank else w) ++ news (stop_spaced ps).
Proof. destruct b; reflexivity. Qed.

Lemma stop_prefix ws s ps : munched false ws s ps -> forall w r, ~ In 32%Z w -> news (stop_spaced ps) = w ++ r -> exists r', s = w ++ r'.
Proof.
  induction 1 as [|v rest ps B M IH|c rest ps N M IH]; intros w r NB Q.
  - destruct w as [|d w]; [exists []; reflexivity|discriminate].
  - rewrite stop_news_cons in Q. destruct w as [|d w]; [now exists (v ++ rest)|]. cbn in Q. injection Q as <- _. exfalso. apply NB. now left.
  - rewrite stop_news_cons in Q. destruct w as [|d w]; [now exists (c :: rest)|]. cbn in Q. injection Q as <- Q.
    destruct (IH w r) as (r' & ->); [intros K; apply NB; now right|exact Q|]. now exists r'.
Qed.

Lemma stop_none ws s ps : munched false ws s ps -> forall w, In w ws -> w <> [] -> ~ In 32%Z w -> ~ occurs w (news (stop_spaced ps)).
Proof.
  intros M. pose proof M as M0. induction M as [|v rest ps B M IH|c rest ps N M IH]; intros w HW NW NB (a & b & Q).
  - destruct a, w; try discriminate. congruence.
  - rewrite stop_news_cons in Q. destruct a as [|d a].
    + destruct w as [|d w]; [congruence|]. cbn in Q. injection Q as <- _. apply NB. now left.
    + cbn in Q. injection Q as _ Q. apply (IH M w HW NW NB). now exists a, b.
  - destruct a as [|d a].
    + destruct (stop_prefix _ _ _ M0 w b NB Q) as (r & R). apply (N w HW NW). exists r. exact R.
    + rewrite stop_news_cons in Q. cbn in Q. injection Q as _ Q. apply (IH M w HW NW NB). now exists a, b.
Qed.

Lemma stop_same ws s ps : munched false ws s ps -> without_words ws s -> news (stop_spaced ps) = s.
Proof.
  induction 1 as [|v rest ps B M IH|c rest ps N M IH]; intros H.
  - reflexivity.
  - exfalso. destruct B as (HV & _). apply (H v HV). exists [], rest. reflexivity.
  - rewrite stop_news_cons. cbn. f_equal. apply IH. intros w HW (a & b & Q). apply (H w HW). exists (c :: a), b. cbn. now rewrite Q.
Qed.

Lemma stopwords_plain w : In w stopword_set -> w <> [] /\ ~ In 32%Z w.
Proof.
  assert (Q : forallb (fun w => negb (eqb w []) && forallb (fun c => negb (c =? 32)%Z) w) stopword_set = true) by (vm_compute; reflexivity).
  rewrite forallb_forall in Q. intros H. specialize (Q w H). apply andb_prop in Q as [Q1 Q2]. split.
  - intros ->. discriminate.
  - intros K. rewrite forallb_forall in Q2. specialize (Q2 _ K). discriminate.
Qed.

Lemma stopword_forms E : ord_ok (ord_c E) ->
  results E StopwordsToWhitespace (a_text (without_words stopword_set)) /\ leaves E StopwordsToWhitespace (a_text (without_words stopword_set)).
Proof.
  intros O. assert (T : forall s, exists ps, munched false stopword_set s ps /\ turns E StopwordsToWhitespace (SStr s) (SStr (news (stop_spaced ps)))).
  { intros s. destruct (stop_rewrites E s O) as (ps & M & _ & R). exists ps. split; [exact M|]. eapply maps_turns. exact R. }
  assert (I : input_type StopwordsToWhitespace = TStr) by reflexivity.
  assert (F : forall s ps, munched false stopword_set s ps -> without_words stopword_set (news (stop_spaced ps))).
  { intros s ps M w HW. destruct (stopwords_plain w HW). now apply (stop_none stopword_set s). }
  split; intros y; split.
  - intros (x & X). destruct (turns_str _ _ _ _ I X) as (s & ->). destruct (T s) as (ps & M & R). rewrite (turns_fun _ _ _ _ _ X R).
    eexists. split; [reflexivity|]. now apply (F s).
  - intros (s & -> & HP). destruct (T s) as (ps & M & R). rewrite (stop_same _ _ _ M HP) in R. eauto.
  - intros X. destruct (turns_str _ _ _ _ I X) as (s & ->). destruct (T s) as (ps & M & R).
    pose proof (turns_fun _ _ _ _ _ X R) as Q. injection Q as Q. exists s. split; [reflexivity|]. rewrite Q. now apply (F s).
  - intros (s & -> & HP). destruct (T s) as (ps & M & R). now rewrite (stop_same _ _ _ M HP) in R.
Qed.

(** ** Spacers *)

Definition put (p : Z -> bool) (s : str) : str := flat_map (fun c => if p c then [32; c; 32]%Z else [c]) s.

Lemma put_head p s d : p 32%Z = false -> nth_error (put p s) 0 = Some d -> p d = false.
Proof. intros B. destruct s as [|c s]; [discriminate|]. cbn. destruct (p c) eqn:Q; cbn; intros [= <-]; auto. Qed.

Lemma put_own p s : p 32%Z = false -> own_blanks p (put p s).
Proof.
  intros B. induction s as [|c s IH]; [intros [|i] d; discriminate|]. intros i d N C.
  unfold put in N |- *. cbn [flat_map] in N |- *. fold (put p s) in N |- *. destruct (p c) eqn:Q; cbn [app] in N |- *.
  - destruct i as [|[|[|i]]]; cbn [nth_error] in N |- *.
    + injection N as <-. congruence.
    + injection N as <-. split; [now exists 0|]. split; [reflexivity|]. intros e He. now apply (put_head p s).
    + injection N as <-. congruence.
    + destruct (IH i d N C) as ((j & -> & NJ) & N1 & N2). split; [|split; [exact N1|exact N2]]. now exists (S (S (S j))).
  - destruct i as [|i]; cbn [nth_error] in N |- *; [injection N as <-; congruence|].
    destruct (IH i d N C) as ((j & -> & NJ) & N1 & N2). split; [now exists (S j)|]. split; [exact N1|exact N2].
Qed.

Lemma own_put p : p 32%Z = false -> forall n y, length y <= n -> own_blanks p y -> exists s, y = put p s.
Proof.
  intros B. induction n as [|n IH]; intros y L H; [destruct y; [now exists []|cbn in L; lia]|].
  destruct y as [|a t]; [now exists []|].
  assert (PA : p a = false).
  { destruct (p a) eqn:Q; [|reflexivity]. destruct (H 0 a eq_refl Q) as ((j & J & _) & _). discriminate. }
  assert (D : (exists c u, t = c :: u /\ p c = true) \/ forall d, nth_error t 0 = Some d -> p d = false).
  { destruct t as [|c u]; [right; discriminate|]. destruct (p c) eqn:Q; [left; eauto|right; intros d [= <-]; exact Q]. }
  destruct D as [(c & u & -> & PC)|D].
  - destruct (H 1 c eq_refl PC) as ((j & J & NJ) & N1 & N2). injection J as <-. cbn in NJ, N1. injection NJ as ->.
    destruct u as [|b v]; [discriminate|]. injection N1 as ->.
    destruct (IH v) as (s & ->); [cbn in L; lia| |].
    + intros i d N PD. destruct (H (S (S (S i))) d N PD) as ((j & J & NJ) & M1 & M2). injection J as <-.
      split; [|split; [exact M1|exact M2]]. destruct i as [|i]; [|exists i; split; [reflexivity|exact NJ]].
      rewrite (N2 d N) in PD. discriminate.
    + exists (c :: s). unfold put. cbn [flat_map]. now rewrite PC.
  - destruct (IH t) as (s & ->); [cbn in L; lia| |].
    + intros i d N PD. destruct (H (S i) d N PD) as ((j & J & NJ) & M1 & M2). injection J as <-.
      split; [|split; [exact M1|exact M2]]. destruct i as [|i]; [rewrite (D d N) in PD; discriminate|exists i; split; [reflexivity|exact NJ]].
    + exists (a :: s). unfold put. cbn [flat_map]. now rewrite PA.
Qed.

Lemma spaced_put p s : news (spaced p s) = put p s.
Proof.
  unfold news, spaced, put. induction s as [|c s IH]; [reflexivity|]. cbn [map flat_map concat]. destruct (p c); cbn; rewrite <- IH; reflexivity.
Qed.

Lemma spacer_forms E o p : ord_ok (ord_c E) -> is_pcat E 32 = false -> In (o, p) (spacer_ops E) ->
  results E o (a_text (own_blanks p)) /\ leaves E o (a_text (without p)).
Proof.
  intros O SP HI. assert (I : input_type o = TStr) by (destruct HI as [[= <- <-]|[[= <- <-]|[]]]; reflexivity).
  assert (B : p 32%Z = false).
  { destruct HI as [[= <- <-]|[[= <- <-]|[]]]; [reflexivity|]. unfold punctuation. rewrite SP. reflexivity. }
  assert (T : forall s, turns E o (SStr s) (SStr (put p s))).
  { intros s. rewrite <- spaced_put. destruct HI as [[= <- <-]|[[= <- <-]|[]]]; eapply maps_turns; [apply (cjk_rewrites E s O)|apply (punct_rewrites E s O)]. }
  split; intros y; split.
  - intros (x & X). destruct (turns_str _ _ _ _ I X) as (s & ->). rewrite (turns_fun _ _ _ _ _ X (T s)). eexists. split; [reflexivity|]. now apply put_own.
  - intros (s & -> & H). destruct (own_put p B _ s (le_n _) H) as (s' & ->). exists (SStr s'). apply T.
  - intros X. destruct (turns_str _ _ _ _ I X) as (s & ->). pose proof (turns_fun _ _ _ _ _ X (T s)) as Q. injection Q as Q.
    exists s. split; [reflexivity|]. clear -Q. assert (G : forall u, length u <= length (put p u) /\ (length u = length (put p u) -> without p u)).
    { induction u as [|c u (IH1 & IH2)]; [split; [apply le_n|intros _ c []]|]. unfold put in *. cbn [flat_map]. destruct (p c) eqn:PC; cbn [app length].
      - split; [lia|intros; lia].
      - split; [lia|]. intros L d [<-|Hd]; [exact PC|]. apply IH2; [lia|exact Hd]. }
    apply (G s). now rewrite <- Q.
  - intros (s & -> & H). replace (SStr s) with (SStr (put p s)) at 2; [apply T|]. f_equal.
    induction s as [|c s IH]; [reflexivity|]. unfold put. cbn [flat_map]. rewrite (H c) by now left. cbn [app]. f_equal. apply IH. intros d Hd. apply H. now right.
Qed.
