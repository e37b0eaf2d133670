(** Which outputs the operators with word lists and vocabularies can give (C110): proofs. *)

From Coq Require Import String.
From Coq Require Import Permutation.
From Verif Require Import Py PyFacts Edit Labels SpecEdit SpecLabels SpecSeg SpecRuns SpecWords SpecScan SpecHash SpecOps Ops Json SpecJson Elements Pipe SpecPipe SpecLaws
  RunsProofs SegProofs OpProofs StrOpProofs ListOpProofs HashProofs TokProofs OpLaws AlignProofs LawsTok LawsProofs LawsText PipeProofs BertProofs
  WordProofs TrieProofs SpecAccept AcceptProofs SpecReadBack ReadBackProofs SpecOutcome OutcomeProofs OutcomeList LengthProofs SpecBert SpecCuts.
From Coq Require Import List ZArith Lia.
Import ListNotations.
Import SpecWords SpecCuts.

(** ** Word lists *)

Lemma best_cut_nil sh ws : best_cut sh ws [].
Proof. intros [|x a] t b Q; discriminate. Qed.

Lemma best_cut_cons sh ws t ts : best_cut sh ws (t :: ts) <->
  (best_word sh ws (t ++ concat ts) t \/ (length t = 1 /\ no_word ws (t ++ concat ts))) /\ best_cut sh ws ts.
Proof.
  split.
  - intros H. split; [exact (H [] t ts eq_refl)|]. intros a u b ->. exact (H (t :: a) u b eq_refl).
  - intros [A B] [|x a] u b Q; injection Q as -> ->; [exact A|exact (B a u b eq_refl)].
Qed.

Lemma munched_cut sh ws s ps : munched sh ws s ps -> best_cut sh ws (map fst ps) /\ concat (map fst ps) = s.
Proof.
  induction 1 as [|w rest ps B _ [IH IC]|c rest ps N _ [IH IC]]; cbn [map fst concat].
  - split; [apply best_cut_nil|reflexivity].
  - split; [|now rewrite IC]. apply best_cut_cons. rewrite IC. auto.
  - split; [|now rewrite IC]. apply best_cut_cons. rewrite IC. split; [right; split; [reflexivity|exact N]|exact IH].
Qed.

Lemma cut_munched sh ws ts : best_cut sh ws ts -> exists ps, munched sh ws (concat ts) ps /\ map fst ps = ts.
Proof.
  induction ts as [|t ts IH]; intros H.
  - exists []. split; [constructor|reflexivity].
  - apply best_cut_cons in H. destruct H as [D H]. destruct (IH H) as (ps & M & Q). cbn [concat].
    destruct D as [B|[L N]].
    + exists ((t, true) :: ps). split; [now constructor|]. cbn. now rewrite Q.
    + destruct t as [|c [|d t]]; try discriminate. exists (([c], false) :: ps). split; [now apply munch_char|].
      cbn. now rewrite Q.
Qed.

Lemma kept_all ts : tokens_of (all_kept ts) = ts.
Proof. unfold tokens_of, all_kept. induction ts as [|t ts IH]; [reflexivity|]. cbn. now rewrite IH. Qed.

(** C110 *)
Theorem custom_cuts E ws sh o x y : ord_ok (ord_c E) -> make_custom (Some ws) sh = Ok o ->
  (turns E o x y <-> exists ts, y = SLst (map ETok ts) /\ x = SStr (concat ts) /\ best_cut sh ws ts).
Proof.
  intros O M. split.
  - intros X. destruct (made_custom _ _ _ M) as (ws' & tr & [= <-] & ->).
    destruct (turns_str E (CustomWordTokenizer tr sh) _ _ eq_refl X) as (s & ->).
    destruct (munched_exists sh ws s) as (ps & HP). destruct (custom_tokenizes E ws sh _ s ps O M HP) as (_ & a & T & _).
    rewrite (turns_fun _ _ _ _ _ X (ex_intro _ a T)). rewrite kept_all. exists (map fst ps).
    destruct (munched_cut _ _ _ _ HP) as [C Q]. rewrite Q. auto.
  - intros (ts & -> & -> & C). destruct (cut_munched _ _ _ C) as (ps & HP & Q).
    destruct (custom_tokenizes E ws sh _ _ ps O M HP) as (_ & a & T & _). rewrite kept_all, Q in T. now exists a.
Qed.

Theorem custom_results E ws sh o : ord_ok (ord_c E) -> make_custom (Some ws) sh = Ok o ->
  results E o (a_list (fun l => exists ts, l = map ETok ts /\ best_cut sh ws ts)).
Proof.
  intros O M y. split.
  - intros (x & X). apply (custom_cuts E ws sh o x y O M) in X. destruct X as (ts & -> & _ & C). eexists. split; eauto.
  - intros (l & -> & ts & -> & C). exists (SStr (concat ts)). apply (custom_cuts E ws sh o _ _ O M). eauto.
Qed.

Lemma munched_frames sh ws s ps : munched sh ws s ps ->
  exists us, Forall2 (framed_token ws) (map fst ps) us /\ news (word_spaced ps) = concat us.
Proof.
  assert (F : forall t b us ps, (b = true <-> In t ws) ->
    Forall2 (framed_token ws) (map fst ps) us -> news (word_spaced ps) = concat us ->
    exists us', Forall2 (framed_token ws) (t :: map fst ps) us' /\ news (word_spaced ((t, b) :: ps)) = concat us').
  { intros t b us ps0 HB A B. unfold word_spaced in *. cbn [map fst snd news].
    destruct (b || forallb cjk t) eqn:Q.
    - exists ((txt " " ++ t ++ txt " ") :: us). split.
      + constructor; [|exact A]. left. split; [|reflexivity]. apply orb_true_iff in Q. destruct Q as [Q|Q].
        * left. now apply HB.
        * right. now apply forallb_forall.
      + cbn [concat]. rewrite <- B. reflexivity.
    - exists (t :: us). split.
      + constructor; [|exact A]. right. apply orb_false_iff in Q. destruct Q as [Q1 Q2]. split; [|split; [|reflexivity]].
        * intros I. apply HB in I. congruence.
        * clear -Q2. induction t as [|c t IH]; [discriminate|]. cbn [forallb] in Q2. apply andb_false_iff in Q2.
          destruct (cjk c) eqn:K; [|exists c; split; [now left|exact K]].
          destruct Q2 as [Q2|Q2]; [congruence|]. destruct (IH Q2) as (d & I & D). exists d. split; [now right|exact D].
      + cbn [concat]. rewrite <- B. reflexivity. }
  induction 1 as [|w rest ps B _ (us & IA & IB)|c rest ps N _ (us & IA & IB)]; cbn [map fst].
  - exists []. split; [constructor|reflexivity].
  - apply (F w true us ps); auto. split; [intros _|reflexivity]. destruct sh; apply B.
  - apply (F [c] false us ps); auto. split; [discriminate|]. intros I. exfalso.
    apply (N [c] I); [discriminate|]. now exists rest.
Qed.

Lemma framed_fun ws t u u' : framed_token ws t u -> framed_token ws t u' -> u = u'.
Proof.
  intros [(D & ->)|(N & (c & I & K) & ->)] [(D' & ->)|(N' & (c' & I' & K') & ->)]; try reflexivity; exfalso.
  - destruct D as [D|D]; [contradiction|]. rewrite (D c' I') in K'. discriminate.
  - destruct D' as [D|D]; [contradiction|]. rewrite (D c I) in K. discriminate.
Qed.

Theorem wordn_cuts E ws sh o x y : ord_ok (ord_c E) -> make_wordn (Some ws) sh = Ok o ->
  (turns E o x y <-> exists ts us, y = SStr (concat us) /\ x = SStr (concat ts) /\ best_cut sh ws ts /\
     Forall2 (framed_token ws) ts us).
Proof.
  intros O M. split.
  - intros X. destruct (made_wordn _ _ _ M) as (ws' & tr & [= <-] & HO).
    assert (IT : input_type o = TStr) by now subst.
    destruct (turns_str E o _ _ IT X) as (s & ->).
    destruct (munched_exists sh ws s) as (ps & HP). pose proof (rewrites_turns _ _ _ _ _ _ (wordn_ok E ws sh o s ps O M HP)) as T.
    rewrite (turns_fun _ _ _ _ _ X T). destruct (munched_frames _ _ _ _ HP) as (us & F & ->).
    destruct (munched_cut _ _ _ _ HP) as [C Q]. exists (map fst ps), us. rewrite Q. auto.
  - intros (ts & us & -> & -> & C & F). destruct (cut_munched _ _ _ C) as (ps & HP & Q).
    pose proof (rewrites_turns _ _ _ _ _ _ (wordn_ok E ws sh o _ ps O M HP)) as T.
    destruct (munched_frames _ _ _ _ HP) as (us' & F' & QN). rewrite QN in T. rewrite Q in F'.
    assert (us = us') as ->; [|exact T]. clear -F F'. revert us' F'. induction F as [|t u ts us A _ IH]; intros us' F'.
    + now inversion F'.
    + inversion F' as [|? u' ? us2 A' F2]; subst. rewrite (framed_fun _ _ _ _ A A'). f_equal. auto.
Qed.

Theorem wordn_results E ws sh o : ord_ok (ord_c E) -> make_wordn (Some ws) sh = Ok o ->
  results E o (a_text (fun s => exists ts us, s = concat us /\ best_cut sh ws ts /\ Forall2 (framed_token ws) ts us)).
Proof.
  intros O M y. split.
  - intros (x & X). apply (wordn_cuts E ws sh o x y O M) in X. destruct X as (ts & us & -> & _ & C & F). eexists. split; eauto.
  - intros (s & -> & ts & us & -> & C & F). exists (SStr (concat ts)). apply (wordn_cuts E ws sh o _ _ O M). eauto 6.
Qed.

(** ** Vocabularies *)

(** the parts after some that were taken before, [first] if there were none *)
Definition parts_from (vocab : list str) (first : bool) (ws : list str) : Prop :=
  forall a w b, ws = a ++ w :: b ->
  w <> [] /\ In (marked (first && begins a) w) vocab /\
  forall w', is_prefix w' (w ++ concat b) -> In (marked (first && begins a) w') vocab -> length w' <= length w.

Lemma parts_from_cons vocab first w ws : parts_from vocab first (w :: ws) <->
  (w <> [] /\ In (marked first w) vocab /\
   forall w', is_prefix w' (w ++ concat ws) -> In (marked first w') vocab -> length w' <= length w) /\
  parts_from vocab false ws.
Proof.
  split.
  - intros H. split.
    + pose proof (H [] w ws eq_refl) as Q. cbn [begins] in Q. now rewrite andb_true_r in Q.
    + intros a u b ->. pose proof (H (w :: a) u b eq_refl) as Q. cbn [begins] in Q. now rewrite andb_false_r in Q.
  - intros [A B] [|x a] u b Q; injection Q as -> ->; cbn [begins].
    + now rewrite andb_true_r.
    + rewrite andb_false_r. exact (B a u b eq_refl).
Qed.

Definition written_from (first : bool) (ws : list str) : list str :=
  match ws with [] => [] | w :: ws => marked first w :: map (marked false) ws end.

Lemma splits_parts vocab first t ps : splits vocab first t ps <->
  exists ws, t = concat ws /\ ps = written_from first ws /\ parts_from vocab first ws.
Proof.
  split.
  - induction 1 as [first|first w rest ps N I L _ (ws & -> & -> & P)].
    + exists []. split; [reflexivity|]. split; [reflexivity|]. intros [|x a] w b Q; discriminate.
    + exists (w :: ws). split; [reflexivity|]. split.
      * cbn [written_from]. f_equal. destruct ws; reflexivity.
      * apply parts_from_cons. split; [|exact P]. split; [exact N|]. split; [exact I|].
        intros w' (t & Q) I'. exact (L w' t Q I').
  - intros (ws & -> & -> & P). revert first P. induction ws as [|w ws IH]; intros first P; [constructor|].
    apply parts_from_cons in P. destruct P as [(N & I & L) P]. cbn [concat written_from].
    replace (map (marked false) ws) with (written_from false ws) by (destruct ws; reflexivity).
    constructor; auto. intros w' rest' Q I'. apply L; [now exists rest'|exact I'].
Qed.

Lemma splits_longest vocab t ps : splits vocab true t ps <->
  exists ws, t = concat ws /\ ps = with_marks ws /\ longest_parts vocab ws.
Proof. exact (splits_parts vocab true t ps). Qed.

Lemma subwords_inputs E v u m x y : ord_ok (ord_e E) -> turns E (SpanSubwords v u m) x y ->
  exists ts, x = SLst (map ETok ts).
Proof.
  intros O X. destruct (turns_lst E (SpanSubwords v u m) _ _ eq_refl X) as (l & ->).
  assert (D : (exists ts, l = map ETok ts) \/ exists l1 i l2, l = map ETok l1 ++ EIdx i :: l2).
  { clear X. induction l as [|e l IH]; [left; now exists []|]. destruct e as [t|i]; [|right; now exists [], i, l].
    destruct IH as [(ts & ->)|(l1 & i & l2 & ->)]; [left; now exists (t :: ts)|right; now exists (t :: l1), i, l2]. }
  destruct D as [(ts & ->)|(l1 & i & l2 & ->)]; [eauto|exfalso]. destruct X as (a & X).
  rewrite (elements_refuse E (SpanSubwords v u m) (subwords_newv v u m) eq_refl) with (e := TypeErr) in X; [discriminate|..].
  - intros l. right. do 2 eexists. reflexivity.
  - intros z. now apply (subwords_one_of E).
  - intros z e' I R. apply in_map_iff in I. destruct I as (t & <- & _). inversion R.
  - constructor.
Qed.

(** some token is too long *)
Lemma too_long v u m : exists t, subwords v u m t [u].
Proof.
  exists (repeat 97%Z (S (Z.to_nat m))). right. split; [left|reflexivity]. rewrite repeat_length. lia.
Qed.

Theorem subwords_results E v u m : ord_ok (ord_e E) ->
  results E (SpanSubwords v u m) (a_list (fun l => exists gs, l = concat gs /\ forall g, In g gs -> share v u m g)).
Proof.
  intros O y. split.
  - intros (x & X). destruct (subwords_inputs E v u m x y O X) as (ts & ->). destruct X as (a & X).
    destruct (subwords_pieces E v u m ts y a O X) as (outs & F & ->). eexists. split; [reflexivity|].
    exists outs. split; [reflexivity|]. clear X. induction F as [|t g ts gs S _ IH]; intros g' I; [destruct I|].
    destruct I as [<-|I]; [|now apply IH]. destruct S as [(L & ps & S & ->)|(_ & ->)]; [right|now left].
    apply splits_longest in S. destruct S as (ws & -> & -> & S). eauto.
  - intros (l & -> & gs & -> & H).
    assert (exists ts, Forall2 (subwords v u m) ts gs) as (ts & F).
    { induction gs as [|g gs IH]; [exists []; constructor|]. destruct IH as (ts & F); [intros g' I; apply H; now right|].
      destruct (H g (or_introl eq_refl)) as [-> |(ws & L & S & ->)].
      - destruct (too_long v u m) as (t & T). exists (t :: ts). now constructor.
      - exists (concat ws :: ts). constructor; [|exact F]. left. split; [exact L|]. eexists. split; [|reflexivity].
        apply splits_longest. eauto. }
    exists (SLst (map ETok ts)). destruct (subwords_run E v u m ts O) as (outs & a & F' & T). exists a. rewrite T.
    assert (outs = gs) as ->; [|reflexivity]. clear -F F'. revert outs F'. induction F as [|t g ts gs S _ IH]; intros outs F'.
    + now inversion F'.
    + inversion F' as [|? g' ? gs2 S' F2]; subst. rewrite (subwords_det _ _ _ _ _ _ S S'). f_equal. auto.
Qed.

Lemma marks_in v ws : longest_parts v ws -> forall t, In t (with_marks ws) -> In t v /\ t <> [].
Proof.
  intros H t I. destruct ws as [|w ws]; [destruct I|]. destruct I as [<-|I].
  - destruct (H [] w ws eq_refl) as (N & I & _). now split.
  - apply in_map_iff in I. destruct I as (u & <- & I). apply in_split in I. destruct I as (a & b & ->).
    destruct (H (w :: a) u b eq_refl) as (N & I & _). split; [exact I|discriminate].
Qed.

Lemma one_part v t : In t v -> t <> [] -> longest_parts v [t].
Proof.
  intros I N [|x a] w b Q; [|destruct a; discriminate]. injection Q as <- <-. cbn [begins marked concat].
  split; [exact N|]. split; [exact I|]. intros w' (r & Q) _. rewrite app_nil_r in Q. rewrite Q, app_length. lia.
Qed.

Theorem vocabulary_only E v u m x l : ord_ok (ord_e E) -> turns E (SpanSubwords v u m) x (SLst l) -> in_vocabulary v u l.
Proof.
  intros O X. destruct (proj1 (subwords_results E v u m O (SLst l)) (ex_intro _ x X)) as (l' & [= <-] & gs & -> & H).
  intros e I. apply in_concat in I. destruct I as (g & Ig & Ie). destruct (H g Ig) as [-> |(ws & _ & S & ->)].
  - destruct Ie as [<-|[]]. now left.
  - right. apply in_map_iff in Ie. destruct Ie as (t & <- & It). exists t. split; [reflexivity|]. exact (marks_in v ws S t It).
Qed.

Lemma vocabulary_shares v u m l : (forall t, In t v -> (Z.of_nat (length t) <= m)%Z) -> in_vocabulary v u l ->
  exists gs, l = concat gs /\ forall g, In g gs -> share v u m g.
Proof.
  intros L H. exists (map (fun e => [e]) l). split.
  - clear. induction l as [|e l IH]; [reflexivity|]. cbn. now rewrite <- IH.
  - intros g I. apply in_map_iff in I. destruct I as (e & <- & I). destruct (H e I) as [-> |(t & -> & It & N)]; [now left|].
    right. exists [t]. cbn [concat with_marks map]. rewrite app_nil_r. split; [now apply L|]. split; [now apply one_part|reflexivity].
Qed.

Theorem vocabulary_results E v u m : ord_ok (ord_e E) -> (forall t, In t v -> (Z.of_nat (length t) <= m)%Z) ->
  results E (SpanSubwords v u m) (a_list (in_vocabulary v u)).
Proof.
  intros O L y. split.
  - intros (x & X). destruct (proj1 (subwords_results E v u m O y) (ex_intro _ x X)) as (l & -> & _).
    exists l. split; [reflexivity|]. exact (vocabulary_only E v u m x l O X).
  - intros (l & -> & H). apply (subwords_results E v u m O). exists l. split; [reflexivity|]. now apply vocabulary_shares.
Qed.
