(** The pipes of pipeline/bert: which tokens come out. *)

From Coq Require Import String.
From Verif Require Import Py PyFacts Edit Labels SpecEdit SpecLabels SpecSeg SpecRuns SpecScan Ops SpecOps SegProofs
  RunsProofs StrOpProofs ListOpProofs TokProofs OpLaws Json SpecJson Elements Pipe SpecPipe PipeProofs.
From Coq Require Import List.
Local Open Scope nat_scope.

(** ** The steps *)

Definition bare (n : string) (o : op) : opobj := mkObj (lit n) [] o.
Definition basic_steps : list opobj :=
  [bare "Lowercase" Lowercase; bare "AddWhitespaceAroundCJK" AddWhitespaceAroundCJK;
   bare "AddWhitespaceAroundPunctuation" AddWhitespaceAroundPunctuation;
   bare "MergeWhiteSpaceCharacters" MergeWhiteSpaceCharacters;
   bare "StripWhiteSpaceCharacters" StripWhiteSpaceCharacters;
   bare "StripAccentToken" StripAccentToken; bare "WhiteSpaceTokenizer" WhiteSpaceTokenizer].

Lemma basic_is E : basic_pipe E = Ok (mkPipe basic_steps []).
Proof. reflexivity. Qed.

Definition subwords_obj (v : list string) : opobj :=
  mkObj (lit "SpanSubwords") (subwords_kwargs v) (SpanSubwords (map lit v) (ETok (txt "[UNK]")) 200).
Lemma full_is E : full_pipe E = Ok (mkPipe (basic_steps ++ [subwords_obj full_vocab]) []).
Proof. reflexivity. Qed.
Lemma word_piece_is E : word_piece_pipe E =
  Ok (mkPipe [bare "WhiteSpaceTokenizer" WhiteSpaceTokenizer; subwords_obj word_piece_vocab] []).
Proof. reflexivity. Qed.

(** ** Words and tokens *)

Lemma runs_cut E s :
  cut_by (by_space E) s =
  map (fun br : bool * str => (snd br, if fst br then Gap else Word)) (runs (is_space E) s).
Proof.
  induction s as [|c s IH]; [reflexivity|]. rewrite cut_by_eq, IH. cbn [runs]. unfold by_space.
  destruct (runs (is_space E) s) as [|[b r] rs]; cbn [map fst snd]; destruct (is_space E c); try reflexivity;
    destruct b; reflexivity.
Qed.

Lemma words_toks E s : words (is_space E) s = toks (by_space E) s.
Proof.
  unfold words, toks. rewrite runs_cut. unfold tokens_of, kept. rewrite map_map. cbn [fst snd].
  induction (runs (is_space E) s) as [|[[] r] rs IH]; cbn; auto. now rewrite <- IH.
Qed.

Lemma joined_toks E ts : is_space E 32%Z = true ->
  (forall t, In t ts -> t <> [] /\ forall c, In c t -> is_space E c = false) ->
  toks (by_space E) (joined blank ts) = ts.
Proof.
  intros HS H. rewrite <- py_split_toks. rewrite <- (split_join E ts HS H) at 2. f_equal.
  clear. induction ts as [|t [|u ts] IH]; [reflexivity|reflexivity|].
  change (join_space (t :: u :: ts)) with (t ++ SPACE :: join_space (u :: ts)). now rewrite <- IH.
Qed.

(** Gaps put around single characters. *)
Section spread.
  Context (k k' : Z -> kind) (D : Z -> str).
  Context (HG : forall c, k' c = Gap -> D c <> [] /\ forall x, In x (D c) -> k x = Gap).
  Context (HS : forall c, k' c = Single -> exists g h, D c = g ++ c :: h /\ g <> [] /\ h <> [] /\
    (forall x, In x g -> k x = Gap) /\ (forall x, In x h -> k x = Gap) /\ k c = Word).
  Context (HW : forall c, k' c = Word -> D c = [c] /\ k c = Word).

  Lemma toks_gaps g s : (forall x, In x g -> k x = Gap) -> toks k (g ++ s) = toks k s.
  Proof.
    induction g as [|x g IH]; intros H; [reflexivity|]. cbn [app].
    rewrite toks_gap by (apply H; now left). apply IH. intros y Hy. apply H. now right.
  Qed.

  Lemma spread_toks s :
    toks k (concat (map D s)) = toks k' s /\
    forall w, glue k w (concat (map D s)) = glue k' w s.
  Proof.
    induction s as [|c s [IH1 IH2]]; [split; reflexivity|]. cbn [map concat].
    destruct (k' c) eqn:EK.
    - destruct (HG c EK) as [HN HA].
      assert (T : toks k (D c ++ concat (map D s)) = toks k' (c :: s)).
      { rewrite toks_gaps by exact HA. rewrite toks_gap by exact EK. exact IH1. }
      split; [exact T|]. intros w. rewrite (glue_other k') by congruence. rewrite <- T.
      destruct (D c) as [|x t] eqn:ED; [congruence|]. cbn [app]. apply glue_other.
      rewrite HA by now left. discriminate.
    - destruct (HS c EK) as (g & h & HD & Ng & Nh & Ag & Ah & HC).
      assert (T : toks k (D c ++ concat (map D s)) = toks k' (c :: s)).
      { rewrite HD, <- app_assoc. rewrite toks_gaps by exact Ag. cbn [app].
        rewrite toks_word by exact HC. destruct h as [|x h]; [congruence|]. cbn [app].
        rewrite glue_other by (rewrite Ah by (now left); discriminate).
        rewrite (toks_gaps (x :: h) _ Ah : toks k (x :: h ++ _) = _).
        rewrite toks_single by exact EK. now rewrite IH1. }
      split; [exact T|]. intros w. rewrite (glue_other k') by congruence. rewrite <- T.
      rewrite HD. destruct g as [|x t]; [congruence|]. cbn [app]. apply glue_other.
      rewrite Ag by now left. discriminate.
    - destruct (HW c EK) as [HD HC]. rewrite HD. cbn [app].
      rewrite toks_word by exact HC. rewrite (toks_word k') by exact EK. split; [apply IH2|].
      intros w. rewrite glue_word by exact HC. rewrite (glue_word k') by exact EK. apply IH2.
  Qed.
End spread.

Definition spaced1 (p : Z -> bool) (c : Z) : str := if p c then blank ++ [c] ++ blank else [c].
Lemma spaced_news p s : news (spaced p s) = concat (map (spaced1 p) s).
Proof.
  unfold news, spaced, spaced1. rewrite map_map. f_equal. apply map_ext. intros c.
  unfold new_of. cbn [fst snd]. now destruct (p c).
Qed.

Lemma spaced1_In p c x : In x (spaced1 p c) -> x = 32%Z \/ x = c.
Proof. unfold spaced1. change blank with [32%Z]. destruct (p c); cbn [app In]; intuition congruence. Qed.

Lemma spaced_twice E s : is_space E 32%Z = true ->
  toks (by_space E) (news (spaced (punctuation E) (news (spaced cjk s)))) = toks (by_punct_cjk E) s.
Proof.
  intros HS. rewrite !spaced_news.
  set (P := spaced1 (punctuation E)).
  assert (EQ : concat (map P (concat (map (spaced1 cjk) s))) =
               concat (map (fun c => concat (map P (spaced1 cjk c))) s)).
  { clear. induction s as [|c s IH]; [reflexivity|]. cbn [map concat].
    rewrite map_app, concat_app. now rewrite IH. }
  rewrite EQ.
  assert (PS : forall x, In x (P 32%Z) -> by_space E x = Gap).
  { intros x Hx. apply spaced1_In in Hx. unfold by_space. destruct Hx as [->| ->]; now rewrite HS. }
  assert (PN : P 32%Z <> []) by (unfold P, spaced1; destruct (punctuation E 32); discriminate).
  assert (G32 : by_space E 32 = Gap) by (unfold by_space; now rewrite HS).
  apply (spread_toks (by_space E) (by_punct_cjk E) (fun c => concat (map P (spaced1 cjk c)))).
  - intros c HK. unfold by_punct_cjk in HK.
    destruct (is_space E c) eqn:EC; [|destruct (_ || _); discriminate].
    assert (PC : forall x, In x (P c) -> by_space E x = Gap).
    { intros x Hx. apply spaced1_In in Hx. unfold by_space. destruct Hx as [->| ->]; now rewrite ?HS, ?EC. }
    assert (NC : P c <> []) by (unfold P, spaced1; destruct (punctuation E c); discriminate).
    unfold spaced1. destruct (cjk c); cbn [blank app map concat].
    + change blank with [32%Z]. cbn [app map concat]. split.
      * destruct (P 32%Z); [congruence|discriminate].
      * intros x Hx. rewrite !in_app_iff in Hx. cbn [In] in Hx. intuition.
    + rewrite app_nil_r. auto.
  - intros c HK. unfold by_punct_cjk in HK.
    destruct (is_space E c) eqn:EC; [discriminate|].
    assert (BW : by_space E c = Word) by (unfold by_space; now rewrite EC).
    destruct (punctuation E c) eqn:EP, (cjk c) eqn:EJ; cbn [orb] in HK; try discriminate.
    + exists (P 32%Z ++ blank), (blank ++ P 32%Z). unfold spaced1. rewrite EJ. change blank with [32%Z]. cbn [app map concat].
      split; [unfold P, spaced1 at 2; rewrite EP; change blank with [32%Z]; cbn [app]; rewrite <- app_assoc, app_nil_r; reflexivity|].
      split; [destruct (P 32%Z); discriminate|]. split; [discriminate|].
      split; [intros x Hx; rewrite in_app_iff in Hx; cbn [In] in Hx; intuition; now subst|].
      split; [|exact BW]. intros x Hx. cbn [In] in Hx. intuition. now subst.
    + exists blank, blank. unfold spaced1 at 1. rewrite EJ. cbn [map concat].
      split; [unfold P, spaced1; rewrite EP; rewrite app_nil_r; reflexivity|].
      split; [discriminate|]. split; [discriminate|].
      split; [intros x [<-|[]]; exact G32|]. split; [intros x [<-|[]]; exact G32|exact BW].
    + exists (P 32%Z), (P 32%Z). unfold spaced1. rewrite EJ. change blank with [32%Z]. cbn [app map concat].
      split; [unfold P at 2, spaced1; rewrite EP; rewrite app_nil_r; reflexivity|].
      auto.
  - intros c HK. unfold by_punct_cjk in HK. destruct (is_space E c) eqn:EC; [discriminate|].
    destruct (punctuation E c) eqn:EP, (cjk c) eqn:EJ; cbn [orb] in HK; try discriminate.
    unfold spaced1. rewrite EJ. cbn [map concat]. unfold P, spaced1. rewrite EP.
    split; [reflexivity|]. unfold by_space. now rewrite EC.
Qed.

(** ** Running *)

Lemma clean E s t : In t (toks (by_punct_cjk E) s) ->
  t <> [] /\ (forall c, In c t -> is_space E c = false).
Proof.
  intros H. split; [now apply toks_nonempty in H|]. intros c HC.
  destruct (toks_chars _ _ _ _ H HC) as [HK _]. unfold by_punct_cjk in HK.
  destruct (is_space E c); congruence.
Qed.

Lemma run_first E n o ops x y a : transform_op E o x = Ok (y, a) ->
  run E (bare n o :: ops) x = ('(z, als, coll) <- run E ops y ;; Ok (z, a :: als, x :: coll)).
Proof. intros H. cbn [run o_op bare]. now rewrite H. Qed.

(** before accents are stripped *)
Lemma basic_front E s : python E ->
  exists als coll, run E (firstn 5 basic_steps) (SStr s) =
    Ok (SStr (joined blank (toks (by_punct_cjk E) (map lower s))), als, coll).
Proof.
  intros (OC & OE & SP). unfold basic_steps. cbn [firstn].
  destruct (lowercase_maps E s OC) as (a1 & T1 & _).
  rewrite (run_first _ _ _ _ _ _ _ T1).
  destruct (cjk_rewrites E (map lower s) OC) as (_ & a2 & T2 & _).
  rewrite (run_first _ _ _ _ _ _ _ T2).
  destruct (punct_rewrites E (news (spaced cjk (map lower s))) OC) as (_ & a3 & T3 & _).
  rewrite (run_first _ _ _ _ _ _ _ T3).
  destruct (merge_rewrites E (news (spaced (punctuation E) (news (spaced cjk (map lower s))))) OC) as (_ & a4 & T4 & _).
  rewrite (run_first _ _ _ _ _ _ _ T4).
  destruct (merge_then_strip E _ _ _ OC SP T4) as (a5 & T5).
  rewrite (run_first _ _ _ _ _ _ _ T5). cbn [run bind].
  rewrite words_toks, (spaced_twice E (map lower s) SP). eexists. eexists. reflexivity.
Qed.

Lemma basic_split : basic_steps = firstn 5 basic_steps ++ skipn 5 basic_steps.
Proof. reflexivity. Qed.

(** C53 *)
Theorem basic_tokens E p s ps qs : python E -> basic_pipe E = Ok p ->
  cut (by_punct_cjk E) (map lower s) ps ->
  let u := joined blank (tokens_of (kept ps)) in
  cut (by_space E) (stripped E u) qs ->
  (length (stripped E u) = length u ->
   exists als coll, transform_sequence E p (SStr s) = Ok (SLst (map ETok (tokens_of (kept qs))), als, coll)) /\
  (length (stripped E u) <> length u -> transform_sequence E p (SStr s) = Err AssertionErr).
Proof.
  intros PY HB HC u HQ. assert (PY' := PY). destruct PY as (OC & OE & SP).
  rewrite basic_is in HB. injection HB as <-. unfold transform_sequence. cbn [steps].
  rewrite basic_split, run_app.
  assert (EU : u = joined blank (toks (by_punct_cjk E) (map lower s))).
  { unfold u, toks. apply cut_unique in HC. now rewrite <- HC. }
  destruct (basic_front E s PY') as (als & coll & HF). rewrite HF, <- EU. cbn [bind].
  destruct (accent_maps E u OC) as [A1 A2].
  unfold basic_steps. cbn [skipn]. split; intros HL.
  - destruct (A1 HL) as (a6 & T6 & _). rewrite (run_first _ _ _ _ _ _ _ T6).
    destruct (ws_tokenizes E (stripped E u) qs OC HQ) as (_ & a7 & T7 & _).
    rewrite (run_first _ _ _ _ _ _ _ T7). cbn [run bind]. eexists. eexists. reflexivity.
  - cbn [run o_op bare]. now rewrite (A2 HL).
Qed.

(** every token is non-empty and free of whitespace; if stripping the accents changes nothing
    they are the pieces of the lowered text, without capitals, punctuation and Chinese
    characters on their own *)
Lemma space_clean E s ps t : cut (by_space E) s ps -> In t (tokens_of (kept ps)) ->
  t <> [] /\ (forall c, In c t -> is_space E c = false).
Proof.
  intros HC. apply cut_unique in HC. rewrite HC. fold (toks (by_space E) s). intros H.
  split; [now apply toks_nonempty in H|]. intros c Hc. destruct (toks_chars _ _ _ _ H Hc) as [HK _].
  unfold by_space in HK. destruct (is_space E c); congruence.
Qed.

Lemma lower_small c : ascii_capital (lower c) = false.
Proof.
  unfold lower. destruct (ascii_capital c) eqn:H; [|exact H].
  unfold ascii_capital, SpecOps.between in *. cbn in *.
  apply andb_true_iff in H. destruct H as [H1 H2]. apply Z.leb_le in H1, H2.
  apply andb_false_iff. right. apply Z.leb_gt. lia.
Qed.

Lemma single_alone k s ps t c : cut k s ps -> In t (tokens_of (kept ps)) -> In c t -> k c = Single -> t = [c].
Proof.
  intros (_ & F & _) HT HC HK. unfold tokens_of, kept in HT. apply in_map_iff in HT.
  destruct HT as ([w b] & EW & HT). cbn in EW. subst w. apply filter_In in HT.
  destruct HT as (HT & Hb). cbn in Hb. subst b. apply in_map_iff in HT.
  destruct HT as ([w d] & EW & HT). cbn in EW. injection EW as -> ED.
  rewrite Forall_forall in F. destruct (F _ HT) as (_ & F2 & F3). cbn in F2, F3.
  rewrite (F2 c HC) in HK. specialize (F3 HK). destruct t as [|x [|]]; try discriminate.
  destruct HC as [->|[]]. reflexivity.
Qed.

Theorem basic_clean E p s y als coll : python E -> basic_pipe E = Ok p ->
  transform_sequence E p (SStr s) = Ok (y, als, coll) ->
  exists ts, y = SLst (map ETok ts) /\
    forall t, In t ts -> t <> [] /\ (forall c, In c t -> is_space E c = false).
Proof.
  intros PY HB HT.
  pose proof (cut_by_cut (by_punct_cjk E) (map lower s)) as HC.
  pose proof (cut_by_cut (by_space E) (stripped E (joined blank (tokens_of (kept (cut_by (by_punct_cjk E) (map lower s))))))) as HQ.
  destruct (basic_tokens E p s _ _ PY HB HC HQ) as [R1 R2].
  destruct (Nat.eq_dec (length (stripped E (joined blank (tokens_of (kept (cut_by (by_punct_cjk E) (map lower s)))))))
     (length (joined blank (tokens_of (kept (cut_by (by_punct_cjk E) (map lower s))))))) as [L|L].
  - destruct (R1 L) as (als' & coll' & HR). rewrite HR in HT. injection HT as <- _ _.
    eexists. split; [reflexivity|]. intros t Ht. exact (space_clean E _ _ t HQ Ht).
  - rewrite (R2 L) in HT. discriminate.
Qed.

Theorem basic_plain E p s ps : python E -> basic_pipe E = Ok p ->
  cut (by_punct_cjk E) (map lower s) ps ->
  let ts := tokens_of (kept ps) in
  stripped E (joined blank ts) = joined blank ts ->
  (exists als coll, transform_sequence E p (SStr s) = Ok (SLst (map ETok ts), als, coll)) /\
  forall t c, In t ts -> In c t ->
    ascii_capital c = false /\ (punctuation E c || cjk c = true -> t = [c]).
Proof.
  intros PY HB HC ts HS.
  assert (ET : ts = toks (by_punct_cjk E) (map lower s)) by (unfold ts, toks; apply cut_unique in HC; now rewrite <- HC).
  split.
  - pose proof (cut_by_cut (by_space E) (joined blank ts)) as HQ.
    rewrite <- HS in HQ at 1.
    destruct (basic_tokens E p s ps _ PY HB HC HQ) as [R1 _].
    fold ts in R1. rewrite HS in R1. specialize (R1 eq_refl).
    fold (toks (by_space E) (joined blank ts)) in R1. rewrite joined_toks in R1; [exact R1|apply PY|].
    intros t Ht. rewrite ET in Ht. now apply clean in Ht.
  - intros t c Ht Hc. assert (Ht' := Ht). rewrite ET in Ht. destruct (toks_chars _ _ _ _ Ht Hc) as [HK HI].
    apply in_map_iff in HI. destruct HI as (d & <- & _). split; [apply lower_small|].
    intros HP. apply (single_alone _ _ _ _ _ HC Ht' Hc). unfold by_punct_cjk in *.
    destruct (is_space E (lower d)); [congruence|]. now rewrite HP.
Qed.

(** the full pipe: word pieces of the tokens of the basic one *)
Theorem full_tokens E p q s ts als coll : python E -> basic_pipe E = Ok p -> full_pipe E = Ok q ->
  transform_sequence E p (SStr s) = Ok (SLst (map ETok ts), als, coll) ->
  exists outs als' coll', Forall2 (subwords (map lit full_vocab) (ETok (txt "[UNK]")) 200) ts outs /\
    transform_sequence E q (SStr s) = Ok (SLst (concat outs), als', coll').
Proof.
  intros PY HB HQ HT. rewrite basic_is in HB. rewrite full_is in HQ. injection HB as <-.
  assert (q = mkPipe (basic_steps ++ [subwords_obj full_vocab]) []) as -> by congruence.
  unfold transform_sequence in *. cbn [steps] in *. rewrite run_app, HT. cbn [bind].
  destruct (subwords_run E (map lit full_vocab) (ETok (txt "[UNK]")) 200 ts (proj1 (proj2 PY))) as (outs & a & F & T).
  exists outs. cbn [run o_op subwords_obj]. rewrite T. cbn [bind]. eexists. eexists. split; [exact F|reflexivity].
Qed.

Theorem word_piece_tokens E q s ps : python E -> word_piece_pipe E = Ok q ->
  cut (by_space E) s ps ->
  exists outs als coll,
    Forall2 (subwords (map lit word_piece_vocab) (ETok (txt "[UNK]")) 200) (tokens_of (kept ps)) outs /\
    transform_sequence E q (SStr s) = Ok (SLst (concat outs), als, coll).
Proof.
  intros (OC & OE & SP) HQ HC. rewrite word_piece_is in HQ. injection HQ as <-.
  unfold transform_sequence. cbn [steps].
  destruct (ws_tokenizes E s ps OC HC) as (_ & a & T & _). rewrite (run_first _ _ _ _ _ _ _ T).
  destruct (subwords_run E (map lit word_piece_vocab) (ETok (txt "[UNK]")) 200 (tokens_of (kept ps)) OE) as (outs & b & F & T2).
  exists outs. cbn [run o_op subwords_obj]. rewrite T2. cbn [bind]. eexists. eexists. split; [exact F|reflexivity].
Qed.

(** ** What the BERT pipes keep of their vocabulary *)

Theorem bert_vocabulary E q v : full_pipe E = Ok q /\ v = full_vocab \/ word_piece_pipe E = Ok q /\ v = word_piece_vocab ->
  exists before o d, steps q = before ++ [o] /\ o_class o = txt "SpanSubwords" /\
    o_configs o = [(txt "vocab", JDict d); (txt "unk_token", JStr (txt "[UNK]")); (txt "maxlen_per_token", JInt 200)] /\
    forall t j, In (t, j) d <-> exists i, j = JInt (Z.of_nat i) /\ nth_error (map txt v) i = Some t.
Proof.
  assert (V : forall v t j, In (t, j) (map (fun ti => (lit (fst ti), JInt (Z.of_nat (snd ti)))) (combine v (seq 0 (length v)))) <->
              exists i, j = JInt (Z.of_nat i) /\ nth_error (map txt v) i = Some t).
  { intros u t j. rewrite in_map_iff. split.
    - intros ((w & i) & X & H). cbn in X. injection X as <- <-. exists i. split; [reflexivity|].
      apply (In_nth_error) in H. destruct H as (k & H).
      assert (i = k /\ nth_error u k = Some w) as [-> N].
      { assert (G : forall (l : list string) a n x y, nth_error (combine l (seq a (length l))) n = Some (x, y) -> y = a + n /\ nth_error l n = Some x).
        { induction l as [|z l IH]; intros a n x y Hn; [destruct n; discriminate|]. destruct n as [|n]; cbn in Hn.
          - injection Hn as <- <-. split; [lia|reflexivity].
          - apply IH in Hn. split; [lia|]. apply Hn. }
        now apply G in H. }
      now rewrite nth_error_map, N.
    - intros (i & -> & N). rewrite nth_error_map in N. destruct (nth_error u i) as [w|] eqn:W; [|discriminate]. injection N as <-.
      exists (w, i). split; [reflexivity|]. clear - W.
      assert (G : forall (l : list string) a n x, nth_error l n = Some x -> In (x, a + n) (combine l (seq a (length l)))).
      { induction l as [|z l IH]; intros a n x Hn; [destruct n; discriminate|]. destruct n as [|n]; cbn in Hn |- *.
        - injection Hn as <-. left. f_equal. lia.
        - right. replace (a + S n) with (S a + n) by lia. now apply IH. }
      exact (G u 0 i w W). }
  intros [(HQ & ->)|(HQ & ->)].
  - rewrite full_is in HQ. injection HQ as <-. exists basic_steps, (subwords_obj full_vocab). eexists.
    split; [reflexivity|]. split; [reflexivity|]. split; [reflexivity|]. apply V.
  - rewrite word_piece_is in HQ. injection HQ as <-. eexists [_], (subwords_obj word_piece_vocab). eexists.
    split; [reflexivity|]. split; [reflexivity|]. split; [reflexivity|]. apply V.
Qed.
