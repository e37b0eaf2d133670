(** What can be read back from the output of an operator or pipe (C100): proofs. *)

From Coq Require Import String.
From Verif Require Import Py PyFacts Edit Labels SpecEdit SpecLabels SpecSeg SpecRuns SpecWords SpecScan SpecHash SpecOps Ops Json SpecJson Elements Pipe SpecPipe SpecLaws
  RunsProofs SegProofs StrOpProofs ListOpProofs HashProofs TokProofs OpLaws AlignProofs LawsTok LawsProofs LawsText PipeProofs BertProofs SpecReadBack.
From Coq Require Import List ZArith Lia.
Import ListNotations.

Lemma turns_fun E o x y y' : turns E o x y -> turns E o x y' -> y = y'.
Proof. intros (a & A) (b & B). congruence. Qed.

Lemma maps_turns E o ok x y F G : maps E o ok x y F G -> turns E o x y.
Proof. intros (a & T & _). now exists a. Qed.

Lemma etok_inj (a b : list str) : map ETok a = map ETok b -> a = b.
Proof. revert b. induction a as [|x a IH]; intros [|y b] H; try discriminate; [reflexivity|]. injection H as -> H. f_equal. now apply IH. Qed.

(** ** Tokenizers *)

Lemma token_alone k s t : In t (toks k s) -> toks k t = [t].
Proof.
  unfold toks at 1. destruct (cut_by_cut k s) as (_ & F & _). unfold tokens_of, kept. intros HT. apply in_map_iff in HT.
  destruct HT as ([w b] & EW & HT). cbn in EW. subst w. apply filter_In in HT.
  destruct HT as (HT & Hb). cbn in Hb. subst b. apply in_map_iff in HT.
  destruct HT as ([w d] & EW & HT). cbn in EW. injection EW as -> ED. rewrite Forall_forall in F.
  destruct (F _ HT) as (N & A & L). cbn [fst snd] in *. destruct d; [discriminate| |].
  - destruct t as [|c [|]]; try discriminate (L eq_refl). rewrite toks_single; [reflexivity|]. apply A. now left.
  - now apply toks_one_word.
Qed.

Lemma tokens_again_by k s : k 32%Z = Gap -> toks k (joined blank (toks k s)) = toks k s.
Proof.
  intros K. assert (A : forall t, In t (toks k s) -> toks k t = [t]) by (intros t; apply token_alone).
  induction (toks k s) as [|t ts IH]; [reflexivity|]. destruct ts as [|u ts]; [apply A; now left|].
  change (joined blank (t :: u :: ts)) with (t ++ blank ++ joined blank (u :: ts)).
  rewrite toks_app by exact K. rewrite (A t) by now left. change (blank ++ joined blank (u :: ts)) with (32%Z :: joined blank (u :: ts)). cbn [app]. rewrite toks_gap by exact K.
  rewrite IH; [reflexivity|]. intros x Hx. apply A. now right.
Qed.

Definition token_kinds (E : env) : list (op * (Z -> kind)) :=
  [(WhiteSpaceTokenizer, by_space E); (EngTokenizer, by_punct E); (ZhCharTokenizer, by_punct_cjk E)].

Lemma kinds_turn E o k s : python E -> In (o, k) (token_kinds E) ->
  turns E o (SStr s) (SLst (map ETok (toks k s))) /\ k 32%Z = Gap.
Proof.
  intros (OC & OE & SP) HI. destruct HI as [[= <- <-]|[[= <- <-]|[[= <- <-]|[]]]].
  - destruct (ws_tokenizes E s _ OC (cut_by_cut _ s)) as (_ & a & T & _). split; [now exists a|unfold by_space; now rewrite SP].
  - destruct (eng_tokenizes E s _ OC SP (cut_by_cut _ s)) as (_ & a & T & _). split; [now exists a|unfold by_punct; now rewrite SP].
  - destruct (zh_tokenizes E s _ OC SP (cut_by_cut _ s)) as (_ & a & T & _). split; [now exists a|unfold by_punct_cjk; now rewrite SP].
Qed.

Lemma kinds_have E o ops : In (o, ops) written_as -> exists k, In (o, k) (token_kinds E).
Proof. intros [[= <- _]|[[= <- _]|[[= <- _]|[]]]]; eexists; [left|right; left|right; right; left]; reflexivity. Qed.

Theorem tokens_again E o ops s ts : python E -> In (o, ops) written_as ->
  turns E o (SStr s) (SLst (map ETok ts)) -> turns E o (SStr (joined blank ts)) (SLst (map ETok ts)).
Proof.
  intros PY HI HT. destruct (kinds_have E o ops HI) as (k & HK). destruct (kinds_turn E o k s PY HK) as (T & G).
  assert (ts = toks k s) as -> by (apply etok_inj; pose proof (turns_fun _ _ _ _ _ HT T) as X; now injection X).
  rewrite <- (tokens_again_by k s G) at 2. now apply (kinds_turn E o k _ PY HK).
Qed.

Lemma run_turns E ops x y : pipe_turns E ops x y <-> forall objs, map o_op objs = ops -> exists als coll, run E objs x = Ok (y, als, coll).
Proof.
  split.
  - intros H objs HO. exact (H (mkPipe objs []) HO).
  - intros H p HP. exact (H (steps p) HP).
Qed.

Lemma turns_cons E o ops x y z : turns E o x y -> pipe_turns E ops y z -> pipe_turns E (o :: ops) x z.
Proof.
  rewrite !run_turns. intros (a & T) H [|b objs] HO; [discriminate|]. injection HO as HB HO. cbn [run]. rewrite HB, T. cbn [bind].
  destruct (H objs HO) as (als & coll & ->). cbn [bind]. eauto.
Qed.

Lemma turns_nil E x : pipe_turns E [] x x.
Proof. rewrite run_turns. intros [|] HO; [|discriminate]. cbn. eauto. Qed.

Definition an_obj (o : op) : opobj := mkObj [] [] o.

Lemma pipe_turns_fun E ops x y y' : pipe_turns E ops x y -> pipe_turns E ops x y' -> y = y'.
Proof.
  rewrite !run_turns. intros A B. assert (M : map o_op (map an_obj ops) = ops) by (rewrite map_map; apply map_id).
  destruct (A _ M) as (? & ? & A'). destruct (B _ M) as (? & ? & B'). congruence.
Qed.

Lemma merge_strip_turns E s : python E ->
  pipe_turns E [MergeWhiteSpaceCharacters; StripWhiteSpaceCharacters] (SStr s) (SStr (joined blank (toks (by_space E) s))).
Proof.
  intros (OC & _ & SP). destruct (merge_rewrites E s OC) as [_ (a & T & _)].
  destruct (merge_then_strip E s _ _ OC SP T) as (b & TB). rewrite words_toks in TB.
  eapply turns_cons; [exact (ex_intro _ a T)|]. eapply turns_cons; [exact (ex_intro _ b TB)|]. apply turns_nil.
Qed.

Lemma toks_tk k s : toks k s = tk k [] s.
Proof. unfold toks. apply cut_tokens_tk, cut_by_cut. Qed.

Lemma toks_spaced cls k k' s : k 32%Z = Gap -> refined cls k k' -> toks k (news (spaced cls s)) = toks k' s.
Proof. intros K R. rewrite !toks_tk. now apply tokens_spaced. Qed.

Theorem text_from_tokens E o ops s ts : python E -> In (o, ops) written_as ->
  turns E o (SStr s) (SLst (map ETok ts)) -> pipe_turns E ops (SStr s) (SStr (joined blank ts)).
Proof.
  intros PY HI HT. destruct (kinds_have E o ops HI) as (k & HK). destruct (kinds_turn E o k s PY HK) as (T & G).
  assert (ts = toks k s) as -> by (apply etok_inj; pose proof (turns_fun _ _ _ _ _ HT T) as X; now injection X).
  destruct PY as (OC & OE & SP).
  assert (K1 : by_space E 32 = Gap) by (unfold by_space; now rewrite SP).
  assert (K2 : by_punct E 32 = Gap) by (unfold by_punct; now rewrite SP).
  assert (R1 : refined (punctuation E) (by_space E) (by_punct E))
    by (intros c; unfold by_punct, by_space; destruct (is_space E c), (punctuation E c); reflexivity).
  assert (R2 : refined cjk (by_punct E) (by_punct_cjk E))
    by (intros c; unfold by_punct, by_punct_cjk; destruct (is_space E c), (punctuation E c), (cjk c); reflexivity).
  assert (P : forall s, pipe_turns E [AddWhitespaceAroundPunctuation; MergeWhiteSpaceCharacters; StripWhiteSpaceCharacters]
              (SStr s) (SStr (joined blank (toks (by_punct E) s)))).
  { intros u. rewrite <- (toks_spaced _ _ _ u K1 R1). eapply turns_cons; [|apply merge_strip_turns; now repeat split].
    destruct (punct_rewrites E u OC) as [_ M]. exact (maps_turns _ _ _ _ _ _ _ M). }
  destruct HI as [[= <- <-]|[[= <- <-]|[[= <- <-]|[]]]].
  - destruct HK as [[= <-]|[[=]|[[=]|[]]]]. apply merge_strip_turns. now repeat split.
  - destruct HK as [[=]|[[= <-]|[[=]|[]]]]. apply P.
  - destruct HK as [[=]|[[=]|[[= <-]|[]]]]. rewrite <- (toks_spaced _ _ _ s K2 R2). eapply turns_cons; [|apply P].
    destruct (cjk_rewrites E s OC) as [_ M]. exact (maps_turns _ _ _ _ _ _ _ M).
Qed.

Theorem same_tokens E o ops s t : python E -> In (o, ops) written_as ->
  (exists y, turns E o (SStr s) y /\ turns E o (SStr t) y) <->
  (exists u, pipe_turns E ops (SStr s) u /\ pipe_turns E ops (SStr t) u).
Proof.
  intros PY HI. destruct (kinds_have E o ops HI) as (k & HK).
  destruct (kinds_turn E o k s PY HK) as (TS & _). destruct (kinds_turn E o k t PY HK) as (TT & _).
  pose proof (text_from_tokens E o ops s _ PY HI TS) as US. pose proof (text_from_tokens E o ops t _ PY HI TT) as UT.
  split.
  - intros (y & A & B). rewrite (turns_fun _ _ _ _ _ A TS) in B. pose proof (turns_fun _ _ _ _ _ B TT) as X.
    exists (SStr (joined blank (toks k s))). split; [exact US|]. injection X as X. apply etok_inj in X. now rewrite X.
  - intros (u & A & B). rewrite (pipe_turns_fun _ _ _ _ _ A US) in B. pose proof (pipe_turns_fun _ _ _ _ _ B UT) as X.
    injection X as X. exists (SLst (map ETok (toks k s))). split; [exact TS|].
    pose proof (tokens_again E o ops s _ PY HI TS) as AS. pose proof (tokens_again E o ops t _ PY HI TT) as AT.
    rewrite X in AS. now rewrite (turns_fun _ _ _ _ _ AS AT).
Qed.

(** ** Operators that lose nothing *)

Lemma turns_type E o x y : turns E o x y -> type_of x = input_type o.
Proof.
  intros (a & T). unfold transform_op in T. destruct (seqtype_eqb (type_of x) (input_type o)) eqn:Q; [|discriminate].
  destruct (type_of x), (input_type o); first [reflexivity|discriminate Q].
Qed.

Lemma turns_str E o x y : input_type o = TStr -> turns E o x y -> exists s, x = SStr s.
Proof. intros I T. apply turns_type in T. rewrite I in T. destruct x; [eauto|discriminate]. Qed.
Lemma turns_lst E o x y : input_type o = TList -> turns E o x y -> exists l, x = SLst l.
Proof. intros I T. apply turns_type in T. rewrite I in T. destruct x; [discriminate|eauto]. Qed.

Lemma lossless_telling E o : input_type o = TStr -> (forall s, lossless E o s) -> telling E o.
Proof.
  intros I L x x' y A B. destruct (turns_str _ _ _ _ I A) as (s & ->). destruct (turns_str _ _ _ _ I B) as (s' & ->).
  destruct (L s) as (ts & a & T & ES). destruct (L s') as (ts' & a' & T' & ES').
  pose proof (turns_fun _ _ _ _ _ A (ex_intro _ a T)) as X. rewrite (turns_fun _ _ _ _ _ B (ex_intro _ a' T')) in X.
  injection X as X. apply etok_inj in X. congruence.
Qed.

Lemma spaced_telling E o cls : input_type o = TStr ->
  (forall s, turns E o (SStr s) (SStr (news (spaced cls s)))) -> telling E o.
Proof.
  intros I L x x' y A B. destruct (turns_str _ _ _ _ I A) as (s & ->). destruct (turns_str _ _ _ _ I B) as (s' & ->).
  pose proof (turns_fun _ _ _ _ _ A (L s)) as X. rewrite (turns_fun _ _ _ _ _ B (L s')) in X. injection X as X. f_equal.
  clear - X. revert s' X. induction s as [|c s IH]; intros [|d t] X; [reflexivity| | |].
  - rewrite news_spaced in X. destruct (cls d); discriminate.
  - rewrite news_spaced in X. destruct (cls c); discriminate.
  - rewrite !news_spaced in X. destruct (cls c) eqn:C, (cls d) eqn:D; cbn [app] in X.
    + injection X as -> X. f_equal. now apply IH.
    + injection X as <- X. destruct s; exfalso.
      all: destruct t as [|e t]; [discriminate|]; rewrite news_spaced in X; destruct (cls e) eqn:EC; injection X; congruence.
    + injection X as -> X. destruct s as [|e s]; [discriminate|]. exfalso.
      rewrite news_spaced in X; destruct (cls e) eqn:EC; injection X; congruence.
    + injection X as -> X. f_equal. now apply IH.
Qed.

Lemma end_telling E eos : ord_ok (ord_e E) -> telling E (AddEndToken eos).
Proof.
  intros O x x' y A B. pose proof A as A1. pose proof B as B1. apply turns_lst in A1; [|reflexivity]. apply turns_lst in B1; [|reflexivity]. destruct A1 as (l & ->), B1 as (l' & ->).
  assert (T : forall l y, turns E (AddEndToken eos) (SLst l) y -> y = SLst (l ++ [ETok eos])).
  { intros k z (a & T). destruct (Z_lt_le_dec (Z.of_nat (length k)) (2 ^ 32)) as [H|H].
    - now destruct (maps_inv _ _ _ _ _ _ _ _ _ (end_maps E eos k O H) T).
    - rewrite end_too_long in T by exact H. discriminate. }
  apply T in A. apply T in B. rewrite A in B. injection B as B. apply app_inj_tail in B. now destruct B as [-> _].
Qed.

Lemma sos_telling E sos eos : ord_ok (ord_e E) -> telling E (AddSosEos sos eos).
Proof.
  intros O x x' y A B. pose proof A as A1. pose proof B as B1. apply turns_lst in A1; [|reflexivity]. apply turns_lst in B1; [|reflexivity]. destruct A1 as (l & ->), B1 as (l' & ->).
  assert (T : forall l y, turns E (AddSosEos sos eos) (SLst l) y ->
     l <> [] /\ y = SLst (sos :: l ++ [eos]) \/ l = [] /\ (pseq_length y <= 2)%nat).
  { intros k z (a & T). destruct k as [|e k]; [right|left].
    - destruct (soseos_empty E sos eos z a O T) as ([(_ & [-> | ->])|(_ & ->)] & _); split; auto; cbn; lia.
    - assert (NE : e :: k <> []) by discriminate. split; [exact NE|]. destruct (Z_lt_le_dec (Z.of_nat (length (e :: k))) (2 ^ 32)) as [H|H].
      + now destruct (maps_inv _ _ _ _ _ _ _ _ _ (soseos_maps E sos eos _ O NE H) T).
      + rewrite soseos_too_long in T by exact H. discriminate. }
  apply T in A. apply T in B. destruct A as [(N & ->)|(-> & A)], B as [(N' & B)|(-> & B)].
  - injection B as B. apply app_inj_tail in B. now destruct B as [-> _].
  - cbn [pseq_length length] in B. rewrite app_length in B. cbn in B. destruct l; [congruence|cbn in B; lia].
  - subst y. cbn [pseq_length length] in A. rewrite app_length in A. cbn in A. destruct l'; [congruence|cbn in A; lia].
  - reflexivity.
Qed.

Theorem told_apart E ws sh o sos eos eos' : python E -> make_custom (Some ws) sh = Ok o ->
  telling E CharTokenizer /\ telling E o /\ telling E AddWhitespaceAroundCJK /\ telling E AddWhitespaceAroundPunctuation /\
  telling E (AddSosEos sos eos) /\ telling E (AddEndToken eos').
Proof.
  intros (OC & OE & SP) MC. split; [|split; [|split; [|split; [|split]]]].
  - apply lossless_telling; [reflexivity|]. intros s. now apply char_lossless.
  - apply lossless_telling; [|intros s; now apply (custom_lossless E ws sh)].
    unfold make_custom in MC. destruct (make_trie (Some ws)); [|discriminate]. now injection MC as <-.
  - apply (spaced_telling _ _ cjk); [reflexivity|]. intros s. destruct (cjk_rewrites E s OC) as [_ M]. exact (maps_turns _ _ _ _ _ _ _ M).
  - apply (spaced_telling _ _ (punctuation E)); [reflexivity|]. intros s. destruct (punct_rewrites E s OC) as [_ M]. exact (maps_turns _ _ _ _ _ _ _ M).
  - now apply sos_telling.
  - now apply end_telling.
Qed.

Lemma repeat_snoc {A} (p : A) n : repeat p n ++ [p] = p :: repeat p n.
Proof. induction n as [|n IH]; [reflexivity|]. cbn. now rewrite IH. Qed.

Lemma padded_inj (p : elem) l : forall l' n n', (forall k, l <> k ++ [p]) -> (forall k, l' <> k ++ [p]) ->
  l ++ repeat p n = l' ++ repeat p n' -> l = l'.
Proof.
  induction l as [|x l IH]; intros l' n n' H H' X.
  - destruct l' as [|y l'] using rev_ind; [reflexivity|]. exfalso. clear IHl'. cbn [app] in X.
    apply (H' l'). do 2 f_equal. assert (In y (repeat p n)) as I by (rewrite X, !in_app_iff; cbn; tauto). now apply repeat_spec in I.
  - destruct l' as [|y l'].
    + exfalso. destruct (exists_last (l := x :: l) ltac:(discriminate)) as (k & e & EL). apply (H k). rewrite EL in *. do 2 f_equal.
      assert (In e (repeat p n')) as I by (cbn [app] in X; rewrite <- X, !in_app_iff; cbn; tauto). now apply repeat_spec in I.
    + cbn [app] in X. injection X as -> X. f_equal. apply (IH l' n n'); [| |exact X].
      * intros k -> . exact (H (y :: k) eq_refl).
      * intros k -> . exact (H' (y :: k) eq_refl).
Qed.

Theorem unpadded_told_apart E maxlen pad l l' y : ord_ok (ord_e E) -> unpadded maxlen pad l -> unpadded maxlen pad l' ->
  turns E (Pad maxlen pad) (SLst l) y -> turns E (Pad maxlen pad) (SLst l') y -> l = l'.
Proof.
  intros O (L & U) (L' & U') A B.
  assert (T : forall l y, (Z.of_nat (length l) <= maxlen)%Z -> turns E (Pad maxlen pad) (SLst l) y ->
    y = SLst (l ++ repeat pad (Z.to_nat maxlen - length l))).
  { intros k z LK (a & T). destruct (Z_lt_le_dec (Z.of_nat (length k)) (2 ^ 32)) as [H|H].
    - destruct (maps_inv _ _ _ _ _ _ _ _ _ (pad_maps E maxlen pad k O ltac:(lia) (or_introl H)) T) as [-> _].
      rewrite firstn_all2 by lia. reflexivity.
    - destruct (Z.eq_dec (Z.of_nat (length k)) maxlen) as [Q|Q].
      + destruct (maps_inv _ _ _ _ _ _ _ _ _ (pad_maps E maxlen pad k O ltac:(lia) (or_intror Q)) T) as [-> _].
        rewrite firstn_all2 by lia. reflexivity.
      + rewrite pad_too_long in T by assumption. discriminate. }
  apply T in A; [|exact L]. apply T in B; [|exact L']. rewrite A in B. injection B as B. exact (padded_inj _ _ _ _ _ U U' B).
Qed.

(** ** WordPiece *)

Lemma continued_iff t : is_continued t = true <-> continued t.
Proof.
  unfold continued. change (txt "##") with [35%Z; 35%Z]. split.
  - destruct t as [|a [|b r]]; try discriminate. cbn. rewrite andb_true_iff, !Z.eqb_eq. intros [-> ->]. now exists r.
  - intros (r & ->). reflexivity.
Qed.

Lemma continued_false t : ~ continued t -> is_continued t = false.
Proof. rewrite <- continued_iff. now destruct (is_continued t). Qed.

Lemma splits_resumed vocab r qs : splits vocab false r qs -> forall w tail, resumed w (qs ++ tail) = resumed (w ++ r) tail.
Proof.
  remember false as b eqn:EB. induction 1 as [first|first w rest ps N HI M H IH]; intros u tail; [now rewrite app_nil_r|].
  subst first. change (marked false w) with (35%Z :: 35%Z :: w). cbn [app resumed is_continued]. cbn [Z.eqb Pos.eqb andb skipn].
  rewrite IH by reflexivity. now rewrite <- app_assoc.
Qed.

Lemma token_read vocab unk maxlen t out : t <> [] -> ~ continued t -> ~ continued unk ->
  subwords vocab (ETok unk) maxlen t out ->
  exists p r w, out = map ETok (p :: r) /\ is_continued p = false /\ read_as vocab unk maxlen t w /\
    forall tail, resumed p (r ++ tail) = resumed w tail.
Proof.
  intros N C CU [(L & ps & H & ->)|(H & ->)].
  - assert (H' := H). inversion H as [f E1 E2 E3|first w rest qs NW HI M HR E1 E2 E3]; subst; [congruence|].
    exists w, qs, (w ++ rest). split; [reflexivity|]. split; [|split].
    + apply continued_false. intros (r & ->). apply C. exists (r ++ rest). now rewrite app_assoc.
    + left. split; [|reflexivity]. split; [exact L|]. now exists (marked true w :: qs).
    + intros tail. now apply (splits_resumed vocab).
  - exists unk, [], unk. split; [reflexivity|]. split; [now apply continued_false|]. split; [|reflexivity].
    right. split; [|reflexivity]. intros (L & P). destruct H as [H|H]; [lia|auto].
Qed.

Lemma words_read vocab unk maxlen ts outs : Forall (fun t => t <> [] /\ ~ continued t) ts -> ~ continued unk ->
  Forall2 (subwords vocab (ETok unk) maxlen) ts outs ->
  exists ps, concat outs = map ETok ps /\ Forall2 (read_as vocab unk maxlen) ts (whole_words ps) /\
    forall w, resumed w ps = w :: whole_words ps.
Proof.
  intros HT CU H. induction H as [|t out ts outs HS HR IH]; [exists []; repeat split; constructor|].
  inversion HT as [|? ? (N & C) HT']; subst. destruct (IH HT') as (ps & EC & F & R).
  destruct (token_read _ _ _ _ _ N C CU HS) as (p & r & w & -> & CP & RA & RS).
  exists (p :: r ++ ps). split; [|split].
  - change (p :: r ++ ps) with ((p :: r) ++ ps). rewrite map_app, <- EC. reflexivity.
  - cbn [whole_words]. rewrite RS, R. now constructor.
  - intros u. cbn [resumed whole_words]. now rewrite CP.
Qed.

Theorem pieces_read E vocab unk maxlen ts ps : ord_ok (ord_e E) ->
  Forall (fun t => t <> [] /\ ~ continued t) ts -> ~ continued unk ->
  turns E (SpanSubwords vocab (ETok unk) maxlen) (SLst (map ETok ts)) (SLst (map ETok ps)) ->
  Forall2 (read_as vocab unk maxlen) ts (whole_words ps).
Proof.
  intros O HT CU (a & T). destruct (subwords_pieces _ _ _ _ _ _ _ O T) as (outs & F & X). injection X as X.
  destruct (words_read _ _ _ _ _ HT CU F) as (qs & Q & R & _). rewrite Q in X. apply etok_inj in X. now rewrite X.
Qed.

Lemma read_known vocab unk maxlen ts ws : Forall (spelled vocab maxlen) ts -> Forall2 (read_as vocab unk maxlen) ts ws -> ws = ts.
Proof.
  intros K H. induction H as [|t w ts ws [(S & ->)|(S & _)] H IH]; [reflexivity| |]; inversion K; subst; [|contradiction].
  f_equal. auto.
Qed.

Lemma unk_plain : ~ continued (txt "[UNK]").
Proof. intros (r & X). discriminate. Qed.

Theorem word_piece_read E q s ps als coll : python E -> word_piece_pipe E = Ok q ->
  transform_sequence E q (SStr s) = Ok (SLst (map ETok ps), als, coll) ->
  Forall (fun t => ~ continued t) (words (is_space E) s) ->
  Forall2 (read_as (map txt word_piece_vocab) (txt "[UNK]") 200) (words (is_space E) s) (whole_words ps) /\
  (Forall (spelled (map txt word_piece_vocab) 200) (words (is_space E) s) ->
   pipe_turns E [MergeWhiteSpaceCharacters; StripWhiteSpaceCharacters] (SStr s) (SStr (joined blank (whole_words ps)))).
Proof.
  intros PY HQ HT HC. rewrite words_toks in *.
  destruct (word_piece_tokens E q s _ PY HQ (cut_by_cut (by_space E) s)) as (outs & als' & coll' & F & T).
  rewrite T in HT. injection HT as HT _ _. fold (toks (by_space E) s) in F.
  assert (HN : Forall (fun t => t <> [] /\ ~ continued t) (toks (by_space E) s)).
  { rewrite Forall_forall in *. intros t Ht. split; [now apply toks_nonempty in Ht|auto]. }
  destruct (words_read _ _ _ _ _ HN unk_plain F) as (qs & Q & R & _). rewrite Q in HT. apply etok_inj in HT. subst qs.
  split; [exact R|]. intros K. rewrite (read_known _ _ _ _ _ K R). now apply merge_strip_turns.
Qed.

Theorem full_read E p q s ts ps als coll als' coll' : python E -> basic_pipe E = Ok p -> full_pipe E = Ok q ->
  transform_sequence E p (SStr s) = Ok (SLst (map ETok ts), als, coll) ->
  transform_sequence E q (SStr s) = Ok (SLst (map ETok ps), als', coll') ->
  Forall (fun t => ~ continued t) ts ->
  Forall2 (read_as (map txt full_vocab) (txt "[UNK]") 200) ts (whole_words ps).
Proof.
  intros PY HB HQ HT HP HC. destruct (full_tokens E p q s ts als coll PY HB HQ HT) as (outs & a & c & F & T).
  rewrite T in HP. injection HP as HP _ _. destruct (basic_clean E p s _ _ _ PY HB HT) as (ts' & X & N).
  injection X as X. apply etok_inj in X. subst ts'.
  assert (HN : Forall (fun t => t <> [] /\ ~ continued t) ts).
  { rewrite Forall_forall in *. intros t Ht. split; [now apply N|auto]. }
  destruct (words_read _ _ _ _ _ HN unk_plain F) as (qs & Q & R & _). rewrite Q in HP. apply etok_inj in HP. now subst qs.
Qed.

(** ** The basic pipe on its own tokens *)

Lemma lower_fix c : ascii_capital c = false -> lower c = c.
Proof. intros H. unfold lower. now rewrite H. Qed.

Theorem basic_again E p s ps : python E -> basic_pipe E = Ok p -> cut (by_punct_cjk E) (map lower s) ps ->
  let ts := tokens_of (kept ps) in stripped E (joined blank ts) = joined blank ts ->
  (exists als coll, transform_sequence E p (SStr s) = Ok (SLst (map ETok ts), als, coll)) /\
  (exists als coll, transform_sequence E p (SStr (joined blank ts)) = Ok (SLst (map ETok ts), als, coll)) /\
  Forall (fun t => ~ continued t) ts.
Proof.
  intros PY HB HC ts HS. destruct (basic_plain E p s ps PY HB HC HS) as (R & N). fold ts in R, N.
  assert (ET : ts = toks (by_punct_cjk E) (map lower s)) by (unfold ts, toks; apply cut_unique in HC; now rewrite <- HC).
  split; [exact R|]. split.
  - assert (K : by_punct_cjk E 32%Z = Gap) by (unfold by_punct_cjk; now rewrite (proj2 (proj2 PY))).
    assert (LJ : map lower (joined blank ts) = joined blank ts).
    { clear - N. induction ts as [|t ts IH]; [reflexivity|].
      assert (LT : map lower t = t).
      { rewrite <- (map_id t) at 2. apply map_ext_in. intros c Hc. apply lower_fix. apply (N t c); [now left|exact Hc]. }
      destruct ts as [|u ts]; [exact LT|]. change (joined blank (t :: u :: ts)) with (t ++ blank ++ joined blank (u :: ts)).
      rewrite !map_app, LT, IH; [reflexivity|]. intros x c Hx. apply N. now right. }
    pose proof (cut_by_cut (by_punct_cjk E) (joined blank ts)) as HQ.
    assert (TA : tokens_of (kept (cut_by (by_punct_cjk E) (joined blank ts))) = ts).
    { fold (toks (by_punct_cjk E) (joined blank ts)). rewrite ET. now apply tokens_again_by. }
    rewrite <- LJ in HQ at 1. destruct (basic_plain E p _ _ PY HB HQ) as (R' & _); rewrite TA in *; assumption.
  - rewrite Forall_forall. intros t Ht (r & ->). destruct (N _ 35%Z Ht (or_introl eq_refl)) as (_ & X).
    discriminate X. reflexivity.
Qed.

(** ** Indices *)

Theorem indices_read E d unk o ts y : python E -> is_dict d -> make_token2index d unk = Ok o ->
  turns E o (SLst (map ETok ts)) (SLst y) -> Forall2 (index_reads d unk) ts y.
Proof.
  intros (_ & O & _) HD M (a & T). destruct (make_token2index_spec d unk) as (S1 & S2 & S3).
  assert (C : d <> [] /\ continuous d).
  { destruct (perm_dec (map snd d) (map Z.of_nat (seq 0 (length d)))) as [P|P].
    - split; [|exact P]. intros ->. rewrite S3 in M; [discriminate|]. now intros [[] _].
    - rewrite S3 in M; [discriminate|]. now intros [_ ?]. }
  destruct (in_dec (list_eq_dec Z.eq_dec) unk (map fst d)) as [I|N].
  2: { rewrite S2 in M; [discriminate|tauto]. }
  rewrite S1 in M by tauto. inversion M; subst o.
  destruct (token2index_maps E d unk (map ETok ts) O I) as (out & F & b & TB & _).
  rewrite TB in T. inversion T; subst. clear - F HD C. destruct C as (_ & C).
  remember (map ETok ts) as l eqn:EL. revert ts EL. induction F as [|x e l out (i & -> & H) F IH]; intros [|t ts] EL; try discriminate; constructor.
  - injection EL as -> EL. exists i. split; [reflexivity|]. intros w. split.
    + intros W. destruct H as [H|(N & H)].
      * left. split; [exact (in_map fst _ _ H)|]. exact (continuous_inj d _ _ i HD C W H).
      * right. split; [exact N|]. exact (continuous_inj d _ _ i HD C W H).
    + intros [(K & ->)|(K & ->)]; destruct H as [H|(N & H)]; auto; [contradiction|]. elim K. exact (in_map fst _ _ H).
  - injection EL as _ EL. now apply IH.
Qed.

(** Words over two letters. *)
Definition bits (n : nat) : str := map (fun i => if Z.testbit (Z.of_nat n) (Z.of_nat i) then 98%Z else 97%Z) (seq 0 40).

Lemma bits_inj m n : (Z.of_nat m < 2 ^ 40)%Z -> (Z.of_nat n < 2 ^ 40)%Z -> bits m = bits n -> m = n.
Proof.
  intros A B H. apply Nat2Z.inj. apply Z.bits_inj'. intros i Hi.
  destruct (Z_lt_le_dec i 40) as [L|L].
  - unfold bits in H. rewrite map_ext_in_iff in H. specialize (H (Z.to_nat i)). rewrite in_seq, Z2Nat.id in H by lia.
    specialize (H ltac:(lia)). destruct (Z.testbit (Z.of_nat m) i), (Z.testbit (Z.of_nat n) i); congruence.
  - assert (Z0 : forall k, (Z.of_nat k < 2 ^ 40)%Z -> Z.testbit (Z.of_nat k) i = false).
    { intros k K. destruct (Z.eq_dec (Z.of_nat k) 0) as [-> |NZ]; [apply Z.testbit_0_l|].
      apply Z.bits_above_log2; [lia|]. assert (Z.log2 (Z.of_nat k) < 40)%Z by (apply Z.log2_lt_pow2; lia). lia. }
    now rewrite !Z0.
Qed.

Lemma hashed_unique d t i j : ~ In t (map fst d) -> existsb surrogate t = false ->
  hashed_index d t i -> hashed_index d t j -> i = j.
Proof.
  intros N SG [A|(_ & A)]; [elim N; apply (in_map fst) in A; exact A|].
  intros [B|(_ & B)]; [elim N; apply (in_map fst) in B; exact B|].
  destruct A as [(bs & A & ->)|(A & _)]; [|congruence]. destruct B as [(bs' & B & ->)|(B & _)]; [|congruence].
  apply decode_utf8 in A. apply decode_utf8 in B. rewrite A in B. now injection B as ->.
Qed.

Lemma filter_both {A} (f : A -> bool) l : length (filter f l) + length (filter (fun x => negb (f x)) l) = length l.
Proof. induction l as [|x l IH]; [reflexivity|]. cbn. destruct (f x); cbn; lia. Qed.

Lemma repeats (l : list Z) : ~ NoDup l -> exists a l1 l2 l3, l = l1 ++ a :: l2 ++ a :: l3.
Proof.
  induction l as [|x l IH]; intros N; [elim N; constructor|]. destruct (in_dec Z.eq_dec x l) as [I|I].
  - apply in_split in I. destruct I as (a & b & ->). now exists x, [], a, b.
  - destruct IH as (a & l1 & l2 & l3 & ->); [intros H; apply N; now constructor|]. now exists a, (x :: l1), l2, l3.
Qed.

Theorem hash_collides E d o : python E -> make_hash d = Ok o -> (Z.of_nat (length d) < M)%Z ->
  exists t t' i, t <> t' /\ ~ In t (map fst d) /\ ~ In t' (map fst d) /\
    turns E o (SLst [ETok t]) (SLst [EIdx i]) /\ turns E o (SLst [ETok t']) (SLst [EIdx i]).
Proof.
  intros (_ & O & _) HM LD.
  destruct (make_hash_spec d) as (S1 & S2).
  assert (C : d <> [] /\ continuous d).
  { destruct (perm_dec (map snd d) (map Z.of_nat (seq 0 (length d)))) as [P|P].
    - split; [|exact P]. intros ->. rewrite S2 in HM; [discriminate|]. now intros [[] _].
    - rewrite S2 in HM; [discriminate|]. now intros [_ ?]. }
  rewrite (S1 C) in HM. injection HM as <-. destruct C as (ND & C).
  set (N := length d) in *. set (ts := map bits (seq 0 (2 * N + 1))).
  assert (DT : NoDup ts).
  { unfold ts. assert (X : forall k a, (Z.of_nat (a + k) <= 2 ^ 40)%Z -> NoDup (map bits (seq a k))).
    { induction k as [|k IH]; intros a HA; [constructor|]. cbn [seq map]. constructor; [|apply IH; lia].
      intros H. apply in_map_iff in H. destruct H as (j & EB & HJ). apply in_seq in HJ. apply bits_inj in EB; lia. }
    apply X. unfold M in LD. lia. }
  assert (CP : forall t, In t ts -> Forall code_point t /\ (Z.of_nat (length t) < 2 ^ 29)%Z).
  { intros t Ht. apply in_map_iff in Ht. destruct Ht as (n & <- & _). split.
    - rewrite Forall_forall. intros c Hc. apply in_map_iff in Hc. destruct Hc as (i & <- & _).
      unfold code_point. destruct (Z.testbit _ _); lia.
    - unfold bits. rewrite map_length, seq_length. lia. }
  set (known := fun t : str => if in_dec (list_eq_dec Z.eq_dec) t (map fst d) then true else false).
  assert (LU : (N + 1 <= length (filter (fun t => negb (known t)) ts))%nat).
  { pose proof (filter_both known ts) as FL. assert (LT : length ts = (2 * N + 1)%nat) by (unfold ts; now rewrite map_length, seq_length).
    assert (LK : (length (filter known ts) <= N)%nat).
    { unfold N. rewrite <- (map_length fst d). apply NoDup_incl_length; [now apply NoDup_filter|].
      intros t Ht. apply filter_In in Ht. destruct Ht as (_ & K). unfold known in K. destruct (in_dec _ t _); [assumption|discriminate]. }
    lia. }
  set (us := filter (fun t => negb (known t)) ts) in *.
  assert (IU : forall t, In t us -> In t ts /\ ~ In t (map fst d)).
  { intros t Ht. apply filter_In in Ht. destruct Ht as (A & K). split; [exact A|]. unfold known in K. now destruct (in_dec _ t _). }
  destruct (hash_maps E d us O ND LD) as (out & F & _); [intros t Ht; now apply CP, IU|].
  assert (DU : NoDup us) by now apply NoDup_filter.
  assert (LO : length out = length us) by (clear - F; induction F; cbn; congruence).
  assert (RO : forall i, In i out -> (0 <= i < Z.of_nat N)%Z).
  { clear - F ND C. intros i Hi. induction F as [|t j us out H F IH]; [destruct Hi|]. destruct Hi as [<-|Hi]; [|auto].
    exact (hashed_range d t j ND C H). }
  assert (NN : ~ NoDup out).
  { intros H. assert (incl out (map Z.of_nat (seq 0 N))) as IC.
    { intros i Hi. apply RO in Hi. apply in_map_iff. exists (Z.to_nat i). split; [lia|]. apply in_seq. lia. }
    apply (NoDup_incl_length H) in IC. rewrite map_length, seq_length in IC. lia. }
  destruct (repeats out NN) as (i & l1 & l2 & l3 & EO).
  assert (P : exists t t', t <> t' /\ In t us /\ In t' us /\ hashed_index d t i /\ hashed_index d t' i).
  { clear - F EO DU. subst out. apply Forall2_app_inv_r in F. destruct F as (u1 & u' & _ & F & ->).
    inversion F as [|t j u2 o2 HT F' E1 E2]; subst. apply Forall2_app_inv_r in F'. destruct F' as (u2' & u3 & _ & F' & ->).
    inversion F' as [|t' j u4 o4 HT' _ E1 E2]; subst. exists t, t'. repeat split; auto.
    - intros <-. apply NoDup_remove_2 in DU. apply DU. rewrite !in_app_iff. right. right. now left.
    - apply in_app_iff. right. now left.
    - apply in_app_iff. right. right. apply in_app_iff. right. now left. }
  destruct P as (t & t' & NT & IT & IT' & HT & HT').
  assert (G : forall u, In u us -> hashed_index d u i -> turns E (Token2IndexwithHash d) (SLst [ETok u]) (SLst [EIdx i])).
  { intros u Hu Hh. destruct (hash_maps E d [u] O ND LD) as (o1 & F1 & M1).
    { intros x [<-|[]]. now apply CP, IU. }
    inversion F1 as [|? j ? ? H1 H2]; subst. inversion H2; subst. assert (i = j) as <-; [|exact (maps_turns _ _ _ _ _ _ _ M1)].
    refine (hashed_unique d u i j (proj2 (IU u Hu)) _ Hh H1).
    destruct (IU u Hu) as (HB & _). apply in_map_iff in HB. destruct HB as (n & <- & _). apply not_true_iff_false. rewrite existsb_exists.
    intros (c & Hc & SG). apply in_map_iff in Hc. destruct Hc as (k & <- & _). destruct (Z.testbit _ _); discriminate SG. }
  exists t, t', i. repeat split; auto; now apply IU.
Qed.
