(** The pipes of pipeline/bert give the tokens of the reference tokenizer. *)

From Coq Require Import String.
From Verif Require Import Py PyFacts Edit Labels SpecEdit SpecLabels SpecSeg SpecRuns SpecScan Ops SpecOps SegProofs
  RunsProofs StrOpProofs ListOpProofs TokProofs OpLaws Json SpecJson Elements Pipe SpecPipe PipeProofs BertProofs
  BertRef SpecBert.
From Coq Require Import List.
Local Open Scope nat_scope.

(** ** The parts of the reference *)

Lemma ref_punct E c : ref_is_punctuation E c = punctuation E c.
Proof.
  rewrite <- is_punctuation_ok. unfold ref_is_punctuation, is_punctuation, Ops.in_range.
  rewrite !Z.geb_leb.
  destruct (33 <=? c)%Z, (c <=? 47)%Z, (58 <=? c)%Z, (c <=? 64)%Z, (91 <=? c)%Z, (c <=? 96)%Z,
    (123 <=? c)%Z, (c <=? 126)%Z; reflexivity.
Qed.

Lemma ref_cjk c : ref_is_chinese_char c = cjk c.
Proof.
  apply eq_true_iff_eq. unfold ref_is_chinese_char, cjk, cjk_blocks. cbn [existsb fst snd].
  rewrite !orb_true_iff, !andb_true_iff, !Z.geb_leb, !Z.leb_le. intuition (try discriminate; auto 12).
Qed.

Lemma ref_chinese_spaced s : ref_tokenize_chinese s = concat (map (spaced1 cjk) s).
Proof.
  induction s as [|c s IH]; [reflexivity|]. cbn [ref_tokenize_chinese map concat].
  rewrite ref_cjk, IH. unfold spaced1. change blank with [32%Z]. now destruct (cjk c).
Qed.

Lemma lstrip_toks E s : toks (by_space E) (lstrip E s) = toks (by_space E) s.
Proof.
  induction s as [|c s IH]; [reflexivity|]. cbn [lstrip].
  destruct (is_space E c) eqn:EC; [|reflexivity]. rewrite IH. symmetry. apply toks_gap.
  unfold by_space. now rewrite EC.
Qed.

Lemma lstrip_split E s : exists g, s = g ++ lstrip E s /\ forall x, In x g -> by_space E x = Gap.
Proof.
  induction s as [|c s IH]; [exists []; split; [reflexivity|intros x []]|]. cbn [lstrip].
  destruct (is_space E c) eqn:EC.
  - destruct IH as (g & H1 & H2). exists (c :: g). split; [cbn; now rewrite <- H1|].
    intros x [<-|Hx]; [unfold by_space; now rewrite EC|auto].
  - exists []. split; [reflexivity|intros x []].
Qed.

Lemma toks_gap_end E s g : (forall x, In x g -> by_space E x = Gap) ->
  toks (by_space E) (s ++ g) = toks (by_space E) s.
Proof.
  intros H. rewrite toks_app.
  - rewrite <- (app_nil_r g) at 1. rewrite toks_gaps by exact H. apply app_nil_r.
  - destruct g as [|x g]; cbn; [trivial|]. apply H. now left.
Qed.

Lemma strip_toks E s : toks (by_space E) (py_strip E s) = toks (by_space E) s.
Proof.
  rewrite <- (lstrip_toks E s). unfold py_strip. set (u := lstrip E s).
  destruct (lstrip_split E (rev u)) as (g & H1 & H2).
  rewrite <- (rev_involutive u) at 2. rewrite H1 at 2. rewrite rev_app_distr, toks_gap_end; [reflexivity|].
  intros x Hx. apply H2. now apply in_rev.
Qed.

Lemma ref_ws E s : ref_whitespace_tokenize E s = toks (by_space E) s.
Proof.
  unfold ref_whitespace_tokenize. rewrite <- strip_toks.
  destruct (py_strip E s) as [|c t]; [reflexivity|apply py_split_toks].
Qed.

Lemma ref_accents E s : ref_strip_accents E s = stripped E s.
Proof.
  unfold ref_strip_accents, stripped. induction (nfd E s) as [|c t IH]; [reflexivity|].
  cbn [drop_mn filter]. now destruct (is_mn E c); cbn [negb]; rewrite IH.
Qed.

Lemma ref_split_punc E s :
  (forall out, ref_split_on_punc E s true out = out ++ toks (in_word E) s) /\
  (forall out w, ref_split_on_punc E s false (out ++ [w]) = out ++ glue (in_word E) w s).
Proof.
  assert (A : forall (out : list str) w c, append_to_last (out ++ [w]) c = out ++ [w ++ [c]]).
  { intros out w c. unfold append_to_last. now rewrite removelast_last, last_last. }
  induction s as [|c s (IH1 & IH2)].
  - split; intros; cbn; now rewrite ?app_nil_r.
  - split; [intros out|intros out w]; cbn [ref_split_on_punc]; rewrite ref_punct;
      destruct (punctuation E c) eqn:EP.
    + assert (HK : in_word E c = Single) by (unfold in_word; now rewrite EP).
      rewrite IH1, toks_single, <- app_assoc by exact HK. reflexivity.
    + assert (HK : in_word E c = Word) by (unfold in_word; now rewrite EP).
      rewrite A, IH2, toks_word by exact HK. reflexivity.
    + assert (HK : in_word E c = Single) by (unfold in_word; now rewrite EP).
      rewrite IH1, glue_other, toks_single, <- !app_assoc by congruence. reflexivity.
    + assert (HK : in_word E c = Word) by (unfold in_word; now rewrite EP).
      rewrite A, IH2, glue_word by exact HK. reflexivity.
Qed.

Lemma ref_join ts : join_blank ts = joined blank ts.
Proof.
  induction ts as [|t [|u ts] IH]; [reflexivity|reflexivity|].
  change (join_blank (t :: u :: ts)) with (t ++ 32%Z :: join_blank (u :: ts)). now rewrite IH.
Qed.

(** ** Tokens of a mapped text, tokens of tokens *)

Lemma cut_by_map k k' f s : (forall c, In c s -> k (f c) = k' c) ->
  cut_by k (map f s) = map (fun x => (map f (fst x), snd x)) (cut_by k' s).
Proof.
  induction s as [|c s IH]; intros H; [reflexivity|].
  cbn [map]. rewrite !cut_by_eq, IH by (intros x Hx; apply H; now right).
  rewrite (H c) by now left.
  destruct (cut_by k' s) as [|[w d] rest]; [reflexivity|]. cbn [map fst snd].
  destruct (same_run (k' c) d); reflexivity.
Qed.

Lemma toks_map k k' f s : (forall c, In c s -> k (f c) = k' c) ->
  toks k (map f s) = map (map f) (toks k' s).
Proof.
  intros H. unfold toks. rewrite (cut_by_map k k' f s H). unfold tokens_of, kept.
  rewrite !map_map. cbn [fst snd].
  induction (cut_by k' s) as [|[w d] r IH]; [reflexivity|]. cbn [map filter fst snd].
  destruct d; cbn [map fst]; now rewrite IH.
Qed.

Lemma toks_app_other k c s : k c <> Word -> forall w,
  toks k (w ++ c :: s) = toks k w ++ toks k (c :: s) /\
  forall v, glue k v (w ++ c :: s) = glue k v w ++ toks k (c :: s).
Proof.
  intros HK. induction w as [|d w [IH1 IH2]].
  - split; [reflexivity|]. intros v. cbn [app]. now rewrite glue_other, glue_nil by exact HK.
  - cbn [app].
    assert (T : toks k (d :: w ++ c :: s) = toks k (d :: w) ++ toks k (c :: s)).
    { destruct (k d) eqn:EK.
      - rewrite !toks_gap by exact EK. exact IH1.
      - rewrite !toks_single by exact EK. cbn [app]. now rewrite IH1.
      - rewrite !toks_word by exact EK. apply IH2. }
    split; [exact T|]. intros v.
    destruct (k d) eqn:EK.
    + rewrite !glue_other by congruence. cbn [app]. now rewrite T.
    + rewrite !glue_other by congruence. cbn [app]. now rewrite T.
    + rewrite !glue_word by exact EK. apply IH2.
Qed.

(** [k1] cuts coarsely, [k2] cuts its tokens, [k] is both at once *)
Lemma toks_refine (k1 k2 k : Z -> kind) :
  (forall c, k1 c = Gap -> k c = Gap) ->
  (forall c, k1 c = Single -> k c = Single /\ k2 c <> Gap) ->
  (forall c, k1 c = Word -> k c = k2 c) ->
  forall s, concat (map (toks k2) (toks k1 s)) = toks k s /\
    forall w, (forall c, In c w -> k1 c = Word) ->
      concat (map (toks k2) (glue k1 w s)) = toks k (w ++ s).
Proof.
  intros HG HS HW.
  assert (X : forall w, (forall c, In c w -> k1 c = Word) -> toks k2 w = toks k w).
  { intros w H. apply toks_ext. intros c Hc. symmetry. now apply HW, H. }
  induction s as [|c s [IH1 IH2]].
  - split; [reflexivity|]. intros w H. rewrite glue_nil. cbn [map concat]. rewrite !app_nil_r. now apply X.
  - assert (T : concat (map (toks k2) (toks k1 (c :: s))) = toks k (c :: s)).
    { destruct (k1 c) eqn:EK.
      - rewrite toks_gap by exact EK. rewrite toks_gap by now apply HG. exact IH1.
      - destruct (HS c EK) as [KS K2]. rewrite toks_single by exact EK.
        rewrite (toks_single k) by exact KS. cbn [map concat]. rewrite IH1.
        destruct (k2 c) eqn:E2; [congruence| |].
        + now rewrite toks_single by exact E2.
        + now rewrite toks_word, glue_nil by exact E2.
      - rewrite toks_word by exact EK. rewrite IH2; [reflexivity|]. intros d [<-|[]]. exact EK. }
    split; [exact T|]. intros w H. destruct (k1 c) eqn:EK.
    + rewrite glue_other by congruence. cbn [map concat]. rewrite T, X by exact H.
      symmetry. apply toks_app_other. rewrite (HG c EK). discriminate.
    + rewrite glue_other by congruence. cbn [map concat]. rewrite T, X by exact H.
      symmetry. apply toks_app_other. rewrite (proj1 (HS c EK)). discriminate.
    + rewrite glue_word by exact EK. rewrite IH2, <- app_assoc; [reflexivity|].
      intros d Hd. apply in_app_iff in Hd. destruct Hd as [Hd|[<-|[]]]; auto.
Qed.

(** ** The basic tokenizer *)

Definition by_cjk (E : env) (c : Z) : kind :=
  if is_space E c then Gap else if cjk c then Single else Word.

Lemma lower_cjk c : cjk (lower c) = cjk c.
Proof.
  unfold lower. destruct (ascii_capital c) eqn:H; [|reflexivity].
  unfold ascii_capital, SpecOps.between in H. cbn in H. apply andb_true_iff in H. destruct H as [H1 H2].
  apply Z.leb_le in H1, H2.
  assert (L : forall d, (d < 13312)%Z -> cjk d = false).
  { intros d Hd. unfold cjk, cjk_blocks. cbn [existsb fst snd].
    rewrite !(proj2 (Z.leb_gt _ d)) by lia. reflexivity. }
  rewrite !L; [reflexivity|lia|lia].
Qed.

Lemma lower_class E c : letters E ->
  is_space E (lower c) = is_space E c /\ punctuation E (lower c) = punctuation E c.
Proof.
  intros HL. unfold lower. destruct (ascii_capital c) eqn:H; [|split; reflexivity].
  assert (S : ascii_small (c - 65 + 97)%Z = true).
  { unfold ascii_capital, ascii_small, SpecOps.between in *. cbn in H |- *.
    apply andb_true_iff in H. destruct H as [H1 H2]. apply Z.leb_le in H1, H2.
    apply andb_true_iff. rewrite !Z.leb_le. lia. }
  destruct (HL c) as [A1 A2]; [now rewrite H|].
  destruct (HL (c - 65 + 97)%Z) as [B1 B2]; [now rewrite S, orb_true_r|].
  rewrite A1, B1. split; [reflexivity|]. unfold punctuation. rewrite H, S, A2, B2.
  rewrite ?orb_true_r. cbn [orb negb]. now rewrite !andb_false_r.
Qed.

Section agree.
  Context (E : env) (R : runtime) (f : Z -> Z) (s : str).
  Context (PY : python E) (HL : letters E) (HB : well_behaved E R f s).

  Let g (c : Z) : Z := f (lower c).

  Lemma g_class c : In c s ->
    is_space E (g c) = is_space E c /\ punctuation E (g c) = punctuation E c.
  Proof.
    intros HI. destruct HB as (_ & _ & _ & H4). unfold g.
    destruct (H4 (lower c)) as [A1 A2]; [right; now apply in_map|].
    destruct (lower_class E c HL) as [B1 B2]. split; congruence.
  Qed.

  Lemma pipe_tokens : exists p als coll, basic_pipe E = Ok p /\
    transform_sequence E p (SStr s) = Ok (SLst (map ETok (map (map g) (toks (by_punct_cjk E) s))), als, coll).
  Proof.
    assert (PY' := PY). destruct PY as (_ & _ & SP).
    exists (mkPipe basic_steps []).
    pose proof (cut_by_cut (by_punct_cjk E) (map lower s)) as HC.
    set (u := joined blank (tokens_of (kept (cut_by (by_punct_cjk E) (map lower s))))).
    pose proof (cut_by_cut (by_space E) (stripped E u)) as HQ.
    destruct (basic_tokens E _ s _ _ PY' (basic_is E) HC HQ) as [R1 _]. fold u in R1.
    assert (IU : incl u (32%Z :: map lower s)).
    { unfold u. fold (toks (by_punct_cjk E) (map lower s)). intros c Hc.
      assert (J : forall ts, In c (joined blank ts) -> c = 32%Z \/ exists t, In t ts /\ In c t).
      { clear. induction ts as [|t [|t' ts] IH]; [intros []|intros H; right; exists t; split; [now left|exact H]|].
        change (joined blank (t :: t' :: ts)) with (t ++ blank ++ joined blank (t' :: ts)).
        intros H. rewrite !in_app_iff in H. destruct H as [H|[[<-|[]]|H]].
        - right. exists t. split; [now left|exact H].
        - now left.
        - destruct (IH H) as [->|(t2 & A & B)]; [now left|]. right. exists t2. split; [now right|exact B]. }
      destruct (J _ Hc) as [->|(t & A & B)]; [now left|]. right. now apply (toks_chars _ _ _ _ A B). }
    destruct HB as (_ & _ & H3 & H4). specialize (H3 u IU). rewrite H3 in R1.
    destruct (R1 (map_length f u)) as (als & coll & HR). exists als, coll.
    split; [reflexivity|]. rewrite HR. do 5 f_equal.
    fold (toks (by_space E) (map f u)).
    rewrite (toks_map _ (by_space E)) by (intros c Hc; unfold by_space; now rewrite (proj1 (H4 c (IU c Hc)))).
    unfold u. fold (toks (by_punct_cjk E) (map lower s)).
    rewrite joined_toks; [|exact SP|intros t Ht; now apply clean in Ht].
    rewrite (toks_map _ (by_punct_cjk E)).
    - rewrite map_map. apply map_ext. intros t. rewrite map_map. reflexivity.
    - intros c _. unfold by_punct_cjk. rewrite lower_cjk. destruct (lower_class E c HL) as [-> ->]. reflexivity.
  Qed.

  Definition white (c : Z) : Z := if ref_is_whitespace R c then 32%Z else c.

  Lemma white_space c : In c s -> ref_is_whitespace R c = is_space E c.
  Proof.
    intros HI. destruct HB as (H1 & _). destruct (H1 c HI) as (_ & _ & _ & H).
    apply eq_true_iff_eq. rewrite H. unfold ref_is_whitespace, TAB, LF, CR. cbn [In].
    destruct (Z.eqb_spec c 32), (Z.eqb_spec c 9), (Z.eqb_spec c 10), (Z.eqb_spec c 13); cbn [orb]; subst;
      intuition congruence.
  Qed.

  Lemma clean_text t : incl t s -> ref_clean_text R t = map white t.
  Proof.
    destruct HB as (H1 & _). induction t as [|c t IH]; intros HI; [reflexivity|].
    cbn [ref_clean_text map]. rewrite IH by (intros x Hx; apply HI; now right).
    destruct (H1 c (HI c (or_introl eq_refl))) as (N0 & N1 & NC & _).
    destruct (Z.eqb_spec c 0); [congruence|]. destruct (Z.eqb_spec c 65533); [congruence|]. cbn [orb].
    assert (RC : ref_is_control R c = false).
    { unfold ref_is_control. unfold TAB, LF, CR in NC. cbn [In] in NC.
      destruct (Z.eqb_spec c 9), (Z.eqb_spec c 10), (Z.eqb_spec c 13); try reflexivity.
      cbn [orb]. destruct (is_ccat R c); [|reflexivity]. specialize (NC eq_refl). intuition congruence. }
    rewrite RC. unfold white. now destruct (ref_is_whitespace R c).
  Qed.

  Lemma orig_tokens :
    ref_whitespace_tokenize E (ref_tokenize_chinese (ref_clean_text R s)) = toks (by_cjk E) s.
  Proof.
    destruct PY as (_ & _ & SP).
    rewrite ref_ws, (clean_text s (incl_refl s)), ref_chinese_spaced, map_map.
    assert (G32 : by_space E 32 = Gap) by (unfold by_space; now rewrite SP).
    assert (C32 : cjk 32 = false) by reflexivity.
    set (D := fun c => if is_space E c then [32%Z] else spaced1 cjk c).
    replace (map (fun x => spaced1 cjk (white x)) s) with (map D s).
    2:{ apply map_ext_in. intros c Hc. unfold D, white. rewrite (white_space c Hc).
        destruct (is_space E c); [unfold spaced1; now rewrite C32|reflexivity]. }
    apply (spread_toks (by_space E) (by_cjk E) D).
    - intros c HK. unfold by_cjk in HK. unfold D. destruct (is_space E c) eqn:EC; [|destruct (cjk c); discriminate].
      split; [discriminate|]. intros x [<-|[]]. exact G32.
    - intros c HK. unfold by_cjk in HK. unfold D. destruct (is_space E c) eqn:EC; [discriminate|].
      destruct (cjk c) eqn:EJ; [|discriminate]. exists blank, blank. unfold spaced1. rewrite EJ.
      split; [reflexivity|]. split; [discriminate|]. split; [discriminate|].
      split; [intros x [<-|[]]; exact G32|]. split; [intros x [<-|[]]; exact G32|].
      unfold by_space. now rewrite EC.
    - intros c HK. unfold by_cjk in HK. unfold D. destruct (is_space E c) eqn:EC; [discriminate|].
      destruct (cjk c) eqn:EJ; [discriminate|]. unfold spaced1. rewrite EJ. split; [reflexivity|].
      unfold by_space. now rewrite EC.
  Qed.

  Lemma ref_tokens : ref_basic E R true s = map (map g) (toks (by_punct_cjk E) s).
  Proof.
    assert (PY' := PY). destruct PY' as (_ & _ & SP).
    unfold ref_basic. rewrite orig_tokens, ref_ws, ref_join.
    rewrite flat_map_concat_map.
    assert (EQ : map (fun token => ref_split_on_punc E (ref_strip_accents E (str_lower R token)) true [])
                   (toks (by_cjk E) s) = map (fun t => map (map g) (toks (in_word E) t)) (toks (by_cjk E) s)).
    { apply map_ext_in. intros t Ht. rewrite (proj1 (ref_split_punc E _)), ref_accents. cbn [app].
      assert (IT : incl t s) by (intros c Hc; now apply (toks_chars _ _ _ _ Ht Hc)).
      destruct HB as (_ & H2 & H3 & _). rewrite (H2 t IT), H3, map_map.
      - apply (toks_map (in_word E) (in_word E) g). intros c Hc. unfold in_word.
        now rewrite (proj2 (g_class c (IT c Hc))).
      - intros c Hc. right. apply in_map_iff in Hc. destruct Hc as (d & <- & Hd). apply in_map. auto. }
    rewrite EQ.
    replace (concat (map (fun t => map (map g) (toks (in_word E) t)) (toks (by_cjk E) s)))
      with (map (map g) (toks (by_punct_cjk E) s)).
    - apply joined_toks; [exact SP|]. intros t Ht. apply in_map_iff in Ht. destruct Ht as (t0 & <- & Ht).
      destruct (clean _ _ _ Ht) as [A B]. split; [destruct t0; [congruence|discriminate]|].
      intros c Hc. apply in_map_iff in Hc. destruct Hc as (d & <- & Hd).
      rewrite (proj1 (g_class d (proj2 (toks_chars _ _ _ _ Ht Hd)))). now apply B.
    - rewrite <- (proj1 (toks_refine (by_cjk E) (in_word E) (by_punct_cjk E)
        ltac:(intros c; unfold by_cjk, by_punct_cjk; destruct (is_space E c); [trivial|destruct (cjk c); discriminate])
        ltac:(intros c; unfold by_cjk, by_punct_cjk, in_word; destruct (is_space E c); [discriminate|];
              destruct (cjk c); [rewrite orb_true_r|discriminate]; intros _; split; [reflexivity|];
              destruct (punctuation E c); discriminate)
        ltac:(intros c; unfold by_cjk, by_punct_cjk, in_word; destruct (is_space E c); [discriminate|];
              destruct (cjk c); [discriminate|]; rewrite orb_false_r; reflexivity) s)).
      rewrite concat_map, map_map. reflexivity.
  Qed.
End agree.

(** C62 *)
Theorem basic_agrees E R f s p : python E -> letters E -> well_behaved E R f s -> basic_pipe E = Ok p ->
  exists als coll, transform_sequence E p (SStr s) = Ok (SLst (map ETok (ref_basic E R true s)), als, coll).
Proof.
  intros PY HL HB HP. destruct (pipe_tokens E R f s PY HL HB) as (p' & als & coll & HP' & HT).
  assert (p' = p) as -> by congruence. exists als, coll.
  now rewrite (ref_tokens E R f s PY HL HB).
Qed.

(** ** Word pieces *)

Lemma ref_longest_ok v chars start n :
  ref_longest v chars start (start + n) = longest_piece v chars start n.
Proof.
  induction n as [|n IH].
  - rewrite Nat.add_0_r. destruct start as [|k]; [reflexivity|]. cbn [ref_longest longest_piece].
    now rewrite Nat.ltb_irrefl.
  - rewrite Nat.add_succ_r. cbn [ref_longest longest_piece].
    destruct (Nat.ltb_spec start (S (start + n))) as [_|L]; [|lia].
    rewrite IH. unfold slice, memb, HASHES. rewrite <- Nat.add_succ_r. reflexivity.
Qed.

Lemma ref_pieces_ok v chars fuel : forall start acc, start <= length chars ->
  ref_pieces fuel v chars start acc = subword_loop fuel v chars start acc.
Proof.
  induction fuel as [|fuel IH]; intros start acc HS; cbn [ref_pieces subword_loop];
    destruct (Nat.ltb_spec start (length chars)), (Nat.leb_spec (length chars) start); try lia; try reflexivity.
  assert (EL : length chars = start + (length chars - start)) by lia.
  rewrite EL at 1. rewrite ref_longest_ok.
  destruct (longest_piece v chars start (length chars - start)) as [[q e]|] eqn:EP; [|reflexivity].
  apply IH.
  assert (X : forall n q e, longest_piece v chars start n = Some (q, e) -> e <= start + n).
  { clear. induction n as [|n IHn]; intros q e; [discriminate|]. cbn [longest_piece].
    destruct (memb _ v); [intros [= _ <-]; lia|]. intros H. apply IHn in H. lia. }
  apply X in EP. lia.
Qed.

Lemma ref_word_ok v unk m t : exists out, subwords v (ETok unk) m t (map ETok out) /\
  forall ts acc, ref_word_loop v unk m (t :: ts) acc = ref_word_loop v unk m ts (acc ++ out).
Proof.
  destruct (span_subwords_spec v (ETok unk) m t) as (out & HS & HW).
  cbn [ref_word_loop]. rewrite ref_pieces_ok by lia. unfold span_subwords in HS.
  destruct (Z.of_nat (length t) >? m)%Z.
  - injection HS as <-. exists [unk]. split; [exact HW|reflexivity].
  - destruct (subword_loop (length t) v t 0 []) as [[ps|]|]; cbn [bind] in HS |- *; [| |discriminate].
    + injection HS as <-. exists ps. split; [exact HW|reflexivity].
    + injection HS as <-. exists [unk]. split; [exact HW|reflexivity].
Qed.

Lemma ref_words_ok v unk m ts : exists outs, Forall2 (subwords v (ETok unk) m) ts (map (map ETok) outs) /\
  forall acc, ref_word_loop v unk m ts acc = Ok (acc ++ concat outs).
Proof.
  induction ts as [|t ts (outs & F & IH)].
  - exists []. split; [constructor|]. intros acc. cbn. now rewrite app_nil_r.
  - destruct (ref_word_ok v unk m t) as (out & S & HR). exists (out :: outs).
    split; [constructor; assumption|]. intros acc. rewrite HR, IH, <- app_assoc. reflexivity.
Qed.

Lemma subwords_outs v unk m ts : forall outs outs', Forall2 (subwords v unk m) ts outs ->
  Forall2 (subwords v unk m) ts outs' -> outs = outs'.
Proof.
  induction ts as [|t ts IH]; intros outs outs' H H'; inversion H; inversion H'; subst; [reflexivity|].
  f_equal; [eapply subwords_det; eassumption|]. now apply IH.
Qed.

Lemma concat_tok (outs : list (list str)) : concat (map (map ETok) outs) = map ETok (concat outs).
Proof. now rewrite concat_map. Qed.

Lemma subwords_agree E v unk m ts : ord_ok (ord_e E) -> exists out a,
  (forall acc, ref_word_loop v unk m ts acc = Ok (acc ++ out)) /\
  transform_op E (SpanSubwords v (ETok unk) m) (SLst (map ETok ts)) = Ok (SLst (map ETok out), a).
Proof.
  intros OE. destruct (ref_words_ok v unk m ts) as (outs & F & HR).
  destruct (subwords_run E v (ETok unk) m ts OE) as (outs' & a & F' & T).
  rewrite <- (subwords_outs _ _ _ _ _ _ F F'), concat_tok in T. exists (concat outs), a. auto.
Qed.

Theorem words_agree E v unk m s : python E -> exists y a out b,
  transform_op E WhiteSpaceTokenizer (SStr s) = Ok (y, a) /\
  transform_op E (SpanSubwords v (ETok unk) m) y = Ok (SLst (map ETok out), b) /\
  ref_wordpiece E v unk m s = Ok out.
Proof.
  intros (OC & OE & SP).
  destruct (ws_tokenizes E s _ OC (cut_by_cut (by_space E) s)) as (_ & a & T & _).
  destruct (subwords_agree E v unk m (toks (by_space E) s) OE) as (out & b & HR & T2).
  exists (SLst (map ETok (toks (by_space E) s))), a, out, b. split; [exact T|]. split; [exact T2|].
  unfold ref_wordpiece. rewrite ref_ws. apply HR.
Qed.

Theorem word_piece_agrees E q s : python E -> word_piece_pipe E = Ok q ->
  exists out als coll, ref_wordpiece E (map txt word_piece_vocab) (txt "[UNK]") 200 s = Ok out /\
    transform_sequence E q (SStr s) = Ok (SLst (map ETok out), als, coll).
Proof.
  intros PY HQ. rewrite word_piece_is in HQ. injection HQ as <-. unfold transform_sequence. cbn [steps].
  destruct (words_agree E (map lit word_piece_vocab) (txt "[UNK]") 200 s PY) as (y & a & out & b & T1 & T2 & HR).
  rewrite (run_first _ _ _ _ _ _ _ T1). cbn [run o_op subwords_obj]. rewrite T2. cbn [bind].
  exists out. do 2 eexists. split; [exact HR|reflexivity].
Qed.

(** the full tokenizer *)
Lemma ref_full_words E v ts : (forall t, In t ts -> t <> [] /\ forall c, In c t -> is_space E c = false) ->
  forall out, (forall acc, ref_word_loop v ref_unk ref_max ts acc = Ok (acc ++ out)) ->
  forall acc, ref_full_loop E v ts acc = Ok (acc ++ out).
Proof.
  induction ts as [|t ts IH]; intros HC out HR acc.
  - specialize (HR acc). exact HR.
  - destruct (ref_word_ok v ref_unk ref_max t) as (o & _ & HT).
    destruct (ref_words_ok v ref_unk ref_max ts) as (os & _ & HS).
    assert (EO : out = o ++ concat os).
    { specialize (HR []). rewrite HT, HS in HR. cbn [app] in HR. injection HR as <-. reflexivity. }
    cbn [ref_full_loop]. unfold ref_wordpiece. rewrite ref_ws, toks_one_word.
    + rewrite HT. cbn [ref_word_loop bind app]. rewrite (IH ltac:(intros; apply HC; now right) _ HS).
      now rewrite EO, app_assoc.
    + apply HC. now left.
    + intros c Hc. unfold by_space. now rewrite (proj2 (HC t (or_introl eq_refl)) c Hc).
Qed.

Theorem full_agrees E R f s q : python E -> letters E -> well_behaved E R f s -> full_pipe E = Ok q ->
  exists out als coll, ref_full E R (map txt full_vocab) s = Ok out /\
    transform_sequence E q (SStr s) = Ok (SLst (map ETok out), als, coll).
Proof.
  intros PY HL HB HQ. rewrite full_is in HQ.
  assert (q = mkPipe (basic_steps ++ [subwords_obj full_vocab]) []) as -> by congruence.
  destruct (basic_agrees E R f s _ PY HL HB (basic_is E)) as (als & coll & HT).
  destruct (subwords_agree E (map lit full_vocab) (txt "[UNK]") 200 (ref_basic E R true s) (proj1 (proj2 PY)))
    as (out & a & HR & T).
  exists out. unfold transform_sequence in *. cbn [steps] in *. rewrite run_app, HT. cbn [bind].
  cbn [run o_op subwords_obj]. rewrite T. cbn [bind]. do 2 eexists. split; [|reflexivity].
  unfold ref_full. rewrite (ref_full_words E _ _) with (out := out); [reflexivity| |exact HR].
  intros t Ht. unfold ref_basic in Ht. rewrite ref_ws in Ht.
  split; [now apply toks_nonempty in Ht|]. intros c Hc. destruct (toks_chars _ _ _ _ Ht Hc) as [HK _].
  unfold by_space in HK. destruct (is_space E c); congruence.
Qed.

(** ** Everyday text *)

Lemma lower_known c : known c -> known (lower c).
Proof.
  unfold lower. destruct (ascii_capital c) eqn:H; [|trivial]. intros _.
  unfold ascii_capital, SpecOps.between in H. cbn in H. apply andb_true_iff in H. destruct H as [H1 H2].
  apply Z.leb_le in H1, H2. left. unfold ascii. lia.
Qed.

Lemma everyday_known c : everyday c -> known c.
Proof.
  unfold everyday, known, ascii, chinese, TAB, LF, CR. cbn [In]. intuition subst; left; lia.
Qed.

Theorem everyday_behaves E R s : unicode E R -> Forall everyday s -> well_behaved E R (fun c => c) s.
Proof.
  intros (U1 & U2 & U3) HE. rewrite Forall_forall in HE.
  assert (KL : forall c, In c (32%Z :: map lower s) -> known c).
  { intros c [<-|Hc]; [left; unfold ascii; lia|]. apply in_map_iff in Hc. destruct Hc as (d & <- & Hd).
    apply lower_known, everyday_known. auto. }
  split; [|split; [|split]].
  - intros c Hc. pose proof (HE c Hc) as HV. destruct (U1 c (everyday_known c HV)) as (S & Zs & C & _).
    unfold everyday, chinese, TAB, LF, CR in *. cbn [In] in *.
    split; [lia|]. split; [lia|]. split; [rewrite C; lia|]. rewrite S, Zs. lia.
  - intros t Ht. apply U3. apply Forall_forall. intros c Hc. apply everyday_known. auto.
  - intros t Ht. unfold stripped.
    assert (KT : Forall known t) by (apply Forall_forall; intros c Hc; apply KL, Ht, Hc).
    rewrite (proj1 (U3 t KT)), map_id. rewrite Forall_forall in KT. clear Ht.
    induction t as [|c t IH]; [reflexivity|]. cbn [filter].
    destruct (U1 c (KT c (or_introl eq_refl))) as (_ & _ & _ & ->). cbn [negb].
    rewrite IH; [reflexivity|]. intros d Hd. apply KT. now right.
  - auto.
Qed.
