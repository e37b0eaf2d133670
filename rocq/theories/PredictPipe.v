(** Which labels of the output of a pipe stick (C108). *)

From Coq Require Import String.
From Verif Require Import Py PyFacts Edit Labels SpecEdit SpecLabels SpecSeg SpecRuns SpecWords SpecOps SpecLaws
  EditProofs LabelProofs EditApiProofs SegProofs RegexProofs RunsProofs Ops OpProofs StrOpProofs ListOpProofs TokProofs OpLaws AlignProofs Json Elements SpecElements Pipe SpecPipe
  PipeProofs PipeAlign DatumProofs PackProofs PackErrors
  LawsTok LawsProofs LawsText SpecBert SpecTrip TripProofs BertProofs SpecAccept AcceptPipe SpecJoin JoinProofs SpecSettle SettleSegs SettleOps SettleTable SettlePipe SettleSurvive SettleNumbers SettleCells SettleDatum
  SpecPredict PredictProofs.
From Coq Require Import List Lia.

(** ** Steps *)

Lemma sticks_app E als als' m k : align_inverse_all E als' m = Ok k -> sticks E als' m -> sticks E als k -> sticks E (als ++ als') m.
Proof.
  intros H (k' & A & B) (l & C & D). rewrite H in A. injection A as <-. exists l.
  rewrite align_inverse_all_app, H. cbn [bind]. split; [exact C|]. rewrite align_all_app, D. exact B.
Qed.
Lemma sticks_app_iff E als als' m k : returns E als \/ (forall k', align_all als' k' = Ok m -> survives E als' k') ->
  align_inverse_all E als' m = Ok k -> (sticks E (als ++ als') m <-> sticks E als k /\ sticks E als' m).
Proof.
  intros R H. split; [|intros (H1 & H2); now apply (sticks_app E als als' m k)].
  intros (l & A & B). rewrite align_inverse_all_app, H in A. cbn [bind] in A. rewrite align_all_app in B.
  destruct (align_all als l) as [k'|] eqn:EA; cbn [bind] in B; [|discriminate].
  assert (k' = k) as ->.
  { destruct R as [R|R]; [rewrite (R _ _ A) in EA; now injection EA|].
    destruct (R k' B) as (m' & Q1 & Q2). rewrite B in Q1. injection Q1 as <-. congruence. }
  split; [exists l; auto|exists k; auto].
Qed.
Lemma sticks_survives E als m : sticks E als m <-> exists l, survives E als l /\ align_all als l = Ok m.
Proof.
  split.
  - intros (l & A & B). exists l. split; [exists m; auto|exact B].
  - intros (l & (m' & A & B) & C). rewrite C in A. injection A as <-. exists l. auto.
Qed.

(** ** Pipes of list operators *)

Definition shifts (E : env) (als : list aligner) (n N : nat) (t : nat -> option nat) : Prop :=
  (forall l, length l = n -> exists m, align_all als l = Ok m /\ length m = N /\
     (forall i j x, t i = Some j -> nth_error l i = Some x -> nth_error m j = Some x) /\
     (forall j x, (forall i, i < n -> t i <> Some j) -> nth_error m j = Some x -> x = 0%Z)) /\
  (forall m, length m = N -> exists l, align_inverse_all E als m = Ok l /\ length l = n /\
     (forall i j x, i < n -> t i = Some j -> nth_error m j = Some x -> nth_error l i = Some x) /\
     (forall i x, t i = None -> nth_error l i = Some x -> x = 0%Z)).

Lemma shifts_nil E n : shifts E [] n n Some.
Proof.
  split.
  - intros l L. exists l. split; [reflexivity|]. split; [exact L|]. split; [intros i j x [= ->]; auto|].
    intros j x H HX. exfalso. apply (H j); [|reflexivity]. rewrite <- L. apply nth_error_Some. congruence.
  - intros l L. exists l. split; [reflexivity|]. split; [exact L|]. split; [intros i j x _ [= ->]; auto|]. discriminate.
Qed.

Lemma preimage_dec (t : nat -> option nat) n j : (exists k, k < n /\ t k = Some j) \/ (forall k, k < n -> t k <> Some j).
Proof.
  induction n as [|n [(k & L & Q)|IH]]; [right; intros; lia|left; exists k; split; [lia|exact Q]|].
  destruct (t n) as [z|] eqn:Q.
  - destruct (Nat.eq_dec z j) as [-> |N]; [left; exists n; split; [lia|exact Q]|].
    right. intros k L. destruct (Nat.eq_dec k n) as [-> |]; [congruence|apply IH; lia].
  - right. intros k L. destruct (Nat.eq_dec k n) as [-> |]; [congruence|apply IH; lia].
Qed.

Lemma shifts_cons E a als n n1 N t1 t2 : shifts E [a] n n1 t1 -> shifts E als n1 N t2 ->
  shifts E (a :: als) n N (fun i => match t1 i with Some j => t2 j | None => None end).
Proof.
  intros (A1 & A2) (B1 & B2). change (a :: als) with ([a] ++ als). split.
  - intros l L. destruct (A1 l L) as (m1 & C1 & C2 & C3 & C4). destruct (B1 m1 C2) as (m & D1 & D2 & D3 & D4).
    exists m. rewrite align_all_app, C1. split; [exact D1|]. split; [exact D2|]. split.
    + intros i j x HT HX. destruct (t1 i) as [k|] eqn:T1; [|discriminate]. exact (D3 k j x HT (C3 i k x T1 HX)).
    + intros j x HN HX. destruct (preimage_dec t2 n1 j) as [(k & LK & TK)|NK]; [|exact (D4 j x NK HX)].
      destruct (nth_error m1 k) as [z|] eqn:EZ; [|apply nth_error_None in EZ; lia].
      pose proof (D3 k j z TK EZ) as Q. rewrite HX in Q. injection Q as <-.
      apply (C4 k x); [|exact EZ]. intros i LI TI. apply (HN i LI). now rewrite TI.
  - intros m L. destruct (B2 m L) as (m1 & D1 & D2 & D3 & D4). destruct (A2 m1 D2) as (l & C1 & C2 & C3 & C4).
    exists l. rewrite align_inverse_all_app, D1. split; [exact C1|]. split; [exact C2|]. split.
    + intros i j x LI HT HX. destruct (t1 i) as [k|] eqn:T1; [|discriminate]. apply (C3 i k x LI T1).
      apply (D3 k j x); [|exact HT|exact HX].
      destruct (A1 (repeat 0%Z n) (repeat_length _ _)) as (q & Q1 & Q2 & Q3 & _).
      rewrite <- Q2. apply nth_error_Some. rewrite (Q3 i k 0%Z T1); [discriminate|]. now apply nth_error_repeat.
    + intros i x HT HX. destruct (t1 i) as [k|] eqn:T1; [|exact (C4 i x T1 HX)].
      assert (LI : i < n) by (rewrite <- C2; apply nth_error_Some; congruence).
      destruct (nth_error m1 k) as [z|] eqn:EZ.
      * pose proof (C3 i k z LI T1 EZ) as Q. rewrite HX in Q. injection Q as <-. exact (D4 k x HT EZ).
      * exfalso. apply nth_error_None in EZ.
        destruct (A1 (repeat 0%Z n) (repeat_length _ _)) as (q & Q1 & Q2 & Q3 & _).
        assert (Q : nth_error q k = Some 0%Z) by (apply (Q3 i k 0%Z T1); now apply nth_error_repeat).
        assert (k < length q) by (apply nth_error_Some; congruence). lia.
Qed.

Lemma shifts_sticks E als n N t m : shifts E als n N t -> length m = N ->
  (sticks E als m <-> zero_at (fun j => forall i, i < n -> t i <> Some j) m).
Proof.
  intros (A1 & A2) L. destruct (A2 m L) as (l & B1 & B2 & B3 & B4). destruct (A1 l B2) as (m' & C1 & C2 & C3 & C4). split.
  - intros (l' & H1 & H2). rewrite B1 in H1. injection H1 as <-. rewrite C1 in H2. injection H2 as ->. exact C4.
  - intros H. exists l. split; [exact B1|]. rewrite C1. f_equal. apply nth_error_ext_eq; [congruence|].
    intros j x HX. destruct (preimage_dec t n j) as [(i & LI & TI)|NI].
    + exact (C3 i j x TI (B3 i j x LI TI HX)).
    + rewrite (H j x NI HX). destruct (nth_error m' j) as [z|] eqn:EZ; [now rewrite (C4 j z NI EZ)|].
      exfalso. apply nth_error_None in EZ. assert (j < length m) by (apply nth_error_Some; congruence). lia.
Qed.

Lemma aligns_acts E a n N F G t : aligns E a any_labels n N F G ->
  (forall l, length l = n -> (forall i j x, t i = Some j -> nth_error l i = Some x -> nth_error (F l) j = Some x) /\
     (forall j x, (forall i, i < n -> t i <> Some j) -> nth_error (F l) j = Some x -> x = 0%Z)) ->
  (forall m, length m = N -> (forall i j x, i < n -> t i = Some j -> nth_error m j = Some x -> nth_error (G m) i = Some x) /\
     (forall i x, t i = None -> nth_error (G m) i = Some x -> x = 0%Z)) -> shifts E [a] n N t.
Proof.
  intros (A1 & A2 & A3 & A4) HF HG. split.
  - intros l L. exists (F l). rewrite align_one. destruct (A1 l L Logic.I) as (Q1 & Q2). split; [exact Q1|]. split; [exact Q2|]. now apply HF.
  - intros m L. exists (G m). rewrite align_inverse_one. destruct (A3 m L Logic.I) as (Q1 & Q2). split; [exact Q1|]. split; [exact Q2|]. now apply HG.
Qed.

Lemma nth_repeat_inv (x y : Z) n i : nth_error (repeat x n) i = Some y -> y = x.
Proof. intros H. apply nth_error_In, repeat_spec in H. exact H. Qed.

Lemma list_step_moves E o l y a : python E -> list_step o -> transform_op E o (SLst l) = Ok (y, a) ->
  exists l', y = SLst l' /\ shifts E [a] (length l) (length l') (moved o).
Proof.
  intros PY HO HT. pose proof PY as (_ & OE & _).
  assert (KEEP : moved o = Some -> (exists l', y = SLst l' /\ aligns E a any_labels (length l) (length l') keep keep) ->
    exists l', y = SLst l' /\ shifts E [a] (length l) (length l') (moved o)).
  { intros Q (l' & Y & A). exists l'. split; [exact Y|]. rewrite Q. apply (aligns_acts _ _ _ _ _ _ _ A); unfold keep.
    - intros m L. split; [intros i j x [= ->]; auto|]. intros j x H HX. exfalso. apply (H j); [|reflexivity].
      rewrite <- L. apply nth_error_Some. congruence.
    - intros m L. split; [intros i j x _ [= ->]; auto|discriminate]. }
  destruct o; cbn [list_step] in HO; try contradiction.
  - apply KEEP; [reflexivity|]. exact (null_maps_by E (PureNum2Token token) (purenum_newv E token) l y a OE (fun _ => eq_refl) (purenum_one E token) HT).
  - destruct (Z.ltb_spec maxlen 0) as [L|L]; [rewrite pad_negative in HT by exact L; discriminate|].
    assert (HP : (Z.of_nat (length l) < 2 ^ 32)%Z \/ Z.of_nat (length l) = maxlen).
    { destruct (Z.ltb_spec (Z.of_nat (length l)) (2 ^ 32)) as [Q|Q]; [now left|].
      destruct (Z.eq_dec (Z.of_nat (length l)) maxlen) as [R'|R']; [now right|].
      rewrite pad_too_long in HT by assumption. discriminate. }
    destruct (maps_inv _ _ _ _ _ _ _ _ _ (pad_maps E maxlen pad_token l OE L HP) HT) as [-> A].
    eexists. split; [reflexivity|]. apply (aligns_acts _ _ _ _ _ _ _ A); clear A HT HP; set (M := Z.to_nat maxlen); intros m HM; cbn [moved].
    + split.
      * intros i j x. destruct (Z.ltb_spec (Z.of_nat i) maxlen) as [Q|Q]; [|discriminate]. intros [= <-] HX.
        assert (i < length m) by (apply nth_error_Some; congruence).
        rewrite nth_error_app1 by (rewrite firstn_length; lia). rewrite nth_error_firstn_lt by lia. exact HX.
      * intros j x HN HX. destruct (Nat.lt_ge_cases j (length (firstn M m))) as [Q|Q].
        -- exfalso. rewrite firstn_length in Q. apply (HN j); [lia|]. destruct (Z.ltb_spec (Z.of_nat j) maxlen) as [R|R]; [reflexivity|lia].
        -- rewrite nth_error_app2 in HX by exact Q. now apply nth_repeat_inv in HX.
    + cbn [pseq_length] in HM. rewrite app_length, firstn_length, repeat_length in HM. split.
      * cbn [pseq_length]. intros i j x LI. destruct (Z.ltb_spec (Z.of_nat i) maxlen) as [Q|Q]; [|discriminate]. intros [= <-] HX.
        assert (i < length m) by (apply nth_error_Some; congruence).
        rewrite nth_error_app1 by (rewrite firstn_length; lia). rewrite nth_error_firstn_lt by lia. exact HX.
      * intros i x. destruct (Z.ltb_spec (Z.of_nat i) maxlen) as [Q|Q]; [discriminate|]. intros _ HX.
        rewrite nth_error_app2 in HX by (rewrite firstn_length; lia). now apply nth_repeat_inv in HX.
  - destruct l as [|x0 l].
    + pose proof (soseos_sticks E start_token end_token [] OE y a HT) as ST.
      destruct (soseos_empty E start_token end_token y a OE HT) as (Y & S1 & S2 & S3 & S4 & S5).
      assert (exists l', y = SLst l') as (l' & ->) by (destruct Y as [(_ & [->| ->])|(_ & ->)]; eauto).
      exists l'. split; [reflexivity|]. cbn [length pseq_length] in *. split.
      * intros m HM. destruct (S3 m HM) as (out & A & LA). exists out. rewrite align_one. split; [exact A|]. split; [exact LA|].
        destruct m; [|discriminate]. split; [intros [|i] j x _ Q; discriminate|]. intros j x _ HX.
        destruct (S4 out LA ltac:(now left)) as [(_ & q & B & LB)|([] & _)]. destruct q; [|discriminate].
        assert (SK : sticks E [a] out) by (apply sticks_one; exists []; auto).
        apply ST in SK. destruct SK as (_ & SK). apply (SK j x); [lia|exact HX].
      * intros m HM. destruct (S4 m HM ltac:(now left)) as [(_ & q & B & LB)|([] & _)]. exists q. rewrite align_inverse_one.
        split; [exact B|]. split; [exact LB|]. destruct q; [|discriminate]. split; [intros; lia|]. intros [|i] x _ Q; discriminate.
    + destruct (Z.ltb_spec (Z.of_nat (length (x0 :: l))) (2 ^ 32)) as [Q|Q]; [|rewrite soseos_too_long in HT by exact Q; discriminate].
      destruct (maps_inv _ _ _ _ _ _ _ _ _ (soseos_maps E start_token end_token (x0 :: l) OE ltac:(discriminate) Q) HT) as [-> A].
      eexists. split; [reflexivity|]. apply (aligns_acts _ _ _ _ _ _ _ A); clear A HT Q; intros m HM; cbn [moved].
      * split.
        -- intros i j x [= <-] HX. cbn [nth_error]. rewrite nth_error_app1; [exact HX|]. apply nth_error_Some. congruence.
        -- intros [|j] x HN HX; [now injection HX|]. cbn [nth_error] in HX. destruct (Nat.lt_ge_cases j (length m)) as [Q|Q].
           ++ exfalso. apply (HN j); [congruence|reflexivity].
           ++ rewrite nth_error_app2 in HX by exact Q. destruct (j - length m) as [|k]; [now injection HX|destruct k; discriminate].
      * split; [|discriminate]. intros i j x LI [= <-] HX. destruct m as [|z m]; [discriminate|]. cbn [nth_error tl] in *.
        rewrite nth_error_firstn_lt by exact LI. exact HX.
  - destruct (Z.ltb_spec (Z.of_nat (length l)) (2 ^ 32)) as [Q|Q]; [|rewrite end_too_long in HT by exact Q; discriminate].
    destruct (maps_inv _ _ _ _ _ _ _ _ _ (end_maps E end_token l OE Q) HT) as [-> A].
    eexists. split; [reflexivity|]. apply (aligns_acts _ _ _ _ _ _ _ A); clear A HT Q; intros m HM; cbn [moved].
    + split.
      * intros i j x [= <-] HX. rewrite nth_error_app1; [exact HX|]. apply nth_error_Some. congruence.
      * intros j x HN HX. destruct (Nat.lt_ge_cases j (length m)) as [Q|Q].
        -- exfalso. apply (HN j); [congruence|reflexivity].
        -- rewrite nth_error_app2 in HX by exact Q. destruct (j - length m) as [|k]; [now injection HX|destruct k; discriminate].
    + split; [|discriminate]. intros i j x LI [= <-] HX. rewrite nth_error_firstn_lt by exact LI. exact HX.
  - apply KEEP; [reflexivity|]. exact (null_maps_by E (Token2Index token2index unk_token) (index_newv token2index unk_token) l y a OE (fun _ => eq_refl) (index_one token2index unk_token) HT).
  - apply KEEP; [reflexivity|]. exact (null_maps_by E (Token2IndexwithHash token2index) (hash_newv token2index) l y a OE (fun _ => eq_refl) (hash_one token2index) HT).
Qed.

Lemma list_steps_act E ops : python E -> Forall list_step (map o_op ops) -> forall l y als coll,
  Pipe.run E ops (SLst l) = Ok (y, als, coll) -> exists l', y = SLst l' /\ shifts E als (length l) (length l') (lands (map o_op ops)).
Proof.
  intros PY. induction ops as [|o ops IH]; intros HF l y als coll HR.
  - cbn [Pipe.run] in HR. injection HR as <- <- <-. exists l. split; [reflexivity|]. apply shifts_nil.
  - cbn [Pipe.run] in HR. destruct (transform_op E (o_op o) (SLst l)) as [[v a]|] eqn:T; [|discriminate]. cbn [bind] in HR.
    destruct (Pipe.run E ops v) as [[[z al] co]|] eqn:HR'; [|discriminate]. cbn [bind] in HR. injection HR as <- <- <-.
    cbn [map] in HF. inversion HF as [|? ? H1 H2]; subst.
    destruct (list_step_moves E (o_op o) l v a PY H1 T) as (l1 & -> & A).
    destruct (IH H2 l1 z al co HR') as (l' & -> & B). exists l'. split; [reflexivity|].
    exact (shifts_cons _ _ _ _ _ _ _ _ A B).
Qed.

Theorem list_pipe_sticks E p l y als coll : python E -> Forall list_step (map o_op (steps p)) -> steps p <> [] ->
  transform_sequence E p (SLst l) = Ok (y, als, coll) ->
  forall m, sticks E als m <-> length m = pseq_length y /\ zero_at (added (map o_op (steps p)) (length l)) m.
Proof.
  intros PY HF NE HR m. destruct (list_steps_act E _ PY HF _ _ _ _ HR) as (l' & -> & A). cbn [pseq_length]. split.
  - intros H. assert (L : length m = length l').
    { destruct H as (k & H1 & H2). destruct (Nat.eq_dec (length k) (length l)) as [L|L].
      - destruct (proj1 A k L) as (m' & Q & LM & _). congruence.
      - exfalso. destruct (steps p) as [|o ops] eqn:ES; [congruence|]. unfold transform_sequence in HR. rewrite ES in HR.
        cbn [Pipe.run] in HR. destruct (transform_op E (o_op o) (SLst l)) as [[v a]|] eqn:T; [|discriminate]. cbn [bind] in HR.
        destruct (Pipe.run E ops v) as [[[z al] co]|] eqn:HR'; [|discriminate]. cbn [bind] in HR. injection HR as _ <- _.
        cbn [map] in HF. inversion HF as [|? ? HF1 HF2]; subst.
        destruct (list_step_acts E (o_op o) l v a PY HF1 T) as (_ & F & G & _ & (_ & A2 & _) & _).
        rewrite align_all_cons, (A2 k L) in H2. discriminate. }
    split; [exact L|]. now apply (shifts_sticks E als (length l) (length l') _ m A L).
  - intros (L & H). now apply (shifts_sticks E als (length l) (length l') _ m A L).
Qed.

(** ** Tokenizers and what follows *)

Section tokens.
Context (E : env) (PY : python E) (RX : regexes E).

Lemma front_sticks front o s y als coll : Forall (made E) (front ++ [o]) -> Forall transparent (map o_op front) -> tokenizer (o_op o) ->
  Pipe.run E (front ++ [o]) (SStr s) = Ok (y, als, coll) ->
  returns E als /\ forall m, sticks E als m <-> length m = pseq_length y /\ u32_labels m.
Proof.
  intros HM HF HT HR.
  assert (RV : Forall reversible (map o_op (front ++ [o]))).
  { rewrite map_app. apply Forall_app. split.
    - eapply Forall_impl; [|exact HF]. intros q Q. now apply transparent_reversible.
    - constructor; [|constructor]. now apply tokenizer_reversible. }
  pose proof (run_returns E PY RX _ HM RV _ _ _ _ HR) as RT. split; [exact RT|].
  destruct (run_sound E PY RX _ HM _ _ _ _ HR) as (_ & R2 & _ & R4 & _).
  assert (NN : front ++ [o] <> []) by (intros Q; apply app_eq_nil in Q; destruct Q; discriminate).
  intros m. split.
  - intros (l & A & B). destruct (Nat.eq_dec (length m) (pseq_length y)) as [L|L]; [|rewrite (R4 NN m L) in A; discriminate].
    split; [exact L|]. rewrite run_app in HR.
    destruct (Pipe.run E front (SStr s)) as [[[y1 als1] coll1]|] eqn:R1; [|discriminate]. cbn [bind Pipe.run] in HR.
    destruct (transform_op E (o_op o) y1) as [[v w]|] eqn:T; [|discriminate]. cbn [bind] in HR. injection HR as <- <- <-.
    rewrite align_inverse_all_app, align_inverse_one in A.
    destruct (align_inverse E w m) as [k|] eqn:EA; cbn [bind] in A; [|discriminate].
    apply Forall_app in HM. destruct HM as (_ & HM). inversion HM; subst.
    destruct (u32_dec m) as [U|U]; [exact U|]. exfalso. 
    destruct (all_sound E (o_op o) y1 v w PY (made_built _ _ RX H1) T) as (_ & _ & _ & _ & S5).
    rewrite (S5 m L) in EA; [discriminate|]. intros [Q|Q]; [|tauto]. destruct (tokenizer_reversible _ HT) as (_ & Q' & _). tauto.
  - intros (L & U). destruct (R2 m L ltac:(now right)) as [(_ & l & A & _)|((k & q & u & K1 & K2 & K3) & _)].
    + exists l. split; [exact A|]. exact (RT _ _ A).
    + exfalso. apply nth_error_In in K1. apply in_app_or in K1. destruct K1 as [K1|[<-|[]]].
      * rewrite Forall_forall in HF. destruct (transparent_reversible _ (HF _ (in_map o_op _ _ K1))) as (_ & _ & D). exact (D _ _ K3).
      * destruct (tokenizer_reversible _ HT) as (_ & _ & D). exact (D _ _ K3).
Qed.

Theorem tokens_stick p s y als coll front tok after ts : reachable E p ->
  map o_op (steps p) = front ++ tok :: after -> Forall transparent front -> tokenizer tok -> Forall list_step after ->
  transform_sequence E p (SStr s) = Ok (y, als, coll) -> nth_error coll (S (length front)) = Some (SLst ts) ->
  forall m, sticks E als m <-> length m = pseq_length y /\ u32_labels m /\ zero_at (added after (length ts)) m.
Proof.
  intros HP HO HF HT HA HR HC m. unfold transform_sequence in HR.
  apply reachable_sound in HP. destruct HP as (HM & _).
  apply map_eq_app in HO. destruct HO as (f & r & Q & F & R). destruct r as [|o r]; [discriminate|]. injection R as R1 R2.
  rewrite Q in HR, HM. change (o :: r) with ([o] ++ r) in HR, HM. rewrite app_assoc in HR, HM.
  apply Forall_app in HM. destruct HM as (HM & HM2). rewrite run_app in HR.
  destruct (Pipe.run E (f ++ [o]) (SStr s)) as [[[y1 als1] coll1]|] eqn:RF; [|discriminate]. cbn [bind] in HR.
  destruct (Pipe.run E r y1) as [[[z al] co]|] eqn:RA; [|discriminate]. cbn [bind] in HR. injection HR as <- <- <-.
  rewrite <- F in HF. rewrite <- R1 in HT. rewrite <- R2 in HA.
  destruct (front_sticks f o s y1 als1 coll1 HM HF HT RF) as (RT & ST).
  apply run_stepwise in RF as RF'. destruct RF' as (_ & LC & _ & LY & _).
  assert (y1 = SLst ts) as ->.
  { rewrite app_length in LC, LY. cbn [length] in LC, LY. rewrite <- F, map_length in HC.
    rewrite nth_error_app1 in HC by lia. rewrite Nat.add_1_r in LY. congruence. }
  destruct (list_steps_act E r PY HA ts z al co RA) as (l' & -> & A). cbn [pseq_length]. rewrite R2 in A.
  assert (U0 : (0 <= 0 < 2 ^ 32)%Z) by lia.
  split.
  - intros H. assert (L : length m = length l').
    { destruct H as (l & H1 & H2). rewrite align_all_app in H2. rewrite align_inverse_all_app in H1.
      destruct (align_inverse_all E al m) as [k|] eqn:EK; [|discriminate]. cbn [bind] in H1.
      assert (SK : sticks E als1 k) by (exists l; split; [exact H1|exact (RT _ _ H1)]). apply ST in SK. destruct SK as (LK & _).
      rewrite (RT _ _ H1) in H2. cbn [bind] in H2. destruct (proj1 A k LK) as (m' & Q1 & Q2 & _). congruence. }
    destruct (proj2 A m L) as (k & K1 & K2 & K3 & K4).
    apply (sticks_app_iff E als1 al m k (or_introl RT) K1) in H. destruct H as (H1 & H2).
    apply ST in H1. destruct H1 as (_ & U). apply (shifts_sticks E al _ _ _ m A L) in H2. split; [exact L|]. split; [|exact H2].
    apply Forall_forall. intros x HX. apply In_nth_error in HX. destruct HX as (j & HJ).
    destruct (preimage_dec (lands after) (length ts) j) as [(i & LI & TI)|NI].
    + pose proof (K3 i j x LI TI HJ) as Q3. apply nth_error_In in Q3. unfold u32_labels in U. rewrite Forall_forall in U. now apply U.
    + rewrite (H2 j x NI HJ). exact U0.
  - intros (L & U & H). destruct (proj2 A m L) as (k & K1 & K2 & K3 & K4).
    apply (sticks_app_iff E als1 al m k (or_introl RT) K1). split; [|now apply (shifts_sticks E al _ _ _ m A L)].
    apply ST. split; [exact K2|]. apply Forall_forall. intros x HX. apply In_nth_error in HX. destruct HX as (i & HI).
    assert (LI : i < length ts) by (rewrite <- K2; apply nth_error_Some; congruence).
    destruct (lands after i) as [j|] eqn:TJ; [|rewrite (K4 i x TJ HI); exact U0].
    destruct (nth_error m j) as [w|] eqn:EW.
    + pose proof (K3 i j w LI TJ EW) as Q3. rewrite HI in Q3. injection Q3 as <-.
      unfold u32_labels in U. rewrite Forall_forall in U. apply U. eapply nth_error_In; eauto.
    + exfalso. destruct (proj1 A (repeat 0%Z (length ts)) (repeat_length _ _)) as (q & Q1 & Q2 & Q3 & _).
      assert (Q4 : nth_error q j = Some 0%Z) by (apply (Q3 i j 0%Z TJ); now apply nth_error_repeat).
      apply nth_error_None in EW. assert (j < length q) by (apply nth_error_Some; congruence). lia.
Qed.

(** ** The pipes of pipeline/bert *)

Lemma bert_tokens_stick o s ts a : In o [ZhCharTokenizer; WhiteSpaceTokenizer] ->
  transform_op E o (SStr s) = Ok (SLst (map ETok ts), a) ->
  returns1 E a /\ (forall m, sticks E [a] m <-> length m = length ts /\ u32_labels m) /\
  (forall m, length m = length ts -> u32_labels m -> exists l, align_inverse E a m = Ok l /\ align a l = Ok m) /\
  forall t, In t ts -> t <> [].
Proof.
  intros HI T. assert (B : built E o) by (apply built_plain; destruct HI as [<-|[<-|[]]]; cbn; tauto).
  assert (K : tokenizer o) by (destruct HI as [<-|[<-|[]]]; now split).
  pose proof (tokenizer_sticks E o (SStr s) PY B K _ _ T) as S. cbn [pseq_length] in S. rewrite map_length in S.
  split; [exact (proj1 (proj2 (op_table E _ _ _ _ PY B T)) (proj1 (tokenizer_reversible o K)))|]. split; [exact S|]. split.
  - intros m L U. apply sticks_one, S. auto.
  - destruct HI as [<-|[<-|[]]]; [exact (tokens_nonempty E _ _ _ _ (zh_lossless E s PY) T)|exact (tokens_nonempty E _ _ _ _ (ws_lossless E s (proj1 PY)) T)].
Qed.

Lemma gather_length outs l : length (gather outs l) = length outs.
Proof. revert l. induction outs as [|o outs IH]; intros l; [reflexivity|]. cbn [gather length]. now rewrite IH. Qed.
Lemma gather_In outs l x : In x (gather outs l) -> x = 0%Z \/ In x l.
Proof.
  revert l. induction outs as [|o outs IH]; intros l; [intros []|]. cbn [gather]. intros [<-|HI].
  - destruct (filter (fun x => negb (x =? 0)%Z) (firstn (length o) l)) as [|z f] eqn:Q; [now left|]. right.
    assert (I : In (mode (z :: f)) (filter (fun x => negb (x =? 0)%Z) (firstn (length o) l))).
    { rewrite Q. apply first_mode_In, mode_first_mode. discriminate. }
    apply filter_In in I. destruct I as (I & _). rewrite <- (firstn_skipn (length o) l). apply in_or_app. now left.
  - destruct (IH _ HI) as [Q|Q]; [now left|]. right. rewrite <- (firstn_skipn (length o) l). apply in_or_app. now right.
Qed.

Lemma then_pieces_stick o s ts a outs als : In o [ZhCharTokenizer; WhiteSpaceTokenizer] ->
  transform_op E o (SStr s) = Ok (SLst (map ETok ts), a) -> length outs = length ts -> then_pieces E a outs als ->
  forall m, sticks E als m <-> length m = length (concat outs) /\ u32_labels m /\ in_pieces outs one_label m.
Proof.
  intros HI T LO TP m. destruct (bert_tokens_stick o s ts a HI T) as (RT & S & S' & _). split.
  - intros (l & A & B). rewrite (proj2 (TP m)) in A. destruct (Nat.eqb_spec (length m) (length (concat outs))) as [L|]; [|discriminate].
    split; [exact L|]. rewrite (proj1 (TP l)), (RT _ _ A) in B. cbn [bind] in B. injection B as B.
    split; [|now apply pieces_stick].
    assert (SK : sticks E [a] (gather outs m)) by (apply sticks_one; exists l; auto). apply S in SK. destruct SK as (_ & U).
    unfold u32_labels in *. rewrite Forall_forall in *. intros x HX. rewrite <- B in HX. unfold repeat_each in HX.
    apply in_concat in HX. destruct HX as (q & HQ & HX). apply in_map_iff in HQ. destruct HQ as ((w & z) & <- & HZ).
    apply in_combine_r in HZ. apply repeat_spec in HX. cbn [snd] in HX. subst x. now apply U.
  - intros (L & U & P). destruct (S' (gather outs m)) as (l & A & B).
    + now rewrite gather_length.
    + unfold u32_labels in *. rewrite Forall_forall in *. intros x HX. apply gather_In in HX. destruct HX as [-> |HX]; [lia|now apply U].
    + exists l. rewrite (proj2 (TP m)), (proj2 (Nat.eqb_eq _ _) L). split; [exact A|].
      rewrite (proj1 (TP l)), B. cbn [bind]. f_equal. now apply pieces_stick.
Qed.

Theorem basic_sticks f s p y als coll : letters E -> accents_fit E f s -> basic_pipe E = Ok p ->
  transform_sequence E p (SStr s) = Ok (y, als, coll) ->
  forall m, sticks E als m <-> length m = pseq_length y /\ u32_labels m.
Proof.
  intros HL HA HP HR m. destruct (basic_labels E PY HL f s p HA HP) as (ts & a & als' & coll' & T & R & HAl).
  rewrite HR in R. injection R as -> -> ->. destruct (bert_tokens_stick ZhCharTokenizer s ts a ltac:(now left) T) as (_ & S & _).
  cbn [pseq_length]. rewrite !map_length, <- S. unfold sticks.
  split; intros (l & A & B); exists l; rewrite align_one, align_inverse_one in *; [rewrite <- (proj1 (HAl l)), <- (proj2 (HAl m))|rewrite (proj1 (HAl l)), (proj2 (HAl m))]; auto.
Qed.

Theorem full_sticks f s p y als coll : letters E -> accents_fit E f s -> full_pipe E = Ok p ->
  transform_sequence E p (SStr s) = Ok (y, als, coll) ->
  exists ts outs a, transform_op E ZhCharTokenizer (SStr s) = Ok (SLst (map ETok ts), a) /\
    Forall2 (subwords (map txt word_pieces_and_comma) (ETok (txt "[UNK]")) 200) (map (map (fun c => f (lower c))) ts) outs /\
    forall m, sticks E als m <-> length m = pseq_length y /\ u32_labels m /\ in_pieces outs one_label m.
Proof.
  intros HL HA HP HR. destruct (full_labels E PY HL f s p HA HP) as (ts & a & outs & als' & coll' & T & HF & R & TP).
  rewrite HR in R. injection R as -> -> ->. exists ts, outs, a. split; [exact T|]. split; [exact HF|]. intros m.
  apply (then_pieces_stick ZhCharTokenizer s ts a outs als' ltac:(now left) T); [|exact TP].
  rewrite <- (map_length (map (fun c => f (lower c))) ts). clear -HF. induction HF; cbn; congruence.
Qed.
Theorem word_piece_sticks s p y als coll : word_piece_pipe E = Ok p ->
  transform_sequence E p (SStr s) = Ok (y, als, coll) ->
  exists ts outs a, transform_op E WhiteSpaceTokenizer (SStr s) = Ok (SLst (map ETok ts), a) /\
    Forall2 (subwords (map txt word_pieces) (ETok (txt "[UNK]")) 200) ts outs /\
    forall m, sticks E als m <-> length m = pseq_length y /\ u32_labels m /\ in_pieces outs one_label m.
Proof.
  intros HP HR. destruct (word_piece_labels E PY s p HP) as (ts & a & outs & als' & coll' & T & HF & R & TP).
  rewrite HR in R. injection R as -> -> ->. exists ts, outs, a. split; [exact T|]. split; [exact HF|]. intros m.
  apply (then_pieces_stick WhiteSpaceTokenizer s ts a outs als' ltac:(right; now left) T); [|exact TP].
  clear -HF. induction HF; cbn; congruence.
Qed.

(** ** Pipes that settle *)

Theorem settled_sticks p x y als coll : reachable E p -> orderly (map o_op (steps p)) \/ token_letters E /\ numbered (map o_op (steps p)) ->
  transform_sequence E p x = Ok (y, als, coll) ->
  forall m, sticks E als m <-> (exists l, align_all als l = Ok m) /\ exists l, align_inverse_all E als m = Ok l.
Proof.
  intros HP HO HR m.
  assert (S : settles E als).
  { destruct HO as [HO|(TL & HO)]; [exact (pipe_settles E PY RX p x y als coll HP HO HR)|exact (numbers_settle E PY RX p x y als coll TL HP HO HR)]. }
  split; [intros (l & A & B); eauto|]. intros ((l & A) & l' & B). exists l'. split; [exact B|]. exact (S l m l' A B).
Qed.

(** ** Datums *)

Theorem predicted_datum p u y als coll m l ints d : reachable E p ->
  transform_sequence E p (SStr u) = Ok (y, als, coll) -> align_inverse_all E als m = Ok l -> pack_to_datum u ints l = Ok d ->
  exists ints' m', transform E p d = Ok (y, ints', m', als, coll) /\ same_set ints' ints /\ (m' = m <-> sticks E als m).
Proof.
  intros HP HR HI HD. destruct (pack_ok_inv _ _ _ _ HD) as (L & NU & FI & FR & _).
  destruct (unpack_pack u ints l L NU FI FR) as (d' & is_ & P & UP & SS & _). rewrite HD in P. injection P as <-.
  apply reachable_sound in HP. destruct HP as (HM & _).
  destruct (run_sound E PY RX _ HM _ _ _ _ HR) as (R1 & _). destruct (R1 l ltac:(cbn [pseq_length]; congruence)) as (m' & A & _).
  exists is_, m'. unfold transform. rewrite UP. cbn [bind]. rewrite HR. cbn [bind]. rewrite A. cbn [bind].
  split; [reflexivity|]. split; [exact SS|]. split.
  - intros ->. exists l. auto.
  - intros (l' & Q1 & Q2). rewrite HI in Q1. injection Q1 as <-. congruence.
Qed.
End tokens.
