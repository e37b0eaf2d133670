(** Proofs about pipes that end with Pad and Token2Index (C90). *)

From Verif Require Import Py PyFacts Edit Labels Regex Trie Murmur Ops SpecEdit SpecLabels SpecSeg SpecRuns
  SpecWords SpecScan SpecOps SpecHash WordProofs TrieProofs StrOpProofs ScanProofs ListOpProofs TokProofs HashProofs AlignProofs OpLaws
  ClosureProofs Json Elements SpecElements PackProofs Pipe SpecPipe PipeProofs ObjProofs PipeAlign SpecAccept AcceptProofs AcceptPipe.
From Coq Require Import List.
Local Open Scope nat_scope.

Lemma run_app_inv E a : forall b x y als coll, run E (a ++ b) x = Ok (y, als, coll) ->
  exists u al1 co1 al2 co2, run E a x = Ok (u, al1, co1) /\ run E b u = Ok (y, al2, co2) /\ als = al1 ++ al2.
Proof.
  induction a as [|o a IH]; intros b x y als coll; cbn [app run].
  - intros H. exists x, [], [x], als, coll. auto.
  - destruct (transform_op E (o_op o) x) as [[v al]|]; cbn [bind]; [|discriminate].
    destruct (run E (a ++ b) v) as [[[z als'] coll']|] eqn:R; cbn [bind]; [|discriminate].
    intros [= <- <- <-]. destruct (IH _ _ _ _ _ R) as (u & al1 & co1 & al2 & co2 & H1 & H2 & ->).
    exists u, (al :: al1), (x :: co1), al2, co2. rewrite H1. cbn [bind]. auto.
Qed.

Lemma pad_index E m t d unk o toks y1 a1 y a l l1 l2 : python E -> make_token2index d unk = Ok o ->
  transform_op E (Pad m t) (SLst toks) = Ok (y1, a1) -> transform_op E o y1 = Ok (y, a) ->
  length l = length toks -> align a1 l = Ok l1 -> align a l1 = Ok l2 ->
  exists out, y = SLst out /\ sized_input d unk t (Z.to_nat m) toks out l2.
Proof.
  intros PY HM H1 H2 HL A1 A2. pose proof PY as (OC & OE & SP).
  assert (L : (0 <= m)%Z).
  { destruct (Z.ltb_spec m 0); [|assumption]. rewrite pad_negative in H1 by assumption. discriminate. }
  assert (Q : (Z.of_nat (length toks) < 2 ^ 32)%Z \/ Z.of_nat (length toks) = m).
  { destruct (Z.ltb_spec (Z.of_nat (length toks)) (2 ^ 32)) as [Q|Q]; [now left|].
    destruct (Z.eq_dec (Z.of_nat (length toks)) m) as [R|R]; [now right|].
    rewrite pad_too_long in H1 by assumption. discriminate. }
  destruct (pad_maps E m t toks OE L Q) as (a' & T & (F & _)). rewrite T in H1. injection H1 as <- <-.
  set (n := Z.to_nat m) in *. destruct (F l HL I) as (F1 & F2). rewrite A1 in F1. injection F1 as F1.
  cbn [pseq_length] in *. clear F T A1.
  destruct (made_index _ _ _ HM) as (-> & HU).
  destruct (token2index_maps E d unk (firstn n toks ++ repeat t (n - length toks)) OE HU) as (out & I1 & a'' & T & (F & _)).
  pose proof (index_range E d unk _ _ _ _ PY HM T) as RG.
  rewrite T in H2. injection H2 as <- <-. exists out. split; [reflexivity|].
  assert (LP : length (firstn n toks ++ repeat t (n - length toks)) = n) by (rewrite app_length, firstn_length, repeat_length; lia).
  assert (LO : length out = n) by (rewrite <- LP; symmetry; clear -I1; induction I1; cbn; congruence).
  assert (L1 : length l1 = n) by (rewrite F1, F2; exact LP).
  destruct (F l1) as (F3 & F4); [cbn [pseq_length]; congruence|exact I|].
  rewrite A2 in F3. injection F3 as F3. unfold keep in F3. subst l2.
  split; [exact LO|]. split; [exact L1|]. split; [exact I1|]. split; [now apply Forall_forall|].
  intros i HI. rewrite F1, nth_error_app2 by (rewrite firstn_length; lia).
  rewrite firstn_length. clear -HI HL. 
  assert (G : forall k j, j < k -> nth_error (repeat 0%Z k) j = Some 0%Z).
  { induction k as [|k IH]; intros [|j] H; cbn [repeat nth_error]; try lia; [reflexivity|]. apply IH. lia. }
  apply G. lia.
Qed.

Theorem fixed_size E p dt ops m t d unk o y is l als coll : python E -> regexes E -> reachable E p ->
  map o_op (steps p) = ops ++ [Pad m t; o] -> make_token2index d unk = Ok o ->
  transform E p dt = Ok (y, is, l, als, coll) ->
  exists toks out, reaches E p (length ops) (SStr (d_utterance dt)) (SLst toks) /\
    y = SLst out /\ sized_input d unk t (Z.to_nat m) toks out l.
Proof.
  intros PY HR R HS HM HT. pose proof (reachable_built E p HR R) as HB.
  unfold transform in HT. destruct (unpack_datum dt) as [[[u is'] l0]|] eqn:HU; cbn [bind] in HT; [|discriminate].
  destruct (unpack_length _ _ _ _ HU) as (-> & _ & HL).
  destruct (transform_sequence E p (SStr (d_utterance dt))) as [[[y' als'] coll']|] eqn:TS; cbn [bind] in HT; [|discriminate].
  destruct (align_all als' l0) as [l'|] eqn:AL; cbn [bind] in HT; [|discriminate].
  injection HT as <- <- <- <- <-.
  assert (SP : exists s1 op1 op2, steps p = s1 ++ [op1; op2] /\ map o_op s1 = ops /\ o_op op1 = Pad m t /\ o_op op2 = o).
  { clear -HS. apply map_eq_app in HS. destruct HS as (s1 & s2 & E1 & E2 & E3). exists s1.
    destruct s2 as [|op1 [|op2 [|]]]; try discriminate. injection E3 as E3 E4. exists op1, op2. auto. }
  destruct SP as (s1 & op1 & op2 & E1 & E2 & E3 & E4).
  unfold transform_sequence in TS. rewrite E1 in TS. apply run_app_inv in TS.
  destruct TS as (u & al1 & co1 & al2 & co2 & R1 & R2 & ->).
  cbn [run] in R2. rewrite E3, E4 in R2.
  destruct (transform_op E (Pad m t) u) as [[y1 a1]|] eqn:T1; cbn [bind] in R2; [|discriminate].
  destruct (transform_op E o y1) as [[y2 a2]|] eqn:T2; cbn [bind] in R2; [|discriminate].
  injection R2 as <- <- _.
  rewrite align_all_app in AL. destruct (align_all al1 l0) as [l1|] eqn:A1; cbn [bind] in AL; [|discriminate].
  unfold align_all in AL. cbn [foldM] in AL. destruct (align a1 l1) as [l2|] eqn:A2; cbn [bind] in AL; [|discriminate].
  destruct (align a2 l2) as [l3|] eqn:A3; cbn [bind] in AL; [|discriminate]. injection AL as <-.
  destruct u as [s|toks]; [discriminate T1|].
  assert (L1 : length l1 = length toks).
  { assert (BU : built E (Pad m t)) by constructor.
    destruct (all_sound E (Pad m t) _ _ _ PY BU T1) as (W & _).
    destruct (Nat.eq_dec (length l1) (length toks)) as [Q|Q]; [exact Q|]. rewrite W in A2 by exact Q. discriminate. }
  destruct (pad_index E m t d unk o toks y1 a1 y2 a2 l1 l2 l3 PY HM T1 T2 L1 A2 A3) as (out & -> & S).
  exists toks, out. split; [|now split]. unfold reaches, transform_sequence. cbn [steps].
  rewrite E1, <- E2, map_length, firstn_app, firstn_all, Nat.sub_diag. cbn [firstn]. rewrite app_nil_r. eauto.
Qed.

Theorem always_fixed_size E p dt ops f m t d unk o : python E -> regexes E -> reachable E p ->
  map o_op (steps p) = ops ++ [Pad m t; o] -> (0 <= m)%Z -> make_token2index d unk = Ok o ->
  all_handle E Chars ops f -> f <> Chars -> Forall (writable (d_utterance dt)) (d_entities dt) ->
  (exists toks out l als coll, transform E p dt = Ok (SLst out, d_intents dt, l, als, coll) /\
     reaches E p (length ops) (SStr (d_utterance dt)) (SLst toks) /\ sized_input d unk t (Z.to_nat m) toks out l) \/
  (transform E p dt = Err OverflowErr /\ too_long E p (SStr (d_utterance dt))).
Proof.
  intros PY HR R HS L HM HA HF HW.
  assert (AH : all_handle E Chars (map o_op (steps p)) Mixed).
  { rewrite HS. clear -HA HF L HM. assert (HN : f = Words \/ f = Mixed) by (destruct f; auto; congruence).
    clear HF. induction HA as [f|f o' g ops h H HA IH]; cbn [app].
    - apply (a_more E f _ Mixed); [apply h_pad_mixed; [destruct HN as [->| ->]; discriminate|exact L]|].
      apply (a_more E Mixed _ Mixed); [|constructor].
      apply (h_index E Mixed d unk); [discriminate|exact HM].
    - apply (a_more E f _ g); [exact H|]. now apply IH. }
  destruct (handled_datum E p Mixed dt PY AH HW) as [(y & l & als & coll & T & G & _)|Q]; [left|now right].
  destruct (fixed_size E p dt ops m t d unk o y _ l als coll PY HR R HS HM T) as (toks & out & RC & -> & S).
  exists toks, out, l, als, coll. auto.
Qed.
