(** More than one trip through a pipe (C93). *)

From Coq Require Import String.
From Verif Require Import Py PyFacts Edit Labels SpecEdit SpecLabels SpecSeg SpecRuns SpecOps Ops Json Elements Pipe
  SpecElements SpecPipe SpecBert SpecLaws ListOpProofs AlignProofs OpLaws PipeProofs PipeAlign BertProofs SpecTrip TripProofs
  SpecSettle SettleSegs SettleOps SettleTable.
From Coq Require Import List Lia.

Lemma align_one a l : align_all [a] l = align a l.
Proof. unfold align_all. cbn [foldM]. destruct (align a l); reflexivity. Qed.
Lemma align_inverse_one E a l : align_inverse_all E [a] l = align_inverse E a l.
Proof. unfold align_inverse_all. cbn [rev app foldM]. destruct (align_inverse E a l); reflexivity. Qed.
Lemma align_all_cons a als l : align_all (a :: als) l = (m <- align a l ;; align_all als m).
Proof. reflexivity. Qed.

(** ** Lists of aligners *)

Definition gentle_all E als := forall c, exists b, forall z m, align_all als z = Ok m ->
  (forall l', align_inverse_all E als (mask c m) = Ok l' -> l' = mask b z) /\
  exists m', align_all als (mask b z) = Ok m' /\ mask c m' = mask c m.
(** Whether labels are accepted depends on their number only. *)
Definition steady als := forall z m z', align_all als z = Ok m -> length z' = length z ->
  exists m', align_all als z' = Ok m' /\ length m' = length m.

Lemma returns_nil E : returns E [].
Proof. intros m l H. exact (eq_sym H). Qed.
Lemma returns_cons E a als : returns1 E a -> returns E als -> returns E (a :: als).
Proof.
  intros H1 H2 m l H. rewrite align_inverse_cons in H.
  destruct (align_inverse_all E als m) as [m1|] eqn:HI; cbn [bind] in H; [|discriminate].
  rewrite align_all_cons, (H1 _ _ H). exact (H2 _ _ HI).
Qed.
Lemma settles_app E as1 as2 : returns E as1 -> settles E as2 -> settles E (as1 ++ as2).
Proof.
  intros H1 H2 l m l' A B. rewrite align_all_app in *. rewrite align_inverse_all_app in B.
  destruct (align_all as1 l) as [m1|] eqn:EA; cbn [bind] in A; [|discriminate].
  destruct (align_inverse_all E as2 m) as [m2|] eqn:EB; cbn [bind] in B; [|discriminate].
  rewrite (H1 _ _ B). cbn [bind]. exact (H2 _ _ _ A EB).
Qed.
Lemma gentle_cons E a als : steady [a] -> steady als -> gentle1 E a -> gentle_all E als -> gentle_all E (a :: als).
Proof.
  intros S1 S2 H1 H2 c. destruct (H2 c) as (b2 & B2). destruct (H1 b2) as (b1 & B1). exists b1. intros z m A.
  rewrite align_all_cons in A. destruct (align a z) as [m1|] eqn:EA; cbn [bind] in A; [|discriminate].
  destruct (B1 z m1 EA) as (P1 & m1' & P2 & P3). destruct (B2 m1 m A) as (Q1 & m2 & Q2 & Q3). split.
  - intros l' B. rewrite align_inverse_cons in B.
    destruct (align_inverse_all E als (mask c m)) as [n|] eqn:EB; cbn [bind] in B; [|discriminate].
    rewrite (Q1 _ eq_refl) in B. exact (P1 _ B).
  - assert (L1 : length m1' = length m1).
    { rewrite <- align_one in EA. destruct (S1 z m1 (mask b1 z) EA (mask_length _ _)) as (n & A1 & L).
      rewrite align_one in A1. congruence. }
    destruct (S2 m1 m m1' A L1) as (m' & A' & _). exists m'.
    rewrite align_all_cons, P2. split; [exact A'|].
    destruct (B2 m1' m' A') as (_ & m3 & R2 & R3). rewrite P3, Q2 in R2. injection R2 as <-. congruence.
Qed.
Lemma gentle_all_settles E als : gentle_all E als -> settles E als.
Proof.
  intros H l m l' H1 H2. destruct (H (fun _ => true)) as (b & HB). destruct (HB l m H1) as (B1 & m' & B2 & B3).
  rewrite !mask_all in *. rewrite (B1 l' H2). now rewrite B2, B3.
Qed.

Lemma settles_cons E a als : soft1 E a -> steady [a] -> steady als -> gentle_all E als ->
  (forall m l, align_inverse E a m = Ok l -> exists m', align a l = Ok m' /\ length m' = length m) -> settles E (a :: als).
Proof.
  intros H1 S1 S2 H2 B l m l' A C. rewrite align_all_cons in A. rewrite align_inverse_cons in C.
  destruct (align a l) as [m1|] eqn:EA; cbn [bind] in A; [|discriminate].
  destruct (align_inverse_all E als m) as [m2|] eqn:EB; cbn [bind] in C; [|discriminate].
  destruct (H2 (fun _ => true)) as (b & HB). destruct (HB m1 m A) as (P1 & n & P2 & P3). rewrite !mask_all in *.
  subst n. rewrite (P1 m2 EB) in C. destruct (H1 b l m1 l' EA C) as (m1' & Q1 & Q2).
  destruct (B _ _ C) as (k & K1 & K2). rewrite Q1 in K1. injection K1 as <-. rewrite mask_length in K2.
  rewrite align_all_cons, Q1. cbn [bind]. destruct (S2 m1 m m1' A K2) as (m' & A' & _).
  destruct (HB m1' m' A') as (_ & n & R2 & R3). rewrite !mask_all in R3. subst n. rewrite Q2, P2 in R2.
  now injection R2 as <-.
Qed.

Lemma settles_survives E als l m l' : settles E als -> align_all als l = Ok m -> align_inverse_all E als m = Ok l' ->
  survives E als l'.
Proof. intros H A B. exists m. split; [exact (H _ _ _ A B)|exact B]. Qed.
Lemma returns_survives E als m l : returns E als -> align_inverse_all E als m = Ok l -> survives E als l.
Proof. intros H B. exists m. split; [exact (H _ _ B)|exact B]. Qed.

Lemma settled_one E a : soft1 E a -> forall l m l', align a l = Ok m -> align_inverse E a m = Ok l' -> align a l' = Ok m.
Proof.
  intros H l m l' A B. destruct (H (fun _ => true) l m l' A) as (m' & Q1 & Q2); [now rewrite mask_all|].
  rewrite !mask_all in Q2. now subst m'.
Qed.

(** ** Pipes *)

Section pipes.
Context (E : env) (PY : python E) (RX : regexes E).

Lemma op_steady o x y a : built E o -> transform_op E o x = Ok (y, a) -> steady [a].
Proof.
  intros B T z m z' A L. destruct (all_sound E o x y a PY B T) as (S1 & _ & S3 & _). rewrite align_one in A.
  destruct (Nat.eq_dec (length z) (pseq_length x)) as [Q|Q]; [|rewrite (S1 z Q) in A; discriminate].
  destruct (S3 z Q) as (n & N1 & N2). destruct (S3 z') as (n' & N1' & N2'); [congruence|].
  exists n'. rewrite align_one. split; [exact N1'|]. congruence.
Qed.
Lemma run_steady ops x y als coll : Forall (made E) ops -> Pipe.run E ops x = Ok (y, als, coll) -> steady als.
Proof.
  intros HM HR z m z' A L. destruct (run_sound E PY RX ops HM x y als coll HR) as (R1 & _ & R3 & _).
  destruct ops as [|o ops].
  - cbn [Pipe.run] in HR. injection HR as <- <- <-. cbn in *. injection A as <-. exists z'. auto.
  - destruct (Nat.eq_dec (length z) (pseq_length x)) as [Q|Q]; [|rewrite (R3 ltac:(discriminate) z Q) in A; discriminate].
    destruct (R1 z Q) as (n & N1 & N2). destruct (R1 z') as (n' & N1' & N2'); [congruence|].
    exists n'. split; [exact N1'|]. congruence.
Qed.

Lemma run_returns ops : Forall (made E) ops -> Forall reversible (map o_op ops) -> forall x y als coll,
  Pipe.run E ops x = Ok (y, als, coll) -> returns E als.
Proof.
  induction 1 as [|o ops HM HF IH]; intros HO x y als coll.
  - cbn [Pipe.run]. intros [= <- <- <-]. apply returns_nil.
  - cbn [Pipe.run map] in *. inversion HO as [|? ? O1 O2]; subst.
    destruct (transform_op E (o_op o) x) as [[v a]|] eqn:HT; cbn [bind]; [|discriminate].
    destruct (Pipe.run E ops v) as [[[z als'] coll']|] eqn:HR; cbn [bind]; [|discriminate]. intros [= <- <- <-].
    destruct (op_table E (o_op o) x v a PY (made_built _ _ RX HM) HT) as (_ & T2 & _).
    apply returns_cons; [exact (T2 O1)|exact (IH O2 _ _ _ _ HR)].
Qed.
Lemma run_gentle ops : Forall (made E) ops -> Forall keeps_or_drops (map o_op ops) -> forall x y als coll,
  Pipe.run E ops x = Ok (y, als, coll) -> gentle_all E als.
Proof.
  induction 1 as [|o ops HM HF IH]; intros HO x y als coll.
  - cbn [Pipe.run]. intros [= <- <- <-] c. exists c. intros z m [= <-]. split; [intros l' [= <-]; reflexivity|].
    exists (mask c z). split; [reflexivity|apply mask_twice].
  - cbn [Pipe.run map] in *. inversion HO as [|? ? O1 O2]; subst.
    destruct (transform_op E (o_op o) x) as [[v a]|] eqn:HT; cbn [bind]; [|discriminate].
    destruct (Pipe.run E ops v) as [[[z als'] coll']|] eqn:HR; cbn [bind]; [|discriminate]. intros [= <- <- <-].
    destruct (op_table E (o_op o) x v a PY (made_built _ _ RX HM) HT) as (_ & _ & _ & T4).
    apply gentle_cons; [exact (op_steady _ _ _ _ (made_built _ _ RX HM) HT)|exact (run_steady _ _ _ _ _ HF HR)
                       |exact (T4 O1)|exact (IH O2 _ _ _ _ HR)].
Qed.

Lemma run_split ops1 ops2 x y als coll : Pipe.run E (ops1 ++ ops2) x = Ok (y, als, coll) ->
  exists v as1 co1 as2 co2, Pipe.run E ops1 x = Ok (v, as1, co1) /\ Pipe.run E ops2 v = Ok (y, as2, co2) /\ als = as1 ++ as2.
Proof.
  revert x als coll. induction ops1 as [|o ops1 IH]; intros x als coll; cbn [app Pipe.run].
  - intros H. exists x, [], [x], als, coll. auto.
  - destruct (transform_op E (o_op o) x) as [[v a]|] eqn:HT; cbn [bind]; [|discriminate].
    destruct (Pipe.run E (ops1 ++ ops2) v) as [[[z als'] coll']|] eqn:HR; cbn [bind]; [|discriminate]. intros [= <- <- <-].
    destruct (IH _ _ _ HR) as (w & as1 & co1 & as2 & co2 & H1 & H2 & ->). rewrite H1. cbn [bind].
    exists w, (a :: as1), (x :: co1), as2, co2. auto.
Qed.

Lemma map_app_split {A B} (f : A -> B) l b c : map f l = b ++ c ->
  exists l1 l2, l = l1 ++ l2 /\ map f l1 = b /\ map f l2 = c.
Proof.
  intros H. exists (firstn (length b) l), (skipn (length b) l).
  rewrite <- firstn_map, <- skipn_map, H, firstn_app_exact, skipn_app_exact, firstn_skipn. auto.
Qed.

Lemma op_lengths o x y a m l : built E o -> transform_op E o x = Ok (y, a) -> align_inverse E a m = Ok l ->
  exists m', align a l = Ok m' /\ length m' = length m.
Proof.
  intros B T H. destruct (all_sound E o x y a PY B T) as (S1 & S2 & S3 & S4 & S5).
  destruct (Nat.eq_dec (length m) (pseq_length y)) as [Q|Q]; [|rewrite (S2 m Q) in H; discriminate].
  assert (D : representable o m \/ ~ representable o m).
  { unfold representable. destruct (input_type o), (output_type o); auto;
      (destruct (u32_dec m) as [U|U]; [left; now right|right; intros [R|R]; [discriminate|now apply U]]). }
  destruct D as [D|D]; [|rewrite (S5 m Q D) in H; discriminate].
  destruct (S4 m Q D) as [(_ & l2 & A & L)|(_ & A)]; [|congruence]. rewrite A in H. injection H as <-.
  destruct (S3 l2 L) as (m' & A' & L'). exists m'. split; [exact A'|congruence].
Qed.

Theorem run_settles ops x y als coll : Forall (made E) ops -> orderly (map o_op ops) ->
  Pipe.run E ops x = Ok (y, als, coll) -> settles E als.
Proof.
  intros HM (b & mid & c & EO & HB & HL & HC) HR.
  destruct (map_app_split _ _ _ _ EO) as (o1 & o2 & -> & <- & EC). apply Forall_app in HM. destruct HM as (M1 & M2).
  destruct (run_split _ _ _ _ _ _ HR) as (v & as1 & co1 & as2 & co2 & R1 & R2 & ->).
  apply settles_app; [exact (run_returns _ M1 HB _ _ _ _ R1)|].
  destruct mid as [|o [|]]; [| |cbn in HL; lia]; cbn [app] in EC.
  - subst c. apply gentle_all_settles. exact (run_gentle _ M2 HC _ _ _ _ R2).
  - destruct o2 as [|oo o2]; [discriminate|]. cbn [map] in EC. injection EC as EC <-.
    cbn [Pipe.run] in R2. inversion M2 as [|? ? M3 M4]; subst.
    destruct (transform_op E (o_op oo) v) as [[w a]|] eqn:HT; cbn [bind] in R2; [|discriminate].
    destruct (Pipe.run E o2 w) as [[[z als'] coll']|] eqn:HR2; cbn [bind] in R2; [|discriminate].
    injection R2 as <- <- <-. pose proof (made_built _ _ RX M3) as BU.
    destruct (op_table E (o_op oo) v w a PY BU HT) as (T1 & _).
    apply settles_cons; [exact T1|exact (op_steady _ _ _ _ BU HT)|exact (run_steady _ _ _ _ _ M4 HR2)
                        |exact (run_gentle _ M4 HC _ _ _ _ HR2)|].
    intros m l. exact (op_lengths _ _ _ _ m l BU HT).
Qed.

(** C93 *)
Theorem pipe_settles p x y als coll : reachable E p -> orderly (map o_op (steps p)) ->
  transform_sequence E p x = Ok (y, als, coll) -> settles E als.
Proof. intros HP. apply run_settles, (reachable_sound _ _ HP). Qed.
Theorem pipe_returns p x y als coll : reachable E p -> Forall reversible (map o_op (steps p)) ->
  transform_sequence E p x = Ok (y, als, coll) -> returns E als.
Proof. intros HP HO. exact (run_returns _ (proj1 (reachable_sound _ _ HP)) HO _ _ _ _). Qed.

Theorem op_settles o x y a : built E o -> transform_op E o x = Ok (y, a) -> settles E [a].
Proof.
  intros B T l m l' A C. rewrite align_one in *. rewrite align_inverse_one in C.
  apply (settled_one E a) with (l := l); [exact (proj1 (op_table E o x y a PY B T))|exact A|exact C].
Qed.
Theorem op_returns o x y a : built E o -> reversible o -> transform_op E o x = Ok (y, a) -> returns E [a].
Proof.
  intros B R T m l C. rewrite align_one in *. rewrite align_inverse_one in C.
  exact (proj1 (proj2 (op_table E o x y a PY B T)) R m l C).
Qed.

(** C92, pipes: labels that come back through every step come back. *)
Theorem survives_app als als' l m : align_all als l = Ok m -> survives E als l -> survives E als' m ->
  survives E (als ++ als') l.
Proof.
  intros A (m0 & A0 & B0) (n & C & D). rewrite A in A0. injection A0 as <-. exists n.
  rewrite align_all_app, A. split; [exact C|]. rewrite align_inverse_all_app, D. exact B0.
Qed.
Theorem survives_app_iff als als' l m : returns E als -> align_all als l = Ok m ->
  (survives E (als ++ als') l <-> survives E als l /\ survives E als' m).
Proof.
  intros R A. split; [|intros (S1 & S2); exact (survives_app _ _ _ _ A S1 S2)].
  intros (n & C & D). rewrite align_all_app, A in C. cbn [bind] in C. rewrite align_inverse_all_app in D.
  destruct (align_inverse_all E als' n) as [m'|] eqn:EB; cbn [bind] in D; [|discriminate].
  pose proof (R _ _ D) as Q. rewrite A in Q. injection Q as <-. split; [exists m; auto|exists n; auto].
Qed.

(** ** The pipes of pipeline/bert *)

Lemma tokens_nonempty o s ts a : loses_only_space E o s -> transform_op E o (SStr s) = Ok (SLst (map ETok ts), a) ->
  forall t, In t ts -> t <> [].
Proof.
  intros (ts' & a' & T & _ & F) T' t I. rewrite T in T'. injection T' as EQ _.
  assert (ts' = ts).
  { clear -EQ. revert ts EQ. induction ts' as [|u ts' IH]; intros [|w ts] EQ; try discriminate; [reflexivity|].
    cbn [map] in EQ. injection EQ as -> EQ. f_equal. now apply IH. }
  subst ts'. rewrite Forall_forall in F. apply (F t I).
Qed.

Lemma pieces_settle o s ts a f outs als v u n : returns1 E a -> 
  (forall t, In t ts -> t <> []) -> transform_op E o (SStr s) = Ok (SLst (map ETok ts), a) -> built E o ->
  Forall2 (subwords v u n) (map (map f) ts) outs -> then_pieces E a outs als -> settles E als.
Proof.
  intros RT NE T B HF TP l m l' A C. destruct (TP l) as (T1 & _). rewrite T1 in A.
  destruct (align a l) as [m1|] eqn:EA; cbn [bind] in A; [|discriminate]. injection A as <-.
  destruct (TP (repeat_each outs m1)) as (_ & T2). rewrite T2 in C.
  destruct (length (repeat_each outs m1) =? length (concat outs)); [|discriminate].
  assert (LO : length outs = length ts).
  { rewrite <- (map_length (map f) ts). clear -HF. induction HF; cbn; congruence. }
  assert (L1 : length m1 = length outs).
  { destruct (all_sound E o _ _ _ PY B T) as (S1 & _ & S3 & _).
    destruct (Nat.eq_dec (length l) (pseq_length (SStr s))) as [Q|Q]; [|rewrite (S1 l Q) in EA; discriminate].
    destruct (S3 l Q) as (m2 & A2 & L2). rewrite EA in A2. injection A2 as <-. cbn [pseq_length] in L2.
    rewrite map_length in L2. congruence. }
  rewrite gather_repeat in C.
  - destruct (TP l') as (T3 & _). rewrite T3, (RT _ _ C). reflexivity.
  - eapply subwords_nonempty; [|exact HF]. intros t I. apply in_map_iff in I. destruct I as (w & <- & I).
    apply NE in I. destruct w; [congruence|discriminate].
  - exact L1.
Qed.

Lemma plain_built o : In o [Lowercase; MergeWhiteSpaceCharacters; StripWhiteSpaceCharacters; IntToken;
          IntTokenWithSpace; FloatToken; FloatTokenWithSpace; NumTokenWithSpace;
          StopwordsToWhitespace; AddWhitespaceAroundCJK; AddWhitespaceAroundPunctuation;
          PunctuationExceptEndpointToWhitespace; StripAccentToken; CharTokenizer;
          WhiteSpaceTokenizer; EngTokenizer; ZhCharTokenizer] -> built E o.
Proof. apply built_plain. Qed.

Theorem bert_settles f s p y als coll : letters E -> accents_fit E f s -> basic_pipe E = Ok p \/ full_pipe E = Ok p ->
  transform_sequence E p (SStr s) = Ok (y, als, coll) -> settles E als.
Proof.
  intros HL HA HP HR. assert (BZ : built E ZhCharTokenizer) by (apply built_plain; cbn; tauto).
  destruct HP as [HP|HP].
  - destruct (basic_labels E PY HL f s p HA HP) as (ts & a & als' & coll' & T & R & HAl).
    rewrite HR in R. injection R as -> -> ->. intros l m l' A B.
    destruct (HAl l) as (Q1 & _). destruct (HAl m) as (_ & Q2). destruct (HAl l') as (Q3 & _).
    rewrite Q1 in A. rewrite Q2 in B. rewrite Q3. apply (settled_one E a (proj1 (op_table E _ _ _ _ PY BZ T)) l m l' A B).
  - destruct (full_labels E PY HL f s p HA HP) as (ts & a & outs & als' & coll' & T & HF & R & TP).
    rewrite HR in R. injection R as -> -> ->.
    eapply (pieces_settle ZhCharTokenizer s ts a); eauto.
    + exact (proj1 (proj2 (op_table E _ _ _ _ PY BZ T)) Logic.I).
    + exact (tokens_nonempty _ _ _ _ (zh_lossless E s PY) T).
Qed.
Theorem word_piece_settles s p y als coll : word_piece_pipe E = Ok p ->
  transform_sequence E p (SStr s) = Ok (y, als, coll) -> settles E als.
Proof.
  intros HP HR. assert (BZ : built E WhiteSpaceTokenizer) by (apply built_plain; cbn; tauto).
  destruct (word_piece_labels E PY s p HP) as (ts & a & outs & als' & coll' & T & HF & R & TP).
  rewrite HR in R. injection R as -> -> ->.
  eapply (pieces_settle WhiteSpaceTokenizer s ts a (fun c => c)); eauto.
  - exact (proj1 (proj2 (op_table E _ _ _ _ PY BZ T)) Logic.I).
  - exact (tokens_nonempty _ _ _ _ (ws_lossless E s (proj1 PY)) T).
  - rewrite (map_ext (map (fun c : Z => c)) (fun t => t)) by apply map_id. rewrite map_id. exact HF.
Qed.
End pipes.
