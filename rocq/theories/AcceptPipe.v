(** Proofs about pipes that accept every text (C89). *)

From Verif Require Import Py PyFacts Edit Labels Regex Trie Murmur Ops SpecEdit SpecLabels SpecSeg SpecRuns
  SpecWords SpecScan SpecOps SpecHash WordProofs TrieProofs StrOpProofs ScanProofs ListOpProofs TokProofs HashProofs AlignProofs OpLaws
  ClosureProofs Json Elements SpecElements PackProofs Pipe SpecPipe PipeProofs ObjProofs PipeAlign SpecAccept AcceptProofs.
From Coq Require Import List.
Local Open Scope nat_scope.

Lemma reachable_built E p : regexes E -> reachable E p -> Forall (fun o => built E (o_op o)) (steps p).
Proof.
  intros HR H. apply reachable_sound in H. destruct H as (H & _).
  eapply Forall_impl; [|exact H]. intros o. now apply made_built.
Qed.

Theorem pipe_errors E p x e : python E -> regexes E -> reachable E p ->
  (transform_sequence E p x = Err e <->
   exists k o u, nth_error (steps p) k = Some o /\ reaches E p k x u /\ raises E (o_op o) u e).
Proof.
  intros PY HR R. pose proof (reachable_built E p HR R) as HB. rewrite Forall_forall in HB.
  unfold transform_sequence. rewrite run_error. split.
  - intros (k & o & u & al & co & N & RK & T). exists k, o, u. split; [exact N|]. split; [exists al, co; exact RK|].
    apply errors; [exact PY|apply HB; now apply nth_error_In in N|exact T].
  - intros (k & o & u & N & (al & co & RK) & T). exists k, o, u, al, co. split; [exact N|]. split; [exact RK|].
    apply errors; [exact PY|apply HB; now apply nth_error_In in N|exact T].
Qed.

Lemma write_length l e m : write_entity l e = Ok m -> length m = length l.
Proof.
  unfold write_entity. destruct (write_cases (e_label e) (e_end e) (e_start e) l) as [(_ & m' & -> & H)|(_ & ->)].
  - intros [= <-]. lia.
  - discriminate.
Qed.

Lemma unpack_length d u is l : unpack_datum d = Ok (u, is, l) -> u = d_utterance d /\ is = d_intents d /\ length l = length u.
Proof.
  unfold unpack_datum. destruct (foldM write_entity _ _) as [m|] eqn:F; cbn [bind]; [|discriminate].
  intros [= <- <- <-]. split; [reflexivity|]. split; [reflexivity|].
  assert (G : forall es a b, foldM write_entity es a = Ok b -> length b = length a).
  { induction es as [|e es IH]; intros a b; cbn [foldM]; [now intros [= <-]|].
    destruct (write_entity a e) as [c|] eqn:W; cbn [bind]; [|discriminate]. intros H.
    apply IH in H. apply write_length in W. congruence. }
  apply G in F. now rewrite repeat_length in F.
Qed.

Lemma datum_runs E p d u is l y als coll : python E -> Forall (fun o => built E (o_op o)) (steps p) ->
  unpack_datum d = Ok (u, is, l) -> transform_sequence E p (SStr u) = Ok (y, als, coll) ->
  exists m, transform E p d = Ok (y, is, m, als, coll) /\ length m = pseq_length y.
Proof.
  intros PY HB HU HT. unfold transform. rewrite HU. cbn [bind]. rewrite HT. cbn [bind].
  destruct (unpack_length _ _ _ _ HU) as (_ & _ & HL).
  assert (G : forall ops x y als coll l, Forall (fun o => built E (o_op o)) ops -> run E ops x = Ok (y, als, coll) ->
    length l = pseq_length x -> exists m, align_all als l = Ok m /\ length m = pseq_length y).
  { clear -PY. induction ops as [|o ops IH]; intros x y als coll l HB; cbn [run].
    - intros [= <- <- _] L. exists l. now split.
    - inversion HB as [|? ? B BS]; subst.
      destruct (transform_op E (o_op o) x) as [[v a]|] eqn:T; cbn [bind]; [|discriminate].
      destruct (run E ops v) as [[[z als'] coll']|] eqn:R; cbn [bind]; [|discriminate].
      intros [= <- <- _] L. destruct (all_sound E (o_op o) x v a PY B T) as (_ & _ & S & _).
      destruct (S l L) as (l1 & A & L1). destruct (IH _ _ _ _ l1 BS R L1) as (m & A2 & L2).
      exists m. unfold align_all. cbn [foldM]. rewrite A. now split. }
  destruct (G _ _ _ _ _ l HB HT HL) as (m & A & L). rewrite A. exists m. now split.
Qed.

Theorem datum_errors E p d e : python E -> regexes E -> reachable E p ->
  (transform E p d = Err e <->
   (e = IndexErr /\ ~ Forall (writable (d_utterance d)) (d_entities d)) \/
   (Forall (writable (d_utterance d)) (d_entities d) /\
    exists k o u, nth_error (steps p) k = Some o /\ reaches E p k (SStr (d_utterance d)) u /\ raises E (o_op o) u e)).
Proof.
  intros PY HR R. pose proof (reachable_built E p HR R) as HB. rewrite <- (pipe_errors E p _ e PY HR R).
  destruct (unpack_succeeds d) as (U1 & U2). fold (writable (d_utterance d)) in U1.
  destruct (unpack_datum d) as [[[u is] l]|x] eqn:HU.
  - assert (W : Forall (writable (d_utterance d)) (d_entities d)) by (apply U1; eauto).
    destruct (unpack_length _ _ _ _ HU) as (-> & -> & HL).
    destruct (transform_sequence E p (SStr (d_utterance d))) as [[[y als] coll]|x] eqn:HT.
    + destruct (datum_runs E p d _ _ _ y als coll PY HB HU HT) as (m & -> & _). split; [discriminate|].
      intros [(_ & N)|(_ & N)]; [contradiction|discriminate].
    + unfold transform. rewrite HU. cbn [bind]. rewrite HT. cbn [bind]. split; [intros [= ->]; right; now split|].
      intros [(_ & N)|(_ & N)]; [contradiction|]. now injection N as ->.
  - assert (W : ~ Forall (writable (d_utterance d)) (d_entities d)).
    { rewrite <- U1. intros (r & Q). discriminate. }
    rewrite (U2 x eq_refl) in HU. unfold transform. rewrite HU. cbn [bind]. split.
    + intros [= <-]. left. now split.
    + intros [(-> & _)|(N & _)]; [reflexivity|contradiction].
Qed.

(** ** Forms *)

Lemma words_tokens l : has_form Words (SLst l) <-> exists ts, l = map ETok ts.
Proof.
  cbn [has_form]. split.
  - induction l as [|x l IH]; intros H; [now exists []|]. destruct IH as (ts & ->).
    + intros i HI. apply (H i). now right.
    + destruct x as [t|i]; [now exists (t :: ts)|]. exfalso. apply (H i). now left.
  - intros (ts & ->) i HI. apply in_map_iff in HI. destruct HI as (t & Q & _). discriminate.
Qed.

Lemma word_not t i : word t -> t <> EIdx i.
Proof. intros (s & ->). discriminate. Qed.

Lemma form_list f x : f <> Chars -> has_form f x -> exists l, x = SLst l.
Proof. destruct f, x; cbn; try contradiction; eauto. Qed.
Lemma mixed_list y : type_of y = TList -> has_form Mixed y.
Proof. destruct y; [discriminate|now intros]. Qed.

Lemma out_type E o x y a : transform_op E o x = Ok (y, a) -> type_of y = output_type o.
Proof.
  unfold transform_op. destruct (guard (seqtype_eqb (type_of x) _) _); cbn [bind]; [|discriminate].
  match goal with |- context [bind ?a ?b] => destruct a as [[z c]|] eqn:H end; cbn [bind]; [|discriminate].
  cbn [fst]. destruct (type_of z) eqn:TZ, (output_type o) eqn:TO; cbn; try discriminate; intros [= <- _]; exact TZ.
Qed.

Lemma in_long x : (Z.of_nat (pseq_length x) < 2 ^ 32)%Z \/ (2 ^ 32 <= Z.of_nat (pseq_length x))%Z.
Proof. lia. Qed.

Lemma handles_built E f o g : handles E f o g -> built E o.
Proof.
  intros H. destruct H; try assumption; try (now constructor).
  - now apply (built_end E t).
  - now apply (built_end E t).
  - now apply (built_index E d u).
  - now apply (built_hash E d).
Qed.

Lemma handles_raises E f o g x e : python E -> handles E f o g -> has_form f x -> raises E o x e ->
  e = OverflowErr /\ (2 ^ 32 <= Z.of_nat (pseq_length x))%Z.
Proof.
  intros PY HH HF HR. pose proof (handles_built E f o g HH) as HB.
  assert (TY : type_of x = input_type o).
  { destruct HH as [o B I _ _ _|o B I _|t _|t|v u m _|v u m|m t _ _|f m t N _|a b _ _|f a b N|t o M|t o M|f d u o N M|d o M _].
    all: try (destruct x; [now rewrite I|destruct HF]).
    all: try (apply made_end in M; subst o). all: try (apply made_hash in M; destruct M as (-> & _)).
    all: try (apply made_index in M; destruct M as (-> & _)).
    all: destruct x; [|reflexivity]; try (destruct f; [congruence|destruct HF..]); destruct HF. }
  destruct HR as [o x N|s N|a b find s HC ST|o l1 x l2 e A R|m t l L|m t l L N|a b l L|t l L].
  - contradiction.
  - exfalso. inversion HH; subst; try congruence; try discriminate.
    all: match goal with
         | M : make_end _ = _ |- _ => apply made_end in M; discriminate M
         | M : make_token2index _ _ = _ |- _ => apply made_index in M; destruct M as (M & _); discriminate M
         | M : make_hash _ = _ |- _ => apply made_hash in M; destruct M as (M & _); discriminate M end.
  - exfalso. inversion HH; subst; try discriminate.
    2-5: match goal with
         | M : make_end _ = _ |- _ => apply made_end in M; discriminate M
         | M : make_token2index _ _ = _ |- _ => apply made_index in M; destruct M as (M & _); discriminate M
         | M : make_hash _ = _ |- _ => apply made_hash in M; destruct M as (M & _); discriminate M end.
    assert (NS : forall q, stuck find s q -> False).
    { intros q S. induction S as [q L F|q i j L F S IH]; [|exact IH].
      match goal with N : forall a b find s q, _ -> _ -> find s q <> _ |- _ => apply (N a b find s q eq_refl HC F) end. }
    exact (NS 0 ST).
  - exfalso. inversion R; subst; inversion HH; subst; try discriminate; cbn [has_form] in HF.
    all: try (eapply HF; apply in_or_app; right; now left).
    all: match goal with
         | M : make_end _ = _ |- _ => apply made_end in M; discriminate M
         | M : make_token2index _ _ = _ |- _ => apply made_index in M; destruct M as (M & _); discriminate M
         | M : make_hash _ = _ |- _ => apply made_hash in M; destruct M as (M & _); try (injection M as <-) end.
    lia.
  - exfalso. inversion HH; subst; try discriminate; try lia.
    all: match goal with
         | M : make_end _ = _ |- _ => apply made_end in M; discriminate M
         | M : make_token2index _ _ = _ |- _ => apply made_index in M; destruct M as (M & _); discriminate M
         | M : make_hash _ = _ |- _ => apply made_hash in M; destruct M as (M & _); discriminate M end.
  - now split.
  - now split.
  - now split.
Qed.

Lemma handles_form E f o g x y a : python E -> handles E f o g -> has_form f x ->
  transform_op E o x = Ok (y, a) -> has_form g y.
Proof.
  intros PY HH HF HT. pose proof (out_type _ _ _ _ _ HT) as TO. pose proof (handles_built _ _ _ _ HH) as HB.
  destruct PY as (OC & OE & SP).
  destruct HH as [o B I O _ _|o B I O|t W|t|v u m W|v u m|m t L W|f m t N _|s e W1 W2|f s e N|t o M|t o M|f d u o N M|d o M _].
  all: try (apply made_end in M; subst o). all: try (apply made_hash in M; destruct M as (-> & _)).
  all: try (apply made_index in M; destruct M as (-> & _)).
  all: try (apply mixed_list; exact TO).
  - destruct y; [exact Logic.I|cbn [type_of] in TO; congruence].
  - destruct x as [s|]; [|destruct HF]. clear HF.
    destruct B as [o HI|p b find HC HB'|ws sh o HM|ws sh o HM|tok|m tok|s' e|t o HM|v u m|d u o HM|d o HM]; try discriminate.
    + assert (HX : exists ps, tokenizes E o s ps).
      { repeat (destruct HI as [<-|HI]; [first [discriminate O
          | eexists; exact (char_tokenizes E s OC)
          | eexists; exact (ws_tokenizes E s _ OC (cut_by_cut _ s))
          | eexists; exact (eng_tokenizes E s _ OC SP (cut_by_cut _ s))
          | eexists; exact (zh_tokenizes E s _ OC SP (cut_by_cut _ s))]|]). destruct HI. }
      destruct HX as (ps & _ & a' & T & _). rewrite T in HT. injection HT as <- _. apply words_tokens. eauto.
    + destruct (made_wordn _ _ _ HM) as (? & ? & _ & ->). discriminate.
    + destruct (made_custom _ _ _ HM) as (ws' & t & -> & Eo).
      destruct (munched_exists sh ws' s) as (ps & HP).
      destruct (custom_tokenizes E ws' sh _ s ps OC HM HP) as (_ & a' & T & _).
      rewrite T in HT. injection HT as <- _. apply words_tokens. eauto.
    + apply made_end in HM. subst o. discriminate.
    + destruct (made_index _ _ _ HM) as (-> & _). discriminate.
    + destruct (made_hash _ _ HM) as (-> & _). discriminate.
  - destruct x as [|l]; [destruct HF|]. apply words_tokens in HF. destruct HF as (ts & ->).
    destruct (purenum_maps E t ts OE) as (a' & T & _). rewrite T in HT. injection HT as <- _.
    intros i HI. apply in_map_iff in HI. destruct HI as (w & Q & _).
    destruct (pure_number E w); [now apply (word_not t i W)|discriminate].
  - destruct x as [|l]; [destruct HF|]. apply words_tokens in HF. destruct HF as (ts & ->).
    destruct (subwords_run E v u m ts OE) as (outs & a' & F & T). rewrite T in HT. injection HT as <- _.
    intros i HI. apply in_concat in HI. destruct HI as (out & HI1 & HI2).
    clear -F HI1 HI2 W. induction F as [|t out' ts outs S F IH]; [destruct HI1|].
    destruct HI1 as [->|HI1]; [|now apply IH].
    destruct S as [(_ & ps & _ & ->)|(_ & ->)].
    + apply in_map_iff in HI2. destruct HI2 as (w & Q & _). discriminate.
    + destruct HI2 as [->|[]]. now apply (word_not _ i W).
  - destruct x as [|l]; [destruct HF|]. cbn [has_form] in HF.
    assert (HL : (Z.of_nat (length l) < 2 ^ 32)%Z \/ Z.of_nat (length l) = m).
    { destruct (Z.ltb_spec (Z.of_nat (length l)) (2 ^ 32)) as [Q|Q]; [now left|].
      destruct (Z.eq_dec (Z.of_nat (length l)) m) as [R|R]; [now right|].
      rewrite pad_too_long in HT by assumption. discriminate. }
    destruct (pad_maps E m t l OE L HL) as (a' & T & _). rewrite T in HT. injection HT as <- _.
    intros i HI. apply in_app_or in HI. destruct HI as [HI|HI].
    + apply (HF i). rewrite <- (firstn_skipn (Z.to_nat m) l). apply in_or_app. now left.
    + apply repeat_spec in HI. symmetry in HI. now apply (word_not t i W).
  - destruct x as [|l]; [destruct HF|]. cbn [has_form] in HF. destruct l as [|x0 l].
    + destruct (soseos_empty E s e y a OE HT) as ([(_ & [->| ->])|(_ & ->)] & _); intros i HI; cbn [In] in HI.
      all: repeat (destruct HI as [HI|HI]; [first [now apply (word_not _ i W1)|now apply (word_not _ i W2)]|]); destruct HI.
    + destruct (Z.ltb_spec (Z.of_nat (length (x0 :: l))) (2 ^ 32)) as [Q|Q];
        [|rewrite soseos_too_long in HT by exact Q; discriminate].
      destruct (soseos_maps E s e (x0 :: l) OE ltac:(discriminate) Q) as (a' & T & _). rewrite T in HT. injection HT as <- _.
      intros i [HI|HI]; [now apply (word_not _ i W1)|]. change (x0 :: l ++ [e]) with ((x0 :: l) ++ [e]) in HI. apply in_app_or in HI.
      destruct HI as [HI|[HI|[]]]; [now apply HF in HI|now apply (word_not _ i W2)].
  - destruct x as [|l]; [destruct HF|]. cbn [has_form] in HF.
    destruct (Z.ltb_spec (Z.of_nat (length l)) (2 ^ 32)) as [Q|Q];
      [|rewrite end_too_long in HT by exact Q; discriminate].
    destruct (end_maps E t l OE Q) as (a' & T & _). rewrite T in HT. injection HT as <- _.
    intros i HI. apply in_app_or in HI. destruct HI as [HI|[HI|[]]]; [now apply HF in HI|discriminate].
Qed.

Theorem all_handled E : python E -> forall ops p f g x,
  steps p = ops -> all_handle E f (map o_op ops) g -> has_form f x ->
  (exists y als coll, transform_sequence E p x = Ok (y, als, coll) /\ has_form g y) \/
  (transform_sequence E p x = Err OverflowErr /\ too_long E p x).
Proof.
  intros PY. induction ops as [|o ops IH]; intros p f g x HS HH HF.
  - left. inversion HH; subst. exists x. unfold transform_sequence. rewrite HS. cbn [run]. eauto.
  - cbn [map] in HH. inversion HH as [|? ? h ? ? H1 H2]; subst.
    unfold transform_sequence. rewrite HS. cbn [run].
    destruct (transform_op E (o_op o) x) as [[v a]|e] eqn:T; cbn [bind].
    + pose proof (handles_form E _ _ _ _ _ _ PY H1 HF T) as HV.
      destruct (IH (mkPipe ops []) h g v eq_refl H2 HV) as [(y & als & coll & R & G)|(R & k & u & L & (al & co & RK) & LL)].
      * left. unfold transform_sequence in R. cbn [steps] in R. rewrite R. cbn [bind]. eauto 6.
      * right. unfold transform_sequence in R. cbn [steps] in R. rewrite R. cbn [bind]. split; [reflexivity|].
        exists (S k), u. rewrite HS. split; [cbn [length]; cbn [steps] in L; lia|]. split; [|exact LL].
        unfold reaches, transform_sequence in *. rewrite HS. cbn [steps firstn run] in *. rewrite T. cbn [bind].
        rewrite RK. cbn [bind]. eauto.
    + right. pose proof (handles_built _ _ _ _ H1) as HB. apply errors in T; [|exact PY|exact HB].
      destruct (handles_raises E _ _ _ _ _ PY H1 HF T) as (-> & L). split; [reflexivity|].
      exists 0, x. rewrite HS. split; [cbn; lia|]. split; [|exact L].
      unfold reaches, transform_sequence. cbn [firstn run steps]. eauto.
Qed.

Theorem handled E p f g x : python E -> all_handle E f (map o_op (steps p)) g -> has_form f x ->
  (exists y als coll, transform_sequence E p x = Ok (y, als, coll) /\ has_form g y) \/
  (transform_sequence E p x = Err OverflowErr /\ too_long E p x).
Proof. intros PY. now apply all_handled. Qed.

Lemma all_built E f ops g : all_handle E f ops g -> Forall (built E) ops.
Proof. intros H. induction H; constructor; [|assumption]. eapply handles_built; eauto. Qed.

Theorem handled_datum E p g d : python E -> all_handle E Chars (map o_op (steps p)) g ->
  Forall (writable (d_utterance d)) (d_entities d) ->
  (exists y l als coll, transform E p d = Ok (y, d_intents d, l, als, coll) /\ has_form g y /\
     length l = pseq_length y) \/
  (transform E p d = Err OverflowErr /\ too_long E p (SStr (d_utterance d))).
Proof.
  intros PY HA HW. destruct (unpack_succeeds d) as (U1 & _). fold (writable (d_utterance d)) in U1.
  destruct (proj2 U1 HW) as ([[u is] l] & HU). destruct (unpack_length _ _ _ _ HU) as (-> & -> & _).
  assert (HB : Forall (fun o => built E (o_op o)) (steps p)) by (apply all_built in HA; now rewrite Forall_map in HA).
  destruct (handled E p Chars g (SStr (d_utterance d)) PY HA I) as [(y & als & coll & R & G)|(R & L)].
  - left. destruct (datum_runs E p d _ _ _ y als coll PY HB HU R) as (m & T & LM). exists y, m, als, coll. auto.
  - right. split; [|exact L]. unfold transform. rewrite HU. cbn [bind]. now rewrite R.
Qed.
