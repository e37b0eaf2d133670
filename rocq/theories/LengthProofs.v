(** The greatest number of elements that operators and pipes can give (C101). *)

From Coq Require Import String.
From Verif Require Import Py PyFacts Edit SpecEdit SpecSeg SpecRuns SpecScan SpecWords SpecOps Ops Json Elements Pipe SpecPipe SpecBert SpecAccept SpecLaws
  SpecReadBack SpecLength SegProofs RegexProofs RunsProofs PatternProofs ScanProofs WordProofs StrOpProofs OpProofs ListOpProofs TokProofs
  OpLaws AlignProofs AcceptProofs AcceptPipe SizeProofs BertProofs PipeProofs LawsText ReadBackProofs.
From Coq Require Import List ZArith Lia.
Import ListNotations.
Local Open Scope nat_scope.

(** ** Numbers *)

(** the chosen runs *)
Definition chosen (choose : str -> option str) (rs : list (bool * str)) : nat :=
  length (filter (fun br : bool * str => match (if fst br then choose (snd br) else None) with Some _ => true | None => false end) rs).

Lemma chosen_count p choose m rs : wf_runs p rs -> (forall r v, r <> [] -> choose r = Some v -> m <= length r) ->
  let n := length (concat (map snd rs)) in
  (m + 1) * chosen choose rs <= n + 1 /\
  (match rs with (true, _) :: _ => True | _ => (m + 1) * chosen choose rs <= n end).
Proof.
  intros W HM. induction rs as [|[b r] rs IH]; cbn [map concat]; [cbn; lia|].
  cbn [wf_runs] in W. destruct W as (N & _ & HB & W). destruct (IH W) as (I1 & I2). unfold chosen in *. cbn [filter fst snd].
  rewrite app_length. assert (1 <= length r) by (destruct r; [congruence|cbn; lia]). destruct b.
  - split; [|exact Logic.I]. assert (I3 : (m + 1) * length (filter (fun br : bool * str => match (if fst br then choose (snd br) else None) with Some _ => true | None => false end) rs) <= length (concat (map snd rs))).
    { destruct rs as [|[[] r'] rs]; [exact I2|discriminate HB|exact I2]. }
    destruct (choose r) as [v|] eqn:C; [cbn [length]; specialize (HM _ _ N C); lia|lia].
  - cbn beta iota. split; lia.
Qed.

Lemma chosen_news p choose d rs : wf_runs p rs -> (forall r v, r <> [] -> choose r = Some v -> length v <= length r + d) ->
  length (concat (map (fun br : bool * str => match (if fst br then choose (snd br) else None) with Some v => v | None => snd br end) rs))
  <= length (concat (map snd rs)) + d * chosen choose rs.
Proof.
  intros W HD. induction rs as [|[b r] rs IH]; [cbn; lia|]. cbn [wf_runs] in W. destruct W as (N & _ & _ & W). specialize (IH W).
  cbn [map concat fst snd]. rewrite !app_length. unfold chosen in *. cbn [filter fst snd].
  destruct b; [|lia]. destruct (choose r) as [v|] eqn:C; [|lia]. specialize (HD _ _ N C). cbn [length]. lia.
Qed.

Lemma numbers_length p choose m d s : (forall r v, r <> [] -> choose r = Some v -> m <= length r /\ length v <= length r + d) ->
  length (news (seg_runs p choose s)) <= length s + d * ((length s + 1) / (m + 1)).
Proof.
  intros H. rewrite seg_runs_news.
  pose proof (chosen_news p choose d (runs p s) (runs_wf p s) (fun r v N C => proj2 (H r v N C))) as A.
  destruct (chosen_count p choose m (runs p s) (runs_wf p s) (fun r v N C => proj1 (H r v N C))) as (B & _).
  rewrite runs_concat in *. apply Nat.div_le_lower_bound in B; [|lia]. nia.
Qed.

(** ** Pieces *)

Lemma news_length k (sg : list (seg Z)) : 1 <= k ->
  (forall o v, In (o, Some v) sg -> length v <= k * length o) -> length (news sg) <= k * length (olds sg).
Proof.
  intros K H. assert (Q := news_size (Z.of_nat k) sg ltac:(lia)). rewrite <- Nat2Z.inj_mul in Q.
  apply Nat2Z.inj_le, Q. intros o v HI. specialize (H o v HI). lia.
Qed.

Lemma rewrites_length E o s sg h k0 y a : rewrites E o s sg h k0 -> transform_op E o (SStr s) = Ok (y, a) ->
  y = SStr (news sg) /\ olds sg = s.
Proof. intros (<- & M) T. apply (maps_result _ _ _ _ _ _ _ _ _ M) in T. auto. Qed.

Lemma tokens_count (ps : list (str * bool)) : Forall (fun p => fst p <> []) ps -> length (tokens_of ps) <= length (text_of ps).
Proof.
  unfold tokens_of, text_of. induction 1 as [|[w b] ps N _ IH]; [reflexivity|]. cbn [map concat filter fst snd]. rewrite app_length.
  cbn [fst] in N. assert (1 <= length w) by (destruct w; [congruence|cbn; lia]). destruct b; cbn [map length]; lia.
Qed.

Lemma tokenizes_length E o s ps y a : tokenizes E o s ps -> Forall (fun p => fst p <> []) ps ->
  transform_op E o (SStr s) = Ok (y, a) -> pseq_length y <= length s.
Proof.
  intros (<- & b & H & _) N T. rewrite T in H. injection H as -> _. cbn [pseq_length]. rewrite map_length. now apply tokens_count.
Qed.

Lemma words_count p s : length (words p s) <= (length s + 1) / 2.
Proof.
  apply Nat.div_le_lower_bound; [lia|]. unfold words. rewrite map_length. rewrite <- (runs_concat p s) at 2.
  assert (H : 2 * length (filter (fun br : bool * str => negb (fst br)) (runs p s)) <= length (concat (map snd (runs p s))) + 1 /\
    match runs p s with (false, _) :: _ => True | _ => 2 * length (filter (fun br : bool * str => negb (fst br)) (runs p s)) <= length (concat (map snd (runs p s))) end).
  { pose proof (runs_wf p s) as W. induction (runs p s) as [|[b r] rs IH]; [cbn; lia|]. cbn [wf_runs] in W. destruct W as (N & _ & HB & W).
    destruct (IH W) as (I1 & I2). cbn [map concat filter fst snd]. rewrite app_length. assert (1 <= length r) by (destruct r; [congruence|cbn; lia]).
    destruct b; cbn [negb length]; [lia|]. split; [|exact Logic.I]. destruct rs as [|[[] r'] rs]; [cbn; lia| |discriminate HB]. cbn [filter fst negb] in *. lia. }
  exact (proj1 H).
Qed.

(** ** All operators *)

Lemma null_length E o newv l y a : ord_ok (ord_e E) ->
  (forall l, transform_op E o (SLst l) =
    (r <- lst_result_null l (elem_group E newv l) ;;
     _ <- guard (seqtype_eqb (type_of (fst r)) TList) TypeErr ;; Ok r)) ->
  (forall x v, newv x = Ok (Some v) -> exists z, v = [z]) ->
  transform_op E o (SLst l) = Ok (y, a) -> pseq_length y = length l.
Proof.
  intros HO HT HV H. rewrite HT in H. unfold lst_result_null in H. destruct (elem_group E newv l) as [g|] eqn:G; [|discriminate].
  cbn [bind fst type_of seqtype_eqb guard] in H. injection H as <- _. destruct (elem_group_result E newv l g HO G) as (HI & ->).
  cbn [pseq_length]. clear -HI HV. induction l as [|x l IH]; [reflexivity|]. cbn [flat_map]. rewrite app_length.
  rewrite IH by (intros z HZ; apply HI; now right). destruct (HI x (or_introl eq_refl)) as (v & E1). rewrite E1.
  destruct v as [v|]; [|reflexivity]. destruct (HV x v E1) as (z & ->). reflexivity.
Qed.

Theorem operator_length E o x y : python E -> built E o -> ~ is_subwords o -> turns E o x y ->
  pseq_length y <= at_most o (pseq_length x) /\
  (fixed_length o (pseq_length x) -> pseq_length y = at_most o (pseq_length x)).
Proof.
  intros (OC & OE & HS) HB NS (a & HT). pose proof (transform_type _ _ _ _ HT) as TY.
  assert (SAME : forall n, n = at_most o (pseq_length x) -> pseq_length y = n ->
    pseq_length y <= at_most o (pseq_length x) /\ (fixed_length o (pseq_length x) -> pseq_length y = at_most o (pseq_length x))).
  { intros n -> ->. auto. }
  destruct HB as [o HI|p b find HC HB|ws sh o HM|ws sh o HM|tok|m tok|s e|t o HM|v u m|d u o HM|d o HM].
  - assert (HSS : exists s, x = SStr s).
    { destruct x as [s|l]; [eauto|]. exfalso. cbn [type_of] in TY.
      repeat (destruct HI as [<-|HI]; [discriminate TY|]). destruct HI. }
    destruct HSS as (s & ->). cbn [pseq_length] in *.
    assert (INT : forall o tok h k d, rewrites E o s (int_like E (txt tok) s) h k -> transform_op E o (SStr s) = Ok (y, a) ->
      length (txt tok) = 1 + d -> pseq_length y <= length s + d * ((length s + 1) / 2)).
    { intros o1 tok h k d RW T L. destruct (rewrites_length _ _ _ _ _ _ _ _ RW T) as (-> & _). cbn [pseq_length].
      apply (numbers_length _ _ 1 d). intros r v N C. destruct (forallb _ r); [|discriminate]. injection C as <-. rewrite L.
      destruct r; [congruence|cbn; lia]. }
    assert (FLT : forall o tok h k d, rewrites E o s (float_like E (txt tok) s) h k -> transform_op E o (SStr s) = Ok (y, a) ->
      length (txt tok) = 3 + d -> pseq_length y <= length s + d * ((length s + 1) / 4)).
    { intros o1 tok h k d RW T L. destruct (rewrites_length _ _ _ _ _ _ _ _ RW T) as (-> & _). cbn [pseq_length].
      apply (numbers_length _ _ 3 d). intros r v N C. destruct (is_decimal _ r) eqn:D; [|discriminate]. injection C as <-. rewrite L.
      apply decimal_length in D. lia. }
    assert (SPC : forall o cls h k, rewrites E o s (spaced cls s) h k -> transform_op E o (SStr s) = Ok (y, a) -> pseq_length y <= 3 * length s).
    { intros o1 cls h k RW T. destruct (rewrites_length _ _ _ _ _ _ _ _ RW T) as (-> & Q). cbn [pseq_length]. rewrite <- Q at 2. apply news_length; [lia|].
      intros o0 v HV. apply in_map_iff in HV. destruct HV as (c & Q' & _). injection Q' as <- Q'. destruct (cls c); [|discriminate]. injection Q' as <-.
      cbn. lia. }
    repeat (destruct HI as [<-|HI]; [cbn [at_most fixed_length]|]); [..|destruct HI].
    + rewrite (maps_result _ _ _ _ _ _ _ _ _ (lowercase_maps E s OC) HT). cbn [pseq_length]. rewrite map_length. auto.
    + split; [|intros []]. destruct (rewrites_length _ _ _ _ _ _ _ _ (merge_rewrites E s OC) HT) as (-> & Q). cbn [pseq_length].
      rewrite <- Q at 2. rewrite <- Nat.mul_1_l. apply news_length; [lia|]. intros o0 v HV.
      apply (runs_size []) in HV. destruct HV as (Q' & N). injection Q' as <-. change (length blank) with 1. destruct o0; [congruence|cbn; lia].
    + split; [|intros []]. rewrite (maps_result _ _ _ _ _ _ _ _ _ (strip_maps E s OC) HT). cbn [pseq_length].
      destruct (strip_split (is_space E) s) as (w1 & w2 & ES & _). apply (f_equal (@length Z)) in ES. rewrite !app_length in ES. lia.
    + split; [|intros []]. exact (INT _ "_int_"%string _ _ 4 (int_rewrites E s OC) HT eq_refl).
    + split; [|intros []]. exact (INT _ " _int_ "%string _ _ 6 (int_space_rewrites E s OC) HT eq_refl).
    + split; [|intros []]. exact (FLT _ "_float_"%string _ _ 4 (float_rewrites E s OC) HT eq_refl).
    + split; [|intros []]. exact (FLT _ " _float_ "%string _ _ 6 (float_space_rewrites E s OC) HT eq_refl).
    + split; [|intros []]. exact (INT _ " _num_ "%string _ _ 6 (num_space_rewrites E s OC) HT eq_refl).
    + split; [|intros []]. destruct (stop_rewrites E s OC) as (ps & HM & HW).
      destruct (rewrites_length _ _ _ _ _ _ _ _ HW HT) as (-> & Q). cbn [pseq_length]. rewrite <- Q. rewrite <- (Nat.mul_1_l (length (olds _))).
      apply news_length; [lia|]. intros o0 v HV.
      apply in_map_iff in HV. destruct HV as (q & Q' & HV). pose proof (munched_nonempty _ _ _ _ HM) as F. rewrite Forall_forall in F.
      specialize (F q HV). injection Q' as <- Q'. destruct (snd q); [|discriminate]. injection Q' as <-. change (length blank) with 1. destruct (fst q); [congruence|cbn; lia].
    + split; [|intros []]. exact (SPC _ _ _ _ (cjk_rewrites E s OC) HT).
    + split; [|intros []]. exact (SPC _ _ _ _ (punct_rewrites E s OC) HT).
    + rewrite (maps_result _ _ _ _ _ _ _ _ _ (endpoint_maps E s OC) HT). cbn [pseq_length]. rewrite map_length. auto.
    + destruct (accent_maps E s OC) as (H1 & H2). destruct (Nat.eq_dec (length (stripped E s)) (length s)) as [Q|Q].
      * rewrite (maps_result _ _ _ _ _ _ _ _ _ (H1 Q) HT). cbn [pseq_length]. rewrite Q. auto.
      * rewrite (H2 Q) in HT. discriminate.
    + destruct (char_tokenizes E s OC) as (_ & b & H & _). rewrite HT in H. injection H as -> _. cbn [pseq_length]. unfold tokens_of.
      rewrite map_length, map_length. clear. induction s as [|c s IH]; [cbn; auto|]. cbn [map filter snd length]. lia.
    + split; [|intros []]. destruct (ws_tokenizes E s _ OC (cut_by_cut _ s)) as (_ & b & H & _). rewrite HT in H. injection H as -> _. cbn [pseq_length].
      rewrite map_length. fold (toks (by_space E) s). rewrite <- words_toks. apply words_count.
    + split; [|intros []]. apply (tokenizes_length E _ s _ y a (eng_tokenizes E s _ OC HS (cut_by_cut _ s))); [|exact HT]. eapply cut_nonempty, cut_by_cut.
    + split; [|intros []]. apply (tokenizes_length E _ s _ y a (zh_tokenizes E s _ OC HS (cut_by_cut _ s))); [|exact HT]. eapply cut_nonempty, cut_by_cut.
  - split; [|intros []]. destruct x as [s|l]; [|discriminate]. destruct (replace_pieces E p b find s y a OC HC HB HT) as (sg & R & _ & ->).
    cbn [pseq_length at_most]. pose proof (replaced_size find b s 0 sg HB ltac:(lia) R). nia.
  - unfold make_wordn in HM. pose proof (make_trie_spec ws) as MT.
    destruct ws as [[|w ws]|]; [rewrite MT in HM; discriminate| |rewrite MT in HM; discriminate].
    destruct MT as [(_ & t & ET & HH)|(_ & ET)]; rewrite ET in HM; [|discriminate].
    injection HM as <-. destruct x as [s|l]; [|discriminate]. cbn [at_most fixed_length pseq_length] in *. split; [|intros []].
    destruct (wordn_rewrites E t (w :: ws) sh s OC HH) as (ps & HP & HW). destruct (rewrites_length _ _ _ _ _ _ _ _ HW HT) as (-> & Q).
    cbn [pseq_length]. rewrite <- Q. apply news_length; [lia|].
    intros o0 v HV. destruct (word_spaced_In _ _ _ HV) as (-> & b & HI). pose proof (munched_nonempty _ _ _ _ HP) as F. rewrite Forall_forall in F.
    specialize (F _ HI). cbn [fst] in F. rewrite !app_length. change (length blank) with 1. destruct o0; [congruence|cbn; lia].
  - destruct (made_custom ws sh o HM) as (ws' & t & -> & ->). destruct x as [s|l]; [|discriminate]. cbn [at_most fixed_length pseq_length] in *. split; [|intros []].
    destruct (munched_exists sh ws' s) as (ps & HP).
    apply (tokenizes_length E _ s _ y a (custom_tokenizes E ws' sh _ s ps OC HM HP)); [|exact HT].
    unfold all_kept. rewrite map_map. apply Forall_map. exact (munched_nonempty _ _ _ _ HP).
  - destruct x as [s|l]; [discriminate|]. apply (SAME (length l)); [reflexivity|].
    apply (null_length E (PureNum2Token tok) (purenum_newv E tok) l y a); auto. intros x v. apply purenum_one.
  - destruct x as [s|l]; [discriminate|].
    destruct (Z.ltb_spec m 0) as [L|L]; [rewrite pad_negative in HT by exact L; discriminate|].
    assert (HL : (Z.of_nat (length l) < 2 ^ 32)%Z \/ Z.of_nat (length l) = m).
    { destruct (Z.ltb_spec (Z.of_nat (length l)) (2 ^ 32)) as [Q|Q]; [now left|].
      destruct (Z.eq_dec (Z.of_nat (length l)) m) as [R|R]; [now right|].
      rewrite pad_too_long in HT by assumption. discriminate. }
    apply (SAME (Z.to_nat m)); [reflexivity|]. rewrite (maps_result _ _ _ _ _ _ _ _ _ (pad_maps E m tok l OE L HL) HT). cbn [pseq_length].
    rewrite app_length, firstn_length, repeat_length. lia.
  - destruct x as [s'|l]; [discriminate|]. destruct l as [|x0 l].
    + cbn [pseq_length length at_most fixed_length]. split; [|congruence]. destruct (soseos_empty E s e y a OE HT) as (Q & _).
      destruct Q as [(_ & [->| ->])|(_ & ->)]; cbn; lia.
    + destruct (Z.ltb_spec (Z.of_nat (length (x0 :: l))) (2 ^ 32)) as [Q|Q].
      * apply (SAME (length (x0 :: l) + 2)); [reflexivity|].
        rewrite (maps_result _ _ _ _ _ _ _ _ _ (soseos_maps E s e (x0 :: l) OE ltac:(discriminate) Q) HT). cbn [pseq_length length]. rewrite app_length. cbn. lia.
      * rewrite soseos_too_long in HT by exact Q. discriminate.
  - assert (o = AddEndToken t) as -> by (destruct t; inversion HM; reflexivity).
    destruct x as [s|l]; [discriminate|].
    destruct (Z.ltb_spec (Z.of_nat (length l)) (2 ^ 32)) as [Q|Q].
    + apply (SAME (length l + 1)); [reflexivity|]. rewrite (maps_result _ _ _ _ _ _ _ _ _ (end_maps E t l OE Q) HT). cbn [pseq_length]. apply app_length.
    + rewrite end_too_long in HT by exact Q. discriminate.
  - exfalso. apply NS. unfold is_subwords. eauto.
  - destruct (made_index d u o HM) as (-> & _). destruct x as [s|l]; [discriminate|]. apply (SAME (length l)); [reflexivity|].
    apply (null_length E (Token2Index d u) (index_newv d u) l y a); auto. intros x v. apply index_one.
  - destruct (made_hash d o HM) as (-> & _). destruct x as [s|l]; [discriminate|]. apply (SAME (length l)); [reflexivity|].
    apply (null_length E (Token2IndexwithHash d) (hash_newv d) l y a); auto. intros x v. apply hash_one.
Qed.

(** the spacers add two blanks for every character of the class *)
Theorem spacers_length E o cls s y : ord_ok (ord_c E) ->
  In (o, cls) [(AddWhitespaceAroundCJK, cjk); (AddWhitespaceAroundPunctuation, punctuation E)] ->
  turns E o (SStr s) y -> pseq_length y = length s + 2 * length (filter cls s).
Proof.
  intros OC HI (a & T). assert (L : length (news (spaced cls s)) = length s + 2 * length (filter cls s)).
  { clear. unfold news, spaced. induction s as [|c s IH]; [reflexivity|]. cbn [map concat filter new_of snd fst]. rewrite app_length, IH.
    destruct (cls c); cbn; lia. }
  destruct HI as [Q|[Q|[]]]; injection Q as <- <-.
  - destruct (rewrites_length _ _ _ _ _ _ _ _ (cjk_rewrites E s OC) T) as (-> & _). exact L.
  - destruct (rewrites_length _ _ _ _ _ _ _ _ (punct_rewrites E s OC) T) as (-> & _). exact L.
Qed.

(** ** Word pieces *)

Lemma letters_cons t ts : letters (t :: ts) = Nat.max 1 (length t) + letters ts.
Proof. reflexivity. Qed.

Lemma splits_count vocab first t ps : splits vocab first t ps -> length ps <= length t.
Proof.
  induction 1 as [first|first w rest ps N HI HM H IH]; [reflexivity|]. rewrite app_length. destruct w; [congruence|]. cbn [length]. lia.
Qed.

Lemma subwords_count v u m t out : subwords v u m t out -> length out <= Nat.max 1 (length t) /\ (t <> [] -> 1 <= length out).
Proof.
  intros H. split.
  - destruct H as [(_ & ps & S & ->)|(_ & ->)]; [|cbn [length]; lia]. rewrite map_length. apply splits_count in S. lia.
  - intros N. destruct out; [|cbn; lia]. apply subwords_nil in H. tauto.
Qed.

Lemma pieces_count v u m ts outs : Forall2 (subwords v u m) ts outs ->
  length (concat outs) <= letters ts /\ (Forall (fun t => t <> []) ts -> length ts <= length (concat outs)).
Proof.
  induction 1 as [|t o ts outs H _ (I1 & I2)]; [cbn; auto|]. apply subwords_count in H. destruct H as (H1 & H2).
  cbn [concat]. rewrite app_length. rewrite ?letters_cons in *. cbn [length] in *. split; [lia|].
  intros F. inversion F; subst. specialize (I2 ltac:(assumption)). specialize (H2 ltac:(assumption)). lia.
Qed.

Theorem subwords_length E v u m ts y : ord_ok (ord_e E) -> turns E (SpanSubwords v u m) (SLst (map ETok ts)) y ->
  pseq_length y <= letters ts /\ (Forall (fun t => t <> []) ts -> length ts <= pseq_length y).
Proof.
  intros OE (a & T). destruct (subwords_pieces E v u m ts y a OE T) as (outs & F & ->). cbn [pseq_length]. now apply (pieces_count v u m).
Qed.

(** ** Pipes *)

Lemma at_most_mono o n m : n <= m -> at_most o n <= at_most o m.
Proof.
  intros L. pose proof (Nat.div_le_mono (n + 1) (m + 1) 2 ltac:(lia) ltac:(lia)). pose proof (Nat.div_le_mono (n + 1) (m + 1) 4 ltac:(lia) ltac:(lia)).
  destruct o; cbn [at_most]; try lia; nia.
Qed.

Lemma run_length E ops : python E -> Forall (fun o => built E (o_op o) /\ ~ is_subwords (o_op o)) ops -> forall x y als coll n,
  run E ops x = Ok (y, als, coll) -> pseq_length x <= n -> pseq_length y <= at_most_all (map o_op ops) n.
Proof.
  intros PY. unfold at_most_all. induction 1 as [|o ops (B & N) F IH]; intros x y als coll n R L; cbn [run] in R.
  - injection R as <- _ _. exact L.
  - destruct (transform_op E (o_op o) x) as [[z a]|] eqn:T; [|discriminate]. cbn [bind] in R.
    destruct (run E ops z) as [[[y' als'] coll']|] eqn:R'; [|discriminate]. cbn [bind] in R. injection R as <- _ _.
    cbn [map fold_left]. apply (IH z y' als' coll' _ R'). eapply Nat.le_trans; [|exact (at_most_mono (o_op o) _ _ L)].
    apply (operator_length E (o_op o) x z PY B N). now exists a.
Qed.

Theorem pipe_length E p x y als coll : python E -> regexes E -> reachable E p ->
  Forall (fun o => ~ is_subwords (o_op o)) (steps p) ->
  transform_sequence E p x = Ok (y, als, coll) -> pseq_length y <= at_most_all (map o_op (steps p)) (pseq_length x).
Proof.
  intros PY HR R N T. apply (run_length E (steps p) PY) with (x := x) (als := als) (coll := coll); [|exact T|lia].
  pose proof (reachable_built E p HR R) as B. rewrite Forall_forall in *. auto.
Qed.

(** ** The pipes of pipeline/bert *)

Lemma tokens_letters (ps : list (str * bool)) : Forall (fun p => fst p <> []) ps -> letters (tokens_of ps) <= length (text_of ps).
Proof.
  unfold tokens_of, text_of. induction 1 as [|[w b] ps N _ IH]; [reflexivity|]. cbn [map concat filter fst snd]. rewrite app_length.
  cbn [fst] in N. assert (1 <= length w) by (destruct w; [congruence|cbn; lia]). destruct b; cbn [map fst]; rewrite ?letters_cons; lia.
Qed.

Lemma toks_letters k s : letters (toks k s) <= length s.
Proof.
  unfold toks. pose proof (cut_by_cut k s) as C. pose proof (tokens_letters _ (cut_nonempty _ _ _ C)) as H.
  destruct C as (Q & _). unfold text_of, kept in *. rewrite map_map in H. cbn [fst] in H. change (concat (map (fun x : str * kind => fst x) (cut_by k s))) with (concat (map fst (cut_by k s))) in H. now rewrite Q in H.
Qed.

Theorem word_piece_length E q s y als coll : python E -> word_piece_pipe E = Ok q ->
  transform_sequence E q (SStr s) = Ok (y, als, coll) -> pseq_length y <= length s.
Proof.
  intros PY HQ T. destruct (word_piece_tokens E q s _ PY HQ (cut_by_cut _ s)) as (outs & als' & coll' & F & T').
  rewrite T in T'. injection T' as -> _ _. cbn [pseq_length]. destruct (pieces_count _ _ _ _ _ F) as (L & _).
  fold (toks (by_space E) s) in L. pose proof (toks_letters (by_space E) s). lia.
Qed.

Lemma joined_length ts : length (joined blank ts) + 1 <= letters ts + Nat.max 1 (length ts).
Proof.
  induction ts as [|t ts IH]; [cbn; lia|]. destruct ts as [|t' ts]; [rewrite letters_cons; cbn [joined length]; lia|].
  change (joined blank (t :: t' :: ts)) with (t ++ blank ++ joined blank (t' :: ts)). rewrite !app_length.
  rewrite ?letters_cons in *. cbn [length] in *. change (length blank) with 1. lia.
Qed.

Lemma letters_count ts : length ts <= letters ts.
Proof. induction ts as [|t ts IH]; [reflexivity|]. rewrite letters_cons. cbn [length]. lia. Qed.

Lemma basic_result E p s y als coll : python E -> basic_pipe E = Ok p -> transform_sequence E p (SStr s) = Ok (y, als, coll) ->
  let u := joined blank (toks (by_punct_cjk E) (map lower s)) in
  y = SLst (map ETok (toks (by_space E) (stripped E u))) /\ length (stripped E u) = length u.
Proof.
  intros PY HB T. destruct (basic_tokens E p s _ _ PY HB (cut_by_cut _ _) (cut_by_cut _ _)) as (R1 & R2). fold (toks (by_punct_cjk E) (map lower s)) in *.
  cbv zeta in R1, R2 |- *. destruct (Nat.eq_dec (length (stripped E (joined blank (toks (by_punct_cjk E) (map lower s)))))
     (length (joined blank (toks (by_punct_cjk E) (map lower s))))) as [L|L].
  - destruct (R1 L) as (als' & coll' & HR). rewrite HR in T. injection T as <- _ _. split; [reflexivity|exact L].
  - rewrite (R2 L) in T. discriminate.
Qed.

Theorem basic_length E p s y als coll : python E -> basic_pipe E = Ok p ->
  transform_sequence E p (SStr s) = Ok (y, als, coll) -> pseq_length y <= length s.
Proof.
  intros PY HB T. destruct (basic_result E p s y als coll PY HB T) as (-> & L). cbn [pseq_length]. rewrite map_length, <- words_toks.
  set (u := joined blank (toks (by_punct_cjk E) (map lower s))) in *. pose proof (words_count (is_space E) (stripped E u)) as W. rewrite L in W.
  set (ts := toks (by_punct_cjk E) (map lower s)) in *. pose proof (toks_letters (by_punct_cjk E) (map lower s)) as A. fold ts in A. rewrite map_length in A.
  pose proof (letters_count ts) as B. pose proof (joined_length ts) as C. fold u in C.
  destruct (length ts) as [|k] eqn:ET.
  - apply length_zero_iff_nil in ET. assert (U : length u = 0) by (unfold u; now rewrite ET). rewrite U in W. change ((0 + 1) / 2) with 0 in W. lia.
  - assert (D : length u + 1 <= 2 * length s) by lia.
    pose proof (Nat.div_le_mono _ _ 2 ltac:(lia) D) as G. rewrite (Nat.mul_comm 2), Nat.div_mul in G by lia. lia.
Qed.

Lemma toks_ink E s : letters (toks (by_space E) s) = length s - length (filter (is_space E) s).
Proof.
  rewrite <- words_toks. unfold words. rewrite <- (runs_concat (is_space E) s) at 2 3.
  pose proof (runs_wf (is_space E) s) as W.
  enough (H : letters (map snd (filter (fun br : bool * str => negb (fst br)) (runs (is_space E) s))) +
    length (filter (is_space E) (concat (map snd (runs (is_space E) s)))) = length (concat (map snd (runs (is_space E) s)))) by lia.
  induction (runs (is_space E) s) as [|[b r] rs IH]; [reflexivity|]. cbn [wf_runs] in W. destruct W as (N & A & _ & W). specialize (IH W).
  cbn [map concat filter fst snd]. rewrite filter_app, !app_length. assert (1 <= length r) by (destruct r; [congruence|cbn; lia]).
  assert (Q : length (filter (is_space E) r) = if b then length r else 0).
  { clear -A. induction A as [|c r Q A IH]; [now destruct b|]. cbn [filter]. rewrite Q. destruct b; cbn [length]; lia. }
  rewrite Q. destruct b; cbn [negb map snd] in *; rewrite ?letters_cons in *; lia.
Qed.

Lemma joined_ink E ts : is_space E 32 = true ->
  length (joined blank ts) - length (filter (is_space E) (joined blank ts)) <= letters ts.
Proof.
  intros SP. enough (H : length (joined blank ts) <= letters ts + length (filter (is_space E) (joined blank ts))) by lia.
  induction ts as [|t ts IH]; [cbn; lia|]. destruct ts as [|t' ts]; [rewrite letters_cons; cbn [joined length]; lia|].
  change (joined blank (t :: t' :: ts)) with (t ++ blank ++ joined blank (t' :: ts)). rewrite !filter_app, !app_length.
  assert (B : length (filter (is_space E) blank) = 1) by (change blank with [32%Z]; cbn [filter]; now rewrite SP). rewrite B. change (length blank) with 1.
  rewrite ?letters_cons in *. cbn [length] in *. lia.
Qed.

Theorem full_length E q s y als coll : python E -> keeps_blanks E -> full_pipe E = Ok q ->
  transform_sequence E q (SStr s) = Ok (y, als, coll) -> pseq_length y <= length s.
Proof.
  intros PY KB HQ T. assert (Q : exists ts als coll, transform_sequence E (mkPipe basic_steps []) (SStr s) = Ok (SLst (map ETok ts), als, coll)).
  { rewrite full_is in HQ. assert (q = mkPipe (basic_steps ++ [subwords_obj full_vocab]) []) as -> by congruence. unfold transform_sequence in *. cbn [steps] in *. rewrite run_app in T.
    destruct (run E basic_steps (SStr s)) as [[[z al] co]|] eqn:R; [|discriminate].
    destruct (basic_clean E _ s z al co PY (basic_is E) R) as (ts & -> & _). eauto. }
  destruct Q as (ts & al & co & TB). destruct (full_tokens E _ q s ts al co PY (basic_is E) HQ TB) as (outs & als' & coll' & F & T').
  rewrite T in T'. injection T' as -> _ _. cbn [pseq_length]. destruct (pieces_count _ _ _ _ _ F) as (L & _).
  destruct (basic_result E _ s _ _ _ PY (basic_is E) TB) as (Y & LU). injection Y as Y. apply map_tok_inj in Y. subst ts.
  rewrite toks_ink, KB, LU in L. destruct PY as (_ & _ & SP).
  pose proof (joined_ink E (toks (by_punct_cjk E) (map lower s)) SP) as J. pose proof (toks_letters (by_punct_cjk E) (map lower s)) as A. rewrite map_length in A. lia.
Qed.

(** ** The bounds are reached *)

Section Reached.
Context (p : Z -> bool) (b : bool) (w g : str) (NW : w <> []) (NG : g <> []) (PW : all_in p b w) (PG : all_in p (negb b) g).

Definition blocks (k : nat) (last : bool) : list (bool * str) :=
  concat (repeat [(b, w); (negb b, g)] k) ++ (if last then [(b, w)] else []).

Lemma blocks_wf k last : wf_runs p (blocks k last) /\ match blocks k last with [] => True | (f, _) :: _ => f = b end.
Proof.
  unfold blocks. induction k as [|k (IH & IH2)].
  - cbn [repeat concat app]. destruct last; cbn [wf_runs]; auto.
  - cbn [repeat concat app]. split; [|reflexivity]. cbn [wf_runs]. do 2 (split; [assumption|]). split; [reflexivity|].
    do 2 (split; [assumption|]). split; [|exact IH]. destruct (concat _ ++ _) as [|[f r] t]; [exact Logic.I|]. rewrite IH2. now rewrite Bool.negb_involutive.
Qed.

Lemma blocks_olds k last : length (concat (map snd (blocks k last))) = k * (length w + length g) + if last then length w else 0.
Proof.
  unfold blocks. induction k as [|k IH]; [destruct last; cbn; rewrite ?app_nil_r; reflexivity|].
  cbn [repeat concat app map snd]. rewrite !app_length. cbn [Nat.mul]. lia.
Qed.
End Reached.

Lemma numbers_reached p choose w (tok : str) pre k (last : bool) : w <> [] -> all_in p true w -> p 97%Z = false -> choose w = Some tok ->
  exists s, length s = pre + k * (length w + 1) + (if last then length w else 0) /\
    length (news (seg_runs p choose s)) = pre + k * (length tok + 1) + (if last then length tok else 0).
Proof.
  intros NW PW P97 CW. pose proof (blocks_wf p true w [97%Z] NW ltac:(discriminate) PW ltac:(now repeat constructor) k last) as (W & W2).
  pose proof (blocks_olds true w [97%Z] k last) as O.
  set (rs := (match pre with 0 => [] | _ => [(false, repeat 97%Z pre)] end) ++ blocks true w [97%Z] k last).
  assert (WR : wf_runs p rs).
  { unfold rs. destruct pre as [|pre]; [exact W|]. cbn [app wf_runs]. split; [discriminate|]. split.
    - apply Forall_forall. intros c HC. apply repeat_spec in HC. now subst c.
    - split; [|exact W]. destruct (blocks true w [97%Z] k last) as [|[f r] t]; [exact Logic.I|exact W2]. }
  exists (concat (map snd rs)). split.
  - unfold rs. rewrite map_app, concat_app, app_length, O. cbn [length].
    destruct pre; cbn [map concat snd length]; [lia|]. rewrite app_nil_r, repeat_length. lia.
  - rewrite seg_runs_news, (runs_unique p rs WR). unfold rs. rewrite map_app, concat_app, app_length.
    assert (N : length (concat (map (fun br : bool * str => match (if fst br then choose (snd br) else None) with Some v => v | None => snd br end) (blocks true w [97%Z] k last)))
      = k * (length tok + 1) + if last then length tok else 0).
    { clear -CW. unfold blocks. cbn [negb]. induction k as [|k IH].
      - destruct last; cbn [repeat concat app map fst snd negb]; [|reflexivity]. rewrite CW, app_nil_r. lia.
      - cbn [repeat concat app map fst snd negb]. rewrite CW, !app_length. cbn [length]. rewrite IH. cbn [Nat.mul]. lia. }
    rewrite N. destruct pre; cbn [map concat fst snd length]; [lia|]. rewrite app_nil_r, repeat_length. lia.
Qed.

Lemma halves n : exists k (last : bool), n = k * 2 + (if last then 1 else 0) /\ (n + 1) / 2 = k + if last then 1 else 0.
Proof.
  exists (n / 2), (Nat.odd n). pose proof (Nat.div_mod_eq n 2) as D. pose proof (Nat.mod_upper_bound n 2 ltac:(lia)) as U.
  assert (Q : n mod 2 = if Nat.odd n then 1 else 0) by (rewrite <- Nat.bit0_mod, <- Nat.bit0_odd; now destruct (Nat.testbit n 0)).
  split; [lia|]. symmetry. apply (Nat.div_unique (n + 1) 2 _ (if Nat.odd n then 0 else 1)); destruct (Nat.odd n); lia.
Qed.

Lemma quarters n : exists pre k (last : bool), n = pre + k * 4 + (if last then 3 else 0) /\ (n + 1) / 4 = k + if last then 1 else 0.
Proof.
  pose proof (Nat.div_mod_eq n 4) as D. pose proof (Nat.mod_upper_bound n 4 ltac:(lia)) as U.
  destruct (Nat.eq_dec (n mod 4) 3) as [Q|Q].
  - exists 0, (n / 4), true. split; [lia|]. symmetry. apply (Nat.div_unique (n + 1) 4 _ 0); lia.
  - exists (n mod 4), (n / 4), false. split; [lia|]. symmetry. apply (Nat.div_unique (n + 1) 4 _ (n mod 4 + 1)); lia.
Qed.

Lemma plain_all (p : Z -> bool) c n b : p c = b -> all_in p b (repeat c n).
Proof. intros H. apply Forall_forall. intros d HD. apply repeat_spec in HD. now subst d. Qed.

Lemma rewrites_turns E o s sg h k : rewrites E o s sg h k -> turns E o (SStr s) (SStr (news sg)).
Proof. intros (_ & M). exact (maps_turns _ _ _ _ _ _ _ M). Qed.

Theorem length_reached E o n : python E -> usual E -> In o reaching ->
  exists x y, pseq_length x = n /\ turns E o x y /\ pseq_length y = at_most o n.
Proof.
  intros (OC & OE & SP) (D97 & S97 & D49 & P33 & S33) HI.
  assert (INT : forall o tok h k d, (forall s, rewrites E o s (int_like E (txt tok) s) h k) -> length (txt tok) = 1 + d ->
    exists x y, pseq_length x = n /\ turns E o x y /\ pseq_length y = n + d * ((n + 1) / 2)).
  { intros o0 tok h k d RW L. destruct (halves n) as (q & last & N & H).
    destruct (numbers_reached (fun c => point c || digit E c)%bool (fun r => if forallb (digit E) r then Some (txt tok) else None) [49%Z] (txt tok) 0 q last)
      as (s & L1 & L2); [discriminate|repeat constructor; now rewrite D49|now rewrite D97|cbn [forallb]; now rewrite D49|].
    exists (SStr s). eexists. split; [cbn [pseq_length]; cbn [length] in L1; lia|]. split; [exact (rewrites_turns _ _ _ _ _ _ (RW s))|].
    cbn [pseq_length]. unfold int_like. rewrite L2, H, L. destruct last; lia. }
  assert (FLT : forall o tok h k d, (forall s, rewrites E o s (float_like E (txt tok) s) h k) -> length (txt tok) = 3 + d ->
    exists x y, pseq_length x = n /\ turns E o x y /\ pseq_length y = n + d * ((n + 1) / 4)).
  { intros o0 tok h k d RW L. destruct (quarters n) as (pre & q & last & N & H).
    destruct (numbers_reached (fun c => point c || digit E c)%bool (fun r => if is_decimal (digit E) r then Some (txt tok) else None) [49; 46; 49]%Z (txt tok) pre q last)
      as (s & L1 & L2); [discriminate| |now rewrite D97| |].
    - repeat constructor; now rewrite ?D49.
    - unfold is_decimal. cbn [length seq existsb skipn firstn forallb]. rewrite D49. reflexivity.
    - exists (SStr s). eexists. split; [cbn [pseq_length]; cbn [length] in L1; lia|]. split; [exact (rewrites_turns _ _ _ _ _ _ (RW s))|].
      cbn [pseq_length]. unfold float_like. rewrite L2, H, L. destruct last; lia. }
  assert (SPC : forall o cls c, In (o, cls) [(AddWhitespaceAroundCJK, cjk); (AddWhitespaceAroundPunctuation, punctuation E)] -> cls c = true ->
    (exists y, turns E o (SStr (repeat c n)) y) -> exists x y, pseq_length x = n /\ turns E o x y /\ pseq_length y = 3 * n).
  { intros o0 cls c HO HC (y & T). exists (SStr (repeat c n)), y. cbn [pseq_length]. rewrite repeat_length. split; [reflexivity|]. split; [exact T|].
    rewrite (spacers_length E o0 cls _ y OC HO T), repeat_length. assert (length (filter cls (repeat c n)) = n); [|lia].
    clear -HC. induction n as [|m IH]; [reflexivity|]. cbn [repeat filter]. rewrite HC. cbn [length]. now rewrite IH. }
  assert (SNG : forall k, k 33%Z = Single -> toks k (repeat 33%Z n) = repeat [33%Z] n).
  { intros k K. clear -K. induction n as [|m IH]; [reflexivity|]. cbn [repeat]. now rewrite (toks_single k _ _ K), IH. }
  unfold reaching in HI. repeat (destruct HI as [<-|HI]; [cbn [at_most]|]); [..|destruct HI].
  - exists (SStr (repeat 97%Z n)). eexists. cbn [pseq_length]. rewrite repeat_length. split; [reflexivity|]. split; [exact (rewrites_turns _ _ _ _ _ _ (merge_rewrites E _ OC))|].
    cbn [pseq_length]. rewrite seg_runs_id; [apply repeat_length|]. rewrite <- (app_nil_r (repeat 97%Z n)), class_runs_false; [constructor|]. now apply plain_all.
  - exists (SStr (repeat 97%Z n)). eexists. cbn [pseq_length]. rewrite repeat_length. split; [reflexivity|]. split; [exact (maps_turns _ _ _ _ _ _ _ (strip_maps E _ OC))|].
    cbn [pseq_length]. destruct (strip_split (is_space E) (repeat 97%Z n)) as (w1 & w2 & ES & A1 & A2 & _).
    assert (NIL : forall w, all_in (is_space E) true w -> (forall c, In c w -> In c (repeat 97%Z n)) -> w = []).
    { intros [|c w] A HH; [reflexivity|]. inversion A as [|? ? Q _]; subst. specialize (HH c (or_introl eq_refl)). apply repeat_spec in HH. congruence. }
    assert (w1 = []) by (apply (NIL w1 A1); intros c HC; rewrite ES; apply in_or_app; now left).
    assert (w2 = []) by (apply (NIL w2 A2); intros c HC; rewrite ES; apply in_or_app; right; apply in_or_app; now right).
    subst w1 w2. cbn [app] in ES. rewrite app_nil_r in ES. rewrite <- ES. apply repeat_length.
  - destruct (stop_rewrites E (repeat 97%Z n) OC) as (ps & HM & HW). exists (SStr (repeat 97%Z n)). eexists. cbn [pseq_length]. rewrite repeat_length. split; [reflexivity|].
    split; [exact (rewrites_turns _ _ _ _ _ _ HW)|]. cbn [pseq_length].
    assert (Q : forall s ps, munched false stopword_set s ps -> Forall (fun c => c = 97%Z) s -> news (stop_spaced ps) = s).
    { clear. induction 1 as [|w rest ps (B1 & B2 & _) H IH|c rest ps NW H IH]; intros F; [reflexivity| |].
      - exfalso. assert (ST : forallb (fun w => match w with [] => true | c :: _ => negb (c =? 97)%Z end) stopword_set = true) by reflexivity.
        rewrite forallb_forall in ST. specialize (ST w B1). destruct w as [|c w]; [congruence|]. cbn [app] in F. inversion F; subst. discriminate.
      - inversion F; subst. change (news (stop_spaced (([97%Z], false) :: ps))) with (97%Z :: news (stop_spaced ps)). now rewrite IH. }
    rewrite (Q _ _ HM); [apply repeat_length|]. apply Forall_forall. intros c HC. exact (repeat_spec _ _ _ HC).
  - exact (INT _ "_int_"%string _ _ 4 (fun s => int_rewrites E s OC) eq_refl).
  - exact (INT _ " _int_ "%string _ _ 6 (fun s => int_space_rewrites E s OC) eq_refl).
  - exact (INT _ " _num_ "%string _ _ 6 (fun s => num_space_rewrites E s OC) eq_refl).
  - exact (FLT _ "_float_"%string _ _ 4 (fun s => float_rewrites E s OC) eq_refl).
  - exact (FLT _ " _float_ "%string _ _ 6 (fun s => float_space_rewrites E s OC) eq_refl).
  - apply (SPC _ _ 19968%Z (or_introl eq_refl) eq_refl). eexists. exact (rewrites_turns _ _ _ _ _ _ (cjk_rewrites E _ OC)).
  - apply (SPC _ _ 33%Z (or_intror (or_introl eq_refl)) P33). eexists. exact (rewrites_turns _ _ _ _ _ _ (punct_rewrites E _ OC)).
  - destruct (halves n) as (q & last & N & H).
    pose proof (blocks_wf (is_space E) false [97%Z] [32%Z] ltac:(discriminate) ltac:(discriminate) ltac:(now repeat constructor) ltac:(now repeat constructor) q last) as (W & _).
    pose proof (blocks_olds false [97%Z] [32%Z] q last) as O. set (rs := blocks false [97%Z] [32%Z] q last) in *.
    exists (SStr (concat (map snd rs))). eexists. split; [cbn [pseq_length]; rewrite O; cbn [length]; lia|].
    destruct (ws_tokenizes E (concat (map snd rs)) _ OC (cut_by_cut _ _)) as (_ & a & T & _). split; [exists a; exact T|].
    cbn [pseq_length]. rewrite map_length. fold (toks (by_space E) (concat (map snd rs))). rewrite <- words_toks. unfold words.
    rewrite (runs_unique _ _ W), map_length, H. unfold rs, blocks. cbn [negb]. clear. induction q as [|q IH].
    + destruct last; reflexivity.
    + cbn [repeat concat app filter fst negb length]. rewrite IH. lia.
  - destruct (eng_tokenizes E (repeat 33%Z n) _ OC SP (cut_by_cut _ _)) as (_ & a & T & _). exists (SStr (repeat 33%Z n)). eexists.
    cbn [pseq_length]. rewrite repeat_length. split; [reflexivity|]. split; [exists a; exact T|]. cbn [pseq_length]. rewrite map_length.
    fold (toks (by_punct E) (repeat 33%Z n)). rewrite SNG; [apply repeat_length|]. unfold by_punct. now rewrite S33, P33.
  - destruct (zh_tokenizes E (repeat 33%Z n) _ OC SP (cut_by_cut _ _)) as (_ & a & T & _). exists (SStr (repeat 33%Z n)). eexists.
    cbn [pseq_length]. rewrite repeat_length. split; [reflexivity|]. split; [exists a; exact T|]. cbn [pseq_length]. rewrite map_length.
    fold (toks (by_punct_cjk E) (repeat 33%Z n)). rewrite SNG; [apply repeat_length|]. unfold by_punct_cjk. now rewrite S33, P33.
Qed.
