(** Which outputs tokenizers and list operators can give (C107): proofs. *)

From Coq Require Import String.
From Coq Require Import Permutation.
From Verif Require Import Py PyFacts Edit Labels SpecEdit SpecLabels SpecSeg SpecRuns SpecWords SpecScan SpecHash SpecOps Ops Json SpecJson Elements Pipe SpecPipe SpecLaws
  RunsProofs SegProofs OpProofs StrOpProofs ListOpProofs HashProofs TokProofs OpLaws AlignProofs LawsTok LawsProofs LawsText PipeProofs BertProofs
  WordProofs TrieProofs AcceptProofs SpecReadBack ReadBackProofs SpecOutcome OutcomeProofs.
From Coq Require Import List ZArith Lia.
Import ListNotations.

Lemma tokens_like_map (P : str -> Prop) l : tokens_like P l -> exists ts, l = map ETok ts /\ Forall P ts.
Proof.
  induction l as [|e l IH]; intros H; [exists []; split; [reflexivity|constructor]|].
  destruct (H e) as (t & -> & Ht); [now left|]. destruct IH as (ts & -> & F); [intros x Hx; apply H; now right|].
  exists (t :: ts). split; [reflexivity|now constructor].
Qed.

(** ** Tokenizers *)

Lemma one_token_toks k t : one_token k t -> toks k t = [t].
Proof. intros [(N & W)|(c & -> & K)]; [now apply toks_one_word|now rewrite toks_single]. Qed.

Lemma toks_one_token k s t : In t (toks k s) -> one_token k t.
Proof.
  unfold toks. destruct (cut_by_cut k s) as (_ & F & _). unfold tokens_of, kept. intros HT. apply in_map_iff in HT.
  destruct HT as ([w b] & EW & HT). cbn in EW. subst w. apply filter_In in HT.
  destruct HT as (HT & Hb). cbn in Hb. subst b. apply in_map_iff in HT.
  destruct HT as ([w d] & EW & HT). cbn in EW. injection EW as -> ED. rewrite Forall_forall in F.
  destruct (F _ HT) as (N & A & L). cbn [fst snd] in *. destruct d; [discriminate| |].
  - right. destruct t as [|c [|]]; try discriminate (L eq_refl). exists c. split; [reflexivity|]. apply A. now left.
  - left. auto.
Qed.

Lemma toks_joined k ts : k 32%Z = Gap -> Forall (one_token k) ts -> toks k (joined blank ts) = ts.
Proof.
  intros K F. induction F as [|t ts Ht F IH]; [reflexivity|]. destruct ts as [|u ts]; [now apply one_token_toks|].
  change (joined blank (t :: u :: ts)) with (t ++ blank ++ joined blank (u :: ts)).
  rewrite toks_app by exact K. rewrite (one_token_toks k t Ht).
  change (blank ++ joined blank (u :: ts)) with (32%Z :: joined blank (u :: ts)). cbn [app]. rewrite toks_gap by exact K. now rewrite IH.
Qed.

Lemma tokenizer_forms E o k : python E -> In (o, k) (kind_ops E) -> results E o (a_list (tokens_like (one_token k))).
Proof.
  intros P HI. assert (I : input_type o = TStr) by (destruct HI as [[= <- <-]|[[= <- <-]|[[= <- <-]|[]]]]; reflexivity).
  assert (T : forall s, turns E o (SStr s) (SLst (map ETok (toks k s)))) by (intros s; now apply (kinds_turn E o k s P)).
  assert (K : k 32%Z = Gap) by now apply (kinds_turn E o k [] P).
  intros y. split.
  - intros (x & X). destruct (turns_str _ _ _ _ I X) as (s & ->). rewrite (turns_fun _ _ _ _ _ X (T s)).
    eexists. split; [reflexivity|]. intros e He. apply in_map_iff in He as (t & <- & Ht). exists t. split; [reflexivity|]. now apply (toks_one_token k s).
  - intros (l & -> & H). apply tokens_like_map in H as (ts & -> & F). exists (SStr (joined blank ts)).
    rewrite <- (toks_joined k ts K F) at 2. apply T.
Qed.

Lemma char_forms E : ord_ok (ord_c E) -> results E CharTokenizer (a_list (tokens_like (fun t => length t = 1%nat))).
Proof.
  intros O. assert (T : forall s, turns E CharTokenizer (SStr s) (SLst (map (fun c => ETok [c]) s))).
  { intros s. destruct (char_tokenizes E s O) as (_ & a & T & _). exists a. rewrite T. do 3 f_equal.
    unfold tokens_of. clear. induction s as [|c s IH]; [reflexivity|]. cbn. f_equal. exact IH. }
  intros y. split.
  - intros (x & X). destruct (turns_str E CharTokenizer _ _ eq_refl X) as (s & ->). rewrite (turns_fun _ _ _ _ _ X (T s)).
    eexists. split; [reflexivity|]. intros e He. apply in_map_iff in He as (c & <- & _). exists [c]. split; reflexivity.
  - intros (l & -> & H). apply tokens_like_map in H as (ts & -> & F). exists (SStr (concat ts)).
    replace (map ETok ts) with (map (fun c => ETok [c]) (concat ts)); [apply T|].
    induction F as [|t ts Ht F IH]; [reflexivity|]. destruct t as [|c [|]]; try discriminate. cbn. now rewrite IH.
Qed.

(** Only listed words and single characters; which lists of these is decided by [munched]. *)
Lemma custom_forms E ws sh o x y : ord_ok (ord_c E) -> make_custom (Some ws) sh = Ok o -> turns E o x y ->
  a_list (tokens_like (fun t => In t ws \/ length t = 1%nat)) y.
Proof.
  intros O M X. destruct (made_custom _ _ _ M) as (ws' & tr & [= <-] & ->).
  destruct (turns_str E (CustomWordTokenizer tr sh) _ _ eq_refl X) as (s & ->).
  destruct (munched_exists sh ws s) as (ps & HP). destruct (custom_tokenizes E ws sh _ s ps O M HP) as (_ & a & T & _).
  rewrite (turns_fun _ _ _ _ _ X (ex_intro _ a T)). eexists. split; [reflexivity|].
  intros e He. apply in_map_iff in He as (t & <- & Ht). exists t. split; [reflexivity|].
  assert (In t (map fst ps)).
  { unfold tokens_of, all_kept in Ht. apply in_map_iff in Ht as ([u b] & <- & Ht). apply filter_In in Ht as [Ht _].
    apply in_map_iff in Ht as (v & [= <- <-] & Hv). exact Hv. }
  clear -HP H. induction HP as [|w rest ps B HP IH|c rest ps N HP IH]; [destruct H| |].
  - destruct H as [<-|H]; [|now apply IH]. left. destruct sh; apply B.
  - destruct H as [<-|H]; [right; reflexivity|now apply IH].
Qed.

(** ** List operators *)

Lemma pad_forms E maxlen pad : ord_ok (ord_e E) -> (0 <= maxlen)%Z ->
  results E (Pad maxlen pad) (a_list (fun l => Z.of_nat (length l) = maxlen)) /\
  leaves E (Pad maxlen pad) (a_list (fun l => Z.of_nat (length l) = maxlen)).
Proof.
  intros O P.
  assert (F : forall l y, turns E (Pad maxlen pad) (SLst l) y -> a_list (fun l => Z.of_nat (length l) = maxlen) y).
  { intros l y X. destruct (Z.eq_dec (Z.of_nat (length l)) maxlen) as [Q|Q]; [|destruct (Z_lt_le_dec (Z.of_nat (length l)) (2 ^ 32)) as [L|L]].
    - rewrite (turns_fun _ _ _ _ _ X (maps_turns _ _ _ _ _ _ _ (pad_maps E maxlen pad l O P (or_intror Q)))).
      eexists. split; [reflexivity|]. rewrite app_length, firstn_length, repeat_length. lia.
    - rewrite (turns_fun _ _ _ _ _ X (maps_turns _ _ _ _ _ _ _ (pad_maps E maxlen pad l O P (or_introl L)))).
      eexists. split; [reflexivity|]. rewrite app_length, firstn_length, repeat_length. lia.
    - destruct X as (a & X). rewrite (pad_too_long E maxlen pad l L Q) in X. discriminate. }
  assert (G : forall l, Z.of_nat (length l) = maxlen -> turns E (Pad maxlen pad) (SLst l) (SLst l)).
  { intros l Q. pose proof (maps_turns _ _ _ _ _ _ _ (pad_maps E maxlen pad l O P (or_intror Q))) as T. cbn zeta in T.
    rewrite firstn_all2 in T by lia. replace (Z.to_nat maxlen - length l) with 0 in T by lia. cbn [repeat] in T. now rewrite app_nil_r in T. }
  split; intros y; split.
  - intros (x & X). destruct (turns_lst E (Pad maxlen pad) _ _ eq_refl X) as (l & ->). now apply (F l).
  - intros (l & -> & Q). exists (SLst l). now apply G.
  - intros X. destruct (turns_lst E (Pad maxlen pad) _ _ eq_refl X) as (l & ->). now apply (F l).
  - intros (l & -> & Q). now apply G.
Qed.

Lemma end_forms E eos : ord_ok (ord_e E) ->
  results E (AddEndToken eos) (a_list (fun y => exists l, y = l ++ [ETok eos] /\ (Z.of_nat (length l) < 2 ^ 32)%Z)).
Proof.
  intros O y. split.
  - intros (x & X). destruct (turns_lst E (AddEndToken eos) _ _ eq_refl X) as (l & ->).
    destruct (Z_lt_le_dec (Z.of_nat (length l)) (2 ^ 32)) as [L|L].
    + rewrite (turns_fun _ _ _ _ _ X (maps_turns _ _ _ _ _ _ _ (end_maps E eos l O L))). eexists. split; [reflexivity|]. exists l. auto.
    + destruct X as (a & X). rewrite (end_too_long E eos l L) in X. discriminate.
  - intros (y' & -> & l & -> & L). exists (SLst l). eapply maps_turns. now apply end_maps.
Qed.

(** [AddSosEos]: the two tokens around something; from the empty list the two tokens, or one if they are the same. *)
Lemma soseos_forms E sos eos : ord_ok (ord_e E) ->
  exists z, ((sos <> eos /\ (z = [sos; eos] \/ z = [eos; sos])) \/ (sos = eos /\ z = [sos])) /\
    turns E (AddSosEos sos eos) (SLst []) (SLst z) /\
    results E (AddSosEos sos eos) (a_list (fun y => y = z \/ exists l, y = sos :: l ++ [eos] /\ l <> [] /\ (Z.of_nat (length l) < 2 ^ 32)%Z)).
Proof.
  intros O. destruct (soseos_empty_runs E sos eos O) as (y0 & a0 & T0). destruct (soseos_empty E sos eos y0 a0 O T0) as (SH & _).
  assert (Z0 : exists z, y0 = SLst z /\ ((sos <> eos /\ (z = [sos; eos] \/ z = [eos; sos])) \/ (sos = eos /\ z = [sos]))).
  { destruct SH as [(N & [-> | ->])|(N & ->)]; eexists; (split; [reflexivity|]); auto. }
  destruct Z0 as (z & -> & SZ). exists z. split; [exact SZ|]. split; [now exists a0|]. intros y. split.
  - intros (x & X). destruct (turns_lst E (AddSosEos sos eos) _ _ eq_refl X) as ([|e l] & ->).
    + rewrite (turns_fun _ _ _ _ _ X (ex_intro _ a0 T0)). exists z. auto.
    + destruct (Z_lt_le_dec (Z.of_nat (length (e :: l))) (2 ^ 32)) as [L|L].
      * assert (N : e :: l <> []) by discriminate.
        rewrite (turns_fun _ _ _ _ _ X (maps_turns _ _ _ _ _ _ _ (soseos_maps E sos eos _ O N L))). eexists. split; [reflexivity|]. right. exists (e :: l). auto.
      * destruct X as (a & X). rewrite (soseos_too_long E sos eos _ L) in X. discriminate.
  - intros (y' & -> & [-> |(l & -> & N & L)]); [exists (SLst []); now exists a0|exists (SLst l); eapply maps_turns; now apply soseos_maps].
Qed.

Lemma purenum_inputs E tok l y : turns E (PureNum2Token tok) (SLst l) y -> exists ts, l = map ETok ts.
Proof.
  intros (a & X).
  assert (D : (exists ts, l = map ETok ts) \/ exists ts i l', l = map ETok ts ++ EIdx i :: l').
  { clear. induction l as [|[t|i] l IH]; [left; now exists []| |right; now exists [], i, l].
    destruct IH as [(ts & ->)|(ts & i & l' & ->)]; [left; now exists (t :: ts)|right; now exists (t :: ts), i, l']. }
  destruct D as [D|(ts & i & l' & ->)]; [exact D|]. rewrite purenum_type_error in X. discriminate.
Qed.

Lemma purenum_forms E tok : ord_ok (ord_e E) ->
  results E (PureNum2Token tok) (a_list (fun l => forall e, In e l -> (exists t, e = ETok t /\ pure_number E t = false) \/
    (e = tok /\ exists t, pure_number E t = true))).
Proof.
  intros O y. split.
  - intros (x & X). destruct (turns_lst E (PureNum2Token tok) _ _ eq_refl X) as (l & ->).
    destruct (purenum_inputs E tok l y X) as (ts & ->). rewrite (turns_fun _ _ _ _ _ X (maps_turns _ _ _ _ _ _ _ (purenum_maps E tok ts O))).
    eexists. split; [reflexivity|]. intros e He. apply in_map_iff in He as (t & <- & _).
    destruct (pure_number E t) eqn:Q; [right|left]; eauto.
  - intros (l & -> & H).
    assert (G : exists ts, l = map (fun t => if pure_number E t then tok else ETok t) ts).
    { induction l as [|e l IH]; [now exists []|]. destruct IH as (ts & ->); [intros x Hx; apply H; now right|].
      destruct (H e) as [(t & -> & Q)|(-> & t & Q)]; [now left| |]; exists (t :: ts); cbn; now rewrite Q. }
    destruct G as (ts & ->). exists (SLst (map ETok ts)). eapply maps_turns. now apply purenum_maps.
Qed.

(** ** Indices *)

Lemma continuous_has d i : continuous d -> (0 <= i < Z.of_nat (length d))%Z -> exists k, In (k, i) d.
Proof.
  intros C R. assert (H : In i (map snd d)).
  { eapply Permutation_in; [apply Permutation_sym; exact C|]. apply in_map_iff. exists (Z.to_nat i). split; [lia|]. apply in_seq. lia. }
  apply in_map_iff in H as ([k j] & Q & H). cbn in Q. subst j. eauto.
Qed.

Lemma dict_fun (d : list (str * Z)) k i j : is_dict d -> In (k, i) d -> In (k, j) d -> i = j.
Proof.
  unfold is_dict. induction d as [|[k0 i0] d IH]; intros N A B; [destruct A|]. cbn in N. inversion N as [|? ? N1 N2]; subst.
  assert (M : forall v, In (k0, v) d -> False) by (intros v Hv; apply N1; apply (in_map fst) in Hv; exact Hv).
  destruct A as [A|A], B as [B|B].
  - congruence.
  - injection A as -> ->. destruct (M _ B).
  - injection B as -> ->. destruct (M _ A).
  - now apply IH.
Qed.

Lemma index_forms E d unk o : python E -> is_dict d -> make_token2index d unk = Ok o -> results E o (a_list (indices_below (length d))).
Proof.
  intros P D M. destruct (made_index _ _ _ M) as (-> & HU). pose proof P as (_ & O & _).
  assert (C : continuous d).
  { destruct (make_token2index_spec d unk) as (_ & _ & S3). destruct (perm_dec (map snd d) (map Z.of_nat (seq 0 (length d)))) as [Q|Q]; [exact Q|].
    rewrite S3 in M; [discriminate|]. now intros [_ ?]. }
  intros y. split.
  - intros (x & X). destruct (turns_lst E (Token2Index d unk) _ _ eq_refl X) as (l & ->).
    destruct (token2index_maps E d unk l O HU) as (out & F & MM). pose proof (maps_turns _ _ _ _ _ _ _ MM) as T.
    pose proof (turns_fun _ _ _ _ _ X T) as ->. exists out. split; [reflexivity|]. intros e He.
    destruct T as (a & T). pose proof (index_range E d unk _ l out a P M T) as G. rewrite Forall_forall in G. now apply G.
  - intros (l & -> & H).
    assert (G : exists ks, Forall2 (fun k e => exists i, e = EIdx i /\ In (k, i) d) ks l).
    { induction l as [|e l IH]; [exists []; constructor|]. destruct IH as (ks & F); [intros x Hx; apply H; now right|].
      destruct (H e) as (i & -> & R); [now left|]. destruct (continuous_has d i C R) as (k & K). exists (k :: ks). constructor; eauto. }
    destruct G as (ks & G). destruct (token2index_maps E d unk (map ETok ks) O HU) as (out & F & MM). exists (SLst (map ETok ks)).
    replace l with out; [now apply maps_turns in MM|]. clear -G F D. revert out F. induction G as [|k e ks l (i & -> & K) G IH]; intros out F; cbn in F.
    + now inversion F.
    + inversion F as [|? y ? out' HX F']; subst. destruct HX as (j & -> & [J|(N & J)]).
      * f_equal; [now rewrite (dict_fun d k i j D K J)|now apply IH].
      * exfalso. apply N. change k with (fst (k, i)). now apply in_map.
Qed.

Lemma elem_edits_each newv i l acc r : elem_edits newv i l acc = Ok r -> forall x, In x l -> exists v, newv x = Ok v.
Proof.
  revert i acc. induction l as [|e l IH]; intros i acc H x Hx; [destruct Hx|]. cbn in H. destruct (newv e) as [v|] eqn:Q; [|discriminate].
  destruct Hx as [<-|Hx]; [eauto|]. cbn [bind] in H. now apply (IH _ _ H).
Qed.

Lemma hash_outputs E d l y : ord_ok (ord_e E) -> turns E (Token2IndexwithHash d) (SLst l) y ->
  exists f, y = SLst (map f l) /\ forall x, In x l -> hash_newv d x = Ok (Some [f x]).
Proof.
  intros O X. pose proof X as (a & X'). unfold transform_op in X'. cbn [type_of input_type seqtype_eqb guard bind transform_lst] in X'.
  unfold lst_result_null, elem_group in X'. destruct (elem_edits (hash_newv d) 0 l []) as [r|] eqn:EE; [|discriminate]. clear X'.
  assert (H : forall x, In x l -> exists z, hash_newv d x = Ok (Some [z])).
  { intros x Hx. destruct (elem_edits_each _ _ _ _ _ EE x Hx) as ([v|] & Q).
    - destruct (hash_one d x v Q) as (z & ->). eauto.
    - exfalso. destruct x as [t|i]; [|discriminate]. cbn [hash_newv] in Q. destruct (dict_get d t); [discriminate|].
      destruct (consistent_hash t _); discriminate. }
  set (f := fun x => match hash_newv d x with Ok (Some [y]) => y | _ => x end). exists f.
  assert (F : forall x, In x l -> hash_newv d x = Ok (Some [f x])) by (intros x Hx; destruct (H x Hx) as (z & Q); unfold f; rewrite Q; reflexivity).
  split; [|exact F].
  assert (MM : maps E (Token2IndexwithHash d) any_labels (SLst l) (SLst (map f l)) keep keep).
  { apply (null_maps E _ (hash_newv d)); auto. intros x Hx. exists true. split; [now apply F|discriminate]. }
  exact (turns_fun _ _ _ _ _ X (maps_turns _ _ _ _ _ _ _ MM)).
Qed.

Lemma hash_forms E d o : ord_ok (ord_e E) -> is_dict d -> make_hash d = Ok o -> results E o (a_list (indices_below (length d))).
Proof.
  intros O D M. destruct (made_hash _ _ M) as (-> & HD).
  assert (C : continuous d).
  { destruct (make_hash_spec d) as (_ & S3). destruct (perm_dec (map snd d) (map Z.of_nat (seq 0 (length d)))) as [Q|Q]; [exact Q|].
    rewrite S3 in M; [discriminate|]. now intros [_ ?]. }
  assert (LD : (0 < Z.of_nat (length d))%Z) by (destruct d; [congruence|cbn; lia]).
  assert (IN : forall t i, dict_get d t = Some i -> (0 <= i < Z.of_nat (length d))%Z).
  { intros t i G. apply dict_get_In in G. apply (in_map snd) in G. apply (Permutation_in _ C) in G.
    apply in_map_iff in G as (n & Q & G). apply in_seq in G. cbn in Q. subst i. lia. }
  intros y. split.
  - intros (x & X). destruct (turns_lst E (Token2IndexwithHash d) _ _ eq_refl X) as (l & ->).
    destruct (hash_outputs E d l y O X) as (f & -> & F). eexists. split; [reflexivity|]. intros e He.
    apply in_map_iff in He as (u & <- & Hu). specialize (F u Hu). destruct u as [t|i]; [|discriminate]. cbn [hash_newv] in F.
    destruct (dict_get d t) as [i|] eqn:G; [injection F as <-; exists i; split; [reflexivity|now apply (IN t)]|].
    destruct (consistent_hash t _) as [h|] eqn:CH; [|discriminate]. injection F as <-. exists h. split; [reflexivity|].
    now apply (consistent_hash_range t).
  - intros (l & -> & H).
    assert (G : exists f ks, l = map f (map ETok ks) /\ forall x, In x (map ETok ks) -> hash_newv d x = Ok (Some [f x])).
    { exists (fun x => match hash_newv d x with Ok (Some [y]) => y | _ => x end).
      induction l as [|e l IH]; [exists []; split; [reflexivity|intros x []]|]. destruct IH as (ks & -> & F); [intros x Hx; apply H; now right|].
      destruct (H e) as (i & -> & R); [now left|]. destruct (continuous_has d i C R) as (k & K).
      assert (GK : dict_get d k = Some i).
      { destruct (dict_get d k) as [j|] eqn:G; [f_equal; apply dict_get_In in G; exact (dict_fun d k j i D G K)|].
        apply dict_get_None in G. exfalso. apply G. change k with (fst (k, i)). now apply in_map. }
      assert (HK : hash_newv d (ETok k) = Ok (Some [EIdx i])) by (cbn [hash_newv]; now rewrite GK).
      exists (k :: ks). split; [cbn [map]; now rewrite HK|]. intros x [<-|Hx]; [now rewrite HK|now apply F]. }
    destruct G as (f & ks & -> & F). exists (SLst (map ETok ks)).
    assert (MM : maps E (Token2IndexwithHash d) any_labels (SLst (map ETok ks)) (SLst (map f (map ETok ks))) keep keep).
    { apply (null_maps E _ (hash_newv d)); auto. intros x Hx. exists true. split; [now apply F|discriminate]. }
    now apply maps_turns in MM.
Qed.

(** ** Pipes *)

(** What each operator of a pipe gives has the form of its outputs. *)
Lemma pipe_forms E p x y als coll i o form : transform_sequence E p x = Ok (y, als, coll) ->
  nth_error (map o_op (steps p)) i = Some o -> results E o form -> exists v, nth_error coll (S i) = Some v /\ form v.
Proof.
  intros T N R. unfold transform_sequence in T. apply run_stepwise in T. destruct T as (_ & HC & _ & _ & H).
  rewrite nth_error_map in N. destruct (nth_error (steps p) i) as [ob|] eqn:Q; [|discriminate]. injection N as <-.
  destruct (H i ob Q) as (u & v & a & C1 & C2 & A & X). exists v. split; [exact C2|]. apply R. now exists u, a.
Qed.

Lemma pipe_last E p ops o form x y als coll : results E o form -> map o_op (steps p) = ops ++ [o] ->
  transform_sequence E p x = Ok (y, als, coll) -> form y.
Proof.
  intros R Q T. assert (N : nth_error (map o_op (steps p)) (length ops) = Some o) by (rewrite Q, nth_error_app2, Nat.sub_diag by lia; reflexivity).
  destruct (pipe_forms E p x y als coll _ o form T N R) as (v & C & F).
  unfold transform_sequence in T. apply run_stepwise in T. destruct T as (_ & HC & _ & HY & _).
  assert (L : length (steps p) = S (length ops)) by (rewrite <- (map_length o_op), Q, app_length; cbn; lia). rewrite L in HY. congruence.
Qed.
