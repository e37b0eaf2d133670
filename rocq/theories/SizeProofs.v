(** Proofs about the sizes of results (C91). *)

From Coq Require Import String.
From Verif Require Import Py PyFacts Edit Labels Regex Trie Murmur Ops SpecEdit SpecLabels SpecSeg SpecRuns
  SpecWords SpecScan SpecOps SpecHash SegProofs RunsProofs WordProofs TrieProofs OpProofs StrOpProofs PatternProofs
  ScanProofs ListOpProofs TokProofs HashProofs AlignProofs OpLaws EditProofs EditApiProofs ClosureProofs Json Elements Pipe SpecPipe PipeProofs
  ObjProofs PipeAlign SpecAccept AcceptProofs AcceptPipe SpecSize.
From Coq Require Import List Lia.
Local Open Scope Z_scope.

Lemma elem_size_pos x : 1 <= elem_size x.
Proof. destruct x; cbn; lia. Qed.
Lemma total_app a b : total (a ++ b) = total a + total b.
Proof. induction a as [|x a IH]; [reflexivity|]. cbn [app total]. lia. Qed.
Lemma total_length l : Z.of_nat (length l) <= total l.
Proof. induction l as [|x l IH]; [reflexivity|]. cbn [total length]. pose proof (elem_size_pos x). lia. Qed.
Lemma size_length x : Z.of_nat (pseq_length x) <= size x.
Proof. destruct x; [reflexivity|apply total_length]. Qed.
Lemma size_pos x : 0 <= size x.
Proof. pose proof (size_length x). lia. Qed.
Lemma total_repeat x n : total (repeat x n) = Z.of_nat n * elem_size x.
Proof. induction n as [|n IH]; [reflexivity|]. cbn [repeat total]. lia. Qed.
Lemma total_firstn n l : total (firstn n l) <= total l.
Proof.
  revert n. induction l as [|x l IH]; intros [|n]; cbn [firstn total]; try lia.
  - pose proof (size_pos (SLst l)). cbn [size] in *. pose proof (elem_size_pos x). lia.
  - specialize (IH n). lia.
Qed.

Lemma growth_pos o : 1 <= growth o.
Proof. destruct o; cbn [growth]; try lia. apply elem_size_pos. Qed.
Lemma extra_pos o : 0 <= extra o.
Proof.
  destruct o; cbn [extra]; try lia.
  - pose proof (elem_size_pos pad_token). nia.
  - pose proof (elem_size_pos start_token). pose proof (elem_size_pos end_token). lia.
  - pose proof (elem_size_pos (ETok end_token)). lia.
Qed.

(** ** Texts *)

Lemma news_size k (sg : list (seg Z)) : 1 <= k ->
  (forall o v, In (o, Some v) sg -> Z.of_nat (length v) <= k * Z.of_nat (length o)) ->
  Z.of_nat (length (news sg)) <= k * Z.of_nat (length (olds sg)).
Proof.
  intros K. induction sg as [|[o n] sg IH]; intros H; [cbn; lia|]. rewrite olds_cons, news_cons, !app_length.
  assert (IH' := IH ltac:(intros a b HI; apply H; now right)). unfold old_of, new_of. cbn [fst snd]. destruct n as [v|].
  - assert (Q := H o v (or_introl eq_refl)). lia.
  - nia.
Qed.

Lemma maps_result E o ok x y F G y' a : maps E o ok x y F G -> transform_op E o x = Ok (y', a) -> y' = y.
Proof. intros (b & H & _) T. rewrite T in H. now injection H. Qed.

Lemma rewrites_size E o s sg h k0 y a k : 1 <= k -> rewrites E o s sg h k0 -> transform_op E o (SStr s) = Ok (y, a) ->
  (forall o v, In (o, Some v) sg -> Z.of_nat (length v) <= k * Z.of_nat (length o)) ->
  size y <= k * size (SStr s).
Proof.
  intros K (<- & M) T H. apply (maps_result _ _ _ _ _ _ _ _ _ M) in T. subst y. cbn [size]. now apply news_size.
Qed.

Lemma runs_size (sg : list (seg Z)) p choose s o v : In (o, Some v) (seg_runs p choose s) -> choose o = Some v /\ o <> [].
Proof.
  intros HI. split; [now apply (seg_runs_In p choose s)|]. exact (seg_runs_nonempty p choose s o v HI).
Qed.

Lemma decimal_length d r : is_decimal d r = true -> (3 <= length r)%nat.
Proof.
  unfold is_decimal. intros H. apply existsb_exists in H. destruct H as (k & HK & H). apply in_seq in HK.
  pose proof (skipn_length k r) as L. destruct (skipn k r) as [|x [|y rest]]; try discriminate. cbn [length] in L.
  apply andb_prop in H. destruct H as (_ & H). apply Nat.ltb_lt in H. lia.
Qed.

Lemma one_or_more (o : str) : o <> [] -> 1 <= Z.of_nat (length o).
Proof. destruct o; [congruence|cbn; lia]. Qed.

Lemma kept_tokens_size (ps : list (str * bool)) : Forall (fun p => fst p <> []) ps ->
  total (map ETok (tokens_of ps)) <= Z.of_nat (length (text_of ps)).
Proof.
  unfold tokens_of, text_of. induction 1 as [|[w b] ps N _ IH]; [reflexivity|]. cbn [map concat filter fst snd]. rewrite app_length.
  cbn [fst] in N. apply one_or_more in N. destruct b; cbn [map total fst elem_size]; lia.
Qed.
Lemma tokenizes_size E o s ps y a : tokenizes E o s ps -> Forall (fun p => fst p <> []) ps ->
  transform_op E o (SStr s) = Ok (y, a) -> size y <= size (SStr s).
Proof.
  intros (<- & b & H & _) N T. rewrite T in H. injection H as -> _. cbn [size]. now apply kept_tokens_size.
Qed.
Lemma cut_nonempty k s ps : cut k s ps -> Forall (fun p => fst p <> []) (kept ps).
Proof.
  intros (_ & F & _). unfold kept. apply Forall_map. eapply Forall_impl; [|exact F]. intros [w x] (N & _). exact N.
Qed.

Lemma replaced_size find b s p sg : in_bounds find -> (p <= length s)%nat -> replaced find (fun _ => b) s p sg ->
  Z.of_nat (length (news sg)) <= (1 + Z.of_nat (length b)) * (Z.of_nat (length s) - Z.of_nat p).
Proof.
  intros HB HP H. induction H as [p HE|p i e sg HL HF H IH].
  - unfold news. cbn [map concat new_of snd fst]. rewrite app_nil_r, skipn_length. nia.
  - destruct (HB s p i e ltac:(lia) HF) as (B1 & B2 & B3). specialize (IH B3).
    pose proof (replaced_advances find _ HB s p i e sg HL HF H) as A. unfold news in *. cbn [map concat new_of snd fst]. rewrite !app_length.
    rewrite firstn_length, skipn_length. nia.
Qed.

(** ** Lists *)

Lemma elem_group_result E newv l g : ord_ok (ord_e E) -> elem_group E newv l = Ok g ->
  (forall x, In x l -> exists v, newv x = Ok v) /\
  apply l g = flat_map (fun x => match newv x with Ok (Some v) => v | _ => [x] end) l.
Proof.
  intros HO H. assert (HI : forall x, In x l -> exists v, newv x = Ok v).
  { unfold elem_group in H. destruct (elem_edits newv 0 l []) as [g'|] eqn:EG; [|discriminate]. eapply elem_edits_inv; eauto. }
  split; [exact HI|]. set (v := fun x => match newv x with Ok w => w | Err _ => None end).
  assert (Q : elem_group E newv l = Ok (grp 0 (map (char_seg v) l))).
  { apply elem_group_ok; [exact HO|]. intros x HX. destruct (HI x HX) as (w & E1). unfold v. now rewrite E1. }
  rewrite Q in H. injection H as <-. pose proof (apply_grp (map (char_seg v) l)) as AG. rewrite char_segs_olds in AG. rewrite AG.
  rewrite char_segs_news, !flat_map_concat_map. f_equal. apply map_ext_in. intros x HX. destruct (HI x HX) as (w & E1).
  unfold v. rewrite E1. destruct w; reflexivity.
Qed.

Lemma elements_size E o newv l y a k : ord_ok (ord_e E) -> 1 <= k -> input_type o = TList ->
  (transform_lst E o l = lst_result_null l (elem_group E newv l) \/
   exists f b, transform_lst E o l = lst_result l (elem_group E newv l) f b) ->
  (forall x v, newv x = Ok (Some v) -> total v <= k * elem_size x) ->
  transform_op E o (SLst l) = Ok (y, a) -> size y <= k * size (SLst l).
Proof.
  intros HO K TY HT HV H. assert (Q : exists g, elem_group E newv l = Ok g /\ y = SLst (apply l g)).
  { unfold transform_op in H. rewrite TY in H. cbn [type_of seqtype_eqb guard bind] in H.
    destruct (elem_group E newv l) as [g|].
    - exists g. split; [reflexivity|].
      destruct HT as [HT|(f & b & HT)]; rewrite HT in H; unfold lst_result_null, lst_result in H; cbn [bind fst type_of] in H;
        destruct (guard _ _); try discriminate; cbn [bind] in H; now injection H.
    - destruct HT as [HT|(f & b & HT)]; rewrite HT in H; discriminate. }
  destruct Q as (g & G & ->). destruct (elem_group_result E newv l g HO G) as (HI & ->). cbn [size]. clear -HI HV K.
  induction l as [|x l IH]; [cbn; lia|]. cbn [flat_map total]. rewrite total_app.
  assert (IH' := IH ltac:(intros z HZ; apply HI; now right)). destruct (HI x (or_introl eq_refl)) as (v & E1). rewrite E1.
  pose proof (elem_size_pos x). destruct v as [v|].
  - assert (Q := HV x v E1). lia.
  - cbn [total]. nia.
Qed.

Lemma splits_size vocab first t ps : splits vocab first t ps -> total (map ETok ps) <= 3 * Z.of_nat (length t).
Proof.
  induction 1 as [first|first w rest ps N HI HM H IH]; [cbn; lia|]. cbn [map total elem_size]. rewrite app_length.
  apply one_or_more in N. assert (Q : Z.of_nat (length (marked first w)) <= Z.of_nat (length w) + 2).
  { unfold marked. destruct first; [lia|]. rewrite app_length. cbn. lia. }
  lia.
Qed.

Lemma subwords_size v u m x w : subwords_newv v u m x = Ok (Some w) -> total w <= Z.max 3 (elem_size u) * elem_size x.
Proof.
  destruct x as [t|i]; [|discriminate]. unfold subwords_newv. destruct (span_subwords_spec v u m t) as (out & -> & S). cbn [bind].
  destruct (eqb out [ETok t]); [discriminate|]. intros [= <-]. pose proof (elem_size_pos u) as U. pose proof (elem_size_pos (ETok t)) as T.
  destruct S as [(_ & ps & S & ->)|(_ & ->)].
  - apply splits_size in S. cbn [elem_size] in *. nia.
  - cbn [total]. nia.
Qed.

(** ** All operators *)

Theorem operator_size E o x y a : python E -> built E o -> transform_op E o x = Ok (y, a) ->
  size y <= growth o * size x + extra o.
Proof.
  intros (OC & OE & HS) HB HT. pose proof (transform_type _ _ _ _ HT) as TY.
  destruct HB as [o HI|p b find HC HB|ws sh o HM|ws sh o HM|tok|m tok|s e|t o HM|v u m|d u o HM|d o HM].
  - assert (HSS : exists s, x = SStr s).
    { destruct x as [s|l]; [eauto|]. exfalso. cbn [type_of] in TY.
      repeat (destruct HI as [<-|HI]; [discriminate TY|]). destruct HI. }
    destruct HSS as (s & ->).
    assert (INT : forall tok n, Z.of_nat (length (txt tok)) = n -> forall o v, In (o, Some v) (int_like E (txt tok) s) -> Z.of_nat (length v) <= n * Z.of_nat (length o)).
    { intros tok n <- o0 v HV. apply (runs_size []) in HV. destruct HV as (HV & N). destruct (forallb _ o0); [|discriminate]. injection HV as <-.
      apply one_or_more in N. nia. }
    assert (FLT : forall tok, Z.of_nat (length (txt tok)) <= 9 -> forall o v, In (o, Some v) (float_like E (txt tok) s) -> Z.of_nat (length v) <= 3 * Z.of_nat (length o)).
    { intros tok HL o0 v HV. apply (runs_size []) in HV. destruct HV as (HV & N). destruct (is_decimal _ o0) eqn:D; [|discriminate]. injection HV as <-.
      apply decimal_length in D. lia. }
    assert (SPC : forall cls o v, In (o, Some v) (spaced cls s) -> Z.of_nat (length v) <= 3 * Z.of_nat (length o)).
    { intros cls o0 v HV. apply in_map_iff in HV. destruct HV as (c & Q & _). injection Q as <- Q. destruct (cls c); [|discriminate]. injection Q as <-.
      cbn. lia. }
    repeat (destruct HI as [<-|HI]; [cbn [growth extra]; rewrite Z.add_0_r|]); [..|destruct HI].
    + rewrite (maps_result _ _ _ _ _ _ _ _ _ (lowercase_maps E s OC) HT). cbn [size]. rewrite map_length. lia.
    + apply (rewrites_size E _ s _ _ _ y a 1 ltac:(lia) (merge_rewrites E s OC) HT). intros o0 v HV.
      apply (runs_size []) in HV. destruct HV as (Q & N). injection Q as <-. apply one_or_more in N. change (Z.of_nat (length blank)) with 1. lia.
    + rewrite (maps_result _ _ _ _ _ _ _ _ _ (strip_maps E s OC) HT). cbn [size].
      destruct (strip_split (is_space E) s) as (w1 & w2 & ES & _). apply (f_equal (@length Z)) in ES. rewrite !app_length in ES. lia.
    + exact (rewrites_size E _ s _ _ _ y a 5 ltac:(lia) (int_rewrites E s OC) HT (INT "_int_"%string 5 eq_refl)).
    + exact (rewrites_size E _ s _ _ _ y a 7 ltac:(lia) (int_space_rewrites E s OC) HT (INT " _int_ "%string 7 eq_refl)).
    + exact (rewrites_size E _ s _ _ _ y a 3 ltac:(lia) (float_rewrites E s OC) HT (FLT "_float_"%string ltac:(cbn; lia))).
    + exact (rewrites_size E _ s _ _ _ y a 3 ltac:(lia) (float_space_rewrites E s OC) HT (FLT " _float_ "%string ltac:(cbn; lia))).
    + exact (rewrites_size E _ s _ _ _ y a 7 ltac:(lia) (num_space_rewrites E s OC) HT (INT " _num_ "%string 7 eq_refl)).
    + destruct (stop_rewrites E s OC) as (ps & HM & HW). apply (rewrites_size E _ s _ _ _ y a 1 ltac:(lia) HW HT). intros o0 v HV.
      apply in_map_iff in HV. destruct HV as (q & Q & HV). pose proof (munched_nonempty _ _ _ _ HM) as F. rewrite Forall_forall in F.
      specialize (F q HV). injection Q as <- Q. destruct (snd q); [|discriminate]. injection Q as <-. apply one_or_more in F. change (Z.of_nat (length blank)) with 1. lia.
    + exact (rewrites_size E _ s _ _ _ y a 3 ltac:(lia) (cjk_rewrites E s OC) HT (SPC _)).
    + exact (rewrites_size E _ s _ _ _ y a 3 ltac:(lia) (punct_rewrites E s OC) HT (SPC _)).
    + rewrite (maps_result _ _ _ _ _ _ _ _ _ (endpoint_maps E s OC) HT). cbn [size]. rewrite map_length. lia.
    + destruct (accent_maps E s OC) as (H1 & H2). destruct (Nat.eq_dec (length (stripped E s)) (length s)) as [Q|Q].
      * rewrite (maps_result _ _ _ _ _ _ _ _ _ (H1 Q) HT). cbn [size]. lia.
      * rewrite (H2 Q) in HT. discriminate.
    + rewrite Z.mul_1_l. apply (tokenizes_size E _ s _ y a (char_tokenizes E s OC)); [|exact HT]. apply Forall_map. apply Forall_forall. discriminate.
    + rewrite Z.mul_1_l. apply (tokenizes_size E _ s _ y a (ws_tokenizes E s _ OC (cut_by_cut _ s))); [|exact HT]. eapply cut_nonempty, cut_by_cut.
    + rewrite Z.mul_1_l. apply (tokenizes_size E _ s _ y a (eng_tokenizes E s _ OC HS (cut_by_cut _ s))); [|exact HT]. eapply cut_nonempty, cut_by_cut.
    + rewrite Z.mul_1_l. apply (tokenizes_size E _ s _ y a (zh_tokenizes E s _ OC HS (cut_by_cut _ s))); [|exact HT]. eapply cut_nonempty, cut_by_cut.
  - destruct x as [s|l]; [|discriminate]. cbn [growth extra]. rewrite Z.add_0_r.
    unfold transform_op in HT. cbn [type_of input_type seqtype_eqb guard bind transform_str] in HT. rewrite HC in HT. unfold str_result in HT.
    destruct (replaced_or_stuck find (fun _ => b) HB s 0 ltac:(lia)) as [(sg & HR)|ST].
    + rewrite (scan_group_replaced E find _ s sg OC HB HR) in HT. cbn [bind fst type_of output_type seqtype_eqb guard] in HT. injection HT as <- _.
      assert (Q : olds sg = s) by exact (replaced_ge find _ HB s 0 sg ltac:(lia) HR). rewrite <- Q at 1. rewrite apply_grp. cbn [size].
      pose proof (replaced_size find b s 0 sg HB ltac:(lia) HR). lia.
    + unfold scan_group in HT. rewrite (scan_stuck find _ HB s 0 ltac:(lia) ST) in HT. discriminate.
  - unfold make_wordn in HM. pose proof (make_trie_spec ws) as MT.
    destruct ws as [[|w ws]|]; [rewrite MT in HM; discriminate| |rewrite MT in HM; discriminate].
    destruct MT as [(_ & t & ET & HH)|(_ & ET)]; rewrite ET in HM; [|discriminate].
    injection HM as <-. destruct x as [s|l]; [|discriminate]. cbn [growth extra]. rewrite Z.add_0_r.
    destruct (wordn_rewrites E t (w :: ws) sh s OC HH) as (ps & HP & HW). apply (rewrites_size E _ s _ _ _ y a 3 ltac:(lia) HW HT).
    intros o0 v HV. destruct (word_spaced_In _ _ _ HV) as (-> & b & HI). pose proof (munched_nonempty _ _ _ _ HP) as F. rewrite Forall_forall in F.
    specialize (F _ HI). cbn [fst] in F. apply one_or_more in F. rewrite !app_length. change (length blank) with 1%nat. lia.
  - destruct (made_custom ws sh o HM) as (ws' & t & -> & ->). destruct x as [s|l]; [|discriminate]. cbn [growth extra]. rewrite Z.add_0_r, Z.mul_1_l.
    destruct (munched_exists sh ws' s) as (ps & HP).
    apply (tokenizes_size E _ s _ y a (custom_tokenizes E ws' sh _ s ps OC HM HP)); [|exact HT].
    unfold all_kept. rewrite map_map. apply Forall_map. exact (munched_nonempty _ _ _ _ HP).
  - destruct x as [s|l]; [discriminate|]. cbn [growth extra]. rewrite Z.add_0_r.
    apply (elements_size E (PureNum2Token tok) (purenum_newv E tok) l y a); auto; [apply elem_size_pos|]. intros [t|i] v; [|discriminate]. rewrite purenum_newv_ok.
    destruct (pure_number E t); [|discriminate]. intros [= <-]. cbn [total]. pose proof (elem_size_pos tok). pose proof (elem_size_pos (ETok t)). nia.
  - destruct x as [s|l]; [discriminate|]. cbn [growth extra].
    destruct (Z.ltb_spec m 0) as [L|L]; [rewrite pad_negative in HT by exact L; discriminate|].
    assert (HL : Z.of_nat (length l) < 2 ^ 32 \/ Z.of_nat (length l) = m).
    { destruct (Z.ltb_spec (Z.of_nat (length l)) (2 ^ 32)) as [Q|Q]; [now left|].
      destruct (Z.eq_dec (Z.of_nat (length l)) m) as [R|R]; [now right|].
      rewrite pad_too_long in HT by assumption. discriminate. }
    rewrite (maps_result _ _ _ _ _ _ _ _ _ (pad_maps E m tok l OE L HL) HT). cbn [size]. rewrite total_app, total_repeat.
    pose proof (total_firstn (Z.to_nat m) l). pose proof (elem_size_pos tok). nia.
  - destruct x as [s'|l]; [discriminate|]. cbn [growth extra]. destruct l as [|x0 l].
    + destruct (soseos_empty E s e y a OE HT) as (Q & _). pose proof (elem_size_pos s). pose proof (elem_size_pos e).
      destruct Q as [(_ & [->| ->])|(_ & ->)]; cbn [size total]; lia.
    + destruct (Z.ltb_spec (Z.of_nat (length (x0 :: l))) (2 ^ 32)) as [Q|Q].
      * rewrite (maps_result _ _ _ _ _ _ _ _ _ (soseos_maps E s e (x0 :: l) OE ltac:(discriminate) Q) HT). cbn [size app total]. rewrite total_app. cbn [total]. lia.
      * rewrite soseos_too_long in HT by exact Q. discriminate.
  - assert (o = AddEndToken t) as -> by (destruct t; inversion HM; reflexivity).
    destruct x as [s|l]; [discriminate|]. cbn [growth extra].
    destruct (Z.ltb_spec (Z.of_nat (length l)) (2 ^ 32)) as [Q|Q].
    + rewrite (maps_result _ _ _ _ _ _ _ _ _ (end_maps E t l OE Q) HT). cbn [size]. rewrite total_app. cbn [total]. lia.
    + rewrite end_too_long in HT by exact Q. discriminate.
  - destruct x as [s|l]; [discriminate|]. cbn [growth extra]. rewrite Z.add_0_r.
    apply (elements_size E (SpanSubwords v u m) (subwords_newv v u m) l y a); auto; [lia|right; do 2 eexists; reflexivity|]. intros x w. apply subwords_size.
  - destruct (made_index d u o HM) as (-> & _). destruct x as [s|l]; [discriminate|]. cbn [growth extra]. rewrite Z.add_0_r.
    apply (elements_size E (Token2Index d u) (index_newv d u) l y a); auto; [lia|]. intros x v. unfold index_newv.
    pose proof (elem_size_pos x). destruct (match x with ETok t => dict_get d t | EIdx _ => None end); [intros [= <-]; cbn [total elem_size]; lia|].
    destruct (dict_get d u); [intros [= <-]; cbn [total elem_size]; lia|discriminate].
  - destruct (made_hash d o HM) as (-> & _). destruct x as [s|l]; [discriminate|]. cbn [growth extra]. rewrite Z.add_0_r.
    apply (elements_size E (Token2IndexwithHash d) (hash_newv d) l y a); auto; [lia|]. intros [t|i] v; [|discriminate]. cbn [hash_newv].
    pose proof (elem_size_pos (ETok t)). destruct (dict_get d t); [intros [= <-]; cbn [total]; change (elem_size (EIdx _)) with 1; lia|].
    destruct (consistent_hash t _); cbn [bind]; [intros [= <-]; cbn [total]; change (elem_size (EIdx _)) with 1; lia|discriminate].
Qed.
