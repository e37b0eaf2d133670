(** Proofs about the sequences that operators accept (C89). *)

From Verif Require Import Py PyFacts Edit Labels Regex Trie Murmur Ops SpecEdit SpecLabels SpecSeg SpecRuns
  SpecWords SpecScan SpecOps SpecHash SegProofs RunsProofs WordProofs TrieProofs OpProofs StrOpProofs
  ScanProofs ListOpProofs TokProofs HashProofs AlignProofs OpLaws EditProofs EditApiProofs ClosureProofs Json Elements Pipe SpecPipe PipeProofs
  ObjProofs PipeAlign SpecAccept.
From Coq Require Import List.
Local Open Scope nat_scope.

Lemma maps_runs E o ok x y F G : maps E o ok x y F G -> exists y a, transform_op E o x = Ok (y, a).
Proof. intros (a & H & _). eauto. Qed.
Lemma tokenizes_runs E o s ps : tokenizes E o s ps -> exists y a, transform_op E o (SStr s) = Ok (y, a).
Proof. intros (_ & a & H & _). eauto. Qed.

(** ** The first element that is refused *)

Lemma first_refused o newv l :
  (forall x, (exists e, newv x = Err e /\ refuses o x e) \/
             (exists v : option (list elem), newv x = Ok v) /\ (forall e, ~ refuses o x e)) ->
  (exists l1 x l2 e, l = l1 ++ x :: l2 /\ (forall z e', In z l1 -> ~ refuses o z e') /\ refuses o x e /\
     newv x = Err e /\ forall z, In z l1 -> exists v, newv z = Ok v) \/
  (forall x, In x l -> exists v, newv x = Ok v).
Proof.
  intros H. induction l as [|x l IH]; [right; intros x []|].
  destruct (H x) as [(e & N & R)|((v & N) & R)].
  - left. exists [], x, l, e. split; [reflexivity|]. split; [intros z e' []|]. split; [exact R|]. split; [exact N|intros z []].
  - destruct IH as [(l1 & y & l2 & e & -> & A & B & C & D)|IH].
    + left. exists (x :: l1), y, l2, e. split; [reflexivity|].
      split; [intros z e' [<-|HI]; auto|]. split; [exact B|]. split; [exact C|].
      intros z [<-|HI]; eauto.
    + right. intros z [<-|HI]; eauto.
Qed.

Lemma elem_group_runs E newv l : ord_ok (ord_e E) -> (forall x, In x l -> exists v, newv x = Ok v) ->
  exists g, elem_group E newv l = Ok g.
Proof.
  intros HO H. exists (grp 0 (map (char_seg (fun x => match newv x with Ok w => w | Err _ => None end)) l)).
  apply elem_group_ok; [exact HO|]. intros x HI. destruct (H x HI) as (v & ->). reflexivity.
Qed.

Section elements.
  Context (E : env) (HO : ord_ok (ord_e E)) (o : op) (newv : elem -> res (option (list elem))).
  Context (HL : input_type o = TList) (HQ : output_type o = TList).
  Context (HT : forall l, (transform_lst E o l = lst_result_null l (elem_group E newv l)) \/
                          exists f b, transform_lst E o l = lst_result l (elem_group E newv l) f b).
  Context (HN : forall x, (exists e, newv x = Err e /\ refuses o x e) \/
             (exists v, newv x = Ok v) /\ (forall e, ~ refuses o x e)).

  Lemma elements_accept l : (exists e, raises E o (SLst l) e) \/ exists y a, transform_op E o (SLst l) = Ok (y, a).
  Proof.
    destruct (first_refused o newv l HN) as [(l1 & x & l2 & e & -> & A & B & C & D)|H].
    - left. exists e. now apply f_element.
    - right. destruct (elem_group_runs E newv l HO H) as (g & G).
      unfold transform_op. cbn [type_of]. rewrite HL. cbn [seqtype_eqb guard bind].
      destruct (HT l) as [->|(f & b & ->)]; unfold lst_result_null, lst_result; rewrite G; cbn [bind fst type_of];
        rewrite HQ; cbn [seqtype_eqb guard bind]; eauto.
  Qed.

  Lemma elements_refuse l1 x l2 e : (forall z e', In z l1 -> ~ refuses o z e') -> refuses o x e ->
    transform_op E o (SLst (l1 ++ x :: l2)) = Err e.
  Proof.
    intros A R. unfold transform_op. cbn [type_of]. rewrite HL. cbn [seqtype_eqb guard bind].
    assert (G : elem_group E newv (l1 ++ x :: l2) = Err e).
    { unfold elem_group. rewrite (elem_edits_err newv e); [reflexivity| |].
      - intros y HI. destruct (HN y) as [(e' & _ & Q)|(V & _)]; [now apply A in Q|exact V].
      - destruct (HN x) as [(e' & Q & Q')|(_ & N)]; [|now apply N in R].
        rewrite Q. f_equal. clear -R Q'. destruct R; inversion Q'; reflexivity. }
    destruct (HT (l1 ++ x :: l2)) as [->|(f & b & ->)]; unfold lst_result_null, lst_result; now rewrite G.
  Qed.
End elements.

Lemma purenum_one_of E tok x :
  (exists e, purenum_newv E tok x = Err e /\ refuses (PureNum2Token tok) x e) \/
  (exists v, purenum_newv E tok x = Ok v) /\ (forall e, ~ refuses (PureNum2Token tok) x e).
Proof.
  destruct x as [t|i]; [right|left; eexists; split; [reflexivity|constructor]].
  split; [rewrite purenum_newv_ok; eauto|intros e H; inversion H].
Qed.

Lemma subwords_one_of E v u m x : ord_ok (ord_e E) ->
  (exists e, subwords_newv v u m x = Err e /\ refuses (SpanSubwords v u m) x e) \/
  (exists w, subwords_newv v u m x = Ok w) /\ (forall e, ~ refuses (SpanSubwords v u m) x e).
Proof.
  intros HO. destruct x as [t|i]; [right|left; eexists; split; [reflexivity|constructor]].
  split; [|intros e H; inversion H].
  destruct (subwords_total E v u m [t] HO) as (y & a & H). cbn [map] in H.
  unfold transform_op in H. cbn [type_of input_type seqtype_eqb guard bind transform_lst] in H.
  unfold lst_result, elem_group in H. cbn [elem_edits] in H.
  destruct (subwords_newv v u m (ETok t)) as [w|]; [eauto|discriminate].
Qed.

Lemma hash_one_of d x : d <> [] ->
  (exists e, hash_newv d x = Err e /\ refuses (Token2IndexwithHash d) x e) \/
  (exists v, hash_newv d x = Ok v) /\ (forall e, ~ refuses (Token2IndexwithHash d) x e).
Proof.
  intros HD. destruct x as [t|i]; [|left; eexists; split; [reflexivity|constructor]].
  cbn [hash_newv]. destruct (dict_get d t) as [i|] eqn:G.
  - right. split; [eauto|]. intros e H. inversion H; subst. apply dict_get_In in G.
    match goal with N : ~ In _ _ |- _ => apply N end. change t with (fst (t, i)). now apply in_map.
  - apply dict_get_None in G. unfold consistent_hash.
    destruct (Z.ltb_spec (Z.of_nat (length d)) (2 ^ 32)) as [L|L].
    + right. split.
      * rewrite to_u32_ok by lia. cbn [bind]. destruct (utf8 t); [destruct (_ =? 0)%Z|]; cbn [bind]; eauto.
      * intros e H. inversion H; subst. lia.
    + left. exists OverflowErr. split; [|now constructor].
      rewrite to_u32_err by lia. reflexivity.
Qed.

(** ** All operators *)

Lemma soseos_empty_runs E sos eos : ord_ok (ord_e E) ->
  exists y a, transform_op E (AddSosEos sos eos) (SLst []) = Ok (y, a).
Proof.
  intros HO. unfold transform_op. cbn [type_of input_type seqtype_eqb guard bind transform_lst].
  unfold lst_result, soseos_group, radd_all. cbn [length].
  change (radd_each [] [(0%Z, 0%Z, [sos]); (Z.of_nat 0, Z.of_nat 0, [eos])])
    with (Ok [mkR 0 0 [sos]; mkR 0 0 [eos]]). cbn [bind].
  assert (HW : Forall well_formed [mkR 0 0 [sos]; mkR 0 0 [eos]]) by (repeat constructor).
  destruct (rdone_cases (ord_e E) _ HO HW) as [(EQ & _)|(_ & EQ)].
  - rewrite EQ. cbn [bind fst type_of output_type seqtype_eqb guard]. eauto.
  - exfalso. apply EQ. intros a b HA HB _.
    assert (H : forall r : repl elem, In r [mkR 0 0 [sos]; mkR 0 0 [eos]] -> r_start r = 0 /\ r_end r = 0).
    { intros r [<-|[<-|[]]]; now split. }
    destruct (H a HA), (H b HB). left. lia.
Qed.

Lemma made_wordn ws sh o : make_wordn ws sh = Ok o -> exists ws' t, ws = Some ws' /\ o = AddWhitespaceAroundWordnZhChar t sh.
Proof.
  unfold make_wordn. destruct ws as [ws|]; [|discriminate]. destruct (make_trie (Some ws)) as [t|]; [|discriminate].
  intros [= <-]. eauto.
Qed.
Lemma made_custom ws sh o : make_custom ws sh = Ok o -> exists ws' t, ws = Some ws' /\ o = CustomWordTokenizer t sh.
Proof.
  unfold make_custom. destruct ws as [ws|]; [|discriminate]. destruct (make_trie (Some ws)) as [t|]; [|discriminate].
  intros [= <-]. eauto.
Qed.
Lemma made_index d u o : make_token2index d u = Ok o -> o = Token2Index d u /\ In u (map fst d).
Proof.
  intros H. destruct (make_token2index_spec d u) as (_ & _ & H3).
  unfold make_token2index in H. destruct (validate_continuity d); [|discriminate]. cbn [bind] in H.
  unfold guard in H. destruct (dict_mem d u) eqn:M; [|discriminate]. injection H as <-.
  split; [reflexivity|]. now apply dict_mem_In.
Qed.
Lemma made_hash d o : make_hash d = Ok o -> o = Token2IndexwithHash d /\ d <> [].
Proof.
  unfold make_hash. destruct d; [discriminate|]. destruct (validate_continuity _); [|discriminate].
  intros [= <-]. split; [reflexivity|discriminate].
Qed.
Lemma made_end t o : make_end t = Ok o -> o = AddEndToken t.
Proof. unfold make_end. destruct t; [discriminate|]. now intros [= <-]. Qed.

Lemma built_hash_full E d : built E (Token2IndexwithHash d) -> d <> [].
Proof.
  intros H. inversion H; subst.
  - cbn [In] in *. intuition discriminate.
  - match goal with M : make_wordn _ _ = _ |- _ => apply made_wordn in M; destruct M as (? & ? & _ & M); discriminate M end.
  - match goal with M : make_custom _ _ = _ |- _ => apply made_custom in M; destruct M as (? & ? & _ & M); discriminate M end.
  - match goal with M : make_end _ = _ |- _ => apply made_end in M; discriminate M end.
  - match goal with M : make_token2index _ _ = _ |- _ => apply made_index in M; destruct M as (M & _); discriminate M end.
  - match goal with M : make_hash _ = _ |- _ => apply made_hash in M; destruct M as (M & N); injection M as <- end. exact N.
Qed.

Theorem accepted E o x : python E -> built E o ->
  (exists e, raises E o x e) \/ exists y a, transform_op E o x = Ok (y, a).
Proof.
  intros (OC & OE & HS) HB.
  destruct (match type_of x, input_type o with TStr, TStr | TList, TList => true | _, _ => false end) eqn:TY.
  2:{ left. exists TypeErr. apply f_type. intros Q. rewrite Q in TY. destruct (input_type o); discriminate. }
  destruct HB as [o HI|p b find HC HB|ws sh o HM|ws sh o HM|tok|m tok|s e|t o HM|v u m|d u o HM|d o HM].
  - assert (HSS : exists s, x = SStr s).
    { destruct x as [s|l]; [eauto|]. exfalso. cbn [type_of] in TY.
      repeat (destruct HI as [<-|HI]; [discriminate TY|]). destruct HI. }
    destruct HSS as (s & ->).
    repeat (destruct HI as [<-|HI]; [first
      [ right; first
        [ exact (maps_runs _ _ _ _ _ _ _ (lowercase_maps E s OC))
        | exact (maps_runs _ _ _ _ _ _ _ (proj2 (merge_rewrites E s OC)))
        | exact (maps_runs _ _ _ _ _ _ _ (strip_maps E s OC))
        | exact (maps_runs _ _ _ _ _ _ _ (proj2 (int_rewrites E s OC)))
        | exact (maps_runs _ _ _ _ _ _ _ (proj2 (int_space_rewrites E s OC)))
        | exact (maps_runs _ _ _ _ _ _ _ (proj2 (float_rewrites E s OC)))
        | exact (maps_runs _ _ _ _ _ _ _ (proj2 (float_space_rewrites E s OC)))
        | exact (maps_runs _ _ _ _ _ _ _ (proj2 (num_space_rewrites E s OC)))
        | exact (maps_runs _ _ _ _ _ _ _ (proj2 (cjk_rewrites E s OC)))
        | exact (maps_runs _ _ _ _ _ _ _ (proj2 (punct_rewrites E s OC)))
        | exact (maps_runs _ _ _ _ _ _ _ (endpoint_maps E s OC))
        | destruct (stop_rewrites E s OC) as (ps & _ & _ & HM); exact (maps_runs _ _ _ _ _ _ _ HM)
        | exact (tokenizes_runs _ _ _ _ (char_tokenizes E s OC))
        | exact (tokenizes_runs _ _ _ _ (ws_tokenizes E s _ OC (cut_by_cut _ s)))
        | exact (tokenizes_runs _ _ _ _ (eng_tokenizes E s _ OC HS (cut_by_cut _ s)))
        | exact (tokenizes_runs _ _ _ _ (zh_tokenizes E s _ OC HS (cut_by_cut _ s))) ]
      | destruct (accent_maps E s OC) as (H1 & _);
        destruct (Nat.eq_dec (length (stripped E s)) (length s)) as [Q|Q];
          [ right; exact (maps_runs _ _ _ _ _ _ _ (H1 Q)) | left; exists AssertionErr; now apply f_accent ] ]|]).
    destruct HI.
  - destruct x as [s|l]; [|discriminate].
    destruct (replaced_or_stuck find (fun _ => b) HB s 0 ltac:(lia)) as [(sg & HR)|ST].
    + right. pose proof (scan_group_replaced E find _ s sg OC HB HR) as HG.
      unfold transform_op. cbn [type_of input_type seqtype_eqb guard bind transform_str].
      rewrite HC. unfold str_result. rewrite HG. cbn [bind fst type_of output_type seqtype_eqb guard]. eauto.
    + left. exists OutOfFuel. now apply (f_stuck E p b find).
  - destruct (made_wordn _ _ _ HM) as (ws' & t & -> & Eo). subst o. destruct x as [s|l]; [|discriminate].
    right. destruct (munched_exists sh ws' s) as (ps & HP).
    exact (maps_runs _ _ _ _ _ _ _ (proj2 (wordn_ok E ws' sh _ s ps OC HM HP))).
  - destruct (made_custom _ _ _ HM) as (ws' & t & -> & Eo). subst o. destruct x as [s|l]; [|discriminate].
    right. destruct (munched_exists sh ws' s) as (ps & HP).
    exact (tokenizes_runs _ _ _ _ (custom_tokenizes E ws' sh _ s ps OC HM HP)).
  - destruct x as [s|l]; [discriminate|].
    apply (elements_accept E OE _ (purenum_newv E tok)); try reflexivity; [now left|apply purenum_one_of].
  - destruct x as [s|l]; [discriminate|].
    destruct (Z.ltb_spec m 0) as [L|L]; [left; eexists; now apply f_negative|].
    destruct (Z.ltb_spec (Z.of_nat (length l)) (2 ^ 32)) as [Q|Q];
      [right; exact (maps_runs _ _ _ _ _ _ _ (pad_maps E m tok l OE L (or_introl Q)))|].
    destruct (Z.eq_dec (Z.of_nat (length l)) m) as [R|R];
      [right; exact (maps_runs _ _ _ _ _ _ _ (pad_maps E m tok l OE L (or_intror R)))|].
    left. eexists. now apply f_pad.
  - destruct x as [s'|l]; [discriminate|].
    destruct (Z.ltb_spec (Z.of_nat (length l)) (2 ^ 32)) as [Q|Q]; [right|left; eexists; now apply f_soseos].
    destruct l as [|x0 l]; [now apply soseos_empty_runs|].
    exact (maps_runs _ _ _ _ _ _ _ (soseos_maps E s e (x0 :: l) OE ltac:(discriminate) Q)).
  - rewrite (made_end _ _ HM) in *. destruct x as [s|l]; [discriminate|].
    destruct (Z.ltb_spec (Z.of_nat (length l)) (2 ^ 32)) as [Q|Q]; [right|left; eexists; now apply f_end].
    exact (maps_runs _ _ _ _ _ _ _ (end_maps E t l OE Q)).
  - destruct x as [s|l]; [discriminate|].
    apply (elements_accept E OE _ (subwords_newv v u m)); try reflexivity; [right; do 2 eexists; reflexivity|].
    intros x. now apply (subwords_one_of E).
  - destruct (made_index _ _ _ HM) as (-> & HU). destruct x as [s|l]; [discriminate|]. right.
    destruct (token2index_maps E d u l OE HU) as (out & _ & M). exact (maps_runs _ _ _ _ _ _ _ M).
  - destruct (made_hash _ _ HM) as (-> & HU). destruct x as [s|l]; [discriminate|].
    apply (elements_accept E OE _ (hash_newv d)); try reflexivity; [now left|]. intros x. now apply hash_one_of.
Qed.

Theorem refused E o x e : python E -> built E o -> raises E o x e -> transform_op E o x = Err e.
Proof.
  intros (OC & OE & HS) HB H.
  destruct H as [o x N|s N|a b find s HC ST|o l1 x l2 e A R|m t l L|m t l L N|a b l L|t l L].
  - unfold transform_op. destruct (type_of x), (input_type o); try reflexivity; now destruct N.
  - now apply accent_maps.
  - assert (HI : in_bounds find).
    { inversion HB as [o' HI|a' b' find' HC' HI| | | | | | | | | ]; subst.
      - cbn [In] in HI. intuition discriminate.
      - assert (find = find') as -> by congruence. exact HI.
      - match goal with M : make_wordn _ _ = _ |- _ => apply made_wordn in M; destruct M as (? & ? & _ & M); discriminate M end.
      - match goal with M : make_custom _ _ = _ |- _ => apply made_custom in M; destruct M as (? & ? & _ & M); discriminate M end.
      - match goal with M : make_end _ = _ |- _ => apply made_end in M; discriminate M end.
      - match goal with M : make_token2index _ _ = _ |- _ => apply made_index in M; destruct M as (M & _); discriminate M end.
      - match goal with M : make_hash _ = _ |- _ => apply made_hash in M; destruct M as (M & _); discriminate M end. }
    exact (proj2 (replace_diverges E a b find s HC HI ST)).
  - destruct o; try (exfalso; inversion R; fail).
    + apply (elements_refuse E _ (purenum_newv E token)); [reflexivity|now left|apply purenum_one_of|exact A|exact R].
    + apply (elements_refuse E _ (subwords_newv vocab unk_token maxlen_per_token));
        [reflexivity|right; do 2 eexists; reflexivity| |exact A|exact R].
      intros y. now apply (subwords_one_of E).
    + apply (elements_refuse E _ (hash_newv token2index)); [reflexivity|now left| |exact A|exact R].
      intros y. apply hash_one_of. now apply (built_hash_full E).
  - now apply pad_negative.
  - now apply pad_too_long.
  - now apply soseos_too_long.
  - now apply end_too_long.
Qed.

Theorem errors E o x e : python E -> built E o -> (transform_op E o x = Err e <-> raises E o x e).
Proof.
  intros P B. split; [|now apply refused]. intros H.
  destruct (accepted E o x P B) as [(e' & R)|(y & a & Q)]; [|congruence].
  pose proof (refused E o x e' P B R). congruence.
Qed.

Theorem succeeds E o x : python E -> built E o ->
  ((exists y a, transform_op E o x = Ok (y, a)) <-> forall e, ~ raises E o x e).
Proof.
  intros P B. split.
  - intros (y & a & H) e R. pose proof (refused E o x e P B R). congruence.
  - intros H. destruct (accepted E o x P B) as [(e' & R)|Q]; [now apply H in R|exact Q].
Qed.
