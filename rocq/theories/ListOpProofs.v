(** The list -> list operators meet their specifications. *)

From Coq Require Import String.
From Verif Require Import Py PyFacts Edit Labels SpecEdit SpecLabels SpecSeg SpecRuns SpecWords
  EditProofs SpanProofs LabelProofs EditApiProofs SegProofs Regex Trie Ops RegexProofs
  PatternProofs TrieProofs WordProofs RunsProofs SpecOps OpProofs StrOpProofs.
From Coq Require Import List.

(** ** Element by element *)

Lemma elem_edits_ok newv v l i acc :
  (forall x, In x l -> newv x = Ok (v x)) ->
  elem_edits newv i l acc = Ok (acc ++ grp i (map (char_seg v) l)).
Proof.
  revert i acc; induction l as [|x l IH]; intros i acc H; cbn [elem_edits map].
  - cbn. now rewrite app_nil_r.
  - rewrite (H x) by now left. cbn [bind]. rewrite IH by (intros y HY; apply H; now right).
    replace (S i) with (i + 1) by lia. unfold char_seg at 2.
    destruct (v x) as [w|]; cbn [grp length]; [|reflexivity].
    rewrite radd_ok by lia. now rewrite <- app_assoc.
Qed.

Lemma elem_edits_err newv e l1 x l2 i acc :
  (forall y, In y l1 -> exists v, newv y = Ok v) -> newv x = Err e ->
  elem_edits newv i (l1 ++ x :: l2) acc = Err e.
Proof.
  revert i acc; induction l1 as [|y l1 IH]; intros i acc H HE; cbn [app elem_edits].
  - now rewrite HE.
  - destruct (H y) as (v & ->); [now left|]. cbn [bind]. apply IH; auto.
    intros z HZ. apply H. now right.
Qed.

Lemma elem_group_ok E newv v l :
  ord_ok (ord_e E) -> (forall x, In x l -> newv x = Ok (v x)) ->
  elem_group E newv l = Ok (grp 0 (map (char_seg v) l)).
Proof.
  intros HO H. unfold elem_group. rewrite (elem_edits_ok newv v) by exact H. cbn [bind app].
  apply rdone_grp; [exact HO|]. apply nonempty_solid, char_segs_nonempty.
Qed.

(** One element for one element, labels untouched. *)
Lemma null_maps E o newv (f : elem -> elem) l :
  ord_ok (ord_e E) ->
  (forall l, transform_op E o (SLst l) =
    (r <- lst_result_null l (elem_group E newv l) ;;
     _ <- guard (seqtype_eqb (type_of (fst r)) TList) TypeErr ;; Ok r)) ->
  (forall x, In x l -> exists b : bool, newv x = Ok (if b then Some [f x] else None) /\
                                 (b = false -> f x = x)) ->
  maps E o any_labels (SLst l) (SLst (map f l)) keep keep.
Proof.
  intros HO HT HF. unfold maps. rewrite HT.
  set (v := fun x => match newv x with Ok w => w | Err _ => None end).
  assert (HV : forall x, In x l -> newv x = Ok (v x)).
  { intros x HI. destruct (HF x HI) as (b & E1 & _). unfold v. now rewrite E1. }
  rewrite (elem_group_ok E newv v l HO HV). unfold lst_result_null. cbn [bind].
  pose proof (apply_grp (map (char_seg v) l)) as AG. rewrite char_segs_olds in AG. rewrite AG.
  assert (EN : news (map (char_seg v) l) = map f l).
  { rewrite char_segs_news, <- flat_map_single, !flat_map_concat_map. f_equal.
    apply map_ext_in. intros x HI. destruct (HF x HI) as (b & E1 & E2). unfold v. rewrite E1.
    destruct b; [reflexivity|]. now rewrite E2. }
  rewrite EN, map_length. cbn [fst type_of seqtype_eqb guard bind].
  eexists. split; [reflexivity|]. cbn [pseq_length]. rewrite map_length. apply aligns_null.
Qed.

(** ** PureNum2Token *)

Lemma search_plus_whole c t :
  (exists f, findall_first (RPlus c) t = Some f /\ f = t /\ nonempty t && forallb c t = true) \/
  (nonempty t && forallb c t = false /\
   forall f, findall_first (RPlus c) t = Some f -> f <> t).
Proof.
  unfold findall_first. destruct (search (RPlus c) t 0) as [[i e]|] eqn:ES.
  - apply search_some in ES. destruct ES as (H1 & H2 & H3 & H4).
    assert (IN : In e (ends (RPlus c) t i)) by (destruct (ends _ _ _); [discriminate|cbn in H3; left; congruence]).
    apply in_plus in IN. destruct IN as (B & A).
    destruct (eqb_spec (slice t i e) t) as [Q|Q].
    + left. eexists. split; [reflexivity|]. split; [exact Q|].
      assert (L : length (slice t i e) = length t) by now rewrite Q.
      rewrite slice_length in L by lia. assert (i = 0) as -> by lia. assert (e = length t) as -> by lia.
      destruct t as [|x t]; [cbn in B; lia|]. cbn [nonempty andb].
      apply forallb_nth. intros j y HJ. apply (A j y); [|exact HJ].
      split; [lia|]. apply nth_error_Some. congruence.
    + right. split.
      * destruct (nonempty t && forallb c t) eqn:EB; [|reflexivity]. exfalso. apply Q.
        apply andb_prop in EB. destruct EB as (E1 & E2). rewrite forallb_nth in E2.
        assert (HP : hd_error (ends (RPlus c) t 0) = Some (length t)).
        { replace (length t) with (0 + length t) by lia. apply hd_plus.
          - apply Nat.le_antisymm; [apply run_length_le|]. apply run_length_ge; [reflexivity|].
            cbn [skipn]. intros j Hj x Hx. now apply (E2 j).
          - destruct t; [discriminate|cbn; lia]. }
        destruct (Nat.eq_dec i 0) as [->|NE].
        -- rewrite HP in H3. injection H3 as <-. unfold slice. cbn [skipn]. rewrite Nat.sub_0_r.
           apply firstn_all.
        -- specialize (H4 0 ltac:(lia)). rewrite H4 in HP. discriminate.
      * intros f [= <-]. exact Q.
  - right. split; [|discriminate].
    destruct (nonempty t && forallb c t) eqn:EB; [|reflexivity]. exfalso.
    apply andb_prop in EB. destruct EB as (E1 & E2). rewrite forallb_nth in E2.
    pose proof (search_none _ _ _ ES 0 ltac:(lia)) as HN.
    assert (In (length t) (ends (RPlus c) t 0)) as HI.
    { apply in_plus. split; [destruct t; [discriminate|cbn; lia]|].
      intros j x Hj Hx. now apply (E2 j). }
    rewrite HN in HI. destruct HI.
Qed.

Lemma pure_ok E t : pure_number E t = nonempty t && forallb (digit_class E) t.
Proof.
  unfold pure_number. f_equal. apply forallb_ext_eq. intros c. symmetry. apply digit_ok.
Qed.

Lemma purenum_newv_ok E tok t :
  purenum_newv E tok (ETok t) = Ok (if pure_number E t then Some [tok] else None).
Proof.
  unfold purenum_newv, re_purenum. rewrite pure_ok.
  destruct (search_plus_whole (digit_class E) t) as [(f & E1 & -> & ->)|(-> & H)].
  - rewrite E1. now destruct (eqb_spec t t).
  - destruct (findall_first _ t) as [f|]; [|reflexivity].
    destruct (eqb_spec f t); [exfalso; now apply (H f)|reflexivity].
Qed.

Definition as_number (E : env) (tok : elem) (x : elem) : elem :=
  match x with ETok t => if pure_number E t then tok else x | EIdx _ => x end.

Lemma purenum_maps E tok ts :
  ord_ok (ord_e E) ->
  maps E (PureNum2Token tok) any_labels (SLst (map ETok ts))
    (SLst (map (fun t => if pure_number E t then tok else ETok t) ts)) keep keep.
Proof.
  intros HO.
  replace (map (fun t => if pure_number E t then tok else ETok t) ts)
    with (map (as_number E tok) (map ETok ts)) by now rewrite map_map.
  apply (null_maps E _ (purenum_newv E tok)); auto.
  intros x HI. apply in_map_iff in HI. destruct HI as (t & <- & _).
  exists (pure_number E t). cbn [as_number]. split.
  - rewrite purenum_newv_ok. now destruct (pure_number E t).
  - intros ->. reflexivity.
Qed.

Lemma purenum_type_error E tok ts i l :
  transform_op E (PureNum2Token tok) (SLst (map ETok ts ++ EIdx i :: l)) = Err TypeErr.
Proof.
  unfold transform_op. cbn [type_of input_type seqtype_eqb guard bind transform_lst].
  unfold lst_result_null, elem_group.
  rewrite (elem_edits_err _ TypeErr); [reflexivity| |reflexivity].
  intros y HI. apply in_map_iff in HI. destruct HI as (t & <- & _).
  rewrite purenum_newv_ok. eauto.
Qed.

(** ** Token2Index *)

Lemma dict_get_In {V} (d : list (str * V)) k v : dict_get d k = Some v -> In (k, v) d.
Proof.
  induction d as [|[k' v'] d IH]; [discriminate|]. cbn [dict_get].
  destruct (eqb_spec k k') as [->|N]; [intros [= ->]; now left|]. intros H. right. auto.
Qed.

Lemma dict_get_None {V} (d : list (str * V)) k : dict_get d k = None <-> ~ In k (map fst d).
Proof.
  induction d as [|[k' v'] d IH]; cbn [dict_get map fst In]; [tauto|].
  destruct (eqb_spec k k') as [->|N]; [|rewrite IH; intuition congruence].
  split; [discriminate|]. intros H. exfalso. apply H. now left.
Qed.

Lemma dict_get_iff {V} (d : list (str * V)) k v :
  is_dict d -> (dict_get d k = Some v <-> In (k, v) d).
Proof.
  intros ND. split; [apply dict_get_In|]. intros HI.
  induction d as [|[k' v'] d IH]; [destruct HI|]. cbn [dict_get].
  inversion ND as [|? ? N1 N2]; subst. destruct HI as [H|HI].
  - injection H as -> ->. now destruct (eqb_spec k k).
  - destruct (eqb_spec k k') as [->|N]; [|auto].
    exfalso. apply N1. apply (in_map fst) in HI. exact HI.
Qed.

Lemma fold_min_spec l x :
  (fold_left Z.min l x <= x)%Z /\ (forall y, In y l -> (fold_left Z.min l x <= y)%Z) /\
  In (fold_left Z.min l x) (x :: l).
Proof.
  revert x; induction l as [|a l IH]; intros x; cbn [fold_left].
  - split; [lia|]. split; [intros y []|now left].
  - destruct (IH (Z.min x a)) as (H1 & H2 & H3). split; [lia|]. split.
    + intros y [<-|HY]; [lia|auto].
    + destruct H3 as [H3|H3]; [|right; right; exact H3].
      rewrite <- H3. destruct (Z.min_spec x a) as [(_ & ->)|(_ & ->)]; [left|right; left]; auto.
Qed.

Lemma fold_max_spec l x :
  (x <= fold_left Z.max l x)%Z /\ (forall y, In y l -> (y <= fold_left Z.max l x)%Z) /\
  In (fold_left Z.max l x) (x :: l).
Proof.
  revert x; induction l as [|a l IH]; intros x; cbn [fold_left].
  - split; [lia|]. split; [intros y []|now left].
  - destruct (IH (Z.max x a)) as (H1 & H2 & H3). split; [lia|]. split.
    + intros y [<-|HY]; [lia|auto].
    + destruct H3 as [H3|H3]; [|right; right; exact H3].
      rewrite <- H3. destruct (Z.max_spec x a) as [(_ & ->)|(_ & ->)]; [right; left|left]; auto.
Qed.

Lemma guard_err b e (x : unit) : guard b e = Ok x <-> b = true.
Proof. unfold guard. destruct b, x; split; congruence. Qed.

Lemma validate_iff (d : list (str * Z)) : validate_continuity d = Ok tt <-> d <> [] /\ continuous d.
Proof.
  set (ix := map snd d). assert (LD : length ix = length d) by apply map_length.
  unfold validate_continuity. fold ix. split.
    - destruct (Nat.eqb_spec (length d) (length (dedup ix))) as [EL|NL]; [|discriminate].
      cbn [guard bind]. destruct (dedup ix) as [|i is] eqn:ED; [discriminate|].
      intros HG. apply guard_err, andb_prop in HG. destruct HG as (G1 & G2).
      apply Z.eqb_eq in G1, G2. unfold min_of, max_of in *.
      split; [intros ->; discriminate|]. unfold continuous. fold ix.
      destruct (fold_min_spec is i) as (M1 & M2 & _). destruct (fold_max_spec is i) as (X1 & X2 & _).
      assert (ND : NoDup ix).
      { apply dedup_length_NoDup. rewrite ED, LD. auto. }
      apply NoDup_Permutation_bis; [exact ND| |].
      + rewrite map_length, seq_length. lia.
      + intros y HY. rewrite <- (dedup_id ix ND), ED in HY.
        assert (0 <= y <= Z.of_nat (length d) - 1)%Z as R.
        { destruct HY as [<-|HY]; [lia|]. specialize (M2 y HY). specialize (X2 y HY). lia. }
        apply in_map_iff. exists (Z.to_nat y). rewrite in_seq. lia.
    - intros (HD & HP). unfold continuous in HP. fold ix in HP.
      assert (ND : NoDup ix).
      { eapply Permutation_NoDup; [apply Permutation_sym; exact HP|].
        apply FinFun.Injective_map_NoDup; [intros a b; lia|apply seq_NoDup]. }
      rewrite (dedup_id ix ND), LD, Nat.eqb_refl. cbn [guard bind].
      assert (MEM : forall y, In y ix <-> (0 <= y < Z.of_nat (length d))%Z).
      { intros y. split; intros HY.
        - apply (Permutation_in _ HP) in HY. apply in_map_iff in HY.
          destruct HY as (n & <- & HN). apply in_seq in HN. lia.
        - apply (Permutation_in _ (Permutation_sym HP)). apply in_map_iff.
          exists (Z.to_nat y). rewrite in_seq. lia. }
      assert (L0 : length d <> 0) by (destruct d; [congruence|discriminate]).
      destruct ix as [|i is] eqn:EI; [cbn in LD; lia|].
      apply guard_err, andb_true_iff. rewrite !Z.eqb_eq. unfold min_of, max_of.
      destruct (fold_min_spec is i) as (M1 & M2 & M3). destruct (fold_max_spec is i) as (X1 & X2 & X3).
      apply MEM in M3, X3. split.
      + assert (In 0%Z (i :: is)) as [Q|HY] by (apply MEM; lia); [lia|]. specialize (M2 _ HY). lia.
      + assert (In (Z.of_nat (length d) - 1)%Z (i :: is)) as [Q|HY] by (apply MEM; lia).
        * lia.
        * specialize (X2 _ HY). lia.
Qed.

Lemma validate_spec (d : list (str * Z)) :
  (d <> [] /\ continuous d -> validate_continuity d = Ok tt) /\
  (~ (d <> [] /\ continuous d) -> validate_continuity d = Err ValueErr).
Proof.
  pose proof (validate_iff d) as HC. unfold validate_continuity in *. set (ix := map snd d) in *. split; intros H.
  - now apply HC.
  - destruct (Nat.eqb (length d) (length (dedup ix))); [|reflexivity]. cbn [guard bind] in *.
    destruct (dedup ix) as [|i is]; [reflexivity|].
    destruct (_ && _); [|reflexivity]. exfalso. apply H, HC. reflexivity.
Qed.

Lemma dict_mem_In {V} (d : list (str * V)) k : dict_mem d k = true <-> In k (map fst d).
Proof.
  unfold dict_mem. destruct (dict_get d k) eqn:ED.
  - split; [|auto]. intros _. apply dict_get_In in ED. apply (in_map fst) in ED. exact ED.
  - rewrite dict_get_None in ED. split; [discriminate|tauto].
Qed.

Lemma make_token2index_spec d unk :
  (continuous d /\ In unk (map fst d) -> make_token2index d unk = Ok (Token2Index d unk)) /\
  (d <> [] /\ continuous d /\ ~ In unk (map fst d) -> make_token2index d unk = Err KeyErr) /\
  (~ (d <> [] /\ continuous d) -> make_token2index d unk = Err ValueErr).
Proof.
  unfold make_token2index. destruct (validate_spec d) as (V1 & V2). split; [|split].
  - intros (HC & HU). rewrite V1; [|split; [intros ->; destruct HU|exact HC]].
    apply dict_mem_In in HU. rewrite HU. reflexivity.
  - intros (HD & HC & HU). rewrite V1 by auto. cbn [bind].
    destruct (dict_mem d unk) eqn:EM; [apply dict_mem_In in EM; tauto|reflexivity].
  - intros H. now rewrite V2.
Qed.

Lemma continuous_range d k i :
  continuous d -> In (k, i) d -> (0 <= i < Z.of_nat (length d))%Z.
Proof.
  intros HP HI. apply (in_map snd) in HI. cbn in HI. apply (Permutation_in _ HP) in HI.
  apply in_map_iff in HI. destruct HI as (n & <- & HN). apply in_seq in HN. lia.
Qed.

Lemma continuous_inj d k k' i :
  is_dict d -> continuous d -> In (k, i) d -> In (k', i) d -> k = k'.
Proof.
  intros _ HP. assert (ND : NoDup (map snd d)).
  { eapply Permutation_NoDup; [apply Permutation_sym; exact HP|].
    apply FinFun.Injective_map_NoDup; [intros a b; lia|apply seq_NoDup]. }
  clear HP. induction d as [|[k0 i0] d IH]; intros H1 H2; [destruct H1|].
  inversion ND as [|? ? N1 N2]; subst.
  destruct H1 as [H1|H1], H2 as [H2|H2].
  - congruence.
  - injection H1 as -> ->. exfalso. apply N1. apply (in_map snd) in H2. exact H2.
  - injection H2 as -> ->. exfalso. apply N1. apply (in_map snd) in H1. exact H1.
  - auto.
Qed.

(** What Token2Index gives for one element. *)
Lemma Forall2_map_r {A B} (R : A -> B -> Prop) f l :
  (forall x, In x l -> R x (f x)) -> Forall2 R l (map f l).
Proof.
  induction l as [|x l IH]; intros H; constructor; [apply H; now left|].
  apply IH. intros y HY. apply H. now right.
Qed.

Lemma token2index_maps E d unk l :
  ord_ok (ord_e E) -> In unk (map fst d) ->
  exists out, Forall2 (index_of d unk) l out /\
    maps E (Token2Index d unk) any_labels (SLst l) (SLst out) keep keep.
Proof.
  intros HO HU.
  destruct (dict_get d unk) as [u|] eqn:EU; [|rewrite dict_get_None in EU; tauto].
  set (f := fun x => EIdx (match (match x with ETok t => dict_get d t | EIdx _ => None end) with
                           | Some i => i | None => u end)).
  exists (map f l). split.
  - apply Forall2_map_r. intros x _. unfold f, index_of. eexists. split; [reflexivity|].
    apply dict_get_In in EU.
    destruct x as [t|i]; [|exact EU].
    destruct (dict_get d t) as [i|] eqn:ET; [left; now apply dict_get_In|].
    right. rewrite dict_get_None in ET. auto.
  - apply (null_maps E _ (index_newv d unk)); auto.
    intros x _. exists true. split; [|discriminate]. unfold index_newv, f.
    destruct x as [t|i]; [destruct (dict_get d t); [reflexivity|]|]; now rewrite EU.
Qed.

(** ** Pad, start and end tokens *)

Lemma radd_all_one E (st en : Z) (v : list elem) :
  ord_ok (ord_e E) -> (0 <= st <= en)%Z -> (en < 2 ^ 32)%Z ->
  radd_all (ord_e E) [(st, en, v)] = Ok [mkR (Z.to_nat st) (Z.to_nat en) v].
Proof.
  intros HO H1 H2. unfold radd_all. cbn [radd_each]. unfold radd_py.
  rewrite !to_u32_ok by lia. cbn [bind]. rewrite radd_ok by lia. cbn [app].
  apply rdone_strict with (n := Z.to_nat en); auto.
  - constructor; constructor.
  - cbn. lia.
Qed.

Lemma radd_all_nil E : ord_ok (ord_e E) -> radd_all (ord_e E) [] = Ok [].
Proof.
  intros HO. unfold radd_all. cbn [radd_each bind]. unfold rdone. cbn [dedup].
  rewrite (Permutation_nil (Permutation_sym (HO []))). reflexivity.
Qed.

Lemma pad_maps E maxlen pad l :
  ord_ok (ord_e E) -> (0 <= maxlen)%Z ->
  (Z.of_nat (length l) < 2 ^ 32)%Z \/ Z.of_nat (length l) = maxlen ->
  let m := Z.to_nat maxlen in
  maps E (Pad maxlen pad) any_labels (SLst l)
    (SLst (firstn m l ++ repeat pad (m - length l)))
    (fun ls => firstn m ls ++ repeat 0%Z (m - length l))
    (fun ls => firstn (length l) ls ++ repeat 0%Z (length l - m)).
Proof.
  intros HO HM HL m. set (n := length l) in *.
  assert (RW : exists sg, olds sg = l /\ pad_group E maxlen pad (olds sg) = Ok (grp 0 sg) /\
    no_touching_deletions (grp 0 sg) /\
    news sg = firstn m l ++ repeat pad (m - n) /\
    (forall ls, length ls = n -> relabel by_zero sg ls = firstn m ls ++ repeat 0%Z (m - n)) /\
    (forall ls, length ls = m ->
      relabel by_zero (swap sg) ls = firstn n ls ++ repeat 0%Z (n - m))).
  { unfold pad_group. destruct (Z.eqb_spec (Z.of_nat n) maxlen) as [EQ|NE].
    - exists [(l, None)]. assert (m = n) as Emn by lia. rewrite Emn, Nat.sub_diag.
      unfold olds, news. cbn [map concat old_of new_of fst snd]. rewrite app_nil_r. fold n.
      rewrite (proj2 (Z.eqb_eq _ _) EQ).
      split; [reflexivity|]. split; [now apply radd_all_nil|]. split; [exact I|].
      split; [unfold n; now rewrite firstn_all, app_nil_r|]. fold n.
      split; intros ls HLL; cbn [swap map swap1 relabel snd fst old_of]; reflexivity.
    - destruct HL as [HL|HL]; [|congruence].
      destruct (Z.ltb_spec maxlen (Z.of_nat n)) as [LT|GE].
      + exists [(firstn m l, None); (skipn m l, Some [])].
        assert (EO : olds [(firstn m l, None); (skipn m l, Some [])] = l).
        { unfold olds. cbn [map concat old_of fst]. now rewrite app_nil_r, firstn_skipn. }
        assert (L1 : length (firstn m l) = m) by (rewrite firstn_length; lia).
        assert (L2 : length (skipn m l) = n - m) by (rewrite skipn_length; reflexivity).
        rewrite EO. split; [reflexivity|]. split.
        { fold n. rewrite (proj2 (Z.eqb_neq _ _) NE), (proj2 (Z.ltb_lt _ _) LT).
          rewrite radd_all_one by (auto; lia). cbn [grp]. rewrite L1, L2. f_equal. f_equal.
          unfold m. f_equal; lia. }
        split; [cbn; exact I|]. replace (m - n) with 0 by lia. cbn [repeat].
        unfold news. cbn [map concat new_of fst snd].
        split; [reflexivity|]. split; intros ls HLL; cbn [swap map swap1 relabel snd fst old_of].
        * rewrite L1. unfold by_zero. reflexivity.
        * rewrite L1, L2. cbn [length firstn skipn app]. unfold by_zero.
          rewrite app_nil_r, firstn_all2 by lia. rewrite (firstn_all2 (n := n)) by lia. reflexivity.
      + exists [(l, None); ([], Some (repeat pad (m - n)))].
        assert (EO : olds [(l, None); ([], Some (repeat pad (m - n)))] = l).
        { unfold olds. cbn [map concat old_of fst]. now rewrite !app_nil_r. }
        rewrite EO. split; [reflexivity|]. split.
        { fold n. rewrite (proj2 (Z.eqb_neq _ _) NE), (proj2 (Z.ltb_ge _ _) GE).
          rewrite radd_all_one by (auto; lia). cbn [grp length]. fold n. f_equal. f_equal.
          unfold m. f_equal; try lia. f_equal. lia. }
        split; [cbn; exact I|]. replace (n - m) with 0 by lia. cbn [repeat].
        rewrite (firstn_all2 (n := m) l) by (fold n; lia).
        unfold news. cbn [map concat new_of fst snd]. rewrite app_nil_r.
        split; [reflexivity|]. split; intros ls HLL; cbn [swap map swap1 relabel snd fst old_of].
        * fold n. cbn [length firstn skipn]. unfold by_zero. rewrite repeat_length, app_nil_r.
          rewrite !firstn_all2 by lia. reflexivity.
        * fold n. unfold by_zero. cbn [repeat]. now rewrite !app_nil_r. }
  destruct RW as (sg & EO & HG & HN & EN & HF & HB).
  destruct (lst_rewrites E (Pad maxlen pad) sg (pad_group E maxlen pad (olds sg)) get_not_entity
    get_not_entity by_zero by_zero) as (_ & a & HT & HA); auto using rule_zero.
  rewrite EO, EN in *. exists a. split; [exact HT|]. cbn [pseq_length] in *.
  apply (aligns_ext _ _ _ _ _ _ _ _ _ HA); intros ls HLL; [now apply HF|].
  apply HB. rewrite HLL, app_length, firstn_length, repeat_length. fold n. lia.
Qed.

Lemma pad_negative E maxlen pad l :
  (maxlen < 0)%Z -> transform_op E (Pad maxlen pad) (SLst l) = Err OverflowErr.
Proof.
  intros HM. unfold transform_op. cbn [type_of input_type seqtype_eqb guard bind transform_lst].
  unfold lst_result, pad_group.
  destruct (Z.eqb_spec (Z.of_nat (length l)) maxlen); [lia|].
  destruct (Z.ltb_spec maxlen (Z.of_nat (length l))); [|lia].
  unfold radd_all. cbn [radd_each]. unfold radd_py. rewrite to_u32_err by lia. reflexivity.
Qed.

Lemma pad_too_long E maxlen pad l :
  (2 ^ 32 <= Z.of_nat (length l))%Z -> Z.of_nat (length l) <> maxlen ->
  transform_op E (Pad maxlen pad) (SLst l) = Err OverflowErr.
Proof.
  intros HL HM. unfold transform_op. cbn [type_of input_type seqtype_eqb guard bind transform_lst].
  unfold lst_result, pad_group.
  destruct (Z.eqb_spec (Z.of_nat (length l)) maxlen); [lia|].
  destruct (Z.ltb_spec maxlen (Z.of_nat (length l))); unfold radd_all; cbn [radd_each]; unfold radd_py.
  - destruct (to_u32 maxlen) as [x|e] eqn:EU; [|unfold to_u32 in EU; destruct (u32b maxlen); inversion EU; subst; reflexivity].
    cbn [bind]. rewrite to_u32_err by lia. reflexivity.
  - rewrite to_u32_err by lia. reflexivity.
Qed.

Lemma end_too_long E eos l :
  (2 ^ 32 <= Z.of_nat (length l))%Z -> transform_op E (AddEndToken eos) (SLst l) = Err OverflowErr.
Proof.
  intros HL. unfold transform_op. cbn [type_of input_type seqtype_eqb guard bind transform_lst].
  unfold lst_result, end_group, radd_all. cbn [radd_each]. unfold radd_py.
  rewrite to_u32_err by lia. reflexivity.
Qed.

Lemma soseos_too_long E sos eos l :
  (2 ^ 32 <= Z.of_nat (length l))%Z -> transform_op E (AddSosEos sos eos) (SLst l) = Err OverflowErr.
Proof.
  intros HL. unfold transform_op. cbn [type_of input_type seqtype_eqb guard bind transform_lst].
  unfold lst_result, soseos_group, radd_all. cbn [radd_each]. unfold radd_py.
  rewrite (to_u32_err (Z.of_nat (length l))) by lia. reflexivity.
Qed.

Lemma end_maps E eos l :
  ord_ok (ord_e E) -> (Z.of_nat (length l) < 2 ^ 32)%Z ->
  maps E (AddEndToken eos) any_labels (SLst l) (SLst (l ++ [ETok eos]))
    (fun ls => ls ++ [0%Z]) (firstn (length l)).
Proof.
  intros HO HL. set (n := length l) in *.
  set (sg := [(l, None); ([], Some [ETok eos])] : list (seg elem)).
  assert (EO : olds sg = l).
  { unfold olds, sg. cbn [map concat old_of fst]. now rewrite !app_nil_r. }
  destruct (lst_rewrites E (AddEndToken eos) sg (end_group E eos (olds sg)) get_not_entity
    get_not_entity by_zero by_zero) as (_ & a & HT & HA); auto using rule_zero.
  - rewrite EO. unfold end_group. rewrite radd_all_one by (auto; lia).
    unfold sg. cbn [grp length]. f_equal. f_equal. f_equal; lia.
  - exact I.
  - assert (EN : news sg = l ++ [ETok eos]) by reflexivity.
    rewrite EO, EN in *. exists a. split; [exact HT|]. cbn [pseq_length] in *.
    apply (aligns_ext _ _ _ _ _ _ _ _ _ HA); intros ls HLL; unfold sg, swap;
      cbn [swap map swap1 relabel snd fst old_of]; unfold by_zero; fold n.
    + cbn [length repeat app]. fold n in HLL. rewrite <- HLL, firstn_all. reflexivity.
    + cbn [length repeat]. now rewrite !app_nil_r.
Qed.

Lemma soseos_maps E sos eos l :
  ord_ok (ord_e E) -> l <> [] -> (Z.of_nat (length l) < 2 ^ 32)%Z ->
  maps E (AddSosEos sos eos) any_labels (SLst l) (SLst (sos :: l ++ [eos]))
    (fun ls => 0%Z :: ls ++ [0%Z]) (fun ls => firstn (length l) (tl ls)).
Proof.
  intros HO HE HL. set (n := length l) in *.
  assert (L0 : n <> 0) by (unfold n; destruct l; [congruence|discriminate]).
  set (sg := [([], Some [sos]); (l, None); ([], Some [eos])] : list (seg elem)).
  assert (EO : olds sg = l).
  { unfold olds, sg. cbn [map concat old_of fst app]. now rewrite !app_nil_r. }
  destruct (lst_rewrites E (AddSosEos sos eos) sg (soseos_group E sos eos (olds sg)) get_not_entity
    get_not_entity by_zero by_zero) as (_ & a & HT & HA); auto using rule_zero.
  - rewrite EO. unfold soseos_group, radd_all. fold n. cbn [radd_each]. unfold radd_py.
    rewrite !to_u32_ok by lia. cbn [bind]. rewrite Nat2Z.id. rewrite !radd_ok by lia. cbn [app].
    change (Z.to_nat 0) with 0. unfold sg. cbn [grp length plus]. fold n. rewrite Nat.add_0_r.
    apply rdone_strict with (n := n); auto.
    + constructor; [constructor; [constructor|constructor]|].
      constructor; [|constructor]. left. cbn. lia.
    + cbn. lia.
  - unfold sg. cbn [grp no_touching_deletions]. split; [|exact I]. intros (Q & _). discriminate.
  - assert (EN : news sg = sos :: l ++ [eos]) by reflexivity.
    rewrite EO, EN in *. exists a. split; [exact HT|]. cbn [pseq_length] in *.
    apply (aligns_ext _ _ _ _ _ _ _ _ _ HA); intros ls HLL; unfold sg, swap;
      cbn [swap map swap1 relabel snd fst old_of]; unfold by_zero; fold n.
    + cbn [length repeat app firstn skipn]. fold n in HLL. rewrite <- HLL, firstn_all. reflexivity.
    + destruct ls as [|x ls]; [cbn in HLL; lia|].
      cbn [length repeat app firstn skipn tl]. now rewrite !app_nil_r.
Qed.

(** ** SpanSubwords *)

Lemma marked_eq first w : (if negb first then HASHES ++ w else w) = marked first w.
Proof. destruct first; reflexivity. Qed.

Lemma longest_piece_spec vocab chars start n :
  start + n <= length chars ->
  match longest_piece vocab chars start n with
  | Some (p, e) => start < e <= start + n /\ p = marked (Nat.eqb start 0) (slice chars start e) /\
                   In p vocab /\
                   forall e', e < e' <= start + n ->
                     ~ In (marked (Nat.eqb start 0) (slice chars start e')) vocab
  | None => forall e', start < e' <= start + n ->
                     ~ In (marked (Nat.eqb start 0) (slice chars start e')) vocab
  end.
Proof.
  induction n as [|n IH]; intros HL; cbn [longest_piece]; [intros; lia|].
  set (sub := slice chars start (start + S n)).
  assert (EM : (if 0 <? start then HASHES ++ sub else sub) = marked (Nat.eqb start 0) sub).
  { destruct start; reflexivity. }
  rewrite EM. destruct (memb (marked (start =? 0) sub) vocab) eqn:EB.
  - apply memb_In in EB. split; [lia|]. split; [reflexivity|]. split; [exact EB|]. intros; lia.
  - assert (NB : ~ In (marked (start =? 0) sub) vocab).
    { intros Q. apply memb_In in Q. congruence. }
    specialize (IH ltac:(lia)). destruct (longest_piece vocab chars start n) as [[p e]|].
    + destruct IH as (H1 & H2 & H3 & H4). split; [lia|]. split; [exact H2|]. split; [exact H3|].
      intros e' He. destruct (Nat.eq_dec e' (start + S n)) as [->|]; [exact NB|]. apply H4. lia.
    + intros e' He. destruct (Nat.eq_dec e' (start + S n)) as [->|]; [exact NB|]. apply IH. lia.
Qed.

Lemma skipn_slice_split (chars : str) start e :
  start <= e <= length chars -> skipn start chars = slice chars start e ++ skipn e chars.
Proof.
  intros H. unfold slice. rewrite <- (firstn_skipn (e - start) (skipn start chars)) at 1.
  f_equal. rewrite skipn_skipn_add. f_equal. lia.
Qed.

Lemma prefix_is_slice (chars : str) start w rest :
  skipn start chars = w ++ rest -> w <> [] ->
  start < start + length w <= length chars /\ w = slice chars start (start + length w).
Proof.
  intros E N. assert (L : length (skipn start chars) = length w + length rest)
    by (rewrite E, app_length; reflexivity).
  rewrite skipn_length in L. destruct w as [|c w]; [congruence|].
  split; [cbn in *; lia|]. unfold slice. rewrite E.
  replace (start + length (c :: w) - start) with (length (c :: w)) by lia.
  now rewrite firstn_app_exact.
Qed.

Lemma splits_inv vocab first t ps :
  splits vocab first t ps -> t <> [] ->
  exists w rest ps', t = w ++ rest /\ ps = marked first w :: ps' /\ w <> [] /\
    In (marked first w) vocab /\
    (forall w' rest', w ++ rest = w' ++ rest' -> In (marked first w') vocab ->
                      length w' <= length w) /\ splits vocab false rest ps'.
Proof.
  intros H N. destruct H as [first|first w rest ps N' HI M H]; [congruence|].
  exists w, rest, ps. auto 8.
Qed.

Lemma subword_loop_spec vocab chars fuel start acc :
  start <= length chars -> length chars - start <= fuel ->
  (exists ps, subword_loop fuel vocab chars start acc = Ok (Some (acc ++ ps)) /\
     splits vocab (Nat.eqb start 0) (skipn start chars) ps) \/
  (subword_loop fuel vocab chars start acc = Ok None /\
     forall ps, ~ splits vocab (Nat.eqb start 0) (skipn start chars) ps).
Proof.
  revert start acc; induction fuel as [|fuel IH]; intros start acc HS HF.
  - left. exists []. assert (start = length chars) as -> by lia.
    cbn [subword_loop]. rewrite Nat.leb_refl, app_nil_r, skipn_all. split; [reflexivity|constructor].
  - cbn [subword_loop]. destruct (Nat.leb_spec (length chars) start) as [L|L].
    { left. exists []. assert (start = length chars) as -> by lia.
      rewrite app_nil_r, skipn_all. split; [reflexivity|constructor]. }
    pose proof (longest_piece_spec vocab chars start (length chars - start) ltac:(lia)) as LP.
    replace (start + (length chars - start)) with (length chars) in LP by lia.
    destruct (longest_piece vocab chars start (length chars - start)) as [[p e]|].
    + destruct LP as (H1 & H2 & H3 & H4).
      pose proof (skipn_slice_split chars start e ltac:(lia)) as ES.
      set (w := slice chars start e) in *.
      assert (LW : length w = e - start) by (unfold w; rewrite slice_length; lia).
      assert (NW : w <> []) by (destruct w; [cbn in LW; lia|discriminate]).
      assert (E0 : (e =? 0) = false) by (apply Nat.eqb_neq; lia).
      destruct (IH e (acc ++ [p])) as [(ps & R1 & R2)|(R1 & R2)]; [lia|lia| |].
      * left. exists (p :: ps). rewrite R1, <- app_assoc. split; [reflexivity|].
        rewrite ES, H2. rewrite E0 in R2. apply split_step; auto.
        -- rewrite <- H2. exact H3.
        -- intros w' rest' EW HI'. destruct w' as [|c w'']; [cbn; lia|].
           rewrite <- ES in EW. destruct (prefix_is_slice _ _ _ _ EW) as (B & EQ); [discriminate|].
           destruct (le_lt_dec (length (c :: w'')) (length w)) as [|G]; [assumption|].
           exfalso. apply (H4 (start + length (c :: w''))); [lia|]. now rewrite <- EQ.
      * right. split; [exact R1|]. intros ps HP. rewrite E0 in R2.
        apply splits_inv in HP; [|intros Q; apply (f_equal (@length Z)) in Q; rewrite skipn_length in Q;
          cbn in Q; lia].
        destruct HP as (w' & rest' & ps' & EQ & _ & N' & HI' & M' & HP').
        destruct (prefix_is_slice chars start w' rest' EQ N') as (B & EQW).
        assert (LL : length w' = length w).
        { assert (length w <= length w').
          { apply (M' w (skipn e chars)); [now rewrite <- EQ|]. rewrite <- H2. exact H3. }
          destruct (le_lt_dec (length w') (length w)) as [|G]; [lia|]. exfalso.
          apply (H4 (start + length w')); [lia|]. rewrite <- EQW. exact HI'. }
        assert (ER : w' = w /\ rest' = skipn e chars).
        { apply app_eq_app_length; [exact LL|]. now rewrite <- EQ. }
        destruct ER as (_ & ->). now apply (R2 ps').
    + right. split; [reflexivity|]. intros ps HP.
      apply splits_inv in HP; [|intros Q; apply (f_equal (@length Z)) in Q; rewrite skipn_length in Q;
        cbn in Q; lia].
      destruct HP as (w' & rest' & ps' & EQ & _ & N' & HI' & M' & HP').
      destruct (prefix_is_slice chars start w' rest' EQ N') as (B & EQW).
      apply (LP (start + length w')); [lia|]. rewrite <- EQW. exact HI'.
Qed.

Lemma span_subwords_spec vocab unk maxlen t :
  exists out, span_subwords vocab unk maxlen t = Ok out /\ subwords vocab unk maxlen t out.
Proof.
  unfold span_subwords, subwords. rewrite Z.gtb_ltb.
  destruct (Z.ltb_spec maxlen (Z.of_nat (length t))) as [L|L].
  - exists [unk]. split; [reflexivity|]. right. split; [left; lia|reflexivity].
  - destruct (subword_loop_spec vocab t (length t) 0 []) as [(ps & R1 & R2)|(R1 & R2)]; [lia|lia| |];
      rewrite R1; cbn [bind].
    + exists (map ETok ps). split; [reflexivity|]. left. split; [lia|]. exists ps.
      split; [exact R2|reflexivity].
    + exists [unk]. split; [reflexivity|]. right. split; [|reflexivity]. right.
      intros (ps & HP). now apply (R2 ps).
Qed.

Lemma splits_unique vocab first t ps ps' :
  splits vocab first t ps -> splits vocab first t ps' -> ps = ps'.
Proof.
  intros H; revert ps'; induction H as [first|first w rest ps N HI M H IH]; intros ps' H'.
  - destruct ps' as [|p ps']; [reflexivity|]. inversion H'.
    destruct w; [congruence|discriminate].
  - apply splits_inv in H'; [|destruct w; [congruence|discriminate]].
    destruct H' as (w' & rest' & ps0 & E2 & -> & N' & HI' & M' & H0).
    assert (L : length w = length w').
    { pose proof (M w' rest' E2 HI'). pose proof (M' w rest (eq_sym E2) HI). lia. }
    destruct (app_eq_app_length _ _ _ _ L E2) as (<- & <-).
    f_equal. now apply IH.
Qed.

Lemma splits_join vocab first t ps :
  splits vocab first t ps ->
  (forall p, In p ps -> In p vocab) /\
  t = concat (match ps with
              | [] => []
              | p :: qs => (if first then p else skipn 2 p) :: map (skipn 2) qs
              end).
Proof.
  induction 1 as [first|first w rest ps N HI M H (IH1 & IH2)]; [split; [intros p []|reflexivity]|].
  split.
  - intros p [<-|HP]; auto.
  - cbn [concat]. f_equal; [destruct first; reflexivity|].
    rewrite IH2. destruct ps; reflexivity.
Qed.

Lemma splits_nonempty vocab first t ps : t <> [] -> splits vocab first t ps -> ps <> [].
Proof. intros N H. inversion H; subst; [congruence|discriminate]. Qed.

(** The pieces, token by token. *)
Lemma subwords_rewrites E vocab unk maxlen ts :
  ord_ok (ord_e E) ->
  exists outs, Forall2 (subwords vocab unk maxlen) ts outs /\
    exists sg, olds sg = map ETok ts /\ news sg = concat outs /\
      elem_group E (subwords_newv vocab unk maxlen) (map ETok ts) = Ok (grp 0 sg) /\
      sg = map (fun to : str * list elem =>
                  ([ETok (fst to)], if eqb (snd to) [ETok (fst to)] then None else Some (snd to)))
             (combine ts outs).
Proof.
  intros HO.
  set (f := fun t => match span_subwords vocab unk maxlen t with Ok o => o | Err _ => [] end).
  assert (HF : forall t, span_subwords vocab unk maxlen t = Ok (f t) /\
                         subwords vocab unk maxlen t (f t)).
  { intros t. destruct (span_subwords_spec vocab unk maxlen t) as (o & H1 & H2).
    unfold f. rewrite H1. auto. }
  exists (map f ts). split; [apply Forall2_map_r; intros t _; apply HF|].
  set (v := fun x => match x with
                     | ETok t => if eqb (f t) [x] then None else Some (f t)
                     | EIdx _ => None end).
  exists (map (char_seg v) (map ETok ts)).
  split; [apply char_segs_olds|]. split.
  { rewrite char_segs_news, flat_map_concat_map, map_map. f_equal. apply map_ext. intros t.
    cbn [v]. destruct (eqb_spec (f t) [ETok t]) as [Q|Q]; [now rewrite Q|reflexivity]. }
  split.
  { apply elem_group_ok; [exact HO|]. intros x HI. apply in_map_iff in HI.
    destruct HI as (t & <- & _). unfold subwords_newv. rewrite (proj1 (HF t)). reflexivity. }
  rewrite map_map. clear. induction ts as [|t ts IH]; [reflexivity|].
  cbn [map combine fst snd]. rewrite IH. reflexivity.
Qed.

(** Labels. *)
Lemma subwords_maps_all E vocab unk maxlen ts :
  ord_ok (ord_e E) -> ~ ((0 <= maxlen)%Z /\ two_empty ts) ->
  exists outs, Forall2 (subwords vocab unk maxlen) ts outs /\
    maps E (SpanSubwords vocab unk maxlen) any_labels (SLst (map ETok ts)) (SLst (concat outs))
      (repeat_each outs) (gather outs).
Proof.
  intros HO HN.
  destruct (subwords_rewrites E vocab unk maxlen ts HO) as (outs & HS & sg & EO & EN & HG & ESG).
  exists outs. split; [exact HS|].
  assert (NO : nonempty_olds sg).
  { intros o v HI. rewrite ESG in HI. apply in_map_iff in HI. destruct HI as (to & E1 & _).
    injection E1 as <- _. discriminate. }
  assert (NT : forall lo, no_touching_deletions (grp lo sg)).
  { rewrite ESG. clear -HS HN. induction HS as [|t o ts outs H1 H2 IH]; intros lo; [exact I|].
    cbn [combine map fst snd grp].
    assert (HN' : ~ ((0 <= maxlen)%Z /\ two_empty ts)) by (intros (Q0 & Q); apply HN; split; [exact Q0|now right]). specialize (IH HN').
    assert (NE : eqb o [ETok t] = false -> o = [] -> t = []).
    { intros _ ->. destruct H1 as [(_ & ps & HP & Q)|(_ & Q)]; [|discriminate].
      destruct ps; [|discriminate]. inversion HP; subst; reflexivity. }
    destruct (eqb o [ETok t]) eqn:EQ; [apply IH|]. cbn [grp length].
    specialize (IH (lo + 1)).
    destruct (grp (lo + 1) (map (fun to : list Z * list elem =>
       ([ETok (fst to)], if eqb (snd to) [ETok (fst to)] then None else Some (snd to)))
       (combine ts outs))) as [|r g] eqn:EG; [exact I|].
    split; [|exact IH]. cbn [r_new r_end]. intros (Q1 & Q2 & Q3).
    (* the next deletion starts right here: it is the next token *)
    destruct H2 as [|t2 o2 ts outs G1 G2]; [discriminate|].
    cbn [combine map fst snd grp] in EG.
    destruct (eqb o2 [ETok t2]) eqn:EQ2.
    - pose proof (grp_start_ge (lo + 1 + length [ETok t2]) (map (fun to : list Z * list elem =>
       ([ETok (fst to)], if eqb (snd to) [ETok (fst to)] then None else Some (snd to)))
       (combine ts outs))) as F. rewrite EG in F. inversion F as [|? ? F1 _]; subst.
      cbn [length] in F1. lia.
    - cbn [grp] in EG. injection EG as <- _. cbn [r_new] in Q2. subst o2.
      destruct G1 as [(Q0 & ps & HP & Q)|(_ & Q)]; [|discriminate].
      apply HN. split; [lia|]. left. split; [now apply NE|].
      destruct ps; [|discriminate]. inversion HP; subst; reflexivity. }
  destruct (lst_rewrites E (SpanSubwords vocab unk maxlen) sg
    (elem_group E (subwords_newv vocab unk maxlen) (olds sg)) get_most_common except_ne by_mode
    by_entity_mode) as (_ & a & HT & HA).
  - reflexivity.
  - now rewrite EO.
  - exact HO.
  - now apply rule_most_common.
  - apply NT.
  - apply rule_except.
  - exists a. rewrite EO, EN in *. split; [exact HT|].
    assert (LO : length outs = length ts) by (clear -HS; induction HS; cbn; auto).
    eapply aligns_ext; [exact HA| |]; cbn [pseq_length]; rewrite ?map_length.
    + rewrite ESG. clear -LO. revert outs LO.
      induction ts as [|t ts IH]; intros [|o outs] LO [|x l] HL; try discriminate; [reflexivity|].
      unfold repeat_each. cbn [combine map relabel fst snd old_of length firstn skipn concat].
      fold (repeat_each outs l). rewrite <- (IH outs); [|cbn in LO; lia|cbn in HL; lia].
      f_equal. destruct (eqb_spec o [ETok t]) as [->|]; [reflexivity|].
      exact (by_mode_repeat x 1 _ (le_n 1)).
    + rewrite ESG. clear -LO. revert outs LO.
      induction ts as [|t ts IH]; intros [|o outs] LO l HL; try discriminate; [reflexivity|].
      cbn [concat] in HL. rewrite app_length in HL.
      cbn [combine map swap fst snd gather]. rewrite <- (IH outs);
        [|cbn in LO; lia|rewrite skipn_length; lia].
      destruct (eqb_spec o [ETok t]) as [->|].
      * cbn [length] in *. destruct l as [|x l]; [discriminate|].
        unfold swap1. cbn [snd fst relabel old_of length firstn skipn app]. f_equal.
        cbn [filter]. destruct (Z.eqb_spec x 0) as [->|]; [reflexivity|]. cbn [negb]. symmetry.
        exact (mode_repeat x 1 (le_n 1)).
      * unfold swap1. cbn [snd fst relabel old_of]. reflexivity.
Qed.

Lemma subwords_maps E vocab unk maxlen ts :
  ord_ok (ord_e E) -> ~ two_empty ts ->
  exists outs, Forall2 (subwords vocab unk maxlen) ts outs /\
    maps E (SpanSubwords vocab unk maxlen) any_labels (SLst (map ETok ts)) (SLst (concat outs))
      (repeat_each outs) (gather outs).
Proof. intros HO HN. apply subwords_maps_all; [exact HO|]. intros (_ & Q). exact (HN Q). Qed.

Lemma gather_repeat (outs : list (list elem)) l :
  (forall o, In o outs -> o <> []) -> length l = length outs -> gather outs (repeat_each outs l) = l.
Proof.
  revert l; induction outs as [|o outs IH]; intros [|x l] HN HL; try discriminate; [reflexivity|].
  unfold repeat_each. cbn [combine map fst snd concat gather]. fold (repeat_each outs l).
  assert (LR : length (repeat x (length o)) = length o) by apply repeat_length.
  rewrite (firstn_app_len _ _ _ LR), (skipn_app_len _ _ _ LR).
  rewrite IH; [|intros y HY; apply HN; now right|cbn in HL; lia]. f_equal.
  assert (P : 0 < length o).
  { specialize (HN o (or_introl eq_refl)). destruct o; [congruence|cbn; lia]. }
  pose proof (by_entity_mode_repeat x (length o) 1 P) as Q. unfold by_entity_mode in Q.
  cbn [repeat] in Q. injection Q as Q. exact Q.
Qed.

Lemma subwords_nonempty vocab unk maxlen ts outs :
  (forall t, In t ts -> t <> []) -> Forall2 (subwords vocab unk maxlen) ts outs ->
  forall o, In o outs -> o <> [].
Proof.
  intros HN HS. induction HS as [|t o ts outs H1 H2 IH]; intros x HX; [destruct HX|].
  destruct HX as [<-|HX].
  - destruct H1 as [(_ & ps & Q2 & ->)|(_ & ->)]; [|discriminate].
    apply splits_nonempty in Q2; [|apply HN; now left]. now destruct ps.
  - apply IH; [|exact HX]. intros y HY. apply HN. now right.
Qed.
