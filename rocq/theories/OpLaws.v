(** Consequences of the operator specifications: round trips, idempotence, composition. *)

From Coq Require Import String Ascii.
From Verif Require Import Py PyFacts Edit Labels SpecEdit SpecLabels SpecSeg SpecRuns SpecWords
  SpecScan Regex SegProofs RegexProofs RunsProofs WordProofs TrieProofs SpecOps Ops OpProofs
  StrOpProofs ScanProofs ListOpProofs TokProofs SpecHash HashProofs.
From Coq Require Import List.

Lemma maps_inv E o ok x y F G y0 a :
  maps E o ok x y F G -> transform_op E o x = Ok (y0, a) ->
  y0 = y /\ aligns E a ok (pseq_length x) (pseq_length y) F G.
Proof. intros (b & T & A) T'. rewrite T in T'. now inversion T'; subst. Qed.

Lemma maps_restores E o x y F G :
  maps E o any_labels x y F G -> (forall l, length l = pseq_length x -> G (F l) = l) ->
  restores E o x.
Proof.
  intros M R y0 a T l L. destruct (maps_inv _ _ _ _ _ _ _ _ _ M T) as [-> (A1 & _ & A2 & _)].
  destruct (A1 l L I) as [-> L1]. exists (F l). split; [reflexivity|].
  destruct (A2 (F l) L1 I) as [-> _]. now rewrite R.
Qed.

Lemma maps_restores_back E o x y F G :
  maps E o any_labels x y F G -> (forall l, length l = pseq_length y -> F (G l) = l) ->
  restores_back E o x any_labels.
Proof.
  intros M R y0 a T l L _. destruct (maps_inv _ _ _ _ _ _ _ _ _ M T) as [-> (A1 & _ & A2 & _)].
  destruct (A2 l L I) as [-> L1]. exists (G l). split; [reflexivity|].
  destruct (A1 (G l) L1 I) as [-> _]. now rewrite R.
Qed.

Lemma rewrites_restores E o s sg h k :
  rewrites E o s sg h k -> undoes h k sg -> restores E o (SStr s).
Proof.
  intros [O M] U. apply (maps_restores _ _ _ _ _ _ M). intros l L. cbn in L.
  apply relabel_round; [exact U|now rewrite O].
Qed.

Lemma maps_idem E o x y F G F' G' :
  maps E o any_labels x y F G -> maps E o any_labels y y F' G' -> idempotent E o x.
Proof.
  intros M (b & T & _) y0 a T0. destruct (maps_inv _ _ _ _ _ _ _ _ _ M T0) as [-> _].
  now exists b.
Qed.

(** ** Labels of kept pieces *)

(** rules that give the announced number of labels *)
Definition right_size (h : rule) (sg : list (seg Z)) : Prop :=
  forall o v ls, In (o, Some v) sg -> length ls = length o -> length (h ls (length v)) = length v.

Lemma right_size_swap h sg : right_size h (swap sg) ->
  forall o v ls, In (o, Some v) sg -> length ls = length v -> length (h ls (length o)) = length o.
Proof. intros R o v ls I L. apply (R v o); [now apply swap_In|exact L]. Qed.

Lemma nth_error_firstn_lt {A} (l : list A) n i : i < n -> nth_error (firstn n l) i = nth_error l i.
Proof.
  revert n i. induction l as [|x l IH]; intros [|n] [|i] H; try reflexivity; try lia.
  cbn. apply IH. lia.
Qed.
Lemma nth_error_skipn {A} (l : list A) n i : nth_error (skipn n l) i = nth_error l (n + i).
Proof.
  revert l. induction n as [|n IH]; intros [|x l]; try reflexivity; [now destruct i|apply IH].
Qed.

Lemma relabel_round_kept h k (sg : list (seg Z)) l :
  right_size h sg -> right_size k (swap sg) -> length l = length (olds sg) ->
  let l2 := relabel k (swap sg) (relabel h sg l) in
  length l2 = length l /\
  forall sg1 w sg2, sg = sg1 ++ (w, None) :: sg2 ->
    slice l2 (length (olds sg1)) (length (olds sg1) + length w)
    = slice l (length (olds sg1)) (length (olds sg1) + length w).
Proof.
  revert l. induction sg as [|[o nv] sg IH]; intros l R K L; cbn zeta.
  - split; [destruct l; [reflexivity|discriminate]|]. intros [|? ?] w sg2 Q; discriminate.
  - change (length l = length (o ++ olds sg)) in L. rewrite app_length in L.
    assert (R' : right_size h sg) by (intros ? ? ? I; apply R; now right).
    assert (K' : right_size k (swap sg)) by (intros ? ? ? I; apply K; now right).
    destruct (IH (skipn (length o) l) R' K') as [LI HI]; [rewrite skipn_length; lia|].
    set (rest := relabel k (swap sg) (relabel h sg (skipn (length o) l))) in *.
    set (hd_ := firstn (length o) l).
    assert (LH : length hd_ = length o) by (apply firstn_length_le; lia).
    assert (SL : exists back, relabel k (swap (@cons (seg Z) (o, nv) sg))
                                 (relabel h (@cons (seg Z) (o, nv) sg) l)
                 = back ++ rest /\ length back = length o /\ (nv = None -> back = hd_)).
    { destruct nv as [v|]; cbn [swap map swap1 snd fst relabel old_of].
      - assert (LV : length (h hd_ (length v)) = length v) by (apply (R o v); [now left|exact LH]).
        exists (k (h hd_ (length v)) (length o)). fold hd_.
        rewrite (firstn_app_len _ _ _ LV), (skipn_app_len _ _ _ LV).
        fold (swap sg). split; [reflexivity|]. split; [|discriminate].
        apply (K v o); [now left|exact LV].
      - exists hd_. fold hd_. rewrite (firstn_app_len _ _ _ LH), (skipn_app_len _ _ _ LH).
        fold (swap sg). auto. }
    destruct SL as (back & SQ & LB & KB). rewrite SQ. split; [rewrite app_length, LB, LI, skipn_length; lia|].
    intros [|[o1 n1] sg1] w sg2 Q.
    + cbn in Q. inversion Q; subst. rewrite KB by reflexivity. cbn [olds map concat length Nat.add].
      unfold slice. cbn [skipn]. rewrite Nat.sub_0_r.
      now rewrite (firstn_app_len _ _ _ LH).
    + cbn in Q. inversion Q; subst. specialize (HI sg1 w sg2 eq_refl).
      replace (length (olds ((o1, n1) :: sg1))) with (length o1 + length (olds sg1))
        by (symmetry; apply (app_length o1)).
      unfold slice in *.
      replace (length o1 + length (olds sg1) + length w - (length o1 + length (olds sg1)))
        with (length (olds sg1) + length w - length (olds sg1)) by lia.
      rewrite (skipn_app (length o1 + length (olds sg1)) back), LB.
      replace (length o1 + length (olds sg1) - length o1) with (length (olds sg1)) by lia.
      rewrite (skipn_all2 back) by lia. cbn [app]. rewrite HI. f_equal. now rewrite skipn_skipn_add.
Qed.

Lemma rewrites_kept E o s sg h k :
  rewrites E o s sg h k -> right_size h sg -> right_size k (swap sg) -> restores_kept E o s sg.
Proof.
  intros [O M] R K y0 a T l L.
  destruct (maps_inv _ _ _ _ _ _ _ _ _ M T) as [-> (A1 & _ & A2 & _)].
  destruct (A1 l L I) as [-> L1]. destruct (A2 _ L1 I) as [E2 _].
  destruct (relabel_round_kept h k sg l R K) as [_ HK]; [rewrite O; exact L|].
  eexists. eexists. split; [reflexivity|]. split; [exact E2|exact HK].
Qed.

Lemma right_by_mode sg : right_size by_mode sg.
Proof. intros o v ls _ _. apply repeat_length. Qed.
Lemma right_by_entity_mode sg : right_size by_entity_mode sg.
Proof. intros o v ls _ _. apply repeat_length. Qed.
Lemma right_by_zero sg : right_size by_zero sg.
Proof. intros o v ls _ _. apply repeat_length. Qed.
Lemma right_around_mode sg :
  (forall o v, In (o, Some v) sg -> 2 <= length v) -> right_size (around by_mode) sg.
Proof.
  intros H o v ls I _. unfold around, by_mode. cbn [length]. rewrite app_length, repeat_length.
  cbn [length]. specialize (H o v I). lia.
Qed.

(** a character outside the class is in a kept piece *)
Lemma runs_concat p s : concat (map snd (runs p s)) = s.
Proof.
  induction s as [|c s IH]; [reflexivity|]. cbn [runs]. destruct (runs p s) as [|[b r] rs] eqn:Q.
  - cbn in IH. now subst.
  - destruct (Bool.eqb b (p c)); cbn in IH |- *; now rewrite IH.
Qed.

Lemma runs_flags p s : Forall (fun br : bool * str => forall c, In c (snd br) -> p c = fst br) (runs p s).
Proof.
  induction s as [|c s IH]; [constructor|]. cbn [runs]. destruct (runs p s) as [|[b r] rs].
  - constructor; [|constructor]. now intros d [<-|[]].
  - inversion IH as [|? ? H1 H2]; subst. destruct (Bool.eqb b (p c)) eqn:Q.
    + constructor; [|exact H2]. apply Bool.eqb_prop in Q. intros d [<-|Hd]; [now subst|now apply H1].
    + constructor; [|exact IH]. now intros d [<-|[]].
Qed.

Lemma locate_run (rs : list (bool * str)) i c :
  nth_error (concat (map snd rs)) i = Some c ->
  exists rs1 b r rs2 j, rs = rs1 ++ (b, r) :: rs2 /\ nth_error r j = Some c /\
    i = length (concat (map snd rs1)) + j.
Proof.
  revert i. induction rs as [|[b r] rs IH]; intros i H; [destruct i; discriminate|].
  cbn [map snd concat] in H. destruct (Nat.lt_ge_cases i (length r)) as [L|L].
  - rewrite nth_error_app1 in H by exact L. now exists [], b, r, rs, i.
  - rewrite nth_error_app2 in H by exact L. destruct (IH _ H) as (rs1 & b' & r' & rs2 & j & -> & N & Q).
    exists ((b, r) :: rs1), b', r', rs2, j. cbn [map snd concat app]. rewrite app_length.
    split; [reflexivity|]. split; [exact N|lia].
Qed.

Lemma seg_runs_olds_prefix (choose : str -> option str) (rs1 : list (bool * str)) :
  olds (map (fun br : bool * str => (snd br, if fst br then choose (snd br) else None)) rs1)
  = concat (map snd rs1).
Proof. unfold olds. now rewrite map_map. Qed.

Lemma kept_where E o p choose s :
  restores_kept E o s (seg_runs p choose s) -> restores_where E o s (fun c => negb (p c)).
Proof.
  intros K y a T l L. destruct (K y a T l L) as (l1 & l2 & A1 & A2 & H).
  exists l1, l2. split; [exact A1|]. split; [exact A2|]. intros i c N PC.
  rewrite <- (runs_concat p s) in N.
  destruct (locate_run _ _ _ N) as (rs1 & b & r & rs2 & j & Q & NJ & IQ).
  assert (b = false).
  { pose proof (runs_flags p s) as F. rewrite Q in F. apply Forall_app in F as [_ F].
    inversion F as [|? ? F1 _]; subst. cbn in F1. rewrite <- (F1 c); [|eapply nth_error_In; eauto].
    now destruct (p c). }
  subst b.
  set (f := fun br : bool * str => (snd br, if fst br then choose (snd br) else None)).
  specialize (H (map f rs1) r (map f rs2)).
  assert (LO : length (olds (map f rs1)) = length (concat (map snd rs1)))
    by (unfold f; now rewrite seg_runs_olds_prefix).
  rewrite LO in H.
  assert (HS : seg_runs p choose s = map f rs1 ++ (r, None) :: map f rs2).
  { unfold seg_runs. rewrite Q. fold f. now rewrite map_app. }
  specialize (H HS). set (k := length (concat (map snd rs1))) in *.
  assert (JR : j < length r) by (apply nth_error_Some; now rewrite NJ).
  assert (G : forall t : list Z, nth_error (slice t k (k + length r)) j = nth_error t (k + j)).
  { intros t. unfold slice. rewrite nth_error_firstn_lt by lia. now rewrite nth_error_skipn. }
  rewrite IQ. rewrite <- (G l2), <- (G l), H. reflexivity.
Qed.

(** ** Per operator *)

Lemma lower_idempotent E s : ord_ok (ord_c E) -> idempotent E Lowercase (SStr s).
Proof.
  intros O. apply (maps_idem E Lowercase (SStr s) (SStr (map lower s)) keep keep keep keep).
  - now apply lowercase_maps.
  - replace (SStr (map lower s)) with (SStr (map lower (map lower s))) at 2.
    + now apply lowercase_maps.
    + f_equal. rewrite map_map. apply map_ext. intros c. apply lower_idem.
Qed.

Lemma merge_idempotent E s :
  ord_ok (ord_c E) -> is_space E 32 = true -> idempotent E MergeWhiteSpaceCharacters (SStr s).
Proof.
  intros O SP. destruct (merge_rewrites E s O) as [_ M].
  destruct (merge_rewrites E (news (seg_runs (is_space E) (fun _ => Some blank) s)) O) as [_ M2].
  eapply maps_idem; [exact M|].
  pose proof (merged_idem (is_space E) 32%Z s SP) as Q. unfold merged in Q.
  change [32%Z] with blank in Q. rewrite Q in M2. exact M2.
Qed.

Lemma merge_no_adjacent E s y a :
  ord_ok (ord_c E) -> is_space E 32 = true ->
  transform_op E MergeWhiteSpaceCharacters (SStr s) = Ok (SStr y, a) ->
  forall i c d, nth_error y i = Some c -> nth_error y (S i) = Some d ->
  is_space E c = false \/ is_space E d = false.
Proof.
  intros O SP T i c d HC HD. destruct (merge_rewrites E s O) as [_ M].
  destruct (maps_inv _ _ _ _ _ _ _ _ _ M T) as [Q _]. inversion Q; subst y.
  destruct (is_space E c) eqn:SC; [|now left]. destruct (is_space E d) eqn:SD; [|now right].
  exfalso. exact (merged_no_adjacent (is_space E) 32%Z s SP i c d HC HD SC SD).
Qed.

Lemma merge_where E s :
  ord_ok (ord_c E) -> restores_where E MergeWhiteSpaceCharacters s (fun c => negb (is_space E c)).
Proof.
  intros O. eapply kept_where. eapply rewrites_kept; [exact (merge_rewrites E s O)| |];
    apply right_by_mode.
Qed.

Lemma strip_idempotent E s : ord_ok (ord_c E) -> idempotent E StripWhiteSpaceCharacters (SStr s).
Proof.
  intros O. eapply maps_idem; [exact (strip_maps E s O)|].
  pose proof (strip_maps E (strip (is_space E) s) O) as M. cbn zeta in M.
  rewrite strip_idem in M. exact M.
Qed.

Lemma strip_size p s : exists k, length s = lead p s + length (strip p s) + k.
Proof.
  assert (DW : forall t, length (drop_while p t) <= length t).
  { induction t as [|c t IH]; [reflexivity|]. cbn. destruct (p c); cbn; lia. }
  unfold lead, strip, lstrip, rstrip. rewrite rev_length.
  pose proof (DW s). pose proof (DW (rev (drop_while p s))) as D2. rewrite rev_length in D2.
  exists (length (drop_while p s) - length (drop_while p (rev (drop_while p s)))). lia.
Qed.

Lemma strip_restores_back E s :
  ord_ok (ord_c E) -> restores_back E StripWhiteSpaceCharacters (SStr s) any_labels.
Proof.
  intros O. eapply maps_restores_back; [exact (strip_maps E s O)|]. intros l L. cbn in L.
  cbn beta. rewrite <- (repeat_length 0%Z (lead (is_space E) s)) at 1. rewrite skipn_app_exact.
  rewrite <- L. apply firstn_app_exact.
Qed.

Lemma merge_then_strip E s y a :
  ord_ok (ord_c E) -> is_space E 32 = true ->
  transform_op E MergeWhiteSpaceCharacters (SStr s) = Ok (y, a) ->
  exists b, transform_op E StripWhiteSpaceCharacters y
            = Ok (SStr (joined blank (words (is_space E) s)), b).
Proof.
  intros O SP T. destruct (merge_rewrites E s O) as [_ M].
  destruct (maps_inv _ _ _ _ _ _ _ _ _ M T) as [-> _].
  destruct (strip_maps E (news (seg_runs (is_space E) (fun _ => Some blank) s)) O) as (b & TB & _).
  exists b. rewrite TB. do 3 f_equal.
  exact (strip_merged (is_space E) 32%Z s SP).
Qed.

(** Numbers: what is left, and idempotence. *)
Lemma seg_runs_id p choose s :
  Forall (fun r => choose r = None) (class_runs p s) -> news (seg_runs p choose s) = s.
Proof.
  intros F. rewrite seg_runs_news. rewrite <- (runs_concat p s) at 2. f_equal.
  unfold class_runs in F. apply map_ext_in. intros [[|] r] I; [|reflexivity]. cbn [fst snd].
  rewrite Forall_forall in F. rewrite F; [reflexivity|]. apply in_map_iff. exists (true, r).
  split; [reflexivity|]. apply filter_In. auto.
Qed.

Lemma number_idem E o (choice : str -> bool) tok h k :
  tok <> [] -> (forall c, In c tok -> point c || digit E c = false) ->
  let sg := seg_runs (fun c => point c || digit E c) (fun r => if choice r then Some tok else None) in
  (forall s, rewrites E o s (sg s) h k) -> forall s, idempotent E o (SStr s).
Proof.
  intros NT NC sg R s. destruct (R s) as [_ M]. destruct (R (news (sg s))) as [_ M2].
  eapply maps_idem; [exact M|]. replace (SStr (news (sg s))) with (SStr (news (sg (news (sg s))))) at 2.
  - exact M2.
  - f_equal. unfold sg at 1. apply seg_runs_id.
    pose proof (number_left E choice tok s NT NC) as F. fold (sg s) in F.
    eapply Forall_impl; [|exact F]. intros r Hr. now rewrite Hr.
Qed.

Lemma number_size (p : Z -> bool) (choice : str -> bool) tok s :
  2 <= length tok ->
  right_size (around by_mode) (seg_runs p (fun r => if choice r then Some tok else None) s).
Proof.
  intros L. apply right_around_mode. intros o v I. apply seg_runs_In in I. cbn in I.
  destruct (choice o); [inversion I; subst; exact L|discriminate].
Qed.

Lemma int_kept E s : ord_ok (ord_c E) -> restores_kept E IntToken s (int_like E (txt "_int_") s).
Proof.
  intros O. eapply rewrites_kept; [exact (int_rewrites E s O)| |];
    [apply right_by_mode|apply right_by_entity_mode].
Qed.
Lemma int_space_kept E s :
  ord_ok (ord_c E) -> restores_kept E IntTokenWithSpace s (int_like E (txt " _int_ ") s).
Proof.
  intros O. eapply rewrites_kept; [exact (int_space_rewrites E s O)| |];
    [apply number_size; cbn; lia|apply right_by_entity_mode].
Qed.
Lemma num_space_kept E s :
  ord_ok (ord_c E) -> restores_kept E NumTokenWithSpace s (int_like E (txt " _num_ ") s).
Proof.
  intros O. eapply rewrites_kept; [exact (num_space_rewrites E s O)| |];
    [apply number_size; cbn; lia|apply right_by_entity_mode].
Qed.
Lemma float_kept E s : ord_ok (ord_c E) -> restores_kept E FloatToken s (float_like E (txt "_float_") s).
Proof.
  intros O. eapply rewrites_kept; [exact (float_rewrites E s O)| |];
    [apply right_by_mode|apply right_by_entity_mode].
Qed.
Lemma float_space_kept E s :
  ord_ok (ord_c E) -> restores_kept E FloatTokenWithSpace s (float_like E (txt " _float_ ") s).
Proof.
  intros O. eapply rewrites_kept; [exact (float_space_rewrites E s O)| |];
    [apply number_size; cbn; lia|apply right_by_entity_mode].
Qed.

(** ** The scan *)

Lemma replaced_covered r newv s p sg :
  p <= length s -> replaced (search r) newv s p sg -> covered r newv s p sg.
Proof.
  intros LP H. induction H as [p H|p i e sg LT F H IH].
  - apply cov_end; [exact LP| |].
    + intros i e [L1 L2]. destruct H as [->|F]; [lia|]. pose proof (search_leftmost r s p LP) as S.
      rewrite F in S. apply S. lia.
    + intros LT e. destruct H as [->|F]; [lia|]. pose proof (search_leftmost r s p LP) as S.
      rewrite F in S. apply S. lia.
  - pose proof (search_leftmost r s p LP) as S. rewrite F in S. destruct S as (S1 & S2 & S3 & S4 & S5).
    pose proof (replaced_advances (search r) newv (search_in_bounds r) s p i e sg LT F H).
    apply cov_match; auto.
Qed.

(** ** Punctuation *)

Lemma endpoint_idempotent E s :
  ord_ok (ord_c E) -> is_pcat E 32 = false ->
  idempotent E PunctuationExceptEndpointToWhitespace (SStr s).
Proof.
  intros O SP. eapply maps_idem; [exact (endpoint_maps E s O)|].
  set (p := endless_punct E).
  assert (P32 : p 32%Z = false).
  { unfold p, endless_punct, punctuation. rewrite SP. reflexivity. }
  pose proof (endpoint_maps E (map (fun c => if p c then 32%Z else c) s) O) as M. cbn zeta in M.
  fold p in M.
  replace (map (fun c => if p c then 32%Z else c) (map (fun c => if p c then 32%Z else c) s))
    with (map (fun c => if p c then 32%Z else c) s) in M; [exact M|].
  rewrite map_map. apply map_ext.
  intros c. cbn beta. destruct (p c) eqn:Q; [now rewrite P32|now rewrite Q].
Qed.

(** ** Pad, SosEos, EndToken *)

Lemma pad_idempotent E maxlen pad l :
  ord_ok (ord_e E) -> (0 <= maxlen)%Z ->
  (Z.of_nat (length l) < 2 ^ 32)%Z \/ Z.of_nat (length l) = maxlen ->
  idempotent E (Pad maxlen pad) (SLst l).
Proof.
  intros O P L. set (m := Z.to_nat maxlen).
  assert (LY : length (firstn m l ++ repeat pad (m - length l)) = m).
  { rewrite app_length, firstn_length, repeat_length. lia. }
  eapply maps_idem; [exact (pad_maps E maxlen pad l O P L)|]. fold m.
  pose proof (pad_maps E maxlen pad (firstn m l ++ repeat pad (m - length l)) O P) as M. cbn zeta in M.
  fold m in M. rewrite LY in M. rewrite Nat.sub_diag in M. cbn [repeat] in M.
  rewrite app_nil_r in M. rewrite (firstn_all2 (n := m) (firstn m l ++ _)) in M by lia.
  apply M. right. unfold m. lia.
Qed.

Lemma pad_restores E maxlen pad l :
  ord_ok (ord_e E) -> (0 <= maxlen)%Z -> (Z.of_nat (length l) < 2 ^ 32)%Z ->
  (Z.of_nat (length l) <= maxlen)%Z -> restores E (Pad maxlen pad) (SLst l).
Proof.
  intros O P L LE. eapply maps_restores; [exact (pad_maps E maxlen pad l O P (or_introl L))|].
  intros ls LL. cbn in LL. cbn beta. rewrite (firstn_all2 (n := Z.to_nat maxlen)) by lia.
  rewrite <- LL. rewrite firstn_app_exact. replace (length ls - _) with 0 by lia. apply app_nil_r.
Qed.

Lemma end_restores E eos l :
  ord_ok (ord_e E) -> (Z.of_nat (length l) < 2 ^ 32)%Z -> restores E (AddEndToken eos) (SLst l).
Proof.
  intros O L. eapply maps_restores; [exact (end_maps E eos l O L)|]. intros ls LL. cbn in LL.
  cbn beta. rewrite <- LL. apply firstn_app_exact.
Qed.

Lemma soseos_restores E sos eos l :
  ord_ok (ord_e E) -> l <> [] -> (Z.of_nat (length l) < 2 ^ 32)%Z ->
  restores E (AddSosEos sos eos) (SLst l).
Proof.
  intros O N L. eapply maps_restores; [exact (soseos_maps E sos eos l O N L)|]. intros ls LL.
  cbn in LL. cbn [tl]. rewrite <- LL. apply firstn_app_exact.
Qed.

(** ** Indices *)

Lemma index_of_range d unk x y :
  continuous d -> index_of d unk x y -> exists i, y = EIdx i /\ (0 <= i < Z.of_nat (length d))%Z.
Proof.
  intros C (i & -> & H). exists i. split; [reflexivity|].
  destruct x as [t|j]; [destruct H as [H|[_ H]]|]; eapply continuous_range; eauto.
Qed.

Lemma Forall2_impl_r {A B} (R : A -> B -> Prop) (P : B -> Prop) l m :
  (forall x y, R x y -> P y) -> Forall2 R l m -> Forall P m.
Proof. intros H F. induction F; constructor; eauto. Qed.

Lemma perm_dec (l m : list Z) : {Permutation l m} + {~ Permutation l m}.
Proof.
  destruct (forallb (fun x => count_occ Z.eq_dec l x =? count_occ Z.eq_dec m x) (l ++ m)) eqn:Q.
  - left. apply (Permutation_count_occ Z.eq_dec). intros x.
    destruct (in_dec Z.eq_dec x (l ++ m)) as [I|N].
    + rewrite forallb_forall in Q. now apply Nat.eqb_eq, Q.
    + rewrite in_app_iff in N.
      rewrite (proj1 (count_occ_not_In Z.eq_dec l x)), (proj1 (count_occ_not_In Z.eq_dec m x)); tauto.
  - right. intros P. apply Bool.not_true_iff_false in Q. apply Q, forallb_forall. intros x _.
    apply Nat.eqb_eq. now apply (Permutation_count_occ Z.eq_dec).
Qed.

Lemma index_range E d unk o l y a :
  python E -> make_token2index d unk = Ok o -> transform_op E o (SLst l) = Ok (SLst y, a) ->
  Forall (fun z => exists i, z = EIdx i /\ (0 <= i < Z.of_nat (length d))%Z) y.
Proof.
  intros (_ & O & _) M T. destruct (make_token2index_spec d unk) as (S1 & S2 & S3).
  assert (C : d <> [] /\ continuous d).
  { destruct (validate_spec d) as [V1 V2].
    destruct (perm_dec (map snd d) (map Z.of_nat (seq 0 (length d)))) as [P|P].
    - split; [|exact P]. intros ->. rewrite S3 in M; [discriminate|]. now intros [[] _].
    - rewrite S3 in M; [discriminate|]. now intros [_ ?]. }
  destruct (in_dec (list_eq_dec Z.eq_dec) unk (map fst d)) as [I|N].
  2: { rewrite S2 in M; [discriminate|tauto]. }
  rewrite S1 in M by tauto. inversion M; subst o.
  destruct (token2index_maps E d unk l O I) as (out & F & b & TB & _).
  rewrite TB in T. inversion T; subst. eapply Forall2_impl_r; [|exact F].
  intros x z. apply index_of_range. tauto.
Qed.

Lemma make_hash_spec (d : list (str * Z)) :
  (d <> [] /\ continuous d -> make_hash d = Ok (Token2IndexwithHash d)) /\
  (~ (d <> [] /\ continuous d) -> make_hash d = Err ValueErr).
Proof.
  destruct (validate_spec d) as [V1 V2]. unfold make_hash. split; intros H.
  - now rewrite V1.
  - now rewrite V2.
Qed.

Lemma hashed_range d t i :
  d <> [] -> continuous d -> hashed_index d t i -> (0 <= i < Z.of_nat (length d))%Z.
Proof.
  intros N C H. assert (0 < Z.of_nat (length d))%Z by (destruct d; [congruence|cbn; lia]).
  destruct H as [H|[_ [(bs & _ & ->)|[_ ->]]]].
  - eapply continuous_range; eauto.
  - now apply Z.mod_pos_bound.
  - lia.
Qed.

Lemma hash_type_error E d ts i l :
  (Z.of_nat (length d) < M)%Z ->
  transform_op E (Token2IndexwithHash d) (SLst (map ETok ts ++ EIdx i :: l)) = Err TypeErr.
Proof.
  intros N. cbn [transform_op input_type type_of seqtype_eqb guard bind transform_lst].
  unfold elem_group, lst_result_null.
  rewrite (elem_edits_err (hash_newv d) TypeErr); [reflexivity| |reflexivity].
  intros y Hy. apply in_map_iff in Hy as (t & <- & _). cbn [hash_newv].
  destruct (dict_get d t) as [j|]; [eauto|]. unfold consistent_hash, to_u32.
  destruct (_ : bool) eqn:Q; [cbn [guard bind]|].
  - destruct (utf8 t); [|cbn; eauto]. destruct (_ =? 0)%Z; cbn; eauto.
  - exfalso. unfold u32b, two32, M in *. apply andb_false_iff in Q as [Q|Q]; lia.
Qed.

(** ** Tokenizers *)

Lemma cut_det k s ps ps' : cut k s ps -> cut k s ps' -> ps = ps'.
Proof. intros H H'. now rewrite (cut_unique k s ps H), (cut_unique k s ps' H'). Qed.

Lemma kept_tokens ps : tokens_of (kept ps) =
  map fst (filter (fun x : str * kind => match snd x with Gap => false | _ => true end) ps).
Proof.
  unfold tokens_of, kept. induction ps as [|[w d] ps IH]; [reflexivity|].
  cbn. destruct d; cbn; now rewrite IH.
Qed.

Lemma filter_all {A} (f : A -> bool) l : (forall x, In x l -> f x = true) -> filter f l = l.
Proof.
  induction l as [|x l IH]; intros H; [reflexivity|]. cbn. rewrite H by now left.
  rewrite IH; [reflexivity|]. intros y Hy. apply H. now right.
Qed.
Lemma filter_none {A} (f : A -> bool) l : (forall x, In x l -> f x = false) -> filter f l = [].
Proof.
  induction l as [|x l IH]; intros H; [reflexivity|]. cbn. rewrite H by now left.
  apply IH. intros y Hy. apply H. now right.
Qed.

(** tokens of a cut: nothing but the gaps is lost *)
Lemma cut_tokens (sp : Z -> bool) k s ps :
  (forall c, k c = Gap <-> sp c = true) -> cut k s ps ->
  concat (tokens_of (kept ps)) = filter (fun c => negb (sp c)) s /\
  Forall (fun t => t <> [] /\ forall c, In c t -> sp c = false) (tokens_of (kept ps)).
Proof.
  intros K (C & F & _). subst s. rewrite kept_tokens.
  induction F as [|[w d] ps (NE & AK & _) F IH]; [split; [reflexivity|constructor]|].
  destruct IH as [IH1 IH2]. cbn [map concat fst snd] in *. rewrite filter_app, <- IH1.
  assert (D : d = Gap \/ d <> Gap) by (destruct d; [now left|right; discriminate|right; discriminate]).
  destruct D as [->|D].
  - cbn [filter snd]. rewrite (filter_none _ w); [split; [reflexivity|exact IH2]|].
    intros c Hc. apply AK, K in Hc. now rewrite Hc.
  - assert (NS : forall c, In c w -> sp c = false).
    { intros c Hc. destruct (sp c) eqn:Q; [|reflexivity]. apply K in Q. rewrite (AK c Hc) in Q. now cbn in Q. }
    rewrite (filter_all _ w); [|intros c Hc; now rewrite NS].
    destruct d; [congruence| |]; cbn [filter snd map fst concat]; (split; [reflexivity|now constructor]).
Qed.

Lemma tokenizes_cut E o k s :
  (forall c, k c = Gap <-> is_space E c = true) ->
  (forall ps, cut k s ps -> tokenizes E o s (kept ps)) -> loses_only_space E o s.
Proof.
  intros K H. pose proof (cut_by_cut k s) as C. destruct (H _ C) as (_ & a & T & _).
  exists (tokens_of (kept (cut_by k s))), a. split; [exact T|]. exact (cut_tokens _ k s _ K C).
Qed.

Lemma by_space_gap E c : by_space E c = Gap <-> is_space E c = true.
Proof. unfold by_space. destruct (is_space E c); split; congruence. Qed.
Lemma by_punct_gap E c : by_punct E c = Gap <-> is_space E c = true.
Proof. unfold by_punct. destruct (is_space E c), (punctuation E c); split; congruence. Qed.
Lemma by_punct_cjk_gap E c : by_punct_cjk E c = Gap <-> is_space E c = true.
Proof. unfold by_punct_cjk. destruct (is_space E c), (punctuation E c || cjk c); split; congruence. Qed.

Lemma token_char_labels ps l :
  (forall w, In (w, true) ps -> w <> []) -> length l = length (tokens_of ps) ->
  token_labels ps (char_labels ps l) = l.
Proof.
  revert l. induction ps as [|[w [|]] ps IH]; intros l N L.
  - destruct l; [reflexivity|discriminate].
  - destruct l as [|x l]; [discriminate|]. cbn [char_labels token_labels hd tl].
    assert (0 < length w) by (destruct w; [exfalso; now apply (N []); [left|]|cbn; lia]).
    rewrite (firstn_app_len _ _ _ (repeat_length x (length w))),
            (skipn_app_len _ _ _ (repeat_length x (length w))).
    rewrite mode_repeat by assumption. f_equal. apply IH; [|now inversion L].
    intros v Hv. apply N. now right.
  - cbn [char_labels token_labels].
    rewrite (skipn_app_len _ _ _ (repeat_length 0%Z (length w))).
    apply IH; [|exact L]. intros v Hv. apply N. now right.
Qed.

Lemma tokenizes_back E o s ps :
  tokenizes E o s ps -> (forall w, In (w, true) ps -> w <> []) ->
  restores_back E o (SStr s) u32_labels.
Proof.
  intros (TX & a & T & (A1 & _ & A2 & _) & AF & _) N y b T' l L U. rewrite T in T'. inversion T'; subst.
  cbn in L. rewrite map_length in L. destruct (A2 l L U) as [E2 L2]. exists (char_labels ps l).
  split; [exact E2|]. rewrite AF by exact L2. f_equal.
  rewrite token_labels32_ok.
  - now apply token_char_labels.
  - clear - U L. revert l U L. induction ps as [|[w [|]] ps IH]; intros l U L; [constructor| |].
    + destruct l as [|x l]; [discriminate|]. inversion U; subst. cbn [char_labels hd tl].
      apply Forall_app. split; [|apply IH; [assumption|now inversion L]].
      apply Forall_forall. intros z Hz. apply repeat_spec in Hz. now subst.
    + cbn [char_labels]. apply Forall_app. split; [|now apply IH].
      apply Forall_forall. intros z Hz. apply repeat_spec in Hz. subst. lia.
Qed.

Lemma kept_nonempty k s ps w : cut k s ps -> In (w, true) (kept ps) -> w <> [].
Proof.
  intros (_ & F & _) I. unfold kept in I. apply in_map_iff in I as ([v d] & Q & I).
  rewrite Forall_forall in F. destruct (F _ I) as [N _]. cbn in Q, N. inversion Q; now subst.
Qed.

Lemma cut_back E o k s :
  (forall ps, cut k s ps -> tokenizes E o s (kept ps)) -> restores_back E o (SStr s) u32_labels.
Proof.
  intros H. pose proof (cut_by_cut k s) as C. apply (tokenizes_back _ _ _ _ (H _ C)).
  intros w. now apply (kept_nonempty k s).
Qed.

Lemma ws_lossless E s : ord_ok (ord_c E) -> loses_only_space E WhiteSpaceTokenizer s.
Proof.
  intros O. apply (tokenizes_cut _ _ (by_space E)); [apply by_space_gap|].
  intros ps. now apply ws_tokenizes.
Qed.
Lemma eng_lossless E s : python E -> loses_only_space E EngTokenizer s.
Proof.
  intros (O & _ & S). apply (tokenizes_cut _ _ (by_punct E)); [apply by_punct_gap|].
  intros ps. now apply eng_tokenizes.
Qed.
Lemma zh_lossless E s : python E -> loses_only_space E ZhCharTokenizer s.
Proof.
  intros (O & _ & S). apply (tokenizes_cut _ _ (by_punct_cjk E)); [apply by_punct_cjk_gap|].
  intros ps. now apply zh_tokenizes.
Qed.

Lemma char_lossless E s : ord_ok (ord_c E) -> lossless E CharTokenizer s.
Proof.
  intros O. destruct (char_tokenizes E s O) as (_ & a & T & _). eexists. exists a.
  split; [exact T|]. clear. induction s as [|c s IH]; [reflexivity|].
  change (c :: concat (tokens_of (map (fun c => ([c], true)) s)) = c :: s). now rewrite IH.
Qed.

Lemma custom_lossless E ws sh o s :
  ord_ok (ord_c E) -> make_custom (Some ws) sh = Ok o -> lossless E o s.
Proof.
  intros O M. destruct (munched_exists sh ws s) as (ps & P).
  destruct (custom_tokenizes E ws sh o s ps O M P) as (X & a & T & _).
  eexists. exists a. split; [exact T|]. rewrite all_kept_tokens. now rewrite all_kept_text in X.
Qed.

Lemma ws_back E s : ord_ok (ord_c E) -> restores_back E WhiteSpaceTokenizer (SStr s) u32_labels.
Proof. intros O. apply (cut_back _ _ (by_space E)). intros ps. now apply ws_tokenizes. Qed.
Lemma eng_back E s : python E -> restores_back E EngTokenizer (SStr s) u32_labels.
Proof. intros (O & _ & S). apply (cut_back _ _ (by_punct E)). intros ps. now apply eng_tokenizes. Qed.
Lemma zh_back E s : python E -> restores_back E ZhCharTokenizer (SStr s) u32_labels.
Proof. intros (O & _ & S). apply (cut_back _ _ (by_punct_cjk E)). intros ps. now apply zh_tokenizes. Qed.
Lemma char_back E s : ord_ok (ord_c E) -> restores_back E CharTokenizer (SStr s) u32_labels.
Proof.
  intros O. apply (tokenizes_back _ _ _ _ (char_tokenizes E s O)). intros w I.
  apply in_map_iff in I as (c & Q & _). now inversion Q.
Qed.
Lemma custom_back E ws sh o s :
  ord_ok (ord_c E) -> make_custom (Some ws) sh = Ok o -> restores_back E o (SStr s) u32_labels.
Proof.
  intros O M. destruct (munched_exists sh ws s) as (ps & P).
  apply (tokenizes_back _ _ _ _ (custom_tokenizes E ws sh o s ps O M P)). intros w I.
  unfold all_kept in I. rewrite map_map in I. apply in_map_iff in I as (p & Q & I). inversion Q; subst.
  pose proof (munched_nonempty _ _ _ _ P) as F. rewrite Forall_forall in F. now apply F.
Qed.

(** ** Tries *)

Lemma trie_build ws :
  (fresh_words ws /\ exists t, trie_of ws = Ok t) \/ (~ fresh_words ws /\ trie_of ws = Err AttributeErr).
Proof.
  destruct (insert_all_cases ws trie_empty [] holds_empty) as [(F & t & Q & _)|H].
  - constructor.
  - left. split; [exact F|]. now exists t.
  - now right.
Qed.

Lemma trie_holds ws t : trie_of ws = Ok t -> holds t ws.
Proof.
  intros Q. destruct (insert_all_cases ws trie_empty [] holds_empty) as [(F & t' & Q' & H)|[_ Q']].
  - constructor.
  - unfold trie_of in Q. rewrite Q' in Q. inversion Q; now subst.
  - unfold trie_of in Q. congruence.
Qed.

Lemma trie_search ws t q :
  trie_of ws = Ok t -> (exactly_search t q = true <-> In q ws /\ q <> []).
Proof. intros Q. rewrite search_word_at. apply holds_truthy, trie_holds, Q. Qed.

Lemma trie_match ws t q sh :
  trie_of ws = Ok t ->
  match match_prefix t q sh with
  | Some w => best_word sh ws q w
  | None => no_word ws q
  end.
Proof. intros Q. apply match_prefix_best, trie_holds, Q. Qed.

(** ** SpanSubwords *)

Lemma subwords_det vocab unk maxlen t out out' :
  subwords vocab unk maxlen t out -> subwords vocab unk maxlen t out' -> out = out'.
Proof.
  intros [(L & ps & S & ->)|(H & ->)] [(L' & ps' & S' & ->)|(H' & ->)]; try reflexivity.
  - now rewrite (splits_unique _ _ _ _ _ S S').
  - destruct H' as [H'|H']; [lia|]. exfalso. eauto.
  - destruct H as [H|H]; [lia|]. exfalso. eauto.
Qed.

Lemma no_empty_two ts : (forall t, In t ts -> t <> []) -> ~ two_empty ts.
Proof.
  induction ts as [|t ts IH]; intros N; [exact id|]. intros [[-> _]|H].
  - now apply (N []); [left|].
  - apply IH in H; [exact H|]. intros u Hu. apply N. now right.
Qed.

Lemma subwords_restores E vocab unk maxlen ts :
  ord_ok (ord_e E) -> (forall t, In t ts -> t <> []) ->
  restores E (SpanSubwords vocab unk maxlen) (SLst (map ETok ts)).
Proof.
  intros O N. destruct (subwords_maps E vocab unk maxlen ts O (no_empty_two ts N)) as (outs & F & M).
  eapply maps_restores; [exact M|]. intros l L. cbn in L. rewrite map_length in L.
  apply gather_repeat; [eapply subwords_nonempty; eauto|]. rewrite L. clear - F. induction F; cbn; congruence.
Qed.

(** ** Words and Chinese characters *)

Lemma make_wordn_inv ws sh o :
  make_wordn (Some ws) sh = Ok o -> exists t, o = AddWhitespaceAroundWordnZhChar t sh /\ holds t ws.
Proof.
  intros M. pose proof (make_trie_spec (Some ws)) as S. unfold make_wordn in M. destruct ws as [|w ws].
  - rewrite S in M. discriminate.
  - destruct S as [(_ & t & Q & H)|(_ & Q)]; rewrite Q in M; [|discriminate].
    cbn in M. inversion M; subst. eauto.
Qed.

Lemma make_wordn_spec ws sh :
  (ws <> [] /\ fresh_words ws /\ exists o, make_wordn (Some ws) sh = Ok o) \/
  (ws <> [] /\ ~ fresh_words ws /\ make_wordn (Some ws) sh = Err AttributeErr) \/
  (ws = [] /\ make_wordn (Some ws) sh = Err ValueErr).
Proof.
  pose proof (make_trie_spec (Some ws)) as S. unfold make_wordn. destruct ws as [|w ws].
  - right; right. now rewrite S.
  - destruct S as [(F & t & Q & _)|(F & Q)]; rewrite Q; [left|right; left];
      repeat split; try discriminate; eauto. now exists (AddWhitespaceAroundWordnZhChar t sh).
Qed.
Lemma make_custom_spec ws sh :
  (ws <> [] /\ fresh_words ws /\ exists o, make_custom (Some ws) sh = Ok o) \/
  (ws <> [] /\ ~ fresh_words ws /\ make_custom (Some ws) sh = Err AttributeErr) \/
  (ws = [] /\ make_custom (Some ws) sh = Err ValueErr).
Proof.
  pose proof (make_trie_spec (Some ws)) as S. unfold make_custom. destruct ws as [|w ws].
  - right; right. now rewrite S.
  - destruct S as [(F & t & Q & _)|(F & Q)]; rewrite Q; [left|right; left];
      repeat split; try discriminate; eauto. now exists (CustomWordTokenizer t sh).
Qed.

Lemma wordn_ok E ws sh o s ps :
  ord_ok (ord_c E) -> make_wordn (Some ws) sh = Ok o -> munched sh ws s ps ->
  rewrites E o s (word_spaced ps) (around same) without_ends.
Proof.
  intros O M P. destruct (make_wordn_inv _ _ _ M) as (t & -> & H).
  destruct (wordn_rewrites E t ws sh s O H) as (ps' & P' & R).
  now rewrite (munched_unique _ _ _ _ _ P P').
Qed.

Lemma wordn_restores E ws sh o s :
  ord_ok (ord_c E) -> make_wordn (Some ws) sh = Ok o -> restores E o (SStr s).
Proof.
  intros O M. destruct (munched_exists sh ws s) as (ps & P).
  apply (rewrites_restores _ _ _ _ _ _ (wordn_ok E ws sh o s ps O M P)), word_spaced_undoes.
Qed.

Lemma rewrites_filter E o s sg h k (f : Z -> bool) y a :
  rewrites E o s sg h k -> filter f (news sg) = filter f (olds sg) ->
  transform_op E o (SStr s) = Ok (SStr y, a) -> filter f y = filter f s.
Proof.
  intros [O M] F T. destruct (maps_inv _ _ _ _ _ _ _ _ _ M T) as [Q _]. inversion Q; subst.
  rewrite F. reflexivity.
Qed.

Lemma wordn_filter E ws sh o s y a :
  ord_ok (ord_c E) -> make_wordn (Some ws) sh = Ok o ->
  transform_op E o (SStr s) = Ok (SStr y, a) -> filter not_blank y = filter not_blank s.
Proof.
  intros O M T. destruct (munched_exists sh ws s) as (ps & P).
  eapply rewrites_filter; [exact (wordn_ok E ws sh o s ps O M P)| |exact T]. apply word_spaced_filter.
Qed.

Lemma cjk_restores E s : ord_ok (ord_c E) -> restores E AddWhitespaceAroundCJK (SStr s).
Proof. intros O. apply (rewrites_restores _ _ _ _ _ _ (cjk_rewrites E s O)), spaced_undoes. Qed.
Lemma punct_restores E s : ord_ok (ord_c E) -> restores E AddWhitespaceAroundPunctuation (SStr s).
Proof. intros O. apply (rewrites_restores _ _ _ _ _ _ (punct_rewrites E s O)), spaced_undoes. Qed.

Lemma spaced_olds cls s : olds (spaced cls s) = s.
Proof. unfold olds, spaced. rewrite map_map. cbn. induction s; cbn; congruence. Qed.

Lemma cjk_filter E s y a : ord_ok (ord_c E) ->
  transform_op E AddWhitespaceAroundCJK (SStr s) = Ok (SStr y, a) ->
  filter not_blank y = filter not_blank s.
Proof.
  intros O. eapply rewrites_filter; [exact (cjk_rewrites E s O)|].
  rewrite spaced_olds. apply spaced_filter.
Qed.
Lemma punct_filter E s y a : ord_ok (ord_c E) ->
  transform_op E AddWhitespaceAroundPunctuation (SStr s) = Ok (SStr y, a) ->
  filter not_blank y = filter not_blank s.
Proof.
  intros O. eapply rewrites_filter; [exact (punct_rewrites E s O)|].
  rewrite spaced_olds. apply spaced_filter.
Qed.

Lemma stop_ok E s ps :
  ord_ok (ord_c E) -> munched false stopword_set s ps ->
  rewrites E StopwordsToWhitespace s (stop_spaced ps) by_zero by_zero.
Proof.
  intros O P. destruct (stop_rewrites E s O) as (ps' & P' & R).
  now rewrite (munched_unique _ _ _ _ _ P P').
Qed.
Lemma stop_kept E s ps :
  ord_ok (ord_c E) -> munched false stopword_set s ps ->
  restores_kept E StopwordsToWhitespace s (stop_spaced ps).
Proof.
  intros O P. eapply rewrites_kept; [exact (stop_ok E s ps O P)| |]; apply right_by_zero.
Qed.

(** ** ReplaceAwithB on arbitrary patterns *)

Lemma replace_pieces E p b find s y a :
  ord_ok (ord_c E) -> re_compile E p = Some find -> in_bounds find ->
  transform_op E (ReplaceAwithB p b) (SStr s) = Ok (y, a) ->
  exists sg, replaced find (fun _ => b) s 0 sg /\ olds sg = s /\ y = SStr (news sg).
Proof.
  intros HO HC HB H.
  destruct (replaced_or_stuck find (fun _ => b) HB s 0 ltac:(lia)) as [(sg & HR)|HS].
  - exists sg. split; [exact HR|].
    assert (ES : olds sg = s) by exact (replaced_ge find (fun _ => b) HB s 0 sg ltac:(lia) HR).
    split; [exact ES|].
    pose proof (scan_group_replaced E find _ s sg HO HB HR) as HG.
    unfold transform_op in H. cbn [type_of input_type seqtype_eqb guard bind transform_str] in H.
    rewrite HC in H. unfold str_result in H. rewrite HG in H.
    cbn [bind fst type_of output_type seqtype_eqb guard] in H. injection H as <- _.
    rewrite <- ES at 1. now rewrite apply_grp.
  - destruct (replace_diverges E p b find s HC HB HS) as (_ & Q). congruence.
Qed.

Lemma replace_leftmost E p b r s y a :
  ord_ok (ord_c E) -> re_compile E p = Some (search r) ->
  transform_op E (ReplaceAwithB p b) (SStr s) = Ok (y, a) ->
  exists sg, covered r (fun _ => b) s 0 sg /\ olds sg = s /\ y = SStr (news sg).
Proof.
  intros HO HC H. destruct (replace_pieces E p b _ s y a HO HC (search_in_bounds r) H) as (sg & R & Q).
  exists sg. split; [|exact Q]. apply replaced_covered; [lia|exact R].
Qed.

(** no empty match: the scan ends *)
Lemma never_stuck (find : finder) s p :
  (forall q i e, find s q = Some (i, e) -> i < e) -> ~ stuck find s p.
Proof. intros H S. induction S as [p _ F|]; [apply H in F; lia|assumption]. Qed.

Lemma replace_total E p b find s :
  ord_ok (ord_c E) -> re_compile E p = Some find -> in_bounds find ->
  (forall q i e, find s q = Some (i, e) -> i < e) ->
  exists y a, transform_op E (ReplaceAwithB p b) (SStr s) = Ok (y, a).
Proof.
  intros HO HC HB HN.
  destruct (replaced_or_stuck find (fun _ => b) HB s 0 ltac:(lia)) as [(sg & HR)|HS].
  - pose proof (scan_group_replaced E find _ s sg HO HB HR) as HG.
    unfold transform_op. cbn [type_of input_type seqtype_eqb guard bind transform_str].
    rewrite HC. unfold str_result. rewrite HG.
    cbn [bind fst type_of output_type seqtype_eqb guard]. eauto.
  - now apply never_stuck in HS.
Qed.

Lemma int_idempotent E s : ord_ok (ord_c E) ->
  (forall c, In c (txt " _int_ _num_ ") -> point c || digit E c = false) ->
  idempotent E IntToken (SStr s) /\ idempotent E IntTokenWithSpace (SStr s) /\
  idempotent E NumTokenWithSpace (SStr s).
Proof.
  intros O H. split; [|split].
  - apply (number_idem E IntToken (forallb (digit E)) (txt "_int_") by_mode by_entity_mode);
      [discriminate| |intros t; now apply int_rewrites].
    intros c Hc. apply H. cbn in Hc |- *. tauto.
  - apply (number_idem E IntTokenWithSpace (forallb (digit E)) (txt " _int_ ") (around by_mode) by_entity_mode);
      [discriminate| |intros t; now apply int_space_rewrites].
    intros c Hc. apply H. cbn in Hc |- *. tauto.
  - apply (number_idem E NumTokenWithSpace (forallb (digit E)) (txt " _num_ ") (around by_mode) by_entity_mode);
      [discriminate| |intros t; now apply num_space_rewrites].
    intros c Hc. apply H. cbn in Hc |- *. tauto.
Qed.

Lemma float_idempotent E s : ord_ok (ord_c E) ->
  (forall c, In c (txt " _float_ ") -> point c || digit E c = false) ->
  idempotent E FloatToken (SStr s) /\ idempotent E FloatTokenWithSpace (SStr s).
Proof.
  intros O H. split.
  - apply (number_idem E FloatToken (is_decimal (digit E)) (txt "_float_") by_mode by_entity_mode);
      [discriminate| |intros t; now apply float_rewrites].
    intros c Hc. apply H. cbn in Hc |- *. tauto.
  - apply (number_idem E FloatTokenWithSpace (is_decimal (digit E)) (txt " _float_ ") (around by_mode) by_entity_mode);
      [discriminate| |intros t; now apply float_space_rewrites].
    intros c Hc. apply H. cbn in Hc |- *. tauto.
Qed.

Lemma spaced_only_blanks E s y a : ord_ok (ord_c E) ->
  transform_op E AddWhitespaceAroundCJK (SStr s) = Ok (SStr y, a) \/
  transform_op E AddWhitespaceAroundPunctuation (SStr s) = Ok (SStr y, a) ->
  filter not_blank y = filter not_blank s.
Proof. intros O [T|T]; [eapply cjk_filter; eauto|eapply punct_filter; eauto]. Qed.

(** ** SpanSubwords, the output *)

Lemma subwords_run E vocab unk maxlen ts :
  ord_ok (ord_e E) ->
  exists outs a, Forall2 (subwords vocab unk maxlen) ts outs /\
    transform_op E (SpanSubwords vocab unk maxlen) (SLst (map ETok ts)) = Ok (SLst (concat outs), a).
Proof.
  intros O. destruct (subwords_rewrites E vocab unk maxlen ts O) as (outs & F & sg & S1 & S2 & G & _).
  exists outs. eexists. split; [exact F|].
  unfold transform_op. cbn [type_of input_type seqtype_eqb guard bind transform_lst].
  unfold lst_result. rewrite G. cbn [bind fst type_of output_type seqtype_eqb guard].
  rewrite <- S1 at 1. rewrite apply_grp, S2. reflexivity.
Qed.

Lemma subwords_pieces E vocab unk maxlen ts y a :
  ord_ok (ord_e E) ->
  transform_op E (SpanSubwords vocab unk maxlen) (SLst (map ETok ts)) = Ok (y, a) ->
  exists outs, Forall2 (subwords vocab unk maxlen) ts outs /\ y = SLst (concat outs).
Proof.
  intros O T. destruct (subwords_run E vocab unk maxlen ts O) as (outs & b & F & T').
  exists outs. split; [exact F|]. rewrite T in T'. now inversion T'.
Qed.

Lemma subwords_total E vocab unk maxlen ts :
  ord_ok (ord_e E) ->
  exists y a, transform_op E (SpanSubwords vocab unk maxlen) (SLst (map ETok ts)) = Ok (y, a).
Proof. intros O. destruct (subwords_run E vocab unk maxlen ts O) as (outs & b & _ & T). eauto. Qed.

Lemma subwords_empty vocab unk maxlen out : (0 <= maxlen)%Z ->
  subwords vocab unk maxlen [] out -> out = [].
Proof.
  intros L [(_ & ps & S & ->)|([H|H] & _)].
  - now rewrite (splits_unique _ _ _ _ _ S (split_end vocab true)).
  - cbn in H. lia.
  - exfalso. apply H. exists []. constructor.
Qed.

(** C26: the constructor of AddEndToken *)
Lemma make_end_checks t : (t = [] -> make_end t = Err ValueErr) /\ (t <> [] -> make_end t = Ok (AddEndToken t)).
Proof. destruct t; split; intros H; [reflexivity|congruence|discriminate|reflexivity]. Qed.

(** C20, C24, C35: constructors *)
Lemma make_replace_checks E a b : (re_compile E a = None -> make_replace E a b = Err ReErr) /\
  (re_compile E a <> None -> make_replace E a b = Ok (ReplaceAwithB a b)).
Proof. unfold make_replace. destruct (re_compile E a); split; intros H; congruence. Qed.
Lemma make_wordn_none sh : make_wordn None sh = Err ValueErr.
Proof. reflexivity. Qed.
Lemma make_custom_none sh : make_custom None sh = Err ValueErr.
Proof. reflexivity. Qed.
