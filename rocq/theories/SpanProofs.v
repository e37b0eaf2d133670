(** Proofs about spans and the str/list conversions. *)

From Verif Require Import Py PyFacts Edit SpecEdit EditProofs.

(** ** SpanGroup.done *)

Definition span_wf (sp : span) : Prop := fst sp <= snd sp.

Lemma tiles_end_ge lo g n : tiles lo g n -> lo <= n.
Proof.
  revert lo; induction g as [|[s e] g IH]; cbn; intros lo H; [lia|].
  destruct H as (H1 & H2 & H3). apply IH in H3. lia.
Qed.

Lemma tiles_sorted lo g n :
  tiles lo g n -> Forall (fun sp => lo <= fst sp /\ fst sp <= snd sp /\ snd sp <= n) g /\
  StronglySorted (fun a b : span => (Z.of_nat (snd a) <= Z.of_nat (snd b))%Z) g.
Proof.
  revert lo; induction g as [|[s e] g IH]; cbn; intros lo H; [split; constructor|].
  destruct H as (H1 & H2 & H3). destruct (IH _ H3) as (F & S).
  pose proof (tiles_end_ge _ _ _ H3). split.
  - constructor; [cbn; lia|]. rewrite Forall_forall in *. intros x Hx; specialize (F x Hx); lia.
  - constructor; auto. rewrite Forall_forall in *. intros x Hx; specialize (F x Hx); cbn; lia.
Qed.

Lemma tiles_disjoint lo g n : tiles lo g n -> disjoint_from fst snd lo g = true.
Proof.
  revert lo; induction g as [|[s e] g IH]; cbn; intros lo H; [reflexivity|].
  destruct H as (H1 & H2 & H3). destruct (Nat.ltb_spec s lo); [lia|]. now apply IH.
Qed.

Lemma tiles_contiguous sp g n : tiles (snd sp) g n -> contiguous_from sp g = true.
Proof.
  revert sp; induction g as [|[s e] g IH]; cbn; intros sp H; [reflexivity|].
  destruct H as (H1 & H2 & H3). destruct (Nat.eqb_spec (snd sp) s); [|lia]. now apply IH.
Qed.

Lemma contiguous_tiles sp g :
  Forall span_wf g -> contiguous_from sp g = true -> exists n, tiles (snd sp) g n.
Proof.
  revert sp; induction g as [|[s e] g IH]; cbn; intros sp W H; [eauto|].
  destruct (Nat.eqb_spec (snd sp) s) as [E|]; [|discriminate].
  inversion W; subst. destruct (IH _ H3 H) as (n & T). exists n. auto.
Qed.

Lemma sdone_tiles g n : tiles 0 g n -> sdone g = Ok g.
Proof.
  intros H. destruct g as [|[s e] g]; [reflexivity|]. unfold sdone.
  rewrite sort_by_id by apply (tiles_sorted _ _ _ H).
  cbn in H. destruct H as (H1 & H2 & H3). subst s. cbn.
  rewrite (tiles_disjoint _ _ _ H3). cbn.
  rewrite (tiles_contiguous (0, e) g n H3). reflexivity.
Qed.

Lemma sdone_ok l g :
  Forall span_wf l -> sdone l = Ok g ->
  Permutation g l /\ exists n, tiles 0 g n.
Proof.
  intros W H. destruct l as [|sp l].
  - injection H as <-. split; [constructor|]. exists 0; reflexivity.
  - unfold sdone in H. set (l2 := sort_by _ (sp :: l)) in H.
    assert (P : Permutation l2 (sp :: l)) by apply sort_by_perm.
    inv_bind H. inv_bind H. injection H as <-. split; [exact P|].
    assert (W2 : Forall span_wf l2).
    { rewrite Forall_forall in *. intros x Hx. apply W. eapply Permutation_in; eauto. }
    clearbody l2. clear P W E. destruct l2 as [|[s e] l2]; [discriminate|].
    cbn in E0. inv_bind E0. apply guard_ok in E, E0.
    inversion W2; subst. destruct (Nat.eqb_spec s 0) as [->|]; [|discriminate].
    destruct (contiguous_tiles (0, e) l2 H2 E0) as (n & T).
    exists n. cbn. repeat split; auto.
Qed.

Lemma sadd_wf g s e : Forall span_wf g -> Forall span_wf (sadd g s e).
Proof.
  intros H. unfold sadd. destruct (Nat.ltb_spec e s); auto.
  apply Forall_app; split; auto.
Qed.

Lemma sadd_each_wf l g g' : Forall span_wf g -> sadd_each g l = Ok g' -> Forall span_wf g'.
Proof.
  revert g; induction l as [|[s e] l IH]; cbn; intros g W H; [congruence|].
  inv_bind H. eapply IH; [|exact H]. unfold sadd_py in E. inv_bind E. inv_bind E.
  injection E as <-. now apply sadd_wf.
Qed.

Lemma sadd_all_ok l g : sadd_all l = Ok g -> exists n, tiles 0 g n.
Proof.
  intros H. unfold sadd_all in H. inv_bind H.
  destruct (sdone_ok _ _ (sadd_each_wf _ _ _ (Forall_nil _) E) H) as (_ & T). exact T.
Qed.

(** Positive-width spans: acceptance does not depend on the order. *)
Lemma sdone_perm_positive l g n :
  tiles 0 g n -> Forall (fun sp => fst sp < snd sp) g -> Permutation l g ->
  sdone l = Ok g.
Proof.
  intros T F P.
  rewrite <- (sdone_tiles g n T).
  assert (E : sort_by (fun e : span => Z.of_nat (snd e)) l
              = sort_by (fun e : span => Z.of_nat (snd e)) g).
  { rewrite (sort_by_id _ g) by apply (tiles_sorted _ _ _ T).
    apply sorted_perm_unique with (R := fun a b : span => (Z.of_nat (snd a) <= Z.of_nat (snd b))%Z).
    - intros x y Hx Hy L1 L2.
      assert (Hx' : In x g) by (eapply Permutation_in; [|exact Hx]; now rewrite sort_by_perm).
      assert (Hy' : In y g) by (eapply Permutation_in; [|exact Hy]; now rewrite sort_by_perm).
      assert (E : snd x = snd y) by lia. clear L1 L2 Hx Hy P.
      revert Hx' Hy'. generalize 0 as lo, T. clear T. induction g as [|[s e] g IH]; [now intros|].
      intros lo T Hx Hy. cbn in T. destruct T as (T1 & T2 & T3).
      pose proof (tiles_sorted _ _ _ T3) as (FT & _). rewrite Forall_forall in FT.
      inversion F as [|? ? F1 F2]; subst.
      rewrite Forall_forall in F2.
      destruct Hx as [<-|Hx], Hy as [<-|Hy]; auto.
      + specialize (FT _ Hy). specialize (F2 _ Hy). cbn in *. lia.
      + specialize (FT _ Hx). specialize (F2 _ Hx). cbn in *. lia.
      + eapply IH; eauto. now apply Forall_forall.
    - apply sort_by_sorted.
    - apply (tiles_sorted _ _ _ T).
    - now rewrite sort_by_perm. }
  unfold sdone. destruct l as [|x l], g as [|y g]; auto.
  - apply Permutation_nil in P; discriminate.
  - symmetry in P; apply Permutation_nil in P; discriminate.
  - rewrite E. reflexivity.
Qed.

(** ** str2lst.apply *)

Lemma tiles_last lo sp g n : tiles lo (sp :: g) n -> snd (last g sp) = n.
Proof.
  revert lo sp; induction g as [|sp' g IH]; intros lo [s e] H.
  - cbn in *; lia.
  - cbn [tiles] in H. destruct H as (_ & _ & H).
    change (last (sp' :: g) (s, e)) with (match g with [] => sp' | _ => last g (s, e) end).
    destruct g as [|sp'' g]; [apply (IH e sp' H)|].
    specialize (IH e sp' H). rewrite <- IH.
    assert (forall d d' : span, last (sp'' :: g) d = last (sp'' :: g) d') as L.
    { clear. revert sp''. induction g as [|x g IH]; intros sp'' d d'; [reflexivity|].
      change (last (x :: g) d = last (x :: g) d'); apply IH. }
    f_equal. apply L.
Qed.

Lemma tiles_slices {A} (s : list A) lo g :
  tiles lo g (length s) -> concat (map (fun sp => slice s (fst sp) (snd sp)) g) = skipn lo s.
Proof.
  revert lo; induction g as [|[st e] g IH]; intros lo H.
  - cbn in *. subst. now rewrite skipn_all.
  - cbn in H. destruct H as (-> & H2 & H3).
    cbn [map concat fst snd]. rewrite (IH _ H3). now apply slice_skipn.
Qed.

Lemma str2lst_apply_ok {A} (s : list A) g n :
  tiles 0 g n -> g <> [] ->
  (length s = n -> exists l, str2lst_apply s g = Ok l /\ length l = length g /\ concat l = s) /\
  (length s <> n -> str2lst_apply s g = Err ValueErr).
Proof.
  intros T N. destruct g as [|sp g]; [congruence|].
  unfold str2lst_apply, str2lst_compat. cbn [last_opt].
  rewrite (tiles_last _ _ _ _ T). split; intros E.
  - subst n. rewrite Nat.eqb_refl. cbn [guard bind].
    eexists; split; [reflexivity|]. rewrite map_length. split; [reflexivity|].
    apply (tiles_slices s 0 (sp :: g) T).
  - destruct (Nat.eqb_spec (length s) n); [contradiction|reflexivity].
Qed.

(** lst2str after str2lst *)
Lemma lst2str_str2lst {A} (s : list A) g n l :
  tiles 0 g n -> str2lst_apply s g = Ok l -> lst2str_apply l g = Ok s.
Proof.
  intros T H. destruct g as [|sp g]; [discriminate|].
  assert (EN : length s = n).
  { destruct (Nat.eq_dec (length s) n) as [|NE]; auto.
    apply (str2lst_apply_ok s _ n T) in NE; [congruence|discriminate]. }
  subst n. unfold str2lst_apply in H. inv_bind H.
  assert (l = map (fun sp => slice s (fst sp) (snd sp)) (sp :: g)) as -> by congruence.
  unfold lst2str_apply. rewrite map_length, Nat.eqb_refl. cbn [guard bind].
  assert (L : forall lo h, tiles lo h (length s) ->
             lst2str_each (map (fun sp => slice s (fst sp) (snd sp)) h) h = true).
  { intros lo h; revert lo; induction h as [|[st e] h IH]; intros lo TH; [reflexivity|].
    cbn in TH. destruct TH as (-> & T2 & T3). cbn. rewrite (IH _ T3).
    pose proof (tiles_end_ge _ _ _ T3).
    rewrite slice_length by lia. now rewrite Nat.eqb_refl. }
  rewrite (L 0 (sp :: g) T). cbn [guard bind]. f_equal.
  apply (tiles_slices s 0 (sp :: g) T).
Qed.

(** ** gen_span_group *)

Fixpoint offsets {A} (lo : nat) (tokens : list (list A)) : list span :=
  match tokens with
  | [] => []
  | t :: ts => (lo, lo + length t) :: offsets (lo + length t) ts
  end.

Lemma offsets_tiles {A} lo (ts : list (list A)) : tiles lo (offsets lo ts) (lo + length (concat ts)).
Proof.
  revert lo; induction ts as [|t ts IH]; intros lo; cbn; [lia|].
  repeat split; [lia|]. rewrite app_length, Nat.add_assoc. apply IH.
Qed.

Lemma offsets_length {A} lo (ts : list (list A)) : length (offsets lo ts) = length ts.
Proof. revert lo; induction ts as [|t ts IH]; intros lo; cbn; auto. Qed.

Lemma offsets_slices {A} (pre : list A) (ts : list (list A)) :
  map (fun sp => slice (pre ++ concat ts) (fst sp) (snd sp)) (offsets (length pre) ts) = ts.
Proof.
  revert pre; induction ts as [|t ts IH]; intros pre; [reflexivity|].
  cbn [offsets map fst snd concat]. f_equal.
  - unfold slice. rewrite skipn_app_exact.
    replace (length pre + length t - length pre) with (length t) by lia. apply firstn_app_exact.
  - specialize (IH (pre ++ t)). rewrite app_length, <- app_assoc in IH. exact IH.
Qed.

Lemma gen_span_loop_ok {A} `{Eqb A} (ts : list (list A)) (pre : list A) acc :
  gen_span_loop (pre ++ concat ts) ts (length pre) acc = Ok (acc ++ offsets (length pre) ts).
Proof.
  revert pre acc; induction ts as [|t ts IH]; intros pre acc.
  - cbn. now rewrite app_nil_r.
  - cbn [gen_span_loop concat offsets].
    rewrite py_find_here.
    2:{ rewrite app_length; lia. }
    2:{ rewrite skipn_app_exact. apply prefixb_app. }
    unfold sadd. destruct (Nat.ltb_spec (length pre + length t) (length pre)); [lia|].
    specialize (IH (pre ++ t) (acc ++ [(length pre, length pre + length t)])).
    rewrite app_length, <- !app_assoc in IH. rewrite IH. cbn. reflexivity.
Qed.

Lemma gen_span_group_ok {A} `{Eqb A} (s : list A) ts :
  s = concat ts -> gen_span_group s ts = Ok (offsets 0 ts).
Proof.
  intros ->. unfold gen_span_group. rewrite eqb_refl_true. cbn [guard bind].
  pose proof (gen_span_loop_ok ts [] []) as E. cbn [app length] in E. rewrite E.
  cbn [bind]. rewrite (sdone_tiles _ _ (offsets_tiles 0 ts)). cbn [bind].
  rewrite offsets_length, Nat.eqb_refl. reflexivity.
Qed.

Lemma gen_span_group_err {A} `{Eqb A} (s : list A) ts :
  s <> concat ts -> gen_span_group s ts = Err ValueErr.
Proof.
  intros N. unfold gen_span_group. apply eqb_false_neq in N. now rewrite N.
Qed.

Lemma gen_span_group_apply {A} `{Eqb A} (s : list A) ts g :
  gen_span_group s ts = Ok g -> ts <> [] -> str2lst_apply s g = Ok ts.
Proof.
  intros E N. destruct (eqb_spec s (concat ts)) as [->|NE].
  2:{ rewrite gen_span_group_err in E by exact NE; discriminate. }
  rewrite gen_span_group_ok in E by reflexivity. injection E as <-.
  unfold str2lst_apply, str2lst_compat.
  pose proof (offsets_tiles 0 ts) as T. pose proof (offsets_slices [] ts) as S.
  cbn [length app] in S. destruct ts as [|t ts]; [congruence|]. cbn [offsets] in *.
  cbn [last_opt]. rewrite (tiles_last _ _ _ _ T). cbn [Nat.add].
  rewrite Nat.eqb_refl. cbn [guard bind]. f_equal. exact S.
Qed.

(** ** gen_replacement_group *)

(** Non-empty deletions, each two separated by at least one kept element. *)
Fixpoint gap_chain {A} (lo n : nat) (g : list (repl A)) : Prop :=
  match g with
  | [] => True
  | r :: g => lo <= r_start r /\ r_start r < r_end r /\ r_end r <= n /\ r_new r = [] /\
              gap_chain (S (r_end r)) n g
  end.

Lemma gap_chain_weaken {A} lo lo' n (g : list (repl A)) :
  gap_chain lo n g -> lo' <= lo -> gap_chain lo' n g.
Proof. destruct g; cbn; intuition lia. Qed.

Lemma gap_chain_group_in {A} lo n (g : list (repl A)) :
  gap_chain lo n g -> lo <= n -> group_in lo n g.
Proof.
  revert lo; induction g as [|r g IH]; cbn; intros lo H L; [exact L|].
  destruct H as (H1 & H2 & H3 & H4 & H5). repeat split; try lia.
  apply IH; [|lia]. eapply gap_chain_weaken; eauto.
Qed.

Lemma gap_chain_In {A} lo n (g : list (repl A)) r :
  gap_chain lo n g -> In r g -> lo <= r_start r /\ r_start r < r_end r.
Proof.
  revert lo; induction g as [|r' g IH]; cbn; intros lo H HI; [tauto|].
  destruct H as (H1 & H2 & H3 & H4 & H5). destruct HI as [->|HI]; [lia|].
  specialize (IH _ H5 HI). lia.
Qed.

Lemma gap_chain_strict {A} lo n (g : list (repl A)) :
  gap_chain lo n g -> StronglySorted pos_lt g.
Proof.
  revert lo; induction g as [|r g IH]; cbn; intros lo H; constructor.
  - apply (IH (S (r_end r))). tauto.
  - destruct H as (H1 & H2 & H3 & H4 & H5). rewrite Forall_forall. intros x Hx.
    pose proof (gap_chain_In _ _ _ _ H5 Hx). unfold pos_lt. lia.
Qed.

Lemma gap_chain_no_touching {A} lo n (g : list (repl A)) :
  gap_chain lo n g -> no_touching_deletions g.
Proof.
  revert lo; induction g as [|r g IH]; intros lo H; [exact I|].
  cbn in H. destruct H as (H1 & H2 & H3 & H4 & H5).
  destruct g as [|r' g]; [exact I|]. split; [|eapply IH; exact H5].
  cbn in H5. intros (_ & _ & E). lia.
Qed.

(** The deletions generated from position [shift]. *)
Lemma gen_repl_loop_spec {A} `{Eqb A} (s : list A) ts shift acc sh acc' :
  shift <= length s -> gen_repl_loop s ts shift acc = Ok (sh, acc') ->
  exists gs,
    let tl := if sh =? length s then [] else [mkR sh (length s) []] in
    acc' = acc ++ gs /\ sh <= length s /\
    gap_chain shift (length s) (gs ++ tl) /\
    concat (transform_pieces s shift (gs ++ tl)) = concat ts /\
    (forall r, In r gs -> r_end r < sh).
Proof.
  revert shift acc; induction ts as [|t ts IH]; intros shift acc HL HE.
  - cbn in HE. injection HE as <- <-. exists []. cbn [app]. cbn zeta.
    rewrite app_nil_r. repeat split; auto.
    + destruct (Nat.eqb_spec shift (length s)); cbn; auto. repeat split; lia.
    + destruct (Nat.eqb_spec shift (length s)) as [->|N]; cbn.
      * now rewrite skipn_all.
      * rewrite skipn_all. now rewrite slice_nil.
    + intros r [].
  - cbn [gen_repl_loop] in HE. destruct (py_find s t shift) as [st|] eqn:EF; [|discriminate].
    apply py_find_some in EF. destruct EF as (F1 & F2 & F3 & F4).
    destruct (slice s shift st) as [|x gap] eqn:EG.
    + assert (st = shift) as ->.
      { assert (LG : length (slice s shift st) = 0) by now rewrite EG.
        rewrite slice_length in LG by lia. lia. }
      destruct (IH (shift + length t) acc ltac:(lia) HE) as (gs & E1 & E2 & E3 & E4 & E5).
      exists gs. cbn zeta in *. repeat split; auto.
      * eapply gap_chain_weaken; [exact E3|lia].
      * set (l := gs ++ (if sh =? length s then [] else [mkR sh (length s) []])) in *.
        cbn [concat]. rewrite <- E4. rewrite <- F3 at 1.
        destruct l as [|r l].
        -- cbn [transform_pieces concat]. rewrite !app_nil_r. symmetry; apply slice_skipn; lia.
        -- cbn [transform_pieces concat]. cbn in E3. rewrite (app_assoc (slice s shift (shift + length t))).
           rewrite slice_app by lia. reflexivity.
    + assert (LT : shift < st).
      { assert (LG : length (slice s shift st) = S (length gap)) by now rewrite EG.
        rewrite slice_length in LG by lia. lia. }
      assert (LT2 : 0 < length t).
      { destruct t as [|y t]; [|cbn; lia]. exfalso.
        apply (F4 shift ltac:(lia) LT). cbn [length]. rewrite Nat.add_0_r. apply slice_nil. }
      unfold radd in HE. destruct (Nat.ltb_spec st shift); [lia|].
      destruct (IH (st + length t) _ ltac:(lia) HE) as (gs & E1 & E2 & E3 & E4 & E5).
      exists (mkR shift st [] :: gs). cbn zeta in *.
      split; [|split; [|split; [|split]]].
      * rewrite E1, <- app_assoc. reflexivity.
      * exact E2.
      * cbn [app gap_chain r_start r_end r_new]. repeat split; try lia.
        eapply gap_chain_weaken; [exact E3|lia].
      * cbn [app transform_pieces concat r_start r_end r_new].
        rewrite slice_nil. cbn [app]. rewrite <- E4. rewrite <- F3 at 1.
        set (l := gs ++ (if sh =? length s then [] else [mkR sh (length s) []])) in *.
        destruct l as [|r l].
        -- cbn [transform_pieces concat]. rewrite !app_nil_r. symmetry; apply slice_skipn; lia.
        -- cbn [transform_pieces concat]. cbn in E3. rewrite (app_assoc (slice s st (st + length t))).
           rewrite slice_app by lia. reflexivity.
      * intros r [<-|Hr]; [cbn [r_end]|auto].
        (* the shift only grows *)
        clear -HE F2 LT2. revert HE. generalize (acc ++ [mkR shift st (@nil A)]). intros acc2 HE.
        assert (M : forall ts k acc, k <= length s ->
                  gen_repl_loop s ts k acc = Ok (sh, acc') -> k <= sh).
        { clear. intros ts; induction ts as [|t ts IH]; intros k acc LK Hk; cbn in Hk.
          - injection Hk as <- <-. lia.
          - destruct (py_find s t k) as [j|] eqn:EF; [|discriminate].
            apply py_find_some in EF. destruct EF as (F1 & F2 & _). apply IH in Hk; lia. }
        apply M in HE; lia.
Qed.

Lemma gen_replacement_group_ok {A} `{Eqb A} ord (s : list A) ts g :
  ord_ok ord -> gen_replacement_group ord s ts = Ok g ->
  gap_chain 0 (length s) g /\ apply s g = concat ts.
Proof.
  intros HO H1. unfold gen_replacement_group in H1.
  destruct (gen_repl_loop s ts 0 []) as [[sh acc]|] eqn:EL; [|discriminate].
  cbn [bind] in H1.
  destruct (gen_repl_loop_spec s ts 0 [] sh acc ltac:(lia) EL) as (gs & E1 & E2 & E3 & E4 & _).
  cbn [app] in E1. subst acc.
  assert (EA : (if sh =? length s then gs else radd gs sh (length s) []) =
               gs ++ (if sh =? length s then [] else [mkR sh (length s) []])).
  { destruct (Nat.eqb_spec sh (length s)); [now rewrite app_nil_r|].
    unfold radd. destruct (Nat.ltb_spec (length s) sh); [lia|reflexivity]. }
  rewrite EA in H1.
  rewrite (rdone_strict ord _ (length s)) in H1; auto.
  - injection H1 as <-. split; auto.
  - eapply gap_chain_strict; eauto.
  - apply gap_chain_group_in; [exact E3|lia].
Qed.

Lemma gen_replacement_group_loop_ok {A} `{Eqb A} ord (s : list A) ts x :
  ord_ok ord -> gen_repl_loop s ts 0 [] = Ok x -> exists g, gen_replacement_group ord s ts = Ok g.
Proof.
  intros HO H1. destruct x as [sh acc]. unfold gen_replacement_group. rewrite H1. cbn [bind].
  destruct (gen_repl_loop_spec s ts 0 [] sh acc ltac:(lia) H1) as (gs & E1 & E2 & E3 & E4 & _).
  cbn [app] in E1. subst acc.
  assert (EA : (if sh =? length s then gs else radd gs sh (length s) []) =
               gs ++ (if sh =? length s then [] else [mkR sh (length s) []])).
  { destruct (Nat.eqb_spec sh (length s)); [now rewrite app_nil_r|].
    unfold radd. destruct (Nat.ltb_spec (length s) sh); [lia|reflexivity]. }
  rewrite EA. eexists. apply (rdone_strict ord _ (length s)); auto.
  - eapply gap_chain_strict; eauto.
  - apply gap_chain_group_in; [exact E3|lia].
Qed.

Lemma occurs_prefix {A} (ts : list (list A)) pre s :
  occurs_in_order ts s -> occurs_in_order ts (pre ++ s).
Proof.
  intros H; inversion H; subst; [constructor|].
  rewrite app_assoc. now constructor.
Qed.

Lemma gen_repl_loop_complete {A} `{Eqb A} (s : list A) ts shift acc :
  shift <= length s -> occurs_in_order ts (skipn shift s) ->
  exists x, gen_repl_loop s ts shift acc = Ok x.
Proof.
  revert shift acc; induction ts as [|t ts IH]; intros shift acc HL HO.
  - cbn. eauto.
  - inversion HO as [|gap t' ts' rest HR E1 E2]; subst.
    cbn [gen_repl_loop].
    assert (LS : length (skipn shift s) = length gap + (length t + length rest))
      by (rewrite <- E2, !app_length; reflexivity).
    rewrite skipn_length in LS.
    assert (ES : slice s (shift + length gap) (shift + length gap + length t) = t).
    { unfold slice. rewrite <- skipn_skipn_add, <- E2, skipn_app_exact.
      replace (shift + length gap + length t - (shift + length gap)) with (length t) by lia.
      apply firstn_app_exact. }
    destruct (py_find s t shift) as [st|] eqn:EF.
    + apply py_find_some in EF. destruct EF as (F1 & F2 & F3 & F4).
      assert (st <= shift + length gap) as HS.
      { destruct (le_lt_dec st (shift + length gap)) as [|L]; auto.
        exfalso. apply (F4 (shift + length gap)); [lia|exact L|exact ES]. }
      apply IH; [lia|].
      assert (ER : skipn (st + length t) s
                   = slice s (st + length t) (shift + length gap + length t) ++ rest).
      { rewrite <- (slice_skipn s (st + length t) (shift + length gap + length t)) by lia.
        f_equal.
        replace (shift + length gap + length t) with (shift + (length gap + length t)) by lia.
        rewrite <- skipn_skipn_add, <- E2, app_assoc. apply skipn_app_len.
        apply app_length. }
      rewrite ER. now apply occurs_prefix.
    + exfalso. apply (py_find_none _ _ _ EF HL (shift + length gap)); [lia|lia|exact ES].
Qed.

Lemma gen_repl_loop_sound {A} `{Eqb A} (s : list A) ts shift acc x :
  shift <= length s -> gen_repl_loop s ts shift acc = Ok x ->
  occurs_in_order ts (skipn shift s).
Proof.
  revert shift acc; induction ts as [|t ts IH]; intros shift acc HL HE; [constructor|].
  cbn [gen_repl_loop] in HE. destruct (py_find s t shift) as [st|] eqn:EF; [|discriminate].
  apply py_find_some in EF. destruct EF as (F1 & F2 & F3 & F4).
  apply IH in HE; [|lia].
  replace (skipn shift s) with (slice s shift st ++ t ++ skipn (st + length t) s).
  - now constructor.
  - rewrite <- F3 at 1. rewrite slice_skipn by lia. apply slice_skipn; lia.
Qed.

Lemma gen_repl_loop_err {A} `{Eqb A} (s : list A) ts shift acc e :
  gen_repl_loop s ts shift acc = Err e -> e = ValueErr.
Proof.
  revert shift acc; induction ts as [|t ts IH]; intros shift acc HE; cbn in HE; [discriminate|].
  destruct (py_find s t shift); [eapply IH; eauto|congruence].
Qed.

Lemma gen_replacement_group_iff {A} `{Eqb A} ord (s : list A) ts :
  ord_ok ord ->
  (occurs_in_order ts s -> exists g, gen_replacement_group ord s ts = Ok g) /\
  (~ occurs_in_order ts s -> gen_replacement_group ord s ts = Err ValueErr).
Proof.
  intros HO. split.
  - intros HI. destruct (gen_repl_loop_complete s ts 0 [] ltac:(lia) HI) as (x & E).
    eapply gen_replacement_group_loop_ok; eauto.
  - intros N. unfold gen_replacement_group.
    destruct (gen_repl_loop s ts 0 []) as [x|e] eqn:E.
    + exfalso. apply N. exact (gen_repl_loop_sound s ts 0 [] x ltac:(lia) E).
    + apply gen_repl_loop_err in E. now subst.
Qed.
