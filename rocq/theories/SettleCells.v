(** Which labels come back through number operators and a tokenizer (C92). *)

From Coq Require Import String.
From Verif Require Import Py PyFacts Edit Labels SpecEdit SpecLabels SpecSeg SpecRuns SpecWords SpecOps SpecLaws
  EditProofs LabelProofs EditApiProofs SegProofs RegexProofs RunsProofs Ops OpProofs StrOpProofs TokProofs OpLaws Json Elements Pipe SpecPipe PipeProofs PipeAlign
  LawsTok LawsProofs LawsText SpecTrip TripProofs SpecSettle SettleSegs SettleOps SettleTable SettlePipe SettleSurvive SettleNumbers.
From Coq Require Import List Lia.

(** ** One cell *)

Definition u32_one (ls : list Z) : Prop := one_label ls /\ u32_labels ls.
Definition cell_ok (c : cell) (ls : list Z) : Prop :=
  match c with Piece _ false => all_zero ls | _ => u32_one ls end.
Definition speaks (c : cell) : Prop := match c with Piece _ _ => True | Number _ ps => tokens_of ps <> [] end.
Fixpoint cells_ok (bs : list cell) (l : list Z) : Prop :=
  match bs with
  | [] => True
  | c :: bs => cell_ok c (firstn (length (ctext c)) l) /\ cells_ok bs (skipn (length (ctext c)) l)
  end.

Lemma fits_u32_one x : fits x = true <-> (0 <= x < 2 ^ 32)%Z.
Proof. split; [apply fits_range|]. intros (A & B). unfold fits. apply Bool.andb_true_iff. split; [now apply Z.leb_le|now apply Z.ltb_lt]. Qed.
Lemma u32_fits l : u32_labels l <-> forallb fits l = true.
Proof.
  rewrite forallb_forall. unfold u32_labels. rewrite Forall_forall. split; intros H x HX; now apply fits_u32_one, H.
Qed.
Lemma u32_one_iff ls n : 0 < n -> length ls = n ->
  (u32_one ls <-> exists x, fits x = true /\ ls = repeat x n).
Proof.
  intros H L. split.
  - intros (O & U). pose proof (one_label_is _ O) as Q. rewrite L in Q. exists (mode ls). split; [|exact Q].
    apply u32_fits in U. rewrite forallb_forall in U. apply U, first_mode_In, mode_first_mode.
    destruct ls; [cbn in L; lia|discriminate].
  - intros (x & F & ->). split; [apply one_label_repeat|]. apply u32_fits. apply forallb_forall.
    intros y HY. apply repeat_spec in HY. now subst.
Qed.
Lemma all_zero_iff ls n : length ls = n -> (all_zero ls <-> repeat 0%Z n = ls).
Proof. intros <-. rewrite all_zero_repeat. split; intros Q; now symmetry. Qed.
Lemma repeat_inj (x y : Z) n : 0 < n -> repeat x n = repeat y n -> x = y.
Proof. destruct n; [lia|]. cbn. intros _ [= H _]. exact H. Qed.

Lemma cell_trip c ls : solid c -> speaks c -> length ls = length (ctext c) -> (cg c (cf c ls) = ls <-> cell_ok c ls).
Proof.
  intros (N & G) SP L. assert (NL : 0 < length (ctext c)) by (destruct (ctext c); [congruence|cbn; lia]).
  destruct c as [w []|w ps]; cbn [ctext] in *; cbn [cell_ok cg cf hd].
  - rewrite (u32_one_iff ls _ NL L). split.
    + intros <-. destruct (forallb fits ls) eqn:Q; [|now exists 0%Z].
      exists (mode ls). split; [|reflexivity]. rewrite forallb_forall in Q. apply Q, first_mode_In, mode_first_mode.
      destruct ls; [cbn in L; lia|discriminate].
    + intros (x & F & ->). rewrite lab_repeat by exact NL. unfold cap. now rewrite F.
  - rewrite (all_zero_iff ls _ L). tauto.
  - rewrite (u32_one_iff ls _ NL L), (uniform ps _ G). cbn [speaks] in SP.
    assert (HB : forall x, by_entity_mode (char_labels ps (repeat x (length (tokens_of ps)))) (length w) = repeat x (length w)).
    { intros x. destruct (masked_back ps x (fun _ => true) (length w) G) as (z & Q & R & _). rewrite !mask_all in *.
      rewrite Q. f_equal. apply (repeat_inj _ _ (length (tokens_of ps))); [destruct (tokens_of ps); [congruence|cbn; lia]|exact R]. }
    rewrite HB. split.
    + intros <-. exists (cap (mode ls)). split; [unfold cap; destruct (fits (mode ls)) eqn:Q; [exact Q|reflexivity]|reflexivity].
    + intros (x & F & ->). rewrite mode_repeat by exact NL. unfold cap. now rewrite F.
Qed.

Lemma cells_trip bs : Forall solid bs -> Forall speaks bs -> forall l, length l = length (texts bs) ->
  (bwd bs (fwd bs l) = l <-> cells_ok bs l).
Proof.
  unfold texts. induction 1 as [|c bs S F IH]; intros SP l L; cbn [map concat length fwd bwd cells_ok] in *.
  - destruct l; [tauto|discriminate].
  - inversion SP as [|? ? S1 S2]; subst. rewrite app_length in L.
    rewrite (firstn_app_len (cout c)), (skipn_app_len (cout c)) by apply cf_length.
    assert (L1 : length (firstn (length (ctext c)) l) = length (ctext c)) by (rewrite firstn_length; lia).
    assert (L2 : length (skipn (length (ctext c)) l) = length (concat (map ctext bs))) by (rewrite skipn_length; lia).
    rewrite <- (cell_trip c _ S S1 L1), <- (IH S2 _ L2).
    set (a := firstn (length (ctext c)) l) in *. set (b := skipn (length (ctext c)) l) in *.
    assert (Q : l = a ++ b) by (symmetry; apply firstn_skipn). split.
    + intros H. rewrite Q in H. apply app_inj_len in H; [tauto|]. rewrite cg_length. now symmetry.
    + intros (-> & ->). now symmetry.
Qed.

Lemma lays_survives E ops B objs s y als coll : lays E ops B -> map o_op objs = ops -> Forall speaks (B s) ->
  Pipe.run E objs (SStr s) = Ok (y, als, coll) ->
  forall l, survives E als l <-> length l = length s /\ cells_ok (B s) l.
Proof.
  intros LB HO SP HR l. destruct (l_acts _ _ _ LB s) as (y' & AC).
  destruct (AC objs HO) as (als' & coll' & R & F1 & F2 & G1 & G2).
  rewrite R in HR. injection HR as -> -> ->. cbn [pseq_length] in *.
  assert (FF : forall bs l, Forall solid bs -> length l = length (texts bs) -> forallb fits (fwd bs l) = true).
  { clear. unfold texts. intros bs l F. revert l. induction F as [|c bs (N & G) F IH]; intros l L; [reflexivity|]. cbn [fwd map concat] in *.
    rewrite app_length in L. rewrite forallb_app, IH by (rewrite skipn_length; lia). rewrite Bool.andb_true_r.
    destruct c as [w []|w ps]; cbn [cf]; [|reflexivity|].
    - cbn [forallb]. rewrite Bool.andb_true_r. cbn [ctext] in *. destruct (forallb fits (firstn (length w) l)) eqn:Q; [|reflexivity].
      rewrite forallb_forall in Q. apply Q, first_mode_In, mode_first_mode. destruct w; [congruence|]. destruct l; [discriminate|discriminate].
    - rewrite (uniform ps _ G). apply forallb_forall. intros x HX. apply repeat_spec in HX. subst.
      unfold cap. now destruct (fits (mode _)) eqn:Q. }
  assert (LT : length (texts (B s)) = length s) by (now rewrite (l_text _ _ _ LB)).
  destruct (Nat.eq_dec (length l) (length s)) as [L|L].
  - destruct (F1 l L) as (QF & LF). rewrite <- (cells_trip _ (l_solid _ _ _ LB s) SP l) by congruence.
    destruct (G1 (fwd (B s) l) LF) as (QG & _). unfold back32 in QG.
    rewrite FF in QG by (apply (l_solid _ _ _ LB) || congruence). split.
    + intros (m & A & C). rewrite QF in A. injection A as <-. split; [exact L|]. congruence.
    + intros (_ & H). exists (fwd (B s) l). split; [exact QF|]. congruence.
  - split; [|tauto]. intros (m & A & _). rewrite (F2 l L) in A. discriminate.
Qed.

(** ** A tokenizer *)

Lemma pieces_cells k s l : length l = length s -> (cells_ok (map piece (pc k [] s)) l <-> token_wise k s l).
Proof.
  intros L. rewrite <- (cells_trip (map piece (pc k [] s))).
  - rewrite pieces_fwd, pieces_bwd, pc_bwd. pose proof (pc_fwd k s [] [] l eq_refl L) as Q. cbn [app combine] in Q. rewrite Q.
    pose proof (cut_by_cut k s) as C. rewrite (token_wise_pieces k s _ l C), <- piece_trip.
    + rewrite (cut_back_labels k s _ _ C), (cut_labels k s _ l C L). reflexivity.
    + intros w d I. destruct C as (_ & F & _). rewrite Forall_forall in F. exact (proj1 (F _ I)).
    + destruct C as (-> & _). exact L.
  - apply Forall_map. eapply Forall_impl; [|apply pc_nonempty]. intros [w b] N. now split.
  - apply Forall_map, Forall_forall. intros [w b] _. exact Logic.I.
  - now rewrite pieces_texts, pc_text.
Qed.

(** ** One more operator in front *)

Definition blank_out (sg : list (seg Z)) : list (seg Z) :=
  @map (seg Z) (seg Z) (fun x : seg Z => (fst x, option_map (fun _ => repeat 32%Z (length (fst x))) (snd x))) sg.

Lemma in_replaced_cons {A} (w : list A) v sg Q l :
  in_replaced ((w, v) :: sg) Q l <->
  match v with Some v => Q v (firstn (length w) l) | None => True end /\ in_replaced sg Q (skipn (length w) l).
Proof.
  unfold in_replaced. split.
  - intros H. split.
    + destruct v as [v|]; [|exact Logic.I]. exact (H [] w v sg eq_refl).
    + intros sg1 w' v' sg2 EQ. specialize (H ((w, v) :: sg1) w' v' sg2). cbn [app] in H. rewrite EQ in H. specialize (H eq_refl).
      unfold olds in H. cbn [map concat] in H. rewrite app_length in H. unfold old_of at 1 in H. cbn [fst] in H. now rewrite skipn_skipn_add.
  - intros (H1 & H2) sg1 w' v' sg2 EQ. destruct sg1 as [|[w1 v1] sg1]; cbn [app] in EQ; injection EQ as -> -> EQ.
    + exact H1.
    + unfold olds. cbn [map concat]. rewrite app_length. unfold old_of at 1. cbn [fst]. rewrite <- skipn_skipn_add. exact (H2 sg1 w' v' sg2 EQ).
Qed.
Lemma in_replaced_nil {A} Q l : in_replaced (@nil (seg A)) Q l.
Proof. intros [|x sg1] w v sg2 EQ; discriminate. Qed.

Section front.
  Context (E : env) (ops : list op) (B : str -> list cell) (LB : lays E ops B).
  Context (t : str) (P : list (str * bool)) (HP : B t = map piece P).

  Lemma cells_ok_app a b la lb : length la = length (texts a) -> (cells_ok (a ++ b) (la ++ lb) <-> cells_ok a la /\ cells_ok b lb).
  Proof.
    unfold texts. revert la. induction a as [|c a IH]; intros la L; cbn [map concat app cells_ok] in *.
    - destruct la; [tauto|discriminate].
    - rewrite app_length in L. rewrite firstn_app, skipn_app. replace (length (ctext c) - length la) with 0 by lia.
      cbn [firstn skipn]. rewrite app_nil_r, IH by (rewrite skipn_length; lia). tauto.
  Qed.
  Lemma blanks_ok rest lr : forall n acc la, 0 < n -> length la = length acc ->
    (cells_ok (B (acc ++ repeat 32%Z n ++ rest)) (la ++ repeat 0%Z n ++ lr) <-> cells_ok (B acc) la /\ cells_ok (B rest) lr).
  Proof.
    induction n as [|n IH]; intros acc la H LA; [lia|]. cbn [repeat app].
    rewrite (l_split _ _ _ LB), cells_ok_app by (now rewrite (l_text _ _ _ LB)). cbn [cells_ok ctext length firstn skipn cell_ok].
    assert (Z0 : all_zero [0%Z]) by (intros x [<-|[]]; reflexivity).
    destruct n as [|n]; [cbn [repeat app]; tauto|].
    pose proof (IH [] [] ltac:(lia) eq_refl) as Q. cbn [app] in Q. rewrite Q.
    assert (B0 : cells_ok (B []) []).
    { assert (B [] = []) as ->; [|exact Logic.I]. pose proof (l_text _ _ _ LB []) as T. pose proof (l_solid _ _ _ LB []) as S.
      destruct (B []) as [|c bs]; [reflexivity|]. inversion S as [|? ? (N & _) _]; subst. unfold texts in T. cbn [map concat] in T.
      now destruct (ctext c). }
    tauto.
  Qed.
  Lemma front_ok sg : (forall o v, In (o, Some v) sg -> o <> []) -> forall acc la l, length la = length acc -> length l = length (olds sg) ->
    (cells_ok (cells B P acc sg) (la ++ l) <->
     in_replaced sg (fun _ => u32_one) l /\ cells_ok (B (acc ++ news (blank_out sg))) (la ++ relabel by_zero (blank_out sg) l)).
  Proof.
    induction sg as [|[o [v|]] sg IH]; intros H acc la l LA L.
    - destruct l; [|discriminate]. change (news (blank_out [])) with (@nil Z). cbn [cells blank_out map relabel].
      rewrite !app_nil_r. pose proof (@in_replaced_nil Z (fun _ => u32_one) []). tauto.
    - assert (N : o <> []) by (apply (H o v); now left). specialize (IH (fun w u I => H w u (or_intror I))).
      rewrite in_replaced_cons.
      assert (L' : length l = length o + length (olds sg)) by (unfold olds in *; cbn [map concat] in L; rewrite app_length in L; exact L).
      cbn [cells blank_out map fst snd option_map]. fold (blank_out sg).
      rewrite news_cons. unfold new_of. cbn [snd relabel]. unfold old_of. cbn [fst]. rewrite repeat_length. unfold by_zero at 1.
      rewrite blanks_ok by (exact LA || (destruct o; [congruence|cbn; lia])).
      rewrite cells_ok_app by (now rewrite (l_text _ _ _ LB)). cbn [cells_ok ctext cell_ok].
      specialize (IH [] [] (skipn (length o) l) eq_refl ltac:(rewrite skipn_length; lia)). cbn [app] in IH. rewrite IH. tauto.
    - specialize (IH (fun w u I => H w u (or_intror I))).
      rewrite in_replaced_cons.
      assert (L' : length l = length o + length (olds sg)) by (unfold olds in *; cbn [map concat] in L; rewrite app_length in L; exact L).
      cbn [cells blank_out map fst snd option_map]. fold (blank_out sg).
      rewrite news_cons. unfold new_of. cbn [snd fst relabel]. unfold old_of. cbn [fst].
      specialize (IH (acc ++ o) (la ++ firstn (length o) l) (skipn (length o) l)).
      rewrite <- !app_assoc, firstn_skipn in IH. rewrite IH; [|rewrite !app_length, firstn_length; lia|rewrite skipn_length; lia].
      tauto.
  Qed.
End front.

(** ** Blanking out twice *)

Section blanks.
  Context (p : Z -> bool) (P32 : p 32%Z = false).
  Definition bl (c : str -> bool) (s : str) : list (seg Z) :=
    seg_runs p (fun r => if c r then Some (repeat 32%Z (length r)) else None) s.

  Lemma bl_kept1 ch x s : p x = false ->
    news (seg_runs p ch (x :: s)) = x :: news (seg_runs p ch s) /\
    (forall a l, relabel by_zero (seg_runs p ch (x :: s)) (a :: l) = a :: relabel by_zero (seg_runs p ch s) l) /\
    (forall Q a l, in_replaced (seg_runs p ch (x :: s)) Q (a :: l) <-> in_replaced (seg_runs p ch s) Q l).
  Proof.
    intros H. unfold seg_runs. cbn [runs]. destruct (runs p s) as [|[b r] rs]; [|destruct b; rewrite H]; cbn [map fst snd Bool.eqb].
    - rewrite H. split; [reflexivity|]. split; [reflexivity|]. intros Q a l. rewrite in_replaced_cons. cbn [length skipn]. tauto.
    - split; [reflexivity|]. split; [reflexivity|]. intros Q a l. rewrite in_replaced_cons. cbn [length skipn]. tauto.
    - split; [reflexivity|]. split; [reflexivity|]. intros Q a l. rewrite !in_replaced_cons. cbn [length skipn]. tauto.
  Qed.
  Lemma bl_kept ch w s : all_in p false w ->
    news (seg_runs p ch (w ++ s)) = w ++ news (seg_runs p ch s) /\
    (forall lw l, length lw = length w -> relabel by_zero (seg_runs p ch (w ++ s)) (lw ++ l) = lw ++ relabel by_zero (seg_runs p ch s) l) /\
    (forall Q lw l, length lw = length w -> (in_replaced (seg_runs p ch (w ++ s)) Q (lw ++ l) <-> in_replaced (seg_runs p ch s) Q l)).
  Proof.
    induction 1 as [|x w H F (I1 & I2 & I3)]; cbn [app length].
    - split; [reflexivity|]. split; intros; destruct lw; try discriminate; cbn [app]; tauto.
    - destruct (bl_kept1 ch x (w ++ s) H) as (K1 & K2 & K3). split; [now rewrite K1, I1|].
      split; [intros [|a lw] l L|intros Q [|a lw] l L]; try discriminate; injection L as L; cbn [app].
      + now rewrite K2, I2.
      + now rewrite K3, I3.
  Qed.
  Lemma bl_run c r s : r <> [] -> all_in p true r -> match s with [] => True | x :: _ => p x = false end ->
    bl c (r ++ s) = @cons (seg Z) (r, if c r then Some (repeat 32%Z (length r)) else None) (bl c s).
  Proof.
    intros N A H. unfold bl, seg_runs. rewrite (runs_take p r s N A H). reflexivity.
  Qed.
  (** The text after blanking out still starts outside the class. *)
  Lemma bl_head c s : match s with [] => True | x :: _ => p x = false end ->
    match news (bl c s) with [] => True | x :: _ => p x = false end.
  Proof.
    destruct s as [|x s]; intros H; [exact Logic.I|]. unfold bl. destruct (bl_kept1 (fun r => if c r then Some (repeat 32%Z (length r)) else None) x s H) as (-> & _). exact H.
  Qed.
  Lemma all32 n : all_in p false (repeat 32%Z n).
  Proof. apply Forall_forall. intros x HX. apply repeat_spec in HX. now subst. Qed.

  Lemma bl_twice Q c1 c2 : forall n s l, length s <= n -> length l = length s ->
    news (bl c2 (news (bl c1 s))) = news (bl (fun r => c1 r || c2 r) s) /\
    relabel by_zero (bl c2 (news (bl c1 s))) (relabel by_zero (bl c1 s) l) = relabel by_zero (bl (fun r => c1 r || c2 r) s) l /\
    (in_replaced (bl c1 s) Q l /\ in_replaced (bl c2 (news (bl c1 s))) Q (relabel by_zero (bl c1 s) l) <->
     in_replaced (bl (fun r => c1 r || c2 r) s) Q l) /\
    length (relabel by_zero (bl c1 s) l) = length (news (bl c1 s)).
  Proof.
    induction n as [|n IH]; intros s l LS LL.
    - destruct s; [|cbn in LS; lia]. destruct l; [|discriminate]. repeat split; intros; try apply in_replaced_nil; auto.
    - destruct s as [|x s].
      { destruct l; [|discriminate]. repeat split; intros; try apply in_replaced_nil; auto. }
      destruct (p x) eqn:PX.
      + destruct (take_run p (x :: s)) as (r & s' & E1 & HA & HS). rewrite E1 in *.
        assert (N : r <> []) by (intros ->; cbn [app] in E1; subst s'; rewrite PX in HS; discriminate).
        rewrite app_length in LL, LS.
        assert (LR : 0 < length r) by (destruct r; [congruence|cbn; lia]).
        rewrite <- (firstn_skipn (length r) l). set (la := firstn (length r) l). set (lb := skipn (length r) l).
        assert (LA : length la = length r) by (unfold la; rewrite firstn_length; lia).
        assert (LB : length lb = length s') by (unfold lb; rewrite skipn_length; lia).
        destruct (IH s' lb ltac:(lia) LB) as (I1 & I2 & I3 & I4).
        rewrite !(bl_run _ r s' N HA HS). rewrite !news_cons, !in_replaced_cons. unfold new_of. cbn [fst snd relabel]. unfold old_of. cbn [fst].
        rewrite !(firstn_app_len (length r)), !(skipn_app_len (length r)) by exact LA.
        destruct (c1 r) eqn:C1; cbn [orb].
        * rewrite repeat_length. change (by_zero la (length r)) with (repeat 0%Z (length r)).
          destruct (bl_kept (fun r => if c2 r then Some (repeat 32%Z (length r)) else None) (repeat 32%Z (length r)) (news (bl c1 s')) (all32 _)) as (K1 & K2 & K3).
          fold (bl c2 (repeat 32%Z (length r) ++ news (bl c1 s'))) in K1, K2, K3. fold (bl c2 (news (bl c1 s'))) in K1, K2, K3.
          rewrite K1, K2, K3 by (now rewrite !repeat_length).
          rewrite I1, I2, <- I3, !app_length, !repeat_length, I4. tauto.
        * rewrite !(bl_run c2 r _ N HA (bl_head c1 s' HS)). rewrite !news_cons, !in_replaced_cons. unfold new_of. cbn [fst snd relabel]. unfold old_of. cbn [fst].
          rewrite !(firstn_app_len (length r)), !(skipn_app_len (length r)) by exact LA.
          rewrite I1, I2, <- I3, !app_length, LA, I4. destruct (c2 r); tauto.
      + destruct l as [|a l]; [discriminate|]. injection LL as LL. cbn [length] in LS.
        destruct (IH s l ltac:(lia) LL) as (I1 & I2 & I3 & I4). unfold bl in *.
        set (ch1 := fun r => if c1 r then _ else _) in *. set (ch2 := fun r => if c2 r then _ else _) in *. set (ch := fun r => if c1 r || c2 r then _ else _) in *.
        destruct (bl_kept1 ch1 x s PX) as (A1 & A2 & A3). destruct (bl_kept1 ch x s PX) as (B1 & B2 & B3). rewrite A1, A2, A3, B1, B2, B3.
        destruct (bl_kept1 ch2 x (news (seg_runs p ch1 s)) PX) as (D1 & D2 & D3). rewrite D1, D2, D3, I1, I2, <- I3. cbn [length]. rewrite I4. tauto.
  Qed.
End blanks.

(** ** Pipes *)

Lemma pc_speaks k s : forall cur, cur <> [] \/ (exists c, In c s /\ k c <> Gap) -> tokens_of (pc k cur s) <> [].
Proof.
  unfold tokens_of. induction s as [|c s IH]; intros cur H.
  - destruct H as [H|(c & [] & _)]. destruct cur; [congruence|discriminate].
  - cbn [pc]. destruct (k c) eqn:K.
    + destruct cur as [|x cur]; [|discriminate]. cbn [flush map app filter snd]. apply IH. right.
      destruct H as [H|(d & [->|I] & N)]; [congruence|congruence|now exists d].
    + destruct cur; discriminate.
    + apply IH. left. now destruct cur.
Qed.

Section pipes.
  Context (E : env) (PY : python E).

  Definition cutter (tok : op) (k : Z -> kind) : Prop :=
    In (tok, k) [(WhiteSpaceTokenizer, by_space E); (EngTokenizer, by_punct E); (ZhCharTokenizer, by_punct_cjk E)].
  Lemma spaces_cutter tok k : cutter tok k -> forall spaces,
    Forall (fun o => In o [MergeWhiteSpaceCharacters; StripWhiteSpaceCharacters]) spaces ->
    tokenizer_by E (spaces ++ [tok]) k /\ (forall c, is_space E c = true -> k c = Gap) /\
    (is_space E 95 = false -> k 95%Z <> Gap).
  Proof.
    intros HT spaces F. assert (OC : ord_ok (ord_c E)) by apply PY. pose proof (space_32 E PY) as SP.
    assert (K : tokenizer_by E [tok] k /\ (forall c, is_space E c = true -> k c = Gap) /\
      (is_space E 95 = false -> k 95%Z <> Gap)).
    { destruct HT as [[= <- <-]|[[= <- <-]|[[= <- <-]|[]]]].
      - split; [now apply ws_by|]. split; [intros c H; unfold by_space; now rewrite H|].
        intros U. unfold by_space. rewrite U. discriminate.
      - split; [now apply eng_by|]. split; [intros c H; unfold by_punct; now rewrite H|].
        intros U. unfold by_punct. rewrite U. destruct (punctuation E 95); discriminate.
      - split; [now apply zh_by|]. split; [intros c H; unfold by_punct_cjk; now rewrite H|].
        intros U. unfold by_punct_cjk. rewrite U. destruct (punctuation E 95 || cjk 95); discriminate. }
    destruct K as (K1 & K2 & K3). split; [|now split].
    induction F as [|o spaces H F IH]; cbn [app]; [exact K1|].
    destruct H as [<-|[<-|[]]]; [apply merge_first|apply strip_first]; auto.
  Qed.

  Lemma takes_cons r o nums : existsb (takes E r) (o :: nums) = takes E r o || existsb (takes E r) nums.
  Proof. reflexivity. Qed.

  Lemma numbers_ok ops k : token_letters E -> tokenizer_by E ops k -> (forall c, is_space E c = true -> k c = Gap) -> k 95%Z <> Gap ->
    forall numbers, Forall (fun o => In o spaced_numbers) numbers ->
    exists B, lays E (numbers ++ ops) B /\
      (forall t, In t number_tokens -> exists P, B t = map piece P /\ tokens_of P <> []) /\
      (forall s, Forall speaks (B s)) /\
      (forall s l, length l = length s -> (cells_ok (B s) l <->
        in_replaced (blanked E numbers s) (fun _ => u32_one) l /\
        token_wise k (news (blanked E numbers s)) (relabel by_zero (blanked E numbers s) l))).
  Proof.
    intros TL T K K95 numbers F. assert (OC : ord_ok (ord_c E)) by apply PY. pose proof (space_32 E PY) as SP.
    induction F as [|o numbers H F (B & LB & HB & HS & HC)]; cbn [app].
    - exists (fun s => map piece (pc k [] s)). split; [apply tokenizer_lays; [exact T|now apply K]|]. split; [|split].
      + intros t HT. eexists. split; [reflexivity|]. apply pc_speaks. right. exists 95%Z. split; [|exact K95].
        destruct HT as [<-|[<-|[<-|[]]]]; now left.
      + intros s. apply Forall_map, Forall_forall. intros [w b] _. exact Logic.I.
      + intros s l L. rewrite (pieces_cells k s l L).
        assert (NB : forall sg : list (seg Z), (forall w v, In (w, Some v) sg -> False) -> news sg = olds sg /\
          (forall l, length l = length (olds sg) -> relabel by_zero sg l = l) /\ forall Q l, in_replaced sg Q l).
        { clear. induction sg as [|[w [v|]] sg IH]; intros H.
          - repeat split; [|intros; apply in_replaced_nil]. intros [|x l]; [reflexivity|discriminate].
          - destruct (H w v). now left.
          - destruct (IH (fun a b I => H a b (or_intror I))) as (I1 & I2 & I3). rewrite news_cons, olds_cons. cbn [new_of old_of snd fst].
            split; [unfold new_of, old_of; cbn [fst snd]; now rewrite I1|]. split.
            + intros l L. cbn [relabel]. unfold old_of in *. cbn [fst] in *. rewrite app_length in L.
              rewrite I2 by (rewrite skipn_length; lia). apply firstn_skipn.
            + intros Q l. rewrite in_replaced_cons. split; [exact Logic.I|apply I3]. }
        destruct (NB (blanked E [] s)) as (N1 & N2 & N3).
        { intros w v I. apply seg_runs_In in I. discriminate. }
        assert (O : olds (blanked E [] s) = s) by apply seg_runs_olds.
        rewrite N1, N2, O by (now rewrite O). pose proof (N3 (fun _ => u32_one) l). tauto.
    - set (p := fun c => point c || digit E c).
      assert (NP : forall c, In c (txt " _int_float_num_") -> p c = false) by (intros c; now apply not_number).
      assert (P32 : p 32%Z = false) by (apply NP; now left).
      assert (NT : forall t, In t number_tokens -> forall c, In c t -> p c = false).
      { intros t HT c HI. apply NP. cbn in HT. cbn.
        destruct HT as [<-|[<-|[<-|[]]]]; cbn in HI; tauto. }
      assert (ST : forall t choose, In t number_tokens -> (forall r, choose r = if takes E r o then Some (32%Z :: t ++ [32%Z]) else None) ->
        (forall s, rewrites E o s (seg_runs p choose s) (around by_mode) by_entity_mode) ->
        exists B', lays E (o :: numbers ++ ops) B' /\ (forall t, In t number_tokens -> exists P, B' t = map piece P /\ tokens_of P <> []) /\
          (forall s, Forall speaks (B' s)) /\
          (forall s l, length l = length s -> (cells_ok (B' s) l <->
            in_replaced (blanked E (o :: numbers) s) (fun _ => u32_one) l /\
            token_wise k (news (blanked E (o :: numbers) s)) (relabel by_zero (blanked E (o :: numbers) s) l)))).
      { intros t choose HT CE RW. destruct (HB t HT) as (P & HP & HN).
        assert (CH : forall r v, choose r = Some v -> v = 32%Z :: t ++ [32%Z]).
        { intros r v. rewrite CE. destruct (takes E r o); [|discriminate]. now intros [= <-]. }
        exists (front B P p choose). split; [exact (front_lays E (numbers ++ ops) B LB t P HP o p choose P32 CH RW)|]. split; [|split].
        - intros t' HT'. destruct (HB t' HT') as (P' & HP' & HN'). exists P'. rewrite <- HP'. split; [apply front_plain; now apply NT|exact HN'].
        - intros s. unfold front. generalize (seg_runs p choose s) as sg. intros sg. generalize (@nil Z) as acc.
          induction sg as [|[w [v|]] sg IH]; intros acc; cbn [cells]; [apply HS| |apply IH].
          apply Forall_app. split; [apply HS|]. constructor; [exact HN|apply IH].
        - intros s l L. unfold front.
          pose proof (front_ok E (numbers ++ ops) B LB P (seg_runs p choose s) (seg_runs_nonempty p choose s) [] [] l eq_refl) as Q.
          rewrite seg_runs_olds in Q. specialize (Q L). cbn [app] in Q. rewrite Q.
          assert (BO : blank_out (seg_runs p choose s) = bl p (fun r => takes E r o) s).
          { unfold blank_out, bl, seg_runs. rewrite map_map. apply map_ext. intros [[] r]; cbn [fst snd option_map]; [|reflexivity].
            rewrite CE. destruct (takes E r o); reflexivity. }
          assert (IR : in_replaced (seg_runs p choose s) (fun _ => u32_one) l <-> in_replaced (bl p (fun r => takes E r o) s) (fun _ => u32_one) l).
          { rewrite <- BO. generalize (seg_runs p choose s) as sg. clear. intros sg. revert l.
            induction sg as [|[w v] sg IH]; intros l; [tauto|]. cbn [blank_out map fst snd]. fold (blank_out sg).
            rewrite !in_replaced_cons, (IH (skipn (length w) l)). destruct v; cbn [option_map]; tauto. }
          rewrite IR, BO.
          destruct (bl_twice p P32 (fun _ => u32_one) (fun r => takes E r o) (fun r => existsb (takes E r) numbers) (length s) s l (le_n _) L)
            as (T1 & T2 & T3 & T4).
          rewrite (HC _ _ T4). change (blanked E (o :: numbers) s) with (bl p (fun r => takes E r o || existsb (takes E r) numbers) s).
          rewrite <- T3, <- T2, <- T1. unfold bl at 3 4 5, blanked. tauto. }
      destruct H as [<-|[<-|[<-|[]]]].
      + apply (ST (txt "_int_") (fun r => if forallb (digit E) r then Some (txt " _int_ ") else None)); [now left|reflexivity|].
        intros s. now apply int_space_rewrites.
      + apply (ST (txt "_float_") (fun r => if is_decimal (digit E) r then Some (txt " _float_ ") else None)); [right; now left|reflexivity|].
        intros s. now apply float_space_rewrites.
      + apply (ST (txt "_num_") (fun r => if forallb (digit E) r then Some (txt " _num_ ") else None)); [right; right; now left|reflexivity|].
        intros s. now apply num_space_rewrites.
  Qed.
End pipes.

Theorem numbers_survive E p s y als coll numbers spaces tok k :
  python E -> token_letters E -> is_space E 95 = false ->
  Forall (fun o => In o spaced_numbers) numbers ->
  Forall (fun o => In o [MergeWhiteSpaceCharacters; StripWhiteSpaceCharacters]) spaces ->
  In (tok, k) [(WhiteSpaceTokenizer, by_space E); (EngTokenizer, by_punct E); (ZhCharTokenizer, by_punct_cjk E)] ->
  map o_op (steps p) = numbers ++ spaces ++ [tok] ->
  transform_sequence E p (SStr s) = Ok (y, als, coll) ->
  forall l, survives E als l <-> number_wise E numbers k s l.
Proof.
  intros PY TL U HN HS HT HO HR l. destruct (spaces_cutter E PY tok k HT spaces HS) as (T & K & K95).
  destruct (numbers_ok E PY _ k TL T K (K95 U) numbers HN) as (B & LB & _ & SP & HC).
  rewrite (lays_survives _ _ _ _ _ _ _ _ LB HO (SP s) HR l). unfold number_wise. split; intros (L & H); (split; [exact L|]); now apply (HC s l L).
Qed.

Theorem steps_after E als als' l : (forall m, align_all als l = Ok m -> survives E als' m) ->
  (survives E (als ++ als') l <-> survives E als l).
Proof.
  intros H. unfold survives in *. rewrite align_all_app. split.
  - intros (m & A & C). destruct (align_all als l) as [m1|] eqn:Q; [|discriminate]. cbn [bind] in A.
    destruct (H m1 eq_refl) as (m' & A' & C'). rewrite A in A'. injection A' as <-. exists m1. split; [reflexivity|].
    rewrite align_inverse_all_app, C' in C. exact C.
  - intros (m1 & A & C). destruct (H m1 A) as (m & A' & C'). exists m. rewrite A. cbn [bind]. split; [exact A'|].
    rewrite align_inverse_all_app, C'. exact C.
Qed.
