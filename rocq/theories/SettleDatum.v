(** Which datums come back from pipes (C94). *)

From Coq Require Import String.
From Verif Require Import Py PyFacts Edit Labels SpecEdit SpecLabels SpecSeg SpecRuns SpecWords SpecOps SpecLaws
  EditProofs LabelProofs EditApiProofs SegProofs RegexProofs RunsProofs Ops OpProofs StrOpProofs ListOpProofs TokProofs OpLaws AlignProofs Json Elements Pipe SpecPipe
  PipeProofs PipeAlign SpecElements DatumProofs PackProofs PackErrors
  LawsTok LawsProofs LawsText SpecBert SpecTrip TripProofs BertProofs SpecAccept AcceptPipe SpecSettle SettleSegs SettleOps SettleTable SettlePipe SettleSurvive SettleNumbers SettleCells.
From Coq Require Import List Lia Sorting.Sorted.
Local Open Scope Z_scope.

(** ** Labels and datums *)

Lemma bare_covers e i : covers (bare_entity e) i <-> covers e i.
Proof. reflexivity. Qed.

Lemma labelled_bare es i x : labelled (map bare_entity es) i x <-> labelled es i x.
Proof.
  unfold labelled. split; (intros [(e & HE & C & L)|(N & L)]; [left|right; split; [|exact L]]).
  - apply in_map_iff in HE. destruct HE as (e' & <- & HE). exists e'. auto.
  - intros e HE. apply (N (bare_entity e)). now apply in_map.
  - exists (bare_entity e). split; [now apply in_map|]. auto.
  - intros e HE. apply in_map_iff in HE. destruct HE as (e' & <- & HE). exact (N e' HE).
Qed.

Lemma fits_i32_dec ints ls : let ok := Forall i32 ints /\ forall s t l, SpecElements.run ls s t l -> i32 t /\ i32 l in ok \/ ~ ok.
Proof.
  cbv zeta. destruct (Forall_or i32 i32_dec ints) as [HI|(x & HX & NX)].
  2:{ right. intros (H & _). rewrite Forall_forall in H. now apply NX, H. }
  destruct (groups_exist ls) as (gs & <- & HG).
  destruct (Forall_or (fun r : Z * Z * Z => i32 (r_t r) /\ i32 (r_l r))
              ltac:(intros r; destruct (i32_dec (r_t r)), (i32_dec (r_l r)); tauto) (mruns 0 gs)) as [HF|(r & HR & NR)].
  - left. split; [exact HI|]. intros s t l R. apply run_mruns in R; [|exact HG]. rewrite Forall_forall in HF. exact (HF _ R).
  - right. intros (_ & H). apply NR. apply (H (r_s r) _ _ (mruns_run gs r HG HR)).
Qed.

Theorem recovered_iff E p d y als coll ints ls : legible d ->
  transform_sequence E p (SStr (d_utterance d)) = Ok (y, als, coll) ->
  unpack_datum d = Ok (d_utterance d, ints, ls) -> (recovered E p d <-> survives E als ls).
Proof.
  intros (HD & HU & HF & HA) HR UP.
  assert (HI : Forall (inside (d_utterance d)) (d_entities d)) by (eapply Forall_impl; [|exact HF]; now intros e []).
  destruct (unpack_inside d HD HI) as (ls' & UP' & LL & HLab). rewrite UP in UP'. injection UP' as -> <-.
  pose proof (is_datum_inv d HD) as (_ & _ & _ & _ & HB & _).
  split.
  - intros (y' & ints' & m & als' & coll' & l2 & d' & T & A & PK & E1 & E2 & E3).
    unfold transform in T. rewrite UP in T. cbn [bind] in T. rewrite HR in T. cbn [bind] in T.
    destruct (align_all als ls) as [m'|] eqn:AL; [|discriminate]. cbn [bind] in T. injection T as <- <- <- <- <-.
    exists m'. split; [exact AL|]. rewrite A. f_equal.
    assert (L2 : length (d_utterance d) = length l2).
    { unfold pack_to_datum in PK. destruct (Nat.eqb_spec (length (d_utterance d)) (length l2)) as [Q|Q]; [exact Q|discriminate]. }
    destruct (fits_i32_dec (d_intents d) l2) as [(O1 & O2)|N]; [|rewrite (pack_overflow _ _ _ L2 N) in PK; discriminate].
    destruct (pack_spec _ _ _ L2 HU O1 O2) as (d1 & P1 & D1 & _). rewrite PK in P1. injection P1 as <-.
    destruct (unpack_pack _ _ _ L2 HU O1 O2) as (d1 & is1 & P1 & U1 & _). rewrite PK in P1. injection P1 as <-.
    destruct (unpack_inside d' D1) as (l3 & U2 & L3 & H3).
    { rewrite E1, E3. apply Forall_map. exact HI. }
    rewrite U1 in U2. injection U2 as _ _ <-. rewrite E1, E3 in H3.
    apply at_nth_ext; [congruence|]. intros i Hi. apply (labelled_unique (d_entities d) i); [exact HB| |apply HLab; lia].
    apply labelled_bare. apply H3. lia.
  - intros (m & M1 & M2).
    destruct (pack_unpack d HD HU) as (u & is_ & l2 & d' & UP2 & PK & E1 & E2 & E3); [|exact HA|].
    { eapply Forall_impl; [|exact HF]. intros e (I1 & I2 & I3). split; [exact I1|]. split; lia. }
    rewrite UP in UP2. injection UP2 as <- <- <-.
    exists y, (d_intents d), m, als, coll, ls, d'. unfold transform. rewrite UP. cbn [bind]. rewrite HR. cbn [bind]. rewrite M1. cbn [bind].
    repeat split; try assumption; apply E2.
Qed.

(** ** Replaced pieces by positions *)

Definition marks (sg : list (seg Z)) : list bool :=
  concat (map (fun x : seg Z => repeat (match snd x with Some _ => true | None => false end) (length (fst x))) sg).
Definition flat_seg (x : seg Z) : Prop :=
  match snd x with Some v => v = repeat 32 (length (fst x)) /\ ~ In 32 (fst x) | None => True end.
Fixpoint apart (sg : list (seg Z)) : Prop :=
  match sg with
  | (_, Some _) :: (((_, Some _) :: _) as r) => False
  | _ :: r => apart r
  | [] => True
  end.

Lemma marks_length sg : length (marks sg) = length (olds sg).
Proof.
  induction sg as [|[w r] sg IH]; [reflexivity|]. unfold marks, olds in *. cbn [map concat]. rewrite !app_length, repeat_length, IH. reflexivity.
Qed.

Lemma flat_news sg : Forall flat_seg sg -> length (news sg) = length (olds sg).
Proof.
  induction 1 as [|[w r] sg F _ IH]; [reflexivity|]. unfold news, olds in *. cbn [map concat]. rewrite !app_length, IH. f_equal.
  unfold flat_seg, new_of, old_of in *. cbn [fst snd] in *. destruct r as [v|]; [|reflexivity]. destruct F as (-> & _). apply repeat_length.
Qed.

Lemma marks_changed sg : Forall flat_seg sg -> forall i c, nth_error (olds sg) i = Some c ->
  (nth_error (marks sg) i = Some true <-> nth_error (news sg) i <> Some c) /\
  (nth_error (marks sg) i = Some true -> nth_error (news sg) i = Some 32).
Proof.
  induction 1 as [|[w r] sg F _ IH]; intros i c HC; [now destruct i|].
  unfold marks, olds, news in *. cbn [map concat] in *. unfold flat_seg in F. cbn [fst snd] in *. unfold old_of at 1 in HC. cbn [fst] in HC.
  assert (LN : length (new_of (w, r)) = length w).
  { unfold new_of. cbn [fst snd]. destruct r as [v|]; [|reflexivity]. destruct F as (-> & _). apply repeat_length. }
  destruct (Nat.ltb_spec i (length w)) as [L|L].
  - rewrite nth_error_app1 in HC by exact L. rewrite (nth_error_app1 (repeat _ _)) by (now rewrite repeat_length).
    rewrite (nth_error_app1 (new_of (w, r))) by lia. rewrite nth_error_repeat by exact L.
    unfold new_of. cbn [fst snd]. destruct r as [v|].
    + destruct F as (-> & N). rewrite nth_error_repeat by exact L. split; [|reflexivity]. split; [|reflexivity].
      intros _ [= <-]. apply N. now apply nth_error_In in HC.
    + split; [|discriminate]. split; [discriminate|congruence].
  - rewrite nth_error_app2 in HC by exact L. rewrite (nth_error_app2 (repeat _ _)) by (now rewrite repeat_length).
    rewrite (nth_error_app2 (new_of (w, r))) by lia. rewrite repeat_length, LN. now apply IH.
Qed.

Lemma relabel_marks sg : Forall flat_seg sg -> forall l, length l = length (olds sg) ->
  length (relabel by_zero sg l) = length l /\
  forall i x b, nth_error l i = Some x -> nth_error (marks sg) i = Some b ->
    nth_error (relabel by_zero sg l) i = Some (if b then 0 else x).
Proof.
  induction 1 as [|[w r] sg F _ IH]; intros l HL.
  - destruct l; [|discriminate]. split; [reflexivity|]. intros [|i] x b; discriminate.
  - cbn [relabel]. unfold olds, marks in *. cbn [map concat fst snd] in *. rewrite app_length in HL. unfold old_of at 1 in HL. unfold old_of, flat_seg in *. cbn [fst snd] in *.
    destruct (IH (skipn (length w) l)) as (R1 & R2). { rewrite skipn_length. lia. }
    set (here := match r with Some v => by_zero (firstn (length w) l) (length v) | None => firstn (length w) l end).
    assert (LH : length here = length w).
    { unfold here, by_zero. destruct r as [v|]; [destruct F as (-> & _); now rewrite !repeat_length|rewrite firstn_length; lia]. }
    split; [rewrite app_length, LH, R1, skipn_length; lia|].
    intros i x b HX HB. destruct (Nat.ltb_spec i (length w)) as [L|L].
    + rewrite nth_error_app1 in HB |- * by (rewrite ?repeat_length; lia). rewrite nth_error_repeat in HB by exact L. injection HB as <-.
      unfold here, by_zero. destruct r as [v|].
      * destruct F as (-> & _). rewrite repeat_length. now apply nth_error_repeat.
      * rewrite <- (firstn_skipn (length w) l) in HX. rewrite nth_error_app1 in HX by (rewrite firstn_length; lia). exact HX.
    + rewrite nth_error_app2 in HB |- * by (rewrite ?repeat_length; lia). rewrite LH. rewrite repeat_length in HB. apply R2; [|exact HB].
      rewrite <- (firstn_skipn (length w) l) in HX. rewrite nth_error_app2 in HX by (rewrite firstn_length; lia).
      rewrite firstn_length in HX. now replace (Nat.min (length w) (length l)) with (length w) in HX by lia.
Qed.

(** Marked neighbours have one label, and marked places have labels that fit. *)
Definition adjacent (m : list bool) (l : list Z) : Prop :=
  forall i x y, nth_error m i = Some true -> nth_error m (S i) = Some true -> nth_error l i = Some x -> nth_error l (S i) = Some y -> x = y.
Definition fit (m : list bool) (l : list Z) : Prop :=
  forall i x, nth_error m i = Some true -> nth_error l i = Some x -> 0 <= x < 2 ^ 32.

Lemma one_label_steps l : one_label l <-> forall i x y, nth_error l i = Some x -> nth_error l (S i) = Some y -> x = y.
Proof.
  split.
  - intros H i x y HX HY. apply H; [now apply nth_error_In in HX|now apply nth_error_In in HY].
  - induction l as [|a l IH]; intros H; [intros x y []|].
    assert (O : one_label l) by (apply IH; intros i; apply (H (S i))).
    destruct l as [|b l].
    + intros x y [<-|[]] [<-|[]]. reflexivity.
    + assert (Q : a = b) by (exact (H 0%nat a b eq_refl eq_refl)). subst b.
      intros x y [<-|HX] [<-|HY]; [reflexivity|apply O; [now left|exact HY]|apply O; [exact HX|now left]|now apply O].
Qed.

Lemma in_replaced_marks sg : (forall w v, In (w, v) sg -> w <> []) -> apart sg -> forall l, length l = length (olds sg) ->
  (in_replaced sg (fun _ ls => one_label ls /\ u32_labels ls) l <-> adjacent (marks sg) l /\ fit (marks sg) l).
Proof.
  induction sg as [|[w r] sg IH]; intros NE AP l HL.
  - split; [intros _|intros _; apply in_replaced_nil]. split; [intros [|i]|intros [|i]]; discriminate.
  - rewrite in_replaced_cons. rewrite IH.
    2:{ intros w' v' HI. apply (NE w' v'). now right. }
    2:{ destruct r as [v|]; [|exact AP]. destruct sg as [|[w' [v'|]] sg]; [exact AP|destruct AP|exact AP]. }
    2:{ rewrite skipn_length, HL. unfold olds. cbn [map concat]. rewrite app_length. unfold old_of at 1. cbn [fst]. lia. }
    assert (HW : (length w <= length l)%nat) by (rewrite HL; unfold olds; cbn [map concat]; rewrite app_length; unfold old_of at 1; cbn [fst]; lia).
    set (b := match r with Some _ => true | None => false end).
    assert (EM : marks ((w, r) :: sg) = (repeat b (length w) ++ marks sg)%list) by reflexivity.
    assert (EL : l = (firstn (length w) l ++ skipn (length w) l)%list) by (now rewrite firstn_skipn).
    assert (LF : length (firstn (length w) l) = length w) by (rewrite firstn_length; lia).
    set (l1 := firstn (length w) l) in *. set (l2 := skipn (length w) l) in *. rewrite EL, EM. clearbody l1 l2. clear EL EM HL HW IH l.
    assert (M1 : forall i, (i < length w)%nat -> nth_error (repeat b (length w) ++ marks sg)%list i = Some b).
    { intros i L. rewrite nth_error_app1 by (now rewrite repeat_length). now apply nth_error_repeat. }
    assert (M2 : forall i, nth_error (repeat b (length w) ++ marks sg)%list (length w + i) = nth_error (marks sg) i).
    { intros i. rewrite nth_error_app2; rewrite repeat_length; [f_equal|]; lia. }
    assert (L1 : forall i, (i < length w)%nat -> nth_error (l1 ++ l2)%list i = nth_error l1 i).
    { intros i L. apply nth_error_app1. lia. }
    assert (L2 : forall i, nth_error (l1 ++ l2)%list (length w + i) = nth_error l2 i).
    { intros i. rewrite nth_error_app2; rewrite LF; [f_equal|]; lia. }
    assert (HB : b = true -> nth_error (marks sg) 0 <> Some true).
    { intros Q. destruct r as [v|]; [|discriminate]. destruct sg as [|[w' [v'|]] sg]; [discriminate|destruct AP|].
      specialize (NE w' None (or_intror (or_introl eq_refl))). destruct w'; [now destruct NE|discriminate]. }
    split.
    + intros (H1 & H2 & H3). split.
      * intros i x y A1 A2 X1 X2. destruct (Nat.ltb_spec (S i) (length w)) as [L|L].
        -- rewrite M1 in A1 by lia. injection A1 as Q. destruct r as [v|]; [|discriminate Q].
           destruct H1 as (O & _). rewrite L1 in X1, X2 by lia. exact (proj1 (one_label_steps l1) O i x y X1 X2).
        -- destruct (Nat.ltb_spec i (length w)) as [L'|L'].
           ++ rewrite M1 in A1 by lia. injection A1 as Q. exfalso. apply (HB Q). rewrite <- A2, <- M2. f_equal. lia.
           ++ replace i with (length w + (i - length w))%nat in A1, X1 by lia. replace (S i) with (length w + S (i - length w))%nat in A2, X2 by lia.
              rewrite M2 in A1, A2. rewrite L2 in X1, X2. exact (H2 _ _ _ A1 A2 X1 X2).
      * intros i x A X. destruct (Nat.ltb_spec i (length w)) as [L|L].
        -- rewrite M1 in A by lia. injection A as Q. destruct r as [v|]; [|discriminate Q]. destruct H1 as (_ & U). unfold u32_labels in U. rewrite Forall_forall in U.
           apply U. rewrite L1 in X by lia. now apply nth_error_In in X.
        -- replace i with (length w + (i - length w))%nat in A, X by lia. rewrite M2 in A. rewrite L2 in X. exact (H3 _ _ A X).
    + intros (H2 & H3). split; [|split].
      * destruct r as [v|]; [|exact Logic.I]. split.
        -- apply one_label_steps. intros i x y X1 X2. assert (S i < length w)%nat by (rewrite <- LF; apply nth_error_Some; congruence).
           apply (H2 i); rewrite ?M1, ?L1 by lia; try assumption; reflexivity.
        -- apply Forall_forall. intros x HX. apply In_nth_error in HX. destruct HX as (i & X). assert (i < length w)%nat by (rewrite <- LF; apply nth_error_Some; congruence).
           apply (H3 i); rewrite ?M1, ?L1 by lia; [reflexivity|exact X].
      * intros i x y A1 A2 X1 X2. apply (H2 (length w + i)%nat); rewrite <- ?Nat.add_succ_r, ?M2, ?L2; assumption.
      * intros i x A X. apply (H3 (length w + i)%nat); rewrite ?M2, ?L2; assumption.
Qed.

(** ** Entities and numbers *)

Lemma runs_apart p choose s : apart (seg_runs p choose s).
Proof.
  unfold seg_runs. pose proof (runs_wf p s) as W. induction (runs p s) as [|[b r] rs IH]; [exact Logic.I|].
  cbn [wf_runs] in W. destruct W as (_ & _ & HB & W). specialize (IH W). cbn [map fst snd].
  destruct b; [|exact IH]. destruct rs as [|[b' r'] rs]; [now destruct (choose r)|]. cbn [map fst snd] in *. subst b'. cbn [negb] in *.
  now destruct (choose r).
Qed.

Section numbers.
  Context (E : env) (TL : token_letters E) (nums : list op) (k : Z -> kind) (K32 : k 32 = Gap) (s : str).
  Let b := blanked E nums s.
  Let rest := news b.

  Lemma blanked_olds : olds b = s.
  Proof. unfold b, blanked. apply seg_runs_olds. Qed.

  Lemma blanked_flat : Forall flat_seg b.
  Proof.
    apply Forall_forall. intros [w [v|]] HI; [|exact Logic.I]. unfold flat_seg. cbn [fst snd]. split.
    - apply seg_runs_In in HI. destruct (existsb (takes E w) nums); [now injection HI|discriminate].
    - intros H32. unfold b, blanked, seg_runs in HI. apply in_map_iff in HI. destruct HI as ([[|] r] & Q & HI); cbn [fst snd] in Q; [|discriminate].
      injection Q as -> _. pose proof (runs_wf (fun c => point c || digit E c)%bool s) as W.
      induction (runs (fun c => point c || digit E c)%bool s) as [|[b' r'] rs IH]; [destruct HI|].
      cbn [wf_runs] in W. destruct W as (_ & HA & _ & W). destruct HI as [[= -> ->]|HI]; [|now apply IH].
      unfold all_in in HA. rewrite Forall_forall in HA. specialize (HA 32 H32). cbn beta in HA.
      rewrite (not_number E 32 TL) in HA; [discriminate|now left].
  Qed.

  Lemma blanked_nonempty w v : In (w, v) b -> w <> [].
  Proof.
    unfold b, blanked, seg_runs. intros HI. apply in_map_iff in HI. destruct HI as ([b' r] & [= <- _] & HI).
    pose proof (runs_wf (fun c => point c || digit E c)%bool s) as W.
    induction (runs (fun c => point c || digit E c)%bool s) as [|[b0 r0] rs IH]; [destruct HI|].
    cbn [wf_runs] in W. destruct W as (N & _ & _ & W). destruct HI as [[= -> ->]|HI]; [exact N|now apply IH].
  Qed.

  Lemma in_number_marks i : in_number E nums s (Z.of_nat i) <-> nth_error (marks b) i = Some true.
  Proof.
    pose proof (marks_changed b blanked_flat) as M. rewrite blanked_olds in M. split.
    - intros (j & c & Q & HC & N). apply Nat2Z.inj in Q. subst j. now apply (M i c HC).
    - intros H. destruct (nth_error s i) as [c|] eqn:HC.
      + exists i, c. split; [reflexivity|]. split; [exact HC|]. now apply (M i c HC).
      + apply nth_error_None in HC. assert (i < length (marks b))%nat by (apply nth_error_Some; congruence).
        rewrite marks_length, blanked_olds in H0. lia.
  Qed.

  Lemma in_number_rest i : in_number E nums s (Z.of_nat i) -> nth_error rest i = Some 32.
  Proof.
    intros H. pose proof H as (j & c & Q & HC & _). apply Nat2Z.inj in Q. subst j. apply in_number_marks in H.
    pose proof (marks_changed b blanked_flat) as M. rewrite blanked_olds in M. now apply (M i c HC).
  Qed.

  Lemma number_wise_positions l : number_wise E nums k s l <->
    length l = length s /\
    (forall i x y, in_number E nums s (Z.of_nat i) -> in_number E nums s (Z.of_nat (S i)) ->
       nth_error l i = Some x -> nth_error l (S i) = Some y -> x = y) /\
    (forall i x, nth_error l i = Some x -> 0 <= x < 2 ^ 32) /\
    (forall i c x, nth_error rest i = Some c -> nth_error l i = Some x -> ~ in_number E nums s (Z.of_nat i) -> k c = Gap -> x = 0) /\
    (forall i c d x y, nth_error rest i = Some c -> nth_error rest (S i) = Some d -> k c = Word -> k d = Word ->
       nth_error l i = Some x -> nth_error l (S i) = Some y -> x = y).
  Proof.
    unfold number_wise. fold b. pose proof blanked_flat as FL. pose proof blanked_olds as BO.
    assert (MK : forall i x, length l = length s -> nth_error l i = Some x -> exists m c, nth_error (marks b) i = Some m /\ nth_error rest i = Some c).
    { intros i x HL HX. assert (LI : (i < length s)%nat) by (rewrite <- HL; apply nth_error_Some; congruence).
      destruct (nth_error (marks b) i) as [m|] eqn:Q1; [|apply nth_error_None in Q1; rewrite marks_length, BO in Q1; lia].
      destruct (nth_error rest i) as [c|] eqn:Q2; [eauto|]. apply nth_error_None in Q2. unfold rest in Q2. rewrite flat_news, BO in Q2 by exact FL. lia. }
    split.
    - intros (HL & H1 & H2). rewrite <- BO in HL. destruct (relabel_marks b FL l HL) as (RL & R). 
      apply in_replaced_marks in H1; [|exact blanked_nonempty|apply runs_apart|exact HL]. destruct H1 as (A & F).
      rewrite BO in HL. destruct H2 as (T1 & T2 & T3).
      assert (NM : forall i c, nth_error rest i = Some c -> k c = Word -> nth_error (marks b) i <> Some true).
      { intros i c HC KC Q. apply in_number_marks, in_number_rest in Q. congruence. }
      split; [exact HL|]. split; [|split; [|split]].
      + intros i x y N1 N2. apply A; now apply in_number_marks.
      + intros i x HX. destruct (MK i x HL HX) as ([|] & c & HM & HC); [now apply (F i)|].
        now apply (T2 i c x HC), (R i x false HX).
      + intros i c x HC HX N KG. destruct (MK i x HL HX) as ([|] & c' & HM & HC'); [destruct N; now apply in_number_marks|].
        apply (T2 i c x HC); [|exact KG]. exact (R i x false HX HM).
      + intros i c d x y HC HD KC KD HX HY.
        destruct (MK i x HL HX) as ([|] & c' & HM & _); [now destruct (NM i c HC KC)|].
        destruct (MK (S i) y HL HY) as ([|] & d' & HM' & _); [now destruct (NM (S i) d HD KD)|].
        apply (T3 i c d x y HC HD KC KD); [exact (R i x false HX HM)|exact (R (S i) y false HY HM')].
    - intros (HL & H1 & H2 & H3 & H4). assert (HL' : length l = length (olds b)) by congruence. destruct (relabel_marks b FL l HL') as (RL & R).
      split; [exact HL|]. split.
      + apply in_replaced_marks; [exact blanked_nonempty|apply runs_apart|exact HL'|]. split.
        * intros i x y M1 M2. apply (H1 i); now apply in_number_marks.
        * intros i x _. apply H2.
      + assert (BACK : forall i z, nth_error (relabel by_zero b l) i = Some z ->
            exists x m, nth_error l i = Some x /\ nth_error (marks b) i = Some m /\ z = (if m then 0 else x)).
        { intros i z HZ. destruct (nth_error l i) as [x|] eqn:HX.
          - destruct (MK i x HL HX) as (m & _ & HM & _). exists x, m. split; [reflexivity|]. split; [exact HM|]. rewrite (R i x m HX HM) in HZ. congruence.
          - apply nth_error_None in HX. assert (i < length (relabel by_zero b l))%nat by (apply nth_error_Some; congruence). lia. }
        split; [rewrite RL; rewrite flat_news by exact FL; congruence|]. split.
        * intros i c z HC HZ. destruct (BACK i z HZ) as (x & [|] & HX & HM & ->).
          -- split; [lia|reflexivity].
          -- split; [now apply (H2 i)|]. apply (H3 i c x HC HX). rewrite in_number_marks. congruence.
        * intros i c d z z' HC HD KC KD HZ HZ'. destruct (BACK i z HZ) as (x & m & HX & HM & ->). destruct (BACK _ z' HZ') as (x' & m' & HX' & HM' & ->).
          assert (NM : forall i c, nth_error rest i = Some c -> k c = Word -> nth_error (marks b) i <> Some true).
          { intros j e HE KE Q. apply in_number_marks, in_number_rest in Q. congruence. }
          destruct m; [now destruct (NM i c HC KC)|]. destruct m'; [now destruct (NM _ d HD KD)|].
          now apply (H4 i c d).
  Qed.
End numbers.

(** ** Entities and labels *)

Section entities.
  Context (d : datum) (LD : legible d) (ls : list Z).
  Context (HL : length ls = length (d_utterance d)).
  Context (HLab : forall i, 0 <= i < Z.of_nat (length (d_utterance d)) -> labelled (d_entities d) i (at_ ls i)).
  Context (blank glued : nat -> Prop).

  Lemma entities_labels :
    ((forall i x, nth_error ls i = Some x -> 0 <= x < 2 ^ 32) /\
     (forall i x, blank i -> nth_error ls i = Some x -> x = 0) /\
     (forall i x y, glued i -> nth_error ls i = Some x -> nth_error ls (S i) = Some y -> x = y)) <->
    Forall (fun e => (forall i, e_start e <= Z.of_nat i < e_end e -> ~ blank i) /\
                     (forall i, glued i -> (S i < length ls)%nat -> Z.of_nat (S i) <> e_start e /\ Z.of_nat (S i) <> e_end e)) (d_entities d).
  Proof.
    destruct LD as (HD & HU & HF & HA). pose proof (is_datum_inv d HD) as (_ & D2 & _ & _ & D5 & _).
    rewrite Forall_forall in HF, D2. rewrite Forall_forall.
    assert (AT : forall i x, nth_error ls i = Some x -> labelled (d_entities d) (Z.of_nat i) x).
    { intros i x HX. assert (i < length ls)%nat by (apply nth_error_Some; congruence).
      specialize (HLab (Z.of_nat i) ltac:(lia)). unfold at_ in HLab. rewrite Nat2Z.id in HLab. now rewrite (nth_error_nth ls i 0 HX) in HLab. }
    assert (ON : forall e i, In e (d_entities d) -> covers e (Z.of_nat i) -> nth_error ls i = Some (e_label e)).
    { intros e i HE HC. destruct (HF e HE) as ((I1 & I2) & _). unfold covers in HC.
      destruct (nth_error ls i) as [x|] eqn:HX; [|apply nth_error_None in HX; lia]. f_equal.
      eapply labelled_unique; [exact D5|exact (AT i x HX)|]. left. exists e. auto. }
    split.
    - intros (H1 & H2 & H3) e HE. destruct (HF e HE) as ((I1 & I2) & P & SE). split.
      + intros i HI B. specialize (H2 i _ B (ON e i HE HI)). lia.
      + intros i G LI. split; intros Q.
        * assert (CE : covers e (Z.of_nat (S i))) by (unfold covers; lia).
          destruct (nth_error ls i) as [x|] eqn:HX; [|apply nth_error_None in HX; lia].
          pose proof (H3 i _ _ G HX (ON e (S i) HE CE)) as ->. destruct (AT i _ HX) as [(e' & HE' & C' & EL)|(_ & Z0)]; [|lia].
          apply (HA e' e HE' HE); [|exact EL].
          destruct (Z.ltb_spec (e_end e') (Z.of_nat (S i) + 1)) as [L|L]; [unfold covers in C'; lia|].
          exfalso. assert (CS : covers e' (Z.of_nat (S i))) by (unfold covers in *; lia).
          assert (QE : e = e'); [|subst e'; unfold covers in C'; lia].
          clear - D5 HE HE' CE CS. induction (d_entities d) as [|e0 es IH]; [destruct HE|].
          apply StronglySorted_inv in D5. destruct D5 as (D & F). rewrite Forall_forall in F. unfold before, covers in *.
          destruct HE as [->|HE], HE' as [->|HE']; [reflexivity|specialize (F _ HE'); lia|specialize (F _ HE); lia|now apply IH].
        * assert (CE : covers e (Z.of_nat i)) by (unfold covers; lia).
          destruct (nth_error ls (S i)) as [y|] eqn:HY; [|apply nth_error_None in HY; lia].
          pose proof (H3 i _ _ G (ON e i HE CE) HY) as <-. destruct (AT (S i) _ HY) as [(e' & HE' & C' & EL)|(_ & Z0)]; [|lia].
          apply (HA e e' HE HE'); [|now symmetry].
          destruct (Z.ltb_spec (Z.of_nat i) (e_start e')) as [L|L]; [unfold covers in C'; lia|].
          exfalso. assert (CS : covers e' (Z.of_nat i)) by (unfold covers in *; lia).
          assert (QE : e = e'); [|subst e'; unfold covers in C'; lia].
          clear - D5 HE HE' CE CS. induction (d_entities d) as [|e0 es IH]; [destruct HE|].
          apply StronglySorted_inv in D5. destruct D5 as (D & F). rewrite Forall_forall in F. unfold before, covers in *.
          destruct HE as [->|HE], HE' as [->|HE']; [reflexivity|specialize (F _ HE'); lia|specialize (F _ HE); lia|now apply IH].
    - intros H. split; [|split].
      + intros i x HX. destruct (AT i x HX) as [(e & HE & CV & <-)|(_ & ->)]; [|lia].
        destruct (proj1 (is_entity_iff e) (D2 e HE)) as (I1 & _). unfold i32 in I1. destruct (HF e HE) as (_ & P & _). lia.
      + intros i x B HX. destruct (AT i x HX) as [(e & HE & CV & <-)|(_ & ->)]; [|reflexivity].
        destruct (H e HE) as (N & _). destruct (N i CV B).
      + intros i x y G HX HY. assert (LI : (S i < length ls)%nat) by (apply nth_error_Some; congruence).
        assert (W : forall e, In e (d_entities d) -> covers e (Z.of_nat i) <-> covers e (Z.of_nat (S i))).
        { intros e HE. destruct (H e HE) as (_ & N). specialize (N i G LI). unfold covers. lia. }
        eapply labelled_unique; [exact D5|exact (AT i x HX)|].
        destruct (AT (S i) y HY) as [(e & HE & CV & <-)|(NC & ->)].
        * left. exists e. split; [exact HE|]. split; [now apply W|reflexivity].
        * right. split; [|reflexivity]. intros e HE CV. now apply (NC e HE), W.
  Qed.
End entities.

Lemma tokens_labels k d ls : legible d -> length ls = length (d_utterance d) ->
  (forall i, 0 <= i < Z.of_nat (length (d_utterance d)) -> labelled (d_entities d) i (at_ ls i)) ->
  (token_wise k (d_utterance d) ls <-> Forall (on_tokens k (d_utterance d)) (d_entities d)).
Proof.
  intros LD HL HLab. set (u := d_utterance d) in *.
  pose proof (entities_labels d LD ls HL HLab (fun i => exists c, nth_error u i = Some c /\ k c = Gap)
    (fun i => exists c e, nth_error u i = Some c /\ nth_error u (S i) = Some e /\ k c = Word /\ k e = Word)) as H.
  assert (TW : token_wise k u ls <->
    ((forall i x, nth_error ls i = Some x -> 0 <= x < 2 ^ 32) /\
     (forall i x, (exists c, nth_error u i = Some c /\ k c = Gap) -> nth_error ls i = Some x -> x = 0) /\
     (forall i x y, (exists c e, nth_error u i = Some c /\ nth_error u (S i) = Some e /\ k c = Word /\ k e = Word) ->
        nth_error ls i = Some x -> nth_error ls (S i) = Some y -> x = y))).
  { split.
    - intros (_ & T2 & T3). split; [|split].
      + intros i x HX. destruct (nth_error u i) as [c|] eqn:HC; [now apply (T2 i c x)|].
        apply nth_error_None in HC. assert (i < length ls)%nat by (apply nth_error_Some; congruence). lia.
      + intros i x (c & HC & KG) HX. now apply (T2 i c x).
      + intros i x y (c & e & HC & HE & KC & KE) HX HY. now apply (T3 i c e).
    - intros (T1 & T2 & T3). split; [exact HL|]. split.
      + intros i c x HC HX. split; [now apply (T1 i)|]. intros KG. apply (T2 i x); [eauto|exact HX].
      + intros i c e x y HC HE KC KE HX HY. apply (T3 i x y); [eauto 6|exact HX|exact HY]. }
  rewrite TW, H. clear TW H. destruct LD as (_ & _ & HF & _). rewrite Forall_forall in HF. rewrite !Forall_forall.
  assert (EQ : forall e, In e (d_entities d) -> (((forall i, e_start e <= Z.of_nat i < e_end e -> ~ exists c, nth_error u i = Some c /\ k c = Gap) /\
     (forall i, (exists c e, nth_error u i = Some c /\ nth_error u (S i) = Some e /\ k c = Word /\ k e = Word) -> (S i < length ls)%nat ->
        Z.of_nat (S i) <> e_start e /\ Z.of_nat (S i) <> e_end e)) <-> on_tokens k u e)).
  { intros e HE. destruct (HF e HE) as (_ & P & SE). unfold on_tokens, splits_word. split.
    - intros (A & B). split; [exact P|]. split; [exact SE|]. split; [intros i c HI HC KG; apply (A i HI); eauto|].
      split; intros (j & c & c' & Q & HC & HC' & KC & KC');
        (assert (S j < length u)%nat by (apply nth_error_Some; congruence));
        (destruct (B j) as (B1 & B2); [eauto 6|lia|congruence]).
    - intros (_ & _ & A & B1 & B2). split.
      + intros i HI (c & HC & KG). now apply (A i c).
      + intros i (c & c' & HC & HC' & KC & KC') _. split; intros Q; [apply B1|apply B2]; exists i, c, c'; auto. }
  split; intros H e HE; apply (EQ e HE), (H e HE).
Qed.

Lemma numbers_labels E nums k d ls : token_letters E -> k 32 = Gap -> legible d -> length ls = length (d_utterance d) ->
  (forall i, 0 <= i < Z.of_nat (length (d_utterance d)) -> labelled (d_entities d) i (at_ ls i)) ->
  (number_wise E nums k (d_utterance d) ls <-> Forall (on_numbers E nums k (d_utterance d)) (d_entities d)).
Proof.
  intros TL K32 LD HL HLab. set (u := d_utterance d) in *.
  rewrite (number_wise_positions E TL nums k K32 u ls).
  set (rest := news (blanked E nums u)). set (N := fun i : nat => in_number E nums u (Z.of_nat i)).
  set (bk := fun i : nat => exists c, nth_error rest i = Some c /\ ~ N i /\ k c = Gap).
  set (gl := fun i : nat => N i /\ N (S i) \/ exists c e, nth_error rest i = Some c /\ nth_error rest (S i) = Some e /\ k c = Word /\ k e = Word).
  pose proof (entities_labels d LD ls HL HLab bk gl) as H.
  assert (LR : length rest = length u) by (unfold rest; rewrite flat_news by (now apply blanked_flat); now rewrite blanked_olds).
  assert (ND : forall i, N i \/ ~ N i).
  { intros i. unfold N. rewrite (in_number_marks E TL nums u i). destruct (nth_error _ i) as [[|]|]; [now left|right; discriminate|right; discriminate]. }
  transitivity ((forall i x, nth_error ls i = Some x -> 0 <= x < 2 ^ 32) /\
     (forall i x, bk i -> nth_error ls i = Some x -> x = 0) /\
     (forall i x y, gl i -> nth_error ls i = Some x -> nth_error ls (S i) = Some y -> x = y)).
  { split.
    - intros (_ & P1 & P2 & P3 & P4). split; [exact P2|]. split.
      + intros i x (c & HC & NI & KG) HX. now apply (P3 i c).
      + intros i x y [(N1 & N2)|(c & e & HC & HE & KC & KE)]; [now apply P1|now apply (P4 i c e)].
    - intros (T1 & T2 & T3). split; [exact HL|]. split; [intros i x y N1 N2; apply T3; now left|]. split; [exact T1|]. split.
      + intros i c x HC HX NI KG. apply (T2 i x); [exists c; auto|exact HX].
      + intros i c e x y HC HE KC KE. apply T3. right. exists c, e. auto. }
  rewrite H. clear H. destruct LD as (_ & _ & HF & _). rewrite Forall_forall in HF. rewrite !Forall_forall.
  assert (EQ : forall e, In e (d_entities d) -> (((forall i, e_start e <= Z.of_nat i < e_end e -> ~ bk i) /\
     (forall i, gl i -> (S i < length ls)%nat -> Z.of_nat (S i) <> e_start e /\ Z.of_nat (S i) <> e_end e)) <-> on_numbers E nums k u e)).
  { intros e HE. destruct (HF e HE) as (_ & P & SE). unfold on_numbers. fold rest. split.
    - intros (A & B). split; [exact P|]. split; [exact SE|]. split.
      + intros i c HI HC. destruct (ND i) as [NI|NI]; [now left|right]. intros KG. apply (A i HI). exists c. auto.
      + intros i HI. split.
        * intros (j & c & c' & Q & HC & HC' & KC & KC'). assert (S j < length rest)%nat by (apply nth_error_Some; congruence).
          destruct (B j) as (B1 & B2); [right; eauto 6|lia|]. destruct HI; congruence.
        * intros ((j & c & Q & HJ) & NI). assert (QI : i = Z.of_nat (S j)) by lia. subst i.
          assert (NJ : N j) by (exists j, c; auto).
          destruct NI as (j' & c' & Q' & HC' & HN'). assert (j' = S j) by lia. subst j'.
          assert (S j < length u)%nat by (apply nth_error_Some; congruence).
          destruct (B j) as (B1 & B2); [left; split; [exact NJ|exists (S j), c'; auto]|lia|]. destruct HI; congruence.
    - intros (_ & _ & A & B). split.
      + intros i HI (c & HC & NI & KG). destruct (A i c HI HC); contradiction.
      + intros i G _.
        assert (BAD : Z.of_nat (S i) = e_start e \/ Z.of_nat (S i) = e_end e -> False).
        { intros Q. destruct (B (Z.of_nat (S i)) Q) as (B1 & B2).
          destruct G as [(N1 & N2)|(c & c' & HC & HC' & KC & KC')].
          - apply B2. replace (Z.of_nat (S i) - 1) with (Z.of_nat i) by lia. now split.
          - apply B1. exists i, c, c'. auto. }
        split; intros Q; apply BAD; auto. }
  split; intros H e HE; apply (EQ e HE), (H e HE).
Qed.

(** ** Operators after the tokenizer *)

Lemma out_list E o x y a : transform_op E o x = Ok (y, a) -> output_type o = TList -> exists l, y = SLst l.
Proof.
  unfold transform_op. intros H Q. rewrite Q in H. destruct (guard _ _) as [[]|]; [|discriminate]. cbn [bind] in H.
  match type of H with bind ?r _ = _ => destruct r as [r0|]; [|discriminate] end. cbn [bind] in H.
  destruct (fst r0) as [s|l] eqn:F; cbn [type_of seqtype_eqb guard bind] in H; [discriminate|].
  injection H as ->. cbn [fst] in F. eauto.
Qed.

Lemma null_maps_by E o newv l y a : ord_ok (ord_e E) ->
  (forall l, transform_op E o (SLst l) =
    (r <- lst_result_null l (elem_group E newv l) ;;
     _ <- guard (seqtype_eqb (type_of (fst r)) TList) TypeErr ;; Ok r)) ->
  (forall x v, newv x = Ok (Some v) -> exists z, v = [z]) ->
  transform_op E o (SLst l) = Ok (y, a) ->
  exists l', y = SLst l' /\ aligns E a any_labels (length l) (length l') keep keep.
Proof.
  intros HO HT HV H.
  assert (HI : forall x, In x l -> exists v, newv x = Ok v).
  { rewrite HT in H. unfold lst_result_null, elem_group in H.
    destruct (elem_edits newv 0 l []) as [g|] eqn:EG; [|discriminate]. eapply elem_edits_inv; eauto. }
  set (f := fun x => match newv x with Ok (Some [z]) => z | _ => x end).
  assert (M : maps E o any_labels (SLst l) (SLst (map f l)) keep keep).
  { apply (null_maps E o newv); auto. intros x HX. destruct (HI x HX) as (v & EV). destruct v as [v|].
    - destruct (HV x v EV) as (z & ->). exists true. split; [|discriminate]. unfold f. now rewrite EV.
    - exists false. split; [exact EV|]. unfold f. now rewrite EV. }
  destruct (maps_inv _ _ _ _ _ _ _ _ _ M H) as [-> A]. exists (map f l). split; [reflexivity|exact A].
Qed.

Lemma nth_error_ext_eq (a b : list Z) : length a = length b ->
  (forall i x, nth_error b i = Some x -> nth_error a i = Some x) -> a = b.
Proof.
  revert b. induction a as [|x a IH]; intros [|y b] L H; try discriminate; [reflexivity|].
  f_equal; [specialize (H 0%nat y eq_refl); now injection H|]. apply IH; [now injection L|]. intros i z HZ. exact (H (S i) z HZ).
Qed.

Definition carries (o : op) (n : nat) (F G : list Z -> list Z) : Prop :=
  forall m m' (b : nat -> bool), length m = n -> length m' = length (F m) ->
    (forall i x, nth_error (F m) i = Some x -> nth_error m' i = Some (if b i then x else 0)) ->
    forall i x, nth_error m i = Some x ->
      nth_error (G m') i = Some (if match moved o i with Some j => b j | None => false end then x else 0).

Lemma list_step_acts E o l y a : python E -> list_step o -> transform_op E o (SLst l) = Ok (y, a) ->
  exists l' F G, y = SLst l' /\ aligns E a any_labels (length l) (length l') F G /\ carries o (length l) F G.
Proof.
  intros PY HO HT. pose proof PY as (_ & OE & _).
  assert (KEEP : moved o = Some -> (exists l', y = SLst l' /\ aligns E a any_labels (length l) (length l') keep keep) ->
    exists l' F G, y = SLst l' /\ aligns E a any_labels (length l) (length l') F G /\ carries o (length l) F G).
  { intros Q (l' & Y & A). exists l', keep, keep. split; [exact Y|]. split; [exact A|].
    intros m m' b HM HM' H i x HX. rewrite Q. now apply H. }
  destruct o; cbn [list_step] in HO; try contradiction.
  - apply KEEP; [reflexivity|]. exact (null_maps_by E (PureNum2Token token) (purenum_newv E token) l y a OE (fun _ => eq_refl) (purenum_one E token) HT).
  - destruct (Z.ltb_spec maxlen 0) as [L|L]; [rewrite pad_negative in HT by exact L; discriminate|].
    assert (HP : (Z.of_nat (length l) < 2 ^ 32)%Z \/ Z.of_nat (length l) = maxlen).
    { destruct (Z.ltb_spec (Z.of_nat (length l)) (2 ^ 32)) as [Q|Q]; [now left|].
      destruct (Z.eq_dec (Z.of_nat (length l)) maxlen) as [R'|R']; [now right|].
      rewrite pad_too_long in HT by assumption. discriminate. }
    destruct (maps_inv _ _ _ _ _ _ _ _ _ (pad_maps E maxlen pad_token l OE L HP) HT) as [-> A].
    eexists _, _, _. split; [reflexivity|]. split; [exact A|]. clear A HT HP. set (M := Z.to_nat maxlen).
    intros m m' b HM HM' H i x HX. cbn [moved]. rewrite app_length, firstn_length, repeat_length in HM'.
    assert (HI : (i < length l)%nat) by (rewrite <- HM; apply nth_error_Some; congruence).
    destruct (Z.ltb_spec (Z.of_nat i) maxlen) as [Q|Q].
    + rewrite nth_error_app1 by (rewrite firstn_length; lia).
      assert (HF : nth_error (firstn M m ++ repeat 0 (M - length l)) i = Some x).
      { rewrite nth_error_app1 by (rewrite firstn_length; lia). rewrite <- (firstn_skipn M m) in HX. rewrite nth_error_app1 in HX by (rewrite firstn_length; lia). exact HX. }
      specialize (H i x HF). rewrite <- (firstn_skipn (length l) m') in H.
      rewrite nth_error_app1 in H by (rewrite firstn_length; lia). exact H.
    + rewrite nth_error_app2 by (rewrite firstn_length; lia). apply nth_error_repeat. rewrite firstn_length. lia.
  - destruct l as [|x0 l].
    + destruct (soseos_empty E start_token end_token y a OE HT) as (Y & S1 & S2 & S3 & S4 & S5).
      destruct (S3 [] eq_refl) as (m0 & A0 & L0).
      assert (exists l', y = SLst l') as (l' & ->) by (destruct Y as [(_ & [->| ->])|(_ & ->)]; eauto).
      exists l', (fun _ => m0), (fun _ => []). split; [reflexivity|]. split; [|intros [|] m' b HM; [intros _ _ [|i] x HX; discriminate|discriminate]].
      split; [|split; [|split]].
      * intros [|] HL _; [now split|discriminate].
      * exact S1.
      * intros m HM _. destruct (S4 m HM) as [(_ & [|] & A & LA)|([] & _)]; [now left| |discriminate]. now split.
      * exact S2.
    + destruct (Z.ltb_spec (Z.of_nat (length (x0 :: l))) (2 ^ 32)) as [Q|Q]; [|rewrite soseos_too_long in HT by exact Q; discriminate].
      destruct (maps_inv _ _ _ _ _ _ _ _ _ (soseos_maps E start_token end_token (x0 :: l) OE ltac:(discriminate) Q) HT) as [-> A].
      eexists _, _, _. split; [reflexivity|]. split; [exact A|]. clear A HT Q. set (n := length (x0 :: l)).
      intros m m' b HM HM' H i x HX. cbn [moved].
      assert (HI : (i < n)%nat) by (rewrite <- HM; apply nth_error_Some; congruence).
      assert (HF : nth_error (0 :: m ++ [0]) (S i) = Some x) by (cbn [nth_error]; rewrite nth_error_app1 by lia; exact HX).
      specialize (H (S i) x HF). destruct m' as [|z m']; [discriminate|]. cbn [tl nth_error length] in *.
      rewrite app_length in HM'. cbn [length] in HM'.
      rewrite <- (firstn_skipn n m') in H. rewrite nth_error_app1 in H by (rewrite firstn_length; lia). exact H.
  - destruct (Z.ltb_spec (Z.of_nat (length l)) (2 ^ 32)) as [Q|Q]; [|rewrite end_too_long in HT by exact Q; discriminate].
    destruct (maps_inv _ _ _ _ _ _ _ _ _ (end_maps E end_token l OE Q) HT) as [-> A].
    eexists _, _, _. split; [reflexivity|]. split; [exact A|]. clear A HT Q.
    intros m m' b HM HM' H i x HX. cbn [moved].
    assert (HI : (i < length l)%nat) by (rewrite <- HM; apply nth_error_Some; congruence).
    assert (HF : nth_error (m ++ [0]) i = Some x) by (rewrite nth_error_app1 by lia; exact HX).
    specialize (H i x HF). rewrite app_length in HM'. cbn [length] in HM'.
    rewrite <- (firstn_skipn (length l) m') in H. rewrite nth_error_app1 in H by (rewrite firstn_length; lia). exact H.
  - apply KEEP; [reflexivity|]. exact (null_maps_by E (Token2Index token2index unk_token) (index_newv token2index unk_token) l y a OE (fun _ => eq_refl) (index_one token2index unk_token) HT).
  - apply KEEP; [reflexivity|]. exact (null_maps_by E (Token2IndexwithHash token2index) (hash_newv token2index) l y a OE (fun _ => eq_refl) (hash_one token2index) HT).
Qed.

Lemma list_steps_trip E ops : python E -> Forall list_step (map o_op ops) -> forall l y als coll,
  Pipe.run E ops (SLst l) = Ok (y, als, coll) -> forall m, length m = length l ->
  exists m2 m', align_all als m = Ok m2 /\ align_inverse_all E als m2 = Ok m' /\ length m' = length m /\
    forall i x, nth_error m i = Some x -> nth_error m' i = Some (if passes (map o_op ops) i then x else 0).
Proof.
  intros PY. induction ops as [|o ops IH]; intros HF l y als coll HR m HM.
  - cbn [Pipe.run] in HR. injection HR as <- <- <-. exists m, m. auto.
  - cbn [Pipe.run] in HR. destruct (transform_op E (o_op o) (SLst l)) as [[v a]|] eqn:T; [|discriminate]. cbn [bind] in HR.
    destruct (Pipe.run E ops v) as [[[z al] co]|] eqn:HR'; [|discriminate]. cbn [bind] in HR. injection HR as <- <- <-.
    cbn [map] in HF. inversion HF as [|? ? H1 H2]; subst.
    destruct (list_step_acts E (o_op o) l v a PY H1 T) as (l' & F & G & -> & (A1 & A2 & A3 & A4) & C).
    destruct (A1 m HM Logic.I) as (A & LA).
    destruct (IH H2 l' z al co HR' (F m) LA) as (m2 & m1 & B1 & B2 & B3 & B4).
    destruct (A3 m1 ltac:(lia) Logic.I) as (D & LD').
    exists m2, (G m1). change (a :: al) with ([a] ++ al)%list. rewrite align_all_app, align_one, A. cbn [bind]. split; [exact B1|].
    rewrite align_inverse_all_app, B2. cbn [bind]. rewrite align_inverse_one. split; [exact D|]. split; [lia|].
    intros i x HX. cbn [map passes]. rewrite (C m m1 (passes (map o_op ops)) HM B3 B4 i x HX). now destruct (moved (o_op o) i).
Qed.

Theorem list_steps_survive E p l y als coll : python E -> Forall list_step (map o_op (steps p)) ->
  transform_sequence E p (SLst l) = Ok (y, als, coll) ->
  forall m, length m = length l -> (survives E als m <-> not_cut (map o_op (steps p)) m).
Proof.
  intros PY HF HR m HM. destruct (list_steps_trip E _ PY HF _ _ _ _ HR m HM) as (m2 & m' & B1 & B2 & B3 & B4). split.
  - intros (m3 & A & B). assert (m' = m) as -> by congruence. intros i x HX HP. specialize (B4 i x HX). rewrite HP, HX in B4. now injection B4.
  - intros NC. exists m2. split; [exact B1|]. rewrite B2. f_equal. apply nth_error_ext_eq; [exact B3|].
    intros i x HX. rewrite (B4 i x HX). destruct (passes _ i) eqn:Q; [reflexivity|]. now rewrite (NC i x HX Q).
Qed.

(** ** Whole pipes *)

Section after.
  Context (E : env) (PY : python E) (RX : regexes E).

  Lemma split_run p front after s y als coll : reachable E p ->
    map o_op (steps p) = (front ++ after)%list -> transform_sequence E p (SStr s) = Ok (y, als, coll) ->
    exists y1 als1 als2 coll1 coll2, transform_sequence E (first_steps (length front) p) (SStr s) = Ok (y1, als1, coll1) /\
      map o_op (steps (first_steps (length front) p)) = front /\ als = (als1 ++ als2)%list /\
      firstn (length front) als = als1 /\ nth_error coll (length front) = Some y1 /\
      exists rest, map o_op (steps rest) = after /\ transform_sequence E rest y1 = Ok (y, als2, coll2) /\
      (front <> [] -> forall l m, align_all als1 l = Ok m -> length m = pseq_length y1) /\
      Forall (made E) (steps (first_steps (length front) p)).
  Proof.
    intros HR HO HX. apply map_eq_app in HO. destruct HO as (f & a & Q & F & A).
    assert (FS : steps (first_steps (length front) p) = f).
    { unfold first_steps. cbn [steps]. rewrite Q, <- F, map_length, firstn_app_len by reflexivity. reflexivity. }
    unfold transform_sequence in *. rewrite FS. rewrite Q, run_app in HX.
    destruct (Pipe.run E f (SStr s)) as [[[y1 als1] coll1]|] eqn:R1; [|discriminate]. cbn [bind] in HX.
    destruct (Pipe.run E a y1) as [[[z al] co]|] eqn:R2; [|discriminate]. cbn [bind] in HX. injection HX as <- <- <-.
    apply reachable_sound in HR. destruct HR as (HM & _). rewrite Q in HM. apply Forall_app in HM. destruct HM as (HM & _).
    destruct (run_sound E PY RX f HM _ _ _ _ R1) as (F1 & _ & F3 & _).
    apply run_stepwise in R1 as R1'. destruct R1' as (LA & LC & _ & LY & _).
    assert (LF : length front = length f) by (rewrite <- F; apply map_length).
    exists y1, als1, al, coll1, co. split; [reflexivity|]. split; [exact F|]. split; [reflexivity|].
    split; [rewrite LF, <- LA; now apply firstn_app_len|]. split; [rewrite LF, nth_error_app1 by lia; exact LY|].
    exists (mkPipe a []). split; [exact A|]. split; [exact R2|]. split; [|exact HM].
    intros NF l m HA. assert (NF' : f <> []) by (intros ->; apply NF; now rewrite <- F).
    destruct (Nat.eq_dec (length l) (pseq_length (SStr s))) as [L|L]; [|rewrite (F3 NF' l L) in HA; discriminate].
    destruct (F1 l L) as (m' & A' & LM). congruence.
  Qed.

  Lemma tokenizer_gives tok k spaces numbers p s y als coll : 
    Forall (fun o => In o spaced_numbers) numbers ->
    Forall (fun o => In o [MergeWhiteSpaceCharacters; StripWhiteSpaceCharacters]) spaces ->
    In (tok, k) [(WhiteSpaceTokenizer, by_space E); (EngTokenizer, by_punct E); (ZhCharTokenizer, by_punct_cjk E)] ->
    map o_op (steps p) = (numbers ++ spaces ++ [tok])%list -> transform_sequence E p (SStr s) = Ok (y, als, coll) -> exists ts, y = SLst ts.
  Proof.
    intros _ _ HT HO HX. rewrite app_assoc in HO. apply map_eq_app in HO. destruct HO as (f & a & Q & F & A).
    destruct a as [|o [|]]; [discriminate| |discriminate]. injection A as A.
    unfold transform_sequence in HX. rewrite Q, run_app in HX.
    destruct (Pipe.run E f (SStr s)) as [[[y1 als1] coll1]|] eqn:R1; [|discriminate]. cbn [bind Pipe.run] in HX.
    destruct (transform_op E (o_op o) y1) as [[v w]|] eqn:T; [|discriminate]. cbn [bind] in HX. injection HX as <- _ _.
    apply (out_list _ _ _ _ _ T). rewrite A. destruct HT as [[= <- <-]|[[= <- <-]|[[= <- <-]|[]]]]; reflexivity.
  Qed.

  Lemma kind_gap tok k : In (tok, k) [(WhiteSpaceTokenizer, by_space E); (EngTokenizer, by_punct E); (ZhCharTokenizer, by_punct_cjk E)] ->
    k 32 = Gap.
  Proof. intros HI. destruct (spaces_cutter E PY tok k HI [] (Forall_nil _)) as (_ & K & _). apply K. exact (space_32 E PY). Qed.

  Lemma app_not_nil {A} (a b : list A) x : (a ++ b ++ [x])%list <> [].
  Proof. rewrite app_assoc. intros Q. now apply app_eq_nil in Q. Qed.

  (** Numbers, whitespace, a tokenizer and list operators: enough for labels to come back ... *)
  Theorem numbers_then p s y als coll numbers spaces tok k after : token_letters E -> is_space E 95 = false ->
    Forall (fun o => In o spaced_numbers) numbers ->
    Forall (fun o => In o [MergeWhiteSpaceCharacters; StripWhiteSpaceCharacters]) spaces ->
    In (tok, k) [(WhiteSpaceTokenizer, by_space E); (EngTokenizer, by_punct E); (ZhCharTokenizer, by_punct_cjk E)] ->
    Forall list_step after -> reachable E p -> map o_op (steps p) = ((numbers ++ spaces ++ [tok]) ++ after)%list ->
    transform_sequence E p (SStr s) = Ok (y, als, coll) ->
    forall l m, align_all (firstn (length (numbers ++ spaces ++ [tok])) als) l = Ok m -> number_wise E numbers k s l -> not_cut after m ->
    survives E als l.
  Proof.
    intros TL U HN HS HT HF HR HO HX l m HA HW NC.
    destruct (split_run p _ after s y als coll HR HO HX) as (y1 & als1 & als2 & c1 & c2 & R1 & O1 & -> & FA & _ & rest & OR & R2 & LM & _).
    rewrite FA in HA. destruct (tokenizer_gives tok k spaces numbers _ s y1 als1 c1 HN HS HT O1 R1) as (ts & ->).
    apply (survives_app E als1 als2 l m HA).
    - now apply (numbers_survive E _ s _ als1 c1 numbers spaces tok k PY TL U HN HS HT O1 R1).
    - apply (list_steps_survive E rest ts y als2 c2 PY); [now rewrite OR|exact R2|exact (LM (app_not_nil _ _ _) l m HA)|now rewrite OR].
  Qed.

  (** ... and necessary if no token is cut off. *)
  Theorem numbers_then_iff p s y als coll numbers spaces tok k after ts : token_letters E -> is_space E 95 = false ->
    Forall (fun o => In o spaced_numbers) numbers ->
    Forall (fun o => In o [MergeWhiteSpaceCharacters; StripWhiteSpaceCharacters]) spaces ->
    In (tok, k) [(WhiteSpaceTokenizer, by_space E); (EngTokenizer, by_punct E); (ZhCharTokenizer, by_punct_cjk E)] ->
    Forall list_step after -> reachable E p -> map o_op (steps p) = ((numbers ++ spaces ++ [tok]) ++ after)%list ->
    transform_sequence E p (SStr s) = Ok (y, als, coll) ->
    nth_error coll (length (numbers ++ spaces ++ [tok])) = Some (SLst ts) -> (forall i, (i < length ts)%nat -> passes after i = true) ->
    forall l, survives E als l <-> number_wise E numbers k s l.
  Proof.
    intros TL U HN HS HT HF HR HO HX HC HP l.
    destruct (split_run p _ after s y als coll HR HO HX) as (y1 & als1 & als2 & c1 & c2 & R1 & O1 & -> & FA & Y1 & rest & OR & R2 & LM & _).
    assert (y1 = SLst ts) as -> by congruence.
    rewrite <- (numbers_survive E _ s _ als1 c1 numbers spaces tok k PY TL U HN HS HT O1 R1 l).
    apply steps_after. intros m HA. specialize (LM (app_not_nil _ _ _) l m HA). cbn [pseq_length] in LM.
    apply (list_steps_survive E rest ts y als2 c2 PY); [now rewrite OR|exact R2|exact LM|]. rewrite OR.
    intros i x HX' Q. rewrite HP in Q; [discriminate|]. rewrite <- LM. apply nth_error_Some. congruence.
  Qed.

  (** The same without numbers. *)
  Theorem tokens_then p s y als coll spaces tok k after :
    Forall (fun o => In o [MergeWhiteSpaceCharacters; StripWhiteSpaceCharacters]) spaces ->
    In (tok, k) [(WhiteSpaceTokenizer, by_space E); (EngTokenizer, by_punct E); (ZhCharTokenizer, by_punct_cjk E)] ->
    Forall list_step after -> reachable E p -> map o_op (steps p) = ((spaces ++ [tok]) ++ after)%list ->
    transform_sequence E p (SStr s) = Ok (y, als, coll) ->
    forall l m, align_all (firstn (length (spaces ++ [tok])) als) l = Ok m ->
    (survives E als l <-> token_wise k s l /\ not_cut after m).
  Proof.
    intros HS HT HF HR HO HX l m HA.
    destruct (split_run p _ after s y als coll HR HO HX) as (y1 & als1 & als2 & c1 & c2 & R1 & O1 & -> & FA & _ & rest & OR & R2 & LM & MD).
    rewrite FA in HA. destruct (spaces_cutter E PY tok k HT spaces HS) as (T & _). specialize (T s).
    destruct (T _ O1) as (als' & coll' & R & _). unfold transform_sequence in R1.
    assert (EY : y1 = SLst (map ETok (tk k [] s))) by congruence. subst y1.
    rewrite <- (acts_survives E _ _ _ _ _ _ (mkPipe (steps (first_steps (length (spaces ++ [tok])) p)) []) _ c1 T O1 (fun _ _ => eq_refl) R1 l).
    assert (RT : returns E als1).
    { apply (run_returns E PY RX _ MD) in R1; [exact R1|]. rewrite O1. apply Forall_app. split.
      - eapply Forall_impl; [|exact HS]. intros o [<-|[<-|[]]]; exact Logic.I.
      - constructor; [|constructor]. destruct HT as [[= <- <-]|[[= <- <-]|[[= <- <-]|[]]]]; exact Logic.I. }
    rewrite (survives_app_iff E als1 als2 l m RT HA).
    assert (NF : (spaces ++ [tok])%list <> []) by (intros Q; now apply app_eq_nil in Q).
    rewrite (list_steps_survive E rest _ y als2 c2 PY (eq_ind_r (fun q => Forall list_step q) HF OR) R2 m (LM NF l m HA)), OR. reflexivity.
  Qed.

  (** ** Datums *)

  Lemma front_labels p front after d y als coll ls ints : map o_op (steps p) = (front ++ after)%list -> reachable E p ->
    transform_sequence E p (SStr (d_utterance d)) = Ok (y, als, coll) -> unpack_datum d = Ok (d_utterance d, ints, ls) ->
    forall y1 ints1 m als1 coll1, transform E (first_steps (length front) p) d = Ok (y1, ints1, m, als1, coll1) ->
    align_all (firstn (length front) als) ls = Ok m.
  Proof.
    intros HO HR HX UP y1 ints1 m als1 coll1 HT.
    destruct (split_run p _ after _ y als coll HR HO HX) as (y2 & als2 & als3 & c1 & c2 & R1 & _ & -> & FA & _).
    unfold transform in HT. rewrite UP in HT. cbn [bind] in HT. rewrite R1 in HT. cbn [bind] in HT.
    destruct (align_all als2 ls) as [m'|] eqn:A; [|discriminate]. cbn [bind] in HT. injection HT as _ _ <- _ _. now rewrite FA.
  Qed.

  Theorem numbers_datum p d numbers spaces tok k after y1 ints m als1 coll1 : token_letters E -> is_space E 95 = false ->
    Forall (fun o => In o spaced_numbers) numbers ->
    Forall (fun o => In o [MergeWhiteSpaceCharacters; StripWhiteSpaceCharacters]) spaces ->
    In (tok, k) [(WhiteSpaceTokenizer, by_space E); (EngTokenizer, by_punct E); (ZhCharTokenizer, by_punct_cjk E)] ->
    Forall list_step after -> reachable E p -> map o_op (steps p) = ((numbers ++ spaces ++ [tok]) ++ after)%list -> legible d ->
    (exists r, transform_sequence E p (SStr (d_utterance d)) = Ok r) ->
    transform E (first_steps (length (numbers ++ spaces ++ [tok])) p) d = Ok (y1, ints, m, als1, coll1) ->
    Forall (on_numbers E numbers k (d_utterance d)) (d_entities d) -> not_cut after m -> recovered E p d.
  Proof.
    intros TL U HN HS HT HF HR HO LD [[[y als] coll] HX] HM HE NC. pose proof LD as (HD & _ & HF' & _).
    destruct (unpack_inside d HD) as (ls & UP & LL & HLab); [eapply Forall_impl; [|exact HF']; now intros e []|].
    apply (recovered_iff E p d y als coll _ ls LD HX UP).
    apply (numbers_then p _ y als coll numbers spaces tok k after TL U HN HS HT HF HR HO HX ls m); [|now apply numbers_labels; try assumption; exact (kind_gap tok k HT)|exact NC].
    exact (front_labels p _ after d y als coll ls _ HO HR HX UP y1 ints m als1 coll1 HM).
  Qed.

  Theorem numbers_datum_iff p d y als coll numbers spaces tok k after ts : token_letters E -> is_space E 95 = false ->
    Forall (fun o => In o spaced_numbers) numbers ->
    Forall (fun o => In o [MergeWhiteSpaceCharacters; StripWhiteSpaceCharacters]) spaces ->
    In (tok, k) [(WhiteSpaceTokenizer, by_space E); (EngTokenizer, by_punct E); (ZhCharTokenizer, by_punct_cjk E)] ->
    Forall list_step after -> reachable E p -> map o_op (steps p) = ((numbers ++ spaces ++ [tok]) ++ after)%list -> legible d ->
    transform_sequence E p (SStr (d_utterance d)) = Ok (y, als, coll) ->
    nth_error coll (length (numbers ++ spaces ++ [tok])) = Some (SLst ts) -> (forall i, (i < length ts)%nat -> passes after i = true) ->
    (recovered E p d <-> Forall (on_numbers E numbers k (d_utterance d)) (d_entities d)).
  Proof.
    intros TL U HN HS HT HF HR HO LD HX HC HP. pose proof LD as (HD & _ & HF' & _).
    destruct (unpack_inside d HD) as (ls & UP & LL & HLab); [eapply Forall_impl; [|exact HF']; now intros e []|].
    rewrite (recovered_iff E p d y als coll _ ls LD HX UP).
    rewrite (numbers_then_iff p _ y als coll numbers spaces tok k after ts TL U HN HS HT HF HR HO HX HC HP ls).
    apply numbers_labels; try assumption. exact (kind_gap tok k HT).
  Qed.

  Theorem tokens_datum p d spaces tok k after y1 ints m als1 coll1 :
    Forall (fun o => In o [MergeWhiteSpaceCharacters; StripWhiteSpaceCharacters]) spaces ->
    In (tok, k) [(WhiteSpaceTokenizer, by_space E); (EngTokenizer, by_punct E); (ZhCharTokenizer, by_punct_cjk E)] ->
    Forall list_step after -> reachable E p -> map o_op (steps p) = ((spaces ++ [tok]) ++ after)%list -> legible d ->
    (exists r, transform_sequence E p (SStr (d_utterance d)) = Ok r) ->
    transform E (first_steps (length (spaces ++ [tok])) p) d = Ok (y1, ints, m, als1, coll1) ->
    (recovered E p d <-> Forall (on_tokens k (d_utterance d)) (d_entities d) /\ not_cut after m).
  Proof.
    intros HS HT HF HR HO LD [[[y als] coll] HX] HM. pose proof LD as (HD & _ & HF' & _).
    destruct (unpack_inside d HD) as (ls & UP & LL & HLab); [eapply Forall_impl; [|exact HF']; now intros e []|].
    rewrite (recovered_iff E p d y als coll _ ls LD HX UP).
    rewrite (tokens_then p _ y als coll spaces tok k after HS HT HF HR HO HX ls m
      (front_labels p _ after d y als coll ls _ HO HR HX UP y1 ints m als1 coll1 HM)).
    now rewrite (tokens_labels k d ls LD LL HLab).
  Qed.

  Lemma exact_datum p d y als coll k : legible d ->
    transform_sequence E p (SStr (d_utterance d)) = Ok (y, als, coll) ->
    (forall l, survives E als l <-> token_wise k (d_utterance d) l) ->
    (recovered E p d <-> Forall (on_tokens k (d_utterance d)) (d_entities d)).
  Proof.
    intros LD HX HS. pose proof LD as (HD & _ & HF & _).
    destruct (unpack_inside d HD) as (ls & UP & LL & HLab); [eapply Forall_impl; [|exact HF]; now intros e []|].
    rewrite (recovered_iff E p d y als coll _ ls LD HX UP), HS. now apply tokens_labels.
  Qed.
End after.

Theorem bert_datum E f d p : python E -> letters E -> accents_fit E f (d_utterance d) ->
  basic_pipe E = Ok p \/ full_pipe E = Ok p -> legible d ->
  (recovered E p d <-> Forall (on_tokens (by_punct_cjk E) (d_utterance d)) (d_entities d)).
Proof.
  intros PY HL HA HP LD.
  assert (R : exists y als coll, transform_sequence E p (SStr (d_utterance d)) = Ok (y, als, coll)).
  { destruct HP as [HP|HP].
    - destruct (basic_labels E PY HL f _ p HA HP) as (ts & a & als & coll & _ & R & _). eauto.
    - destruct (full_labels E PY HL f _ p HA HP) as (ts & a & outs & als & coll & _ & _ & R & _). eauto. }
  destruct R as (y & als & coll & R). apply (exact_datum E p d y als coll _ LD R).
  exact (basic_survives E PY HL f (d_utterance d) p y als coll HA HP R).
Qed.

Theorem word_piece_exact E d p : python E -> word_piece_pipe E = Ok p -> legible d ->
  (recovered E p d <-> Forall (on_tokens (by_space E) (d_utterance d)) (d_entities d)).
Proof.
  intros PY HP LD. destruct (word_piece_labels E PY (d_utterance d) p HP) as (ts & a & outs & als & coll & _ & _ & R & _).
  apply (exact_datum E p d _ _ _ _ LD R). exact (word_piece_survives E PY _ p _ _ _ HP R).
Qed.
