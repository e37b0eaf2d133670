(** Spaces around characters, merging and stripping do not matter to the tokenizers (C76). *)

From Verif Require Import Py PyFacts Edit Labels SpecEdit SpecLabels SpecSeg SpecRuns SpecWords SpecOps Ops Json Elements Pipe SpecLaws RegexProofs PatternProofs RunsProofs SegProofs StrOpProofs TokProofs OpLaws LawsTok LawsProofs.
From Coq Require Import List Lia.
Local Open Scope Z_scope.

(** ** Spaces around characters *)

Definition sp (cls : Z -> bool) (cx : Z * Z) : list (Z * Z) :=
  if cls (fst cx) then [(32, 0); cx; (32, 0)] else [cx].

Lemma spaced_cons cls c s : spaced cls (c :: s) = ([c], if cls c then Some [32; c; 32] else None) :: spaced cls s.
Proof. reflexivity. Qed.
Lemma news_spaced cls c s : news (spaced cls (c :: s)) = (if cls c then [32; c; 32] else [c]) ++ news (spaced cls s).
Proof. cbn. unfold new_of. cbn [snd fst]. now destruct (cls c). Qed.

Lemma pairs_spaced cls s : forall l, length l = length s ->
  combine (news (spaced cls s)) (relabel (around SpecSeg.same) (spaced cls s) l) = flat_map (sp cls) (combine s l).
Proof.
  induction s as [|c s IH]; intros [|x l] H; try discriminate; [reflexivity|].
  injection H as H. specialize (IH l H). rewrite news_spaced, spaced_cons.
  cbn [combine flat_map relabel old_of fst snd length firstn skipn]. unfold sp at 1. cbn [fst].
  destruct (cls c); cbn [app combine around SpecSeg.same length Nat.sub]; now rewrite IH.
Qed.

Definition refined (cls : Z -> bool) (k k' : Z -> kind) : Prop :=
  forall c, k' c = if cls c then match k c with Gap => Gap | _ => Single end else k c.

Lemma tk_spaced cls k k' : k 32 = Gap -> refined cls k k' -> forall s cur,
  tk (fun cx : Z * Z => k (fst cx)) cur (flat_map (sp cls) s) = tk (fun cx => k' (fst cx)) cur s.
Proof.
  intros K R. induction s as [|[c x] s IH]; intros cur; [reflexivity|].
  cbn [flat_map]. unfold sp at 1. cbn [fst tk]. rewrite (R c). destruct (cls c); cbn [app tk fst].
  - rewrite K. destruct (k c); cbn [flush app tk]; rewrite ?K; cbn [flush app]; rewrite ?IH; reflexivity.
  - destruct (k c); now rewrite IH.
Qed.

Lemma entity_mode_centre x : by_entity_mode [0; x; 0] 1%nat = [x].
Proof.
  unfold by_entity_mode. cbn [filter negb]. change (0 =? 0) with true. cbn [negb].
  destruct (Z.eqb_spec x 0) as [->|N]; cbn [negb]; [reflexivity|].
  change [x] with (repeat x 1) at 1. now rewrite mode_repeat by lia.
Qed.
Lemma entity_mode_zeros : by_entity_mode [0; 0; 0] 1%nat = [0].
Proof. reflexivity. Qed.

Lemma swap_spaced cls c s : swap (spaced cls (c :: s)) = (if cls c then ([32; c; 32], Some [c]) else ([c], None)) :: swap (spaced cls s).
Proof. cbn. unfold swap1. cbn [snd fst]. now destruct (cls c). Qed.

Lemma back_spaced cls k k' : k 32 = Gap -> refined cls k k' -> forall s cur l,
  relabel by_entity_mode (swap (spaced cls s)) (chlab k cur (news (spaced cls s)) l) = chlab k' cur s l.
Proof.
  intros K R. induction s as [|c s IH]; intros cur l; [reflexivity|].
  rewrite news_spaced, swap_spaced. cbn [chlab]. rewrite (R c).
  destruct (cls c); cbn [relabel old_of fst snd app chlab].
  - rewrite K. cbn [length firstn skipn]. destruct (k c); cbn [chlab]; rewrite ?K; cbn [length firstn skipn];
      rewrite ?entity_mode_centre, ?entity_mode_zeros; cbn [app]; now rewrite IH.
  - destruct (k c); [|destruct cur..|destruct cur]; cbn [length firstn skipn app]; now rewrite IH.
Qed.

Lemma tokens_spaced cls k k' : k 32 = Gap -> refined cls k k' -> forall s cur,
  tk k cur (news (spaced cls s)) = tk k' cur s.
Proof.
  intros K R. induction s as [|c s IH]; intros cur; [reflexivity|].
  rewrite news_spaced. cbn [snd fst tk]. rewrite (R c). destruct (cls c); cbn [app tk].
  - rewrite K. destruct (k c); cbn [flush app tk]; rewrite ?K; cbn [flush app]; rewrite ?IH; reflexivity.
  - destruct (k c); now rewrite IH.
Qed.

(** ** Replacing gaps by gaps *)

Definition gaps_only (k : Z -> kind) (x : seg Z) : Prop :=
  match snd x with
  | None => True
  | Some v => fst x <> [] /\ v <> [] /\ (forall c, In c (fst x) -> k c = Gap) /\ (forall c, In c v -> k c = Gap)
  end.

Lemma tk_gap_segs k h sg : Forall (gaps_only k) sg -> (forall ls n, length (h ls n) = n) ->
  forall cur l, length l = length (olds sg) ->
  tk (fun cx : Z * Z => k (fst cx)) cur (combine (news sg) (relabel h sg l)) =
  tk (fun cx => k (fst cx)) cur (combine (olds sg) l).
Proof.
  intros F H. induction F as [|[o v] sg G F IH]; intros cur l HL; [reflexivity|].
  rewrite news_cons, olds_cons in *. unfold new_of, old_of in *. cbn [fst snd relabel] in *. rewrite app_length in HL.
  assert (L1 : length (firstn (length o) l) = length o) by (rewrite firstn_length; lia).
  assert (L2 : length (skipn (length o) l) = length (olds sg)) by (rewrite skipn_length; lia).
  rewrite (combine_firstn_app o). unfold old_of. cbn [fst].
  assert (IN : forall (w : list Z) (z : list Z) (cx : Z * Z), In cx (combine w z) -> In (fst cx) w) by (intros ? ? []; apply in_combine_l).
  destruct v as [v|].
  - destruct G as (N1 & N2 & G1 & G2). cbn [fst] in *. rewrite combine_two by now rewrite H.
    rewrite !tk_gap_cur; [now rewrite IH| | | |].
    + intros Q. apply (f_equal (@length _)) in Q. rewrite combine_length, L1, Nat.min_id in Q. destruct o; [congruence|discriminate].
    + intros c Hc. apply G1. now apply IN in Hc.
    + intros Q. apply (f_equal (@length _)) in Q. rewrite combine_length, H, Nat.min_id in Q. destruct v; [congruence|discriminate].
    + intros c Hc. apply G2. now apply IN in Hc.
  - rewrite combine_two by (symmetry; exact L1).
    revert cur. generalize (combine o (firstn (length o) l)). intros P. induction P as [|c P IHP]; intros cur; cbn [app tk].
    + now apply IH.
    + destruct (k (fst c)); now rewrite IHP.
Qed.

Lemma tokens_gap_segs k sg : Forall (gaps_only k) sg -> forall cur, tk k cur (news sg) = tk k cur (olds sg).
Proof.
  intros F. induction F as [|[o v] sg G F IH]; intros cur; [reflexivity|].
  rewrite news_cons, olds_cons. unfold new_of, old_of. cbn [fst snd]. destruct v as [v|].
  - destruct G as (N1 & N2 & G1 & G2). cbn [fst] in *. rewrite !tk_gap_cur by assumption. now rewrite IH.
  - revert cur. induction o as [|c P IHP]; intros cur; cbn [app tk].
    + now apply IH.
    + destruct (k c); now rewrite IHP.
Qed.

Lemma back_gap_segs k h sg : Forall (gaps_only k) sg -> (forall n m, 0 < n -> h (repeat 0%Z n) m = repeat 0%Z m)%nat ->
  forall cur l, relabel h (swap sg) (chlab k cur (news sg) l) = chlab k cur (olds sg) l.
Proof.
  intros F H. induction F as [|[o v] sg G F IH]; intros cur l; [reflexivity|].
  rewrite news_cons, olds_cons. unfold new_of, old_of, swap, swap1. cbn [fst snd map]. fold (swap sg). destruct v as [v|].
  - destruct G as (N1 & N2 & G1 & G2). cbn [fst snd] in *. rewrite !chlab_gap by assumption.
    cbn [relabel snd fst]. unfold old_of. cbn [fst].
    rewrite firstn_app, skipn_app, repeat_length, Nat.sub_diag. cbn [firstn skipn].
    rewrite firstn_all2, skipn_all2 by now rewrite repeat_length. cbn [app]. rewrite app_nil_r.
    rewrite H by (destruct v; [congruence|cbn; lia]). fold (swap (A := Z)). now rewrite IH.
  - cbn [fst snd]. cbn [relabel snd fst]. unfold old_of. cbn [fst].
    assert (forall P cur l, firstn (length P) (chlab k cur (P ++ news sg) l) ++ relabel h (swap sg) (skipn (length P) (chlab k cur (P ++ news sg) l))
      = chlab k cur (P ++ olds sg) l) as A.
    { clear -IH. induction P as [|c P IHP]; intros cur l; cbn [app length]; [apply IH|].
      cbn [chlab]. destruct (k c); [|destruct cur..|destruct cur]; cbn [firstn skipn app]; now rewrite IHP. }
    apply A.
Qed.

(** ** Merge and strip *)

Lemma by_mode_zeros n m : (0 < n)%nat -> by_mode (repeat 0 n) m = repeat 0 m.
Proof. intros H. now apply by_mode_repeat. Qed.

Lemma merge_gaps E k s : is_space E 32 = true -> (forall c, is_space E c = true -> k c = Gap) ->
  Forall (gaps_only k) (seg_runs (is_space E) (fun _ => Some blank) s).
Proof.
  intros SP HK. apply Forall_forall. intros [o v] HI. unfold gaps_only. cbn [fst snd]. destruct v as [v|]; [|exact I].
  pose proof (seg_runs_nonempty _ _ _ _ _ HI) as N. pose proof (seg_runs_In _ _ _ _ _ HI) as Q. injection Q as <-.
  split; [exact N|]. split; [discriminate|]. split.
  - intros c Hc. apply HK. unfold seg_runs in HI. apply in_map_iff in HI. destruct HI as ([b r] & Q & HI). cbn [fst snd] in Q.
    destruct b; [|discriminate]. injection Q as <-. pose proof (runs_flags (is_space E) s) as F. rewrite Forall_forall in F.
    exact (F _ HI c Hc).
  - intros c [<-|[]]. apply HK. exact SP.
Qed.

Lemma seg_runs_olds p choose s : olds (seg_runs p choose s) = s.
Proof. unfold olds, seg_runs. rewrite map_map. cbn. apply runs_concat. Qed.

(** On texts of these characters; the characters of the tokens are changed by [f]. *)
Definition tokenizer_on (E : env) (P : Z -> Prop) (f : Z -> Z) (ops : list op) (k : Z -> kind) : Prop :=
  forall s, Forall P s ->
  acts E ops (SStr s) (SLst (map ETok (map (map f) (tk k [] s)))) (tok_fwd k s) (back32 (chlab k None s)).
Definition tokenizer_by (E : env) (ops : list op) (k : Z -> kind) : Prop :=
  forall s, acts E ops (SStr s) (SLst (map ETok (tk k [] s))) (tok_fwd k s) (back32 (chlab k None s)).
Lemma map_map_id {A} (l : list (list A)) : map (map (fun c => c)) l = l.
Proof. erewrite map_ext; [apply map_id|]. intros. apply map_id. Qed.
Lemma tokenizer_by_on E ops k : tokenizer_by E ops k <-> tokenizer_on E (fun _ => True) (fun c => c) ops k.
Proof.
  unfold tokenizer_by, tokenizer_on. split.
  - intros H s _. rewrite map_map_id. apply H.
  - intros H s. specialize (H s). rewrite map_map_id in H. apply H. now apply Forall_forall.
Qed.

Lemma news_all (P : Z -> Prop) (sg : list (seg Z)) : Forall (fun x : seg Z => match snd x with Some v => Forall P v | None => Forall P (fst x) end) sg ->
  Forall P (news sg).
Proof.
  intros F. induction F as [|[o v] sg H F IH]; [constructor|]. rewrite news_cons. apply Forall_app. split; [|exact IH].
  unfold new_of. cbn [fst snd] in *. destruct v; exact H.
Qed.
Lemma olds_all (P : Z -> Prop) (sg : list (seg Z)) : Forall P (olds sg) -> Forall (fun x : seg Z => Forall P (fst x)) sg.
Proof.
  induction sg as [|[o v] sg IH]; [constructor|]. rewrite olds_cons, Forall_app. intros [A B]. constructor; auto.
Qed.
Lemma spaced_all (P : Z -> Prop) cls s : P 32 -> Forall P s -> Forall P (news (spaced cls s)).
Proof.
  intros H F. induction F as [|c s HC F IH]; [constructor|]. rewrite news_spaced. apply Forall_app. split; [|exact IH].
  destruct (cls c); repeat constructor; assumption.
Qed.
Lemma runs_all (P : Z -> Prop) cls s : P 32 -> Forall P s -> Forall P (news (seg_runs cls (fun _ => Some blank) s)).
Proof.
  intros H F. apply news_all. pose proof (olds_all P (seg_runs cls (fun _ => Some blank) s)) as O.
  assert (EO : olds (seg_runs cls (fun _ => Some blank) s) = s) by (unfold olds, seg_runs; rewrite map_map; cbn; apply runs_concat).
  rewrite EO in O. specialize (O F).
  rewrite Forall_forall in *. intros [o v] HI. specialize (O _ HI). cbn [fst snd] in *. destruct v as [v|]; [|exact O].
  pose proof (seg_runs_In _ _ _ _ _ HI) as Q. injection Q as <-. constructor; [exact H|constructor].
Qed.

Lemma merge_first_on E (P : Z -> Prop) f ops k : ord_ok (ord_c E) -> is_space E 32 = true -> P 32 -> (forall c, is_space E c = true -> k c = Gap) ->
  tokenizer_on E P f ops k -> tokenizer_on E P f (MergeWhiteSpaceCharacters :: ops) k.
Proof.
  intros OC SP HP HK HT s HS. pose proof (merge_gaps E k s SP HK) as G.
  destruct (merge_rewrites E s OC) as (O & M). apply acts_maps in M.
  pose proof (acts_app _ _ _ _ _ _ _ _ _ _ M (HT _ (runs_all P _ _ HP HS))) as C. cbn [app] in C.
  rewrite (tokens_gap_segs k _ G []), O in C. eapply acts_ext; [exact C| |].
  - intros l HL. unfold tok_fwd. f_equal. rewrite tk_gap_segs; [now rewrite O|exact G| |now rewrite O].
    intros. unfold by_mode. apply repeat_length.
  - intros l HL. unfold back32. destruct (forallb fits l); cbn [bind]; [|reflexivity]. f_equal.
    rewrite back_gap_segs; [now rewrite O|exact G|]. intros; now apply by_mode_zeros.
Qed.

Lemma merge_first E ops k : ord_ok (ord_c E) -> is_space E 32 = true -> (forall c, is_space E c = true -> k c = Gap) ->
  tokenizer_by E ops k -> tokenizer_by E (MergeWhiteSpaceCharacters :: ops) k.
Proof. intros A B C. rewrite !tokenizer_by_on. now apply merge_first_on. Qed.

Lemma strip_first_on E (P : Z -> Prop) f ops k : ord_ok (ord_c E) -> (forall c, is_space E c = true -> k c = Gap) ->
  tokenizer_on E P f ops k -> tokenizer_on E P f (StripWhiteSpaceCharacters :: ops) k.
Proof.
  intros OC HK HT s HS. pose proof (strip_maps E s OC) as M. cbv zeta in M. apply acts_maps in M.
  destruct (strip_split (is_space E) s) as (w1 & w2 & ES & A1 & A2 & H0 & H1 & H2).
  assert (HM : Forall P (strip (is_space E) s)) by (rewrite ES, !Forall_app in HS; tauto).
  pose proof (acts_app _ _ _ _ _ _ _ _ _ _ M (HT _ HM)) as C. cbn [app] in C.
  pose proof (lstrip_split (is_space E) s w1 _ w2 ES A1 H0 H1) as EL.
  set (m := strip (is_space E) s) in *.
  assert (ELD : lead (is_space E) s = length w1).
  { unfold lead. rewrite EL. apply (f_equal (@length Z)) in ES. rewrite !app_length in *. lia. }
  assert (L2 : (length s - length w1 - length m = length w2)%nat).
  { apply (f_equal (@length Z)) in ES. rewrite !app_length in ES. lia. }
  rewrite ELD, L2 in C. unfold all_in in *. rewrite Forall_forall in A1, A2.
  assert (G1 : forall c, In c w1 -> k c = Gap) by (intros; apply HK, A1; assumption).
  assert (G2 : forall c, In c w2 -> k c = Gap) by (intros; apply HK, A2; assumption).
  assert (ET : tk k [] s = tk k [] m) by (rewrite ES, tk_gap, tk_end; [reflexivity|exact G2|exact G1]).
  rewrite ET. clearbody m. clear HS. subst s. eapply acts_ext; [exact C| |].
  - intros l HL. cbn [pseq_length] in HL. rewrite !app_length in HL. unfold tok_fwd. f_equal.
    rewrite combine_firstn_app, tk_gap by (intros c Hc; apply G1; now apply combine_In_fst in Hc).
    rewrite combine_firstn_app, tk_end; [reflexivity|]. intros c Hc; apply G2; now apply combine_In_fst in Hc.
  - intros l HL. unfold back32. destruct (forallb fits l); cbn [bind]; [|reflexivity]. f_equal.
    assert (B : forall cur l, chlab k cur (m ++ w2) l = chlab k cur m l ++ repeat 0 (length w2)).
    { clear -G2. induction m as [|c m IH]; intros cur l; cbn [app chlab].
      - destruct w2 as [|c w2]; [reflexivity|]. rewrite <- (app_nil_r (c :: w2)), chlab_gap; [now cbn [chlab]; rewrite app_nil_r, !app_length, Nat.add_0_r|exact G2|discriminate].
      - destruct (k c); [|destruct cur..|destruct cur]; cbn [app]; now rewrite IH. }
    destruct w1 as [|c w1]; [cbn [app length repeat]; now rewrite B|].
    rewrite chlab_gap; [now rewrite B|exact G1|discriminate].
Qed.
Lemma strip_first E ops k : ord_ok (ord_c E) -> (forall c, is_space E c = true -> k c = Gap) ->
  tokenizer_by E ops k -> tokenizer_by E (StripWhiteSpaceCharacters :: ops) k.
Proof. intros A B. rewrite !tokenizer_by_on. now apply strip_first_on. Qed.

Lemma spacer_first_on E (P : Z -> Prop) f o cls ops k k' : P 32 ->
  (forall s, rewrites E o s (spaced cls s) (around SpecSeg.same) by_entity_mode) ->
  k 32 = Gap -> refined cls k k' -> tokenizer_on E P f ops k -> tokenizer_on E P f (o :: ops) k'.
Proof.
  intros HP HR K R HT s HS. destruct (HR s) as (_ & M). apply acts_maps in M.
  pose proof (acts_app _ _ _ _ _ _ _ _ _ _ M (HT _ (spaced_all P cls s HP HS))) as C. cbn [app] in C.
  rewrite (tokens_spaced cls k k' K R s []) in C. eapply acts_ext; [exact C| |].
  - intros l HL. unfold tok_fwd. f_equal. rewrite pairs_spaced by exact HL. now apply tk_spaced.
  - intros l HL. unfold back32. destruct (forallb fits l); cbn [bind]; [|reflexivity]. f_equal. now apply back_spaced.
Qed.

(** ** The laws *)

Section tokenizers.
  Context (E : env) (PY : python E).

  Lemma ws_by : tokenizer_by E [WhiteSpaceTokenizer] (by_space E).
  Proof. destruct PY as (OC & _). intros s. apply acts_cut. intros ps. now apply ws_tokenizes. Qed.
  Lemma eng_by : tokenizer_by E [EngTokenizer] (by_punct E).
  Proof. destruct PY as (OC & _ & SP). intros s. apply acts_cut. intros ps. now apply eng_tokenizes. Qed.
  Lemma zh_by : tokenizer_by E [ZhCharTokenizer] (by_punct_cjk E).
  Proof. destruct PY as (OC & _ & SP). intros s. apply acts_cut. intros ps. now apply zh_tokenizes. Qed.

  Lemma tokenizers_same ops1 ops2 k : tokenizer_by E ops1 k -> tokenizer_by E ops2 k ->
    forall s, interchangeable E ops1 ops2 (SStr s).
  Proof. intros A B s. eapply acts_same; [apply A|apply B|reflexivity|reflexivity]. Qed.

  Lemma spacer_first o cls ops k k' :
    (forall s, rewrites E o s (spaced cls s) (around SpecSeg.same) by_entity_mode) ->
    k 32 = Gap -> refined cls k k' -> tokenizer_by E ops k -> tokenizer_by E (o :: ops) k'.
  Proof. intros A B C. rewrite !tokenizer_by_on. now apply (spacer_first_on E _ _ _ cls). Qed.

  Lemma cjk_first ops k k' : k 32 = Gap -> refined cjk k k' -> tokenizer_by E ops k ->
    tokenizer_by E (AddWhitespaceAroundCJK :: ops) k'.
  Proof. apply spacer_first. intros s. apply cjk_rewrites, PY. Qed.
  Lemma punct_first ops k k' : k 32 = Gap -> refined (punctuation E) k k' -> tokenizer_by E ops k ->
    tokenizer_by E (AddWhitespaceAroundPunctuation :: ops) k'.
  Proof. apply spacer_first. intros s. apply punct_rewrites, PY. Qed.

  Definition by_cjk (c : Z) : kind := if is_space E c then Gap else if cjk c then Single else Word.

  Lemma space_32 : is_space E 32 = true.
  Proof. apply PY. Qed.

  Ltac by_kinds := intros c; unfold by_punct, by_punct_cjk, by_space, by_cjk;
    destruct (is_space E c), (punctuation E c), (cjk c); reflexivity.

  Theorem whitespace_first o s : In o [WhiteSpaceTokenizer; EngTokenizer; ZhCharTokenizer] ->
    interchangeable E [MergeWhiteSpaceCharacters; o] [o] (SStr s) /\
    interchangeable E [StripWhiteSpaceCharacters; o] [o] (SStr s) /\
    interchangeable E [MergeWhiteSpaceCharacters; StripWhiteSpaceCharacters; o] [o] (SStr s).
  Proof.
    intros HI. pose proof space_32 as SP. assert (OC : ord_ok (ord_c E)) by apply PY.
    assert (exists k, tokenizer_by E [o] k /\ forall c, is_space E c = true -> k c = Gap) as (k & HT & HK).
    { destruct HI as [<-|[<-|[<-|[]]]].
      - exists (by_space E). split; [apply ws_by|]. intros c H. unfold by_space. now rewrite H.
      - exists (by_punct E). split; [apply eng_by|]. intros c H. unfold by_punct. now rewrite H.
      - exists (by_punct_cjk E). split; [apply zh_by|]. intros c H. unfold by_punct_cjk. now rewrite H. }
    repeat split; apply (tokenizers_same _ _ k); try exact HT;
      repeat (first [apply merge_first; try assumption|apply strip_first; try assumption]).
  Qed.

  Theorem spacing_first s :
    interchangeable E [AddWhitespaceAroundPunctuation; WhiteSpaceTokenizer] [EngTokenizer] (SStr s) /\
    interchangeable E [AddWhitespaceAroundCJK; EngTokenizer] [ZhCharTokenizer] (SStr s) /\
    interchangeable E [AddWhitespaceAroundCJK; AddWhitespaceAroundPunctuation; WhiteSpaceTokenizer] [ZhCharTokenizer] (SStr s) /\
    interchangeable E [AddWhitespaceAroundPunctuation; AddWhitespaceAroundCJK; WhiteSpaceTokenizer] [ZhCharTokenizer] (SStr s) /\
    interchangeable E [AddWhitespaceAroundPunctuation; EngTokenizer] [EngTokenizer] (SStr s) /\
    interchangeable E [AddWhitespaceAroundPunctuation; ZhCharTokenizer] [ZhCharTokenizer] (SStr s) /\
    interchangeable E [AddWhitespaceAroundCJK; ZhCharTokenizer] [ZhCharTokenizer] (SStr s).
  Proof.
    pose proof space_32 as SP.
    assert (K1 : by_space E 32 = Gap) by (unfold by_space; now rewrite SP).
    assert (K2 : by_punct E 32 = Gap) by (unfold by_punct; now rewrite SP).
    assert (K3 : by_punct_cjk E 32 = Gap) by (unfold by_punct_cjk; now rewrite SP).
    assert (K4 : by_cjk 32 = Gap) by (unfold by_cjk; now rewrite SP).
    assert (R1 : refined (punctuation E) (by_space E) (by_punct E)) by by_kinds.
    assert (R2 : refined cjk (by_punct E) (by_punct_cjk E)) by by_kinds.
    assert (R3 : refined cjk (by_space E) by_cjk) by by_kinds.
    assert (R4 : refined (punctuation E) by_cjk (by_punct_cjk E)) by by_kinds.
    assert (R5 : refined (punctuation E) (by_punct E) (by_punct E)) by by_kinds.
    assert (R6 : refined (punctuation E) (by_punct_cjk E) (by_punct_cjk E)) by by_kinds.
    assert (R7 : refined cjk (by_punct_cjk E) (by_punct_cjk E)) by by_kinds.
    assert (P1 := punct_first _ _ _ K1 R1 ws_by). assert (C1 := cjk_first _ _ _ K1 R3 ws_by).
    repeat split; eapply tokenizers_same; try apply eng_by; try apply zh_by.
    - exact P1.
    - exact (cjk_first _ _ _ K2 R2 eng_by).
    - exact (cjk_first _ _ _ K2 R2 P1).
    - exact (punct_first _ _ _ K4 R4 C1).
    - exact (punct_first _ _ _ K2 R5 eng_by).
    - exact (punct_first _ _ _ K3 R6 zh_by).
    - exact (cjk_first _ _ _ K3 R7 zh_by).
  Qed.
End tokenizers.
