(** Labels on the way through the pipes of pipeline/bert and back (C77). *)

From Coq Require Import String.
From Verif Require Import Py PyFacts Edit Labels SpecEdit SpecLabels SpecSeg SpecRuns SpecWords SpecOps Ops Json Elements Pipe
  SpecElements SpecBert SpecLaws SpecTrip RunsProofs SegProofs TokProofs OpLaws StrOpProofs ListOpProofs LawsTok LawsProofs LawsText
  BertRefProofs BertProofs PackProofs DatumProofs EditApiProofs.
From Coq Require Import List Lia.
Local Open Scope Z_scope.

(** ** What survives *)

Lemma token_wise_nil k l : token_wise k [] l <-> l = [].
Proof.
  split.
  - intros (L & _). now destruct l.
  - intros ->. split; [reflexivity|]. split; intros [|i]; discriminate.
Qed.
Lemma token_wise_cons k c s l : token_wise k (c :: s) l <->
  exists x l', l = x :: l' /\ 0 <= x < 2 ^ 32 /\ (k c = Gap -> x = 0) /\
    (forall d s' y l'', s = d :: s' -> l' = y :: l'' -> k c = Word -> k d = Word -> x = y) /\ token_wise k s l'.
Proof.
  split.
  - intros (L & A & B). destruct l as [|x l]; [discriminate|]. exists x, l. split; [reflexivity|].
    destruct (A 0%nat c x eq_refl eq_refl) as [A1 A2]. split; [exact A1|]. split; [exact A2|]. split.
    + intros d s' y l'' -> ->. intros H1 H2. now apply (B 0%nat c d x y).
    + split; [now injection L|]. split; [intros i; apply (A (S i))|intros i; apply (B (S i))].
  - intros (x & l' & -> & A1 & A2 & B & (L & A & B')). split; [cbn; now rewrite L|]. split.
    + intros [|i] d y; cbn [nth_error]; [intros [= <-] [= <-]; now split|apply A].
    + intros [|i] d d' y y'; cbn [nth_error].
      * intros [= <-] H H1 H2 [= <-] H3. destruct s as [|d0 s]; [discriminate|]. destruct l' as [|y0 l']; [discriminate|].
        injection H as ->. injection H3 as ->. now apply (B d' s y' l').
      * apply B'.
Qed.

Definition piece_ok (d : kind) (n : nat) (h : list Z) : Prop :=
  exists x, h = repeat x n /\ 0 <= x < 2 ^ 32 /\ (d = Gap -> x = 0).
Fixpoint pieces_ok (ps : list (str * kind)) (l : list Z) : Prop :=
  match ps with
  | [] => l = []
  | (w, d) :: ps => piece_ok d (length w) (firstn (length w) l) /\ pieces_ok ps (skipn (length w) l)
  end.

Lemma piece_cons d (c : Z) w : d <> Single -> w <> [] -> forall x h,
  piece_ok d (length (c :: w)) (x :: h) <-> (0 <= x < 2 ^ 32 /\ (d = Gap -> x = 0) /\ hd_error h = Some x /\ piece_ok d (length w) h).
Proof.
  intros _ NW x h. split.
  - intros (y & H & HF & HG). cbn [length repeat] in H. injection H as -> ->. split; [exact HF|]. split; [exact HG|].
    split; [destruct w; [congruence|reflexivity]|]. exists y. auto.
  - intros (HF & HG & HH & (y & -> & _)). destruct w as [|c' w]; [congruence|]. cbn [length repeat hd_error] in HH.
    injection HH as ->. exists x. auto.
Qed.

Lemma token_wise_piece k d w s : w <> [] -> (forall c, In c w -> k c = d) -> (d = Single -> length w = 1%nat) ->
  (d = Word -> no_word k s) -> forall l,
  token_wise k (w ++ s) l <-> piece_ok d (length w) (firstn (length w) l) /\ token_wise k s (skipn (length w) l).
Proof.
  intros NW HK HS HN. induction w as [|c w IH]; [congruence|]. intros l. cbn [app]. rewrite token_wise_cons.
  destruct w as [|c' w].
  - cbn [app length firstn skipn]. split.
    + intros (x & l' & -> & A1 & A2 & A3 & A4). rewrite (HK c) in * by now left. split; [|exact A4]. exists x. auto.
    + intros [(x & H & A1 & A2) HT]. destruct l as [|x' l]; [discriminate|]. injection H as ->. exists x, l.
      rewrite (HK c) by now left. split; [reflexivity|]. split; [exact A1|]. split; [exact A2|]. split; [|exact HT].
      intros d' s' y l'' -> -> Hw Hd. specialize (HN Hw). cbn in HN. congruence.
  - assert (ND : d <> Single) by (intros Q; specialize (HS Q); discriminate).
    assert (KC : k c = d) by (apply HK; now left). assert (KC' : k c' = d) by (apply HK; right; now left).
    specialize (IH ltac:(discriminate) ltac:(intros; apply HK; now right) ltac:(intros; congruence)). split.
    + intros (x & l' & -> & A1 & A2 & A3 & A4). apply IH in A4. destruct A4 as [P T].
      change (length (c :: c' :: w)) with (S (length (c' :: w))). cbn [firstn skipn]. split; [|exact T].
      apply (piece_cons d c (c' :: w) ND ltac:(discriminate)). rewrite KC in A2. split; [exact A1|]. split; [exact A2|]. split; [|exact P].
      destruct P as (y & HY & _ & HG). destruct l' as [|y' l']; [cbn in HY; discriminate|].
      cbn [length firstn hd_error] in *. injection HY as -> _. f_equal.
      destruct d; [|congruence|].
      * rewrite A2, HG; reflexivity.
      * symmetry. now apply (A3 c' (w ++ s) y l').
    + change (length (c :: c' :: w)) with (S (length (c' :: w))). intros [P T].
      destruct l as [|x l]; [destruct P as (y & HY & _); discriminate|]. cbn [firstn skipn] in *.
      apply (piece_cons d c (c' :: w) ND ltac:(discriminate)) in P. destruct P as (A1 & A2 & A3 & P). exists x, l. split; [reflexivity|].
      split; [exact A1|]. rewrite KC. split; [exact A2|]. split; [|apply IH; now split].
      intros d' s' y l'' _ -> _ _. cbn [length firstn hd_error] in A3. now injection A3.
Qed.

Lemma token_wise_pieces k s ps l : cut k s ps -> (token_wise k s l <-> pieces_ok ps l).
Proof.
  intros (<- & F & S). revert l. induction ps as [|[w d] ps IH]; intros l; [apply token_wise_nil|].
  inversion F as [|? ? (F1 & F2 & F3) FR]; subst. cbn [fst snd] in *. cbn [map concat fst pieces_ok].
  rewrite (token_wise_piece k d w); [rewrite IH; [reflexivity|exact FR|now apply separate_tl in S]|exact F1|exact F2|exact F3|].
  intros ->. pose proof (separate_no_word k w ps (repeat 0 (length (concat (map fst ps)))) FR S) as N.
  destruct (concat (map fst ps)); [exact I|exact N].
Qed.

Lemma repeat_all {A} (h : list A) x : (forall y, In y h -> y = x) -> h = repeat x (length h).
Proof. induction h as [|y h IH]; intros H; [reflexivity|]. cbn. f_equal; [apply H; now left|apply IH; intros; apply H; now right]. Qed.

Lemma fits_range x : fits x = true <-> 0 <= x < 2 ^ 32.
Proof. unfold fits. rewrite Bool.andb_true_iff, Z.leb_le, Z.ltb_lt. reflexivity. Qed.

Lemma piece_trip ps l : (forall w d, In (w, d) ps -> w <> []) -> length l = length (concat (map fst ps)) ->
  (char_labels (kept ps) (token_labels32 (kept ps) l) = l <-> pieces_ok ps l).
Proof.
  revert l. induction ps as [|[w d] ps IH]; intros l NE HL; cbn [pieces_ok].
  - cbn. split; auto.
  - cbn [map concat fst] in HL. rewrite app_length in HL.
    assert (L1 : length (firstn (length w) l) = length w) by (rewrite firstn_length; lia).
    assert (L2 : length (skipn (length w) l) = length (concat (map fst ps))) by (rewrite skipn_length; lia).
    specialize (IH (skipn (length w) l) ltac:(intros; apply (NE w0 d0); now right) L2).
    assert (NW : w <> []) by (apply (NE w d); now left).
    rewrite <- IH. clear IH. pose proof (firstn_skipn (length w) l) as FS.
    set (h := firstn (length w) l) in *. set (r := skipn (length w) l) in *. clearbody h r. subst l.
    cbn [kept map fst snd token_labels32]. fold (kept ps).
    rewrite firstn_app, L1, Nat.sub_diag, <- L1, firstn_all, firstn_O, app_nil_r, skipn_app, skipn_all, Nat.sub_diag. cbn [skipn app]. rewrite L1.
    assert (G : forall x, 0 <= x < 2 ^ 32 -> (d = Gap -> x = 0) -> forall R,
      (repeat x (length w) ++ R = h ++ r <-> (h = repeat x (length w) /\ R = r))).
    { intros x _ _ R. split.
      - intros Q. apply app_eq_app_length in Q; [|now rewrite repeat_length]. destruct Q; auto.
      - intros [-> ->]. reflexivity. }
    destruct d; cbn [char_labels hd tl].
    1: { rewrite (G 0) by (auto; lia). split.
      - intros [-> Q]. split; [exists 0; repeat split; auto; lia|exact Q].
      - intros [(x & -> & _ & X) Q]. rewrite X by reflexivity. auto. }
    all: match goal with |- context [hd 0 (?v :: _)] => cbn [hd tl] | _ => idtac end;
      set (v := if forallb fits h then mode h else 0) in *;
      assert (FV : 0 <= v < 2 ^ 32) by (unfold v; destruct (forallb fits h) eqn:Q; [|lia]; apply fits_range;
        rewrite forallb_forall in Q; apply Q, first_mode_In, mode_first_mode; intros ->; destruct w; [congruence|discriminate]);
      rewrite (G v) by (auto; discriminate); split;
      [intros [Q1 Q2]; split; [exists v; repeat split; auto; [lia|lia|discriminate]|exact Q2]
      |intros [(x & X & FX & _) Q]; split; [|exact Q]; rewrite X at 1; f_equal; unfold v; rewrite X;
       rewrite (proj2 (forallb_forall _ _)) by (intros y Hy; apply repeat_spec in Hy; subst; now apply fits_range);
       symmetry; apply mode_repeat; destruct w; [congruence|cbn; lia]].
Qed.

(** ** The pipes *)

Lemma tk_map_kind {f : Z -> Z} {k k' : Z -> kind} s : (forall c, In c s -> k (f c) = k' c) ->
  forall cur, tk k (map f cur) (map f s) = map (map f) (tk k' cur s).
Proof.
  induction s as [|c s IH]; intros HK cur; cbn [map tk].
  - destruct cur; reflexivity.
  - rewrite (HK c) by now left. specialize (IH ltac:(intros; apply HK; now right)).
    destruct (k' c).
    + rewrite map_app, <- IH. destruct cur; reflexivity.
    + rewrite map_app. cbn [map]. rewrite <- IH. destruct cur; reflexivity.
    + rewrite <- IH, map_app. reflexivity.
Qed.
Lemma tok_fwd_map {f : Z -> Z} {k k' : Z -> kind} s l : (forall c, In c s -> k (f c) = k' c) -> length l = length s ->
  tok_fwd k (map f s) l = tok_fwd k' s l.
Proof.
  intros HK HL. unfold tok_fwd.
  set (g := fun cx : Z * Z => (f (fst cx), snd cx)).
  assert (EC : combine (map f s) l = map g (combine s l)).
  { clear HK. revert l HL. induction s as [|c s IH]; intros [|x l] HL; try discriminate; [reflexivity|]. cbn. f_equal. apply IH. now injection HL. }
  rewrite EC.
  assert (A : forall P cur, (forall c, In c P -> k (f (fst c)) = k' (fst c)) ->
    tk (fun cx => k (fst cx)) (map g cur) (map g P) = map (map g) (tk (fun cx => k' (fst cx)) cur P)).
  { induction P as [|c P IH]; intros cur HP; cbn [map tk].
    - destruct cur; reflexivity.
    - change (fst (g c)) with (f (fst c)). rewrite (HP c) by now left. specialize (fun cur => IH cur ltac:(intros; apply HP; now right)).
      destruct (k' (fst c)).
      + rewrite map_app, <- (IH []). destruct cur; reflexivity.
      + rewrite map_app. cbn [map]. rewrite <- (IH []). destruct cur; reflexivity.
      + rewrite <- IH, map_app. reflexivity. }
  specialize (A (combine s l) []). cbn [map] in A. rewrite A by (intros c Hc; apply HK; now apply combine_In_fst in Hc).
  rewrite map_map. apply map_ext. intros w. unfold lab. now rewrite !map_map.
Qed.
Lemma chlab_map {f : Z -> Z} {k k' : Z -> kind} s : (forall c, In c s -> k (f c) = k' c) -> forall cur l,
  chlab k cur (map f s) l = chlab k' cur s l.
Proof.
  induction s as [|c s IH]; intros HK cur l; cbn [map chlab]; [reflexivity|]. rewrite (HK c) by now left.
  specialize (IH ltac:(intros; apply HK; now right)). destruct (k' c); [|destruct cur..|destruct cur]; now rewrite IH.
Qed.

(** An operator that replaces characters one by one and keeps the labels. *)
Lemma chars_first E (P P' : Z -> Prop) f g o ops k k' :
  (forall s, Forall P s -> maps E o any_labels (SStr s) (SStr (map g s)) keep keep) ->
  (forall c, P c -> P' (g c) /\ k (g c) = k' c) ->
  tokenizer_on E P' f ops k -> tokenizer_on E P (fun c => f (g c)) (o :: ops) k'.
Proof.
  intros HM HK HT s HS. pose proof (acts_maps _ _ _ _ _ _ (HM s HS)) as M.
  assert (HP : Forall P' (map g s)) by (apply Forall_map; eapply Forall_impl; [|exact HS]; intros; now apply HK).
  rewrite Forall_forall in HS.
  assert (K : forall c, In c s -> k (g c) = k' c) by (intros; now apply HK, HS).
  pose proof (acts_app _ _ _ _ _ _ _ _ _ _ M (HT _ HP)) as C. cbn [app] in C.
  pose proof (tk_map_kind s K []) as ET. cbn [map] in ET. rewrite ET, (map_map (map g) (map f)) in C.
  erewrite (map_ext (fun w => map f (map g w))) in C by (intros; apply map_map).
  eapply acts_ext; [exact C| |].
  - intros l HL. unfold keep. now apply tok_fwd_map.
  - intros l HL. unfold back32. destruct (forallb fits l); cbn [bind]; [|reflexivity]. unfold keep. f_equal. now apply chlab_map.
Qed.

Section trip.
  Context (E : env) (PY : python E) (HL : letters E).

  Definition basic_ops : list op := map o_op basic_steps.

  Lemma basic_by f s0 : accents_fit E f s0 ->
    tokenizer_on E (fun c => In c s0) (fun c => f (lower c)) basic_ops (by_punct_cjk E).
  Proof.
    intros (A1 & A2). pose proof PY as (OC & _ & SP). set (D := fun c => In c (32 :: map lower s0)).
    assert (S : forall c, is_space E c = true -> by_space E c = Gap) by (intros c H; unfold by_space; now rewrite H).
    assert (S32 : by_space E 32 = Gap) by now apply S.
    unfold basic_ops, basic_steps. cbn [map o_op bare].
    apply (chars_first E (fun c => In c s0) D f lower _ _ (by_punct_cjk E)).
    { intros s _. now apply lowercase_maps. }
    { intros c Hc. split; [right; now apply in_map|]. unfold by_punct_cjk. rewrite lower_cjk. now destruct (lower_class E c HL) as [-> ->]. }
    assert (D 32) by now left.
    apply (spacer_first_on E D f _ cjk _ (by_punct E)); [assumption|intros s; now apply cjk_rewrites| | |].
    { unfold by_punct. now rewrite SP. }
    { intros c. unfold by_punct, by_punct_cjk. destruct (is_space E c), (punctuation E c), (cjk c); reflexivity. }
    apply (spacer_first_on E D f _ (punctuation E) _ (by_space E)); [assumption|intros s; now apply punct_rewrites|exact S32| |].
    { intros c. unfold by_punct, by_space. destruct (is_space E c), (punctuation E c); reflexivity. }
    apply merge_first_on; try assumption.
    apply strip_first_on; try assumption.
    apply (chars_first E D (fun _ => True) (fun c => c) f _ _ (by_space E)).
    { intros s HS. assert (Q : stripped E s = map f s) by (apply A1; rewrite Forall_forall in HS; exact HS).
      destruct (accent_maps E s OC) as [M _]. rewrite Q in M. apply M. apply map_length. }
    { intros c Hc. split; [exact I|]. unfold by_space. now rewrite A2. }
    apply tokenizer_by_on, ws_by, PY.
  Qed.

  (** The pipe and its tokenizer treat labels alike. *)
  Lemma alike ops o k f s (p : pipe) : made_of ops p -> In o [WhiteSpaceTokenizer; EngTokenizer; ZhCharTokenizer] ->
    tokenizer_on E (fun c => In c s) f ops k -> tokenizer_by E [o] k ->
    exists ts a als coll, transform_op E o (SStr s) = Ok (SLst (map ETok ts), a) /\
      transform_sequence E p (SStr s) = Ok (SLst (map ETok (map (map f) ts)), als, coll) /\
      forall l, align_all als l = align a l /\ align_inverse_all E als l = align_inverse E a l.
  Proof.
    intros HM _ HT HO. specialize (HT s (proj2 (Forall_forall _ _) (fun c H => H))). specialize (HO s).
    destruct (HT _ HM) as (als & coll & R & F1 & F1' & G1 & G1').
    destruct (HO [mkObj [] [] o] eq_refl) as (als2 & coll2 & R2 & F2 & F2' & G2 & G2').
    cbn [Pipe.run o_op] in R2. destruct (transform_op E o (SStr s)) as [[y a]|] eqn:T; cbn [bind] in R2; [|discriminate].
    injection R2 as -> <- <-. exists (tk k [] s), a, als, coll. split; [reflexivity|]. split; [exact R|].
    assert (A1 : forall l, align_all [a] l = align a l) by (intros l; unfold align_all; cbn [foldM]; destruct (align a l); reflexivity).
    assert (A2 : forall l, align_inverse_all E [a] l = align_inverse E a l)
      by (intros l; unfold align_inverse_all; cbn [foldM rev app]; destruct (align_inverse E a l); reflexivity).
    intros l. rewrite <- A1, <- A2. split.
    - destruct (Nat.eq_dec (length l) (pseq_length (SStr s))) as [H|H].
      + destruct (F1 l H) as [-> _]. destruct (F2 l H) as [-> _]. reflexivity.
      + now rewrite F1', F2'.
    - cbn [pseq_length] in *. rewrite !map_length in *.
      destruct (Nat.eq_dec (length l) (length (tk k [] s))) as [H|H].
      + destruct (G1 l H) as [-> _]. destruct (G2 l H) as [-> _]. reflexivity.
      + now rewrite G1', G2'.
  Qed.

  Theorem basic_labels f s p : accents_fit E f s -> basic_pipe E = Ok p ->
    exists ts a als coll, transform_op E ZhCharTokenizer (SStr s) = Ok (SLst (map ETok ts), a) /\
      transform_sequence E p (SStr s) = Ok (SLst (map ETok (map (map (fun c => f (lower c))) ts)), als, coll) /\
      forall l, align_all als l = align a l /\ align_inverse_all E als l = align_inverse E a l.
  Proof.
    intros HA HP. rewrite basic_is in HP. injection HP as <-. apply (alike basic_ops ZhCharTokenizer (by_punct_cjk E)).
    - reflexivity.
    - cbn. tauto.
    - now apply basic_by.
    - now apply zh_by.
  Qed.

  (** ** Word pieces *)

  Lemma tk_nonempty (k : Z -> kind) s : forall cur w, In w (tk k cur s) -> w <> [].
  Proof.
    induction s as [|c s IH]; intros cur w; cbn [tk].
    - destruct cur; cbn; [tauto|]. intros [<-|[]]; discriminate.
    - destruct (k c); rewrite ?in_app_iff; cbn [In].
      + intros [H|H]; [|now apply IH in H]. destruct cur; cbn in H; [tauto|]. destruct H as [<-|[]]; discriminate.
      + intros [H|[<-|H]]; [|discriminate|now apply IH in H]. destruct cur; cbn in H; [tauto|]. destruct H as [<-|[]]; discriminate.
      + apply IH.
  Qed.

  Lemma nonempty_two ts : (forall t : str, In t ts -> t <> []) -> ~ two_empty ts.
  Proof.
    induction ts as [|t ts IH]; cbn; [tauto|]. intros H [[-> _]|Q]; [now apply (H []); [left|]|]. apply IH; [|exact Q]. auto.
  Qed.

  Lemma pieces_act ops k f v u n s : tokenizer_on E (fun c => In c s) f ops k ->
    exists outs, Forall2 (subwords v u n) (map (map f) (tk k [] s)) outs /\ (forall o, In o outs -> o <> []) /\
      length outs = length (tk k [] s) /\
      acts E (ops ++ [SpanSubwords v u n]) (SStr s) (SLst (concat outs))
        (fun l => repeat_each outs (tok_fwd k s l)) (fun l => back32 (chlab k None s) (gather outs l)).
  Proof.
    intros HT. specialize (HT s (proj2 (Forall_forall _ _) (fun c H => H))).
    set (ts := map (map f) (tk k [] s)) in *.
    assert (NE : forall t, In t ts -> t <> []).
    { intros t Ht. unfold ts in Ht. apply in_map_iff in Ht. destruct Ht as (w & <- & Hw). apply tk_nonempty in Hw. destruct w; [congruence|discriminate]. }
    destruct (subwords_maps E v u n ts (proj1 (proj2 PY)) (nonempty_two ts NE)) as (outs & HF & HM).
    exists outs. split; [exact HF|]. split; [now apply (subwords_nonempty v u n ts)|]. split.
    - assert (L : length ts = length outs) by (clear -HF; induction HF; cbn; congruence).
      unfold ts in L. rewrite map_length in L. congruence.
    - pose proof (acts_app _ _ _ _ _ _ _ _ _ _ HT (acts_maps _ _ _ _ _ _ HM)) as C. exact C.
  Qed.

  Lemma pieces_alike ops o k f s v u n (p : pipe) : made_of (ops ++ [SpanSubwords v u n]) p ->
    tokenizer_on E (fun c => In c s) f ops k -> tokenizer_by E [o] k ->
    exists ts a outs als coll, transform_op E o (SStr s) = Ok (SLst (map ETok ts), a) /\
      Forall2 (subwords v u n) (map (map f) ts) outs /\
      transform_sequence E p (SStr s) = Ok (SLst (concat outs), als, coll) /\ then_pieces E a outs als.
  Proof.
    intros HM HT HO. destruct (pieces_act _ _ _ v u n _ HT) as (outs & HF & NE & LO & HA). specialize (HO s).
    destruct (HA _ HM) as (als & coll & R & F1 & F1' & G1 & G1').
    destruct (HO [mkObj [] [] o] eq_refl) as (als2 & coll2 & R2 & F2 & F2' & G2 & G2').
    cbn [Pipe.run o_op] in R2. destruct (transform_op E o (SStr s)) as [[y a]|] eqn:T; cbn [bind] in R2; [|discriminate].
    injection R2 as -> <- <-. exists (tk k [] s), a, outs, als, coll. split; [reflexivity|]. split; [exact HF|]. split; [exact R|].
    assert (A1 : forall l, align_all [a] l = align a l) by (intros l; unfold align_all; cbn [foldM]; destruct (align a l); reflexivity).
    assert (A2 : forall l, align_inverse_all E [a] l = align_inverse E a l)
      by (intros l; unfold align_inverse_all; cbn [foldM rev app]; destruct (align_inverse E a l); reflexivity).
    intros l. rewrite <- A1, <- A2. split.
    - destruct (Nat.eq_dec (length l) (pseq_length (SStr s))) as [H|H].
      + destruct (F1 l H) as [-> _]. destruct (F2 l H) as [-> _]. reflexivity.
      + rewrite F1', F2' by exact H. reflexivity.
    - cbn [pseq_length] in *. destruct (Nat.eqb_spec (length l) (length (concat outs))) as [H|H]; [|now apply G1'].
      destruct (G1 l H) as [-> _].
      assert (LG : length (gather outs l) = length (map ETok (tk k [] s))).
      { rewrite map_length, <- LO. clear. revert l. induction outs as [|o outs IH]; intros l; [reflexivity|]. cbn [gather length]. now rewrite IH. }
      destruct (G2 _ LG) as [-> _]. reflexivity.
  Qed.

  Theorem full_labels f s q : accents_fit E f s -> full_pipe E = Ok q ->
    exists ts a outs als coll, transform_op E ZhCharTokenizer (SStr s) = Ok (SLst (map ETok ts), a) /\
      Forall2 (subwords (map txt word_pieces_and_comma) (ETok (txt "[UNK]")) 200) (map (map (fun c => f (lower c))) ts) outs /\
      transform_sequence E q (SStr s) = Ok (SLst (concat outs), als, coll) /\ then_pieces E a outs als.
  Proof.
    intros HA HP. rewrite full_is in HP. injection HP as <-. apply (pieces_alike basic_ops ZhCharTokenizer (by_punct_cjk E)).
    - reflexivity.
    - now apply basic_by.
    - now apply zh_by.
  Qed.
  Theorem word_piece_labels s q : word_piece_pipe E = Ok q ->
    exists ts a outs als coll, transform_op E WhiteSpaceTokenizer (SStr s) = Ok (SLst (map ETok ts), a) /\
      Forall2 (subwords (map txt word_pieces) (ETok (txt "[UNK]")) 200) ts outs /\
      transform_sequence E q (SStr s) = Ok (SLst (concat outs), als, coll) /\ then_pieces E a outs als.
  Proof.
    intros HP. rewrite word_piece_is in HP. injection HP as <-.
    destruct (pieces_alike [WhiteSpaceTokenizer] WhiteSpaceTokenizer (by_space E) (fun c => c) s (map txt word_pieces) (ETok (txt "[UNK]")) 200
      (mkPipe [bare "WhiteSpaceTokenizer" WhiteSpaceTokenizer; subwords_obj word_piece_vocab] []) eq_refl) as (ts & a & outs & als & coll & H1 & H2 & H3 & H4).
    - intros t _. rewrite map_map_id. now apply ws_by.
    - now apply ws_by.
    - rewrite map_map_id in H2. exists ts, a, outs, als, coll. auto.
  Qed.

  (** ** The round trip *)

  Lemma tok_fwd_fits k s l : length l = length s -> forallb fits (tok_fwd k s l) = true.
  Proof.
    intros H. pose proof (cut_by_cut k s) as C. unfold tok_fwd. rewrite <- (cut_labels k s _ l C H).
    clear C. generalize (kept (cut_by k s)). intros ps. revert l H. clear. intros l _. revert l.
    induction ps as [|[w b] ps IH]; intros l; [reflexivity|]. cbn [token_labels32]. destruct b; [|apply IH]. cbn [forallb].
    rewrite IH, Bool.andb_true_r. destruct (forallb fits (firstn (length w) l)) eqn:Q; [|reflexivity].
    destruct (firstn (length w) l) as [|x h]; [reflexivity|]. rewrite forallb_forall in Q. apply Q, first_mode_In, mode_first_mode. discriminate.
  Qed.

  Lemma kind_trip k s l : length l = length s ->
    (chlab k None s (tok_fwd k s l) = l <-> token_wise k s l).
  Proof.
    intros HL2. pose proof (cut_by_cut k s) as C. rewrite (token_wise_pieces k s _ l C).
    unfold tok_fwd. rewrite <- (cut_labels k s _ l C HL2), <- (cut_back_labels k s _ _ C). apply piece_trip.
    - destruct C as (_ & F & _). rewrite Forall_forall in F. intros w d HI. now destruct (F _ HI).
    - destruct C as (-> & _). exact HL2.
  Qed.

  Lemma acts_survives ops s y k F G (p : pipe) als coll : acts E ops (SStr s) y F G -> made_of ops p ->
    (forall l, length l = length s -> G (F l) = back32 (chlab k None s) (tok_fwd k s l)) ->
    Pipe.run E (steps p) (SStr s) = Ok (y, als, coll) -> forall l, survives E als l <-> token_wise k s l.
  Proof.
    intros HA HM HG HR l. destruct (HA _ HM) as (als' & coll' & R & F1 & F1' & G1 & G1').
    assert (als' = als) as -> by congruence. cbn [pseq_length] in *. unfold survives. split.
    - intros (m & A1 & A2). destruct (Nat.eq_dec (length l) (length s)) as [H|H]; [|rewrite F1' in A1 by exact H; discriminate].
      destruct (F1 l H) as [Q L]. rewrite Q in A1. injection A1 as <-. destruct (G1 _ L) as [Q2 _]. rewrite Q2, HG in A2 by exact H.
      unfold back32 in A2. rewrite tok_fwd_fits in A2 by exact H. injection A2 as A2. now apply kind_trip.
    - intros HT. assert (H : length l = length s) by apply HT. destruct (F1 l H) as [Q L]. exists (F l). split; [exact Q|].
      destruct (G1 _ L) as [-> _]. rewrite HG by exact H. unfold back32. rewrite tok_fwd_fits by exact H. f_equal. now apply kind_trip.
  Qed.

  Lemma pieces_survive ops k f v u n s (p : pipe) y als coll : tokenizer_on E (fun c => In c s) f ops k ->
    made_of (ops ++ [SpanSubwords v u n]) p -> Pipe.run E (steps p) (SStr s) = Ok (y, als, coll) ->
    forall l, survives E als l <-> token_wise k s l.
  Proof.
    intros HT HM HR. destruct (pieces_act _ _ _ v u n _ HT) as (outs & HF & NE & LO & HA).
    destruct (HA _ HM) as (als' & coll' & R & _). assert (y = SLst (concat outs)) as -> by congruence.
    apply (acts_survives _ _ _ _ _ _ _ _ coll HA HM); [|exact HR].
    intros l H. rewrite gather_repeat; [reflexivity|exact NE|].
    specialize (HT s (proj2 (Forall_forall _ _) (fun c H => H))).
    assert (exists objs, map o_op objs = ops) as (objs & HO).
    { exists (map (fun o => mkObj [] [] o) ops). rewrite map_map. apply map_id. }
    destruct (HT _ HO) as (a2 & c2 & _ & F1 & _). destruct (F1 l H) as [_ L]. cbn [pseq_length] in L. rewrite !map_length in L. congruence.
  Qed.

  Theorem basic_survives f s p y als coll : accents_fit E f s -> basic_pipe E = Ok p \/ full_pipe E = Ok p ->
    transform_sequence E p (SStr s) = Ok (y, als, coll) ->
    forall l, survives E als l <-> token_wise (by_punct_cjk E) s l.
  Proof.
    intros HA HP HR. pose proof (basic_by f s HA) as HB. destruct HP as [HP|HP].
    - rewrite basic_is in HP. injection HP as <-. specialize (HB s (proj2 (Forall_forall _ _) (fun c H => H))).
      destruct (HB basic_steps eq_refl) as (als' & coll' & R & _). unfold transform_sequence in HR. cbn [steps] in HR.
      assert (EY : y = SLst (map ETok (map (map (fun c => f (lower c))) (tk (by_punct_cjk E) [] s)))) by congruence. subst y.
      apply (acts_survives _ _ _ _ _ _ (mkPipe basic_steps []) _ coll HB eq_refl); [reflexivity|exact HR].
    - rewrite full_is in HP. injection HP as <-. eapply pieces_survive; [exact HB| |exact HR]. reflexivity.
  Qed.
  Theorem word_piece_survives s p y als coll : word_piece_pipe E = Ok p ->
    transform_sequence E p (SStr s) = Ok (y, als, coll) ->
    forall l, survives E als l <-> token_wise (by_space E) s l.
  Proof.
    intros HP HR. rewrite word_piece_is in HP. injection HP as <-.
    eapply (pieces_survive [WhiteSpaceTokenizer] (by_space E) (fun c => c)); [| |exact HR]; [|reflexivity].
    intros t _. rewrite map_map_id. now apply ws_by.
  Qed.
  Theorem tokenizer_survives o k s y a : In (o, k) [(WhiteSpaceTokenizer, by_space E); (EngTokenizer, by_punct E); (ZhCharTokenizer, by_punct_cjk E)] ->
    transform_op E o (SStr s) = Ok (y, a) -> forall l, survives E [a] l <-> token_wise k s l.
  Proof.
    intros HI HR. assert (HT : tokenizer_by E [o] k).
    { destruct HI as [[= <- <-]|[[= <- <-]|[[= <- <-]|[]]]]; [now apply ws_by|now apply eng_by|now apply zh_by]. }
    specialize (HT s). assert (RR : Pipe.run E [mkObj [] [] o] (SStr s) = Ok (y, [a], [SStr s; y])).
    { cbn [Pipe.run o_op]. rewrite HR. reflexivity. }
    destruct (HT _ (eq_refl : map o_op [mkObj [] [] o] = [o])) as (als' & coll' & R & _).
    assert (EY : y = SLst (map ETok (tk k [] s))) by congruence. subst y.
    apply (acts_survives _ _ _ _ _ _ (mkPipe [mkObj [] [] o] []) _ _ HT eq_refl (fun _ _ => eq_refl) RR).
  Qed.
End trip.

(** ** Data *)

Lemma entities_token_wise k d ls : is_datum d -> Forall (inside (d_utterance d)) (d_entities d) ->
  Forall (on_tokens k (d_utterance d)) (d_entities d) ->
  length ls = length (d_utterance d) ->
  (forall i, 0 <= i < Z.of_nat (length (d_utterance d)) -> labelled (d_entities d) i (at_ ls i)) ->
  token_wise k (d_utterance d) ls.
Proof.
  intros HD HI HO HL HLab. pose proof (is_datum_inv d HD) as (_ & D2 & _ & _ & D5 & _).
  rewrite Forall_forall in *. set (u := d_utterance d) in *.
  assert (AT : forall i c x, nth_error u i = Some c -> nth_error ls i = Some x -> labelled (d_entities d) (Z.of_nat i) x).
  { intros i c x HC HX. assert (i < length u)%nat by (apply nth_error_Some; congruence).
    specialize (HLab (Z.of_nat i) ltac:(lia)). unfold at_ in HLab. rewrite Nat2Z.id in HLab.
    now rewrite (nth_error_nth ls i 0 HX) in HLab. }
  split; [exact HL|]. split.
  - intros i c x HC HX. destruct (AT i c x HC HX) as [(e & HE & CV & <-)|(_ & ->)]; [|lia].
    destruct (HO e HE) as (P & _ & NG & _). destruct (proj1 (is_entity_iff e) (D2 e HE)) as (I1 & _). unfold i32 in I1.
    unfold covers in CV. split; [lia|]. intros KG. exfalso. now apply (NG i c).
  - intros i c d' x y HC HC' KC KD HX HY.
    pose proof (AT i c x HC HX) as AX. pose proof (AT (S i) d' y HC' HY) as AY.
    assert (W : forall e, In e (d_entities d) -> covers e (Z.of_nat i) <-> covers e (Z.of_nat (S i))).
    { intros e HE. destruct (HO e HE) as (_ & _ & _ & N1 & N2). unfold covers.
      assert (e_start e <> Z.of_nat (S i)) by (intros Q; apply N1; exists i, c, d'; auto).
      assert (e_end e <> Z.of_nat (S i)) by (intros Q; apply N2; exists i, c, d'; auto). lia. }
    eapply labelled_unique; [exact D5|exact AX|].
    destruct AY as [(e & HE & CV & <-)|(NC & ->)].
    + left. exists e. split; [exact HE|]. split; [now apply W|reflexivity].
    + right. split; [|reflexivity]. intros e HE CV. now apply (NC e HE), W.
Qed.

Theorem datum_trip E k p d : (forall y als coll, transform_sequence E p (SStr (d_utterance d)) = Ok (y, als, coll) ->
    forall l, survives E als l <-> token_wise k (d_utterance d) l) ->
  (exists r, transform_sequence E p (SStr (d_utterance d)) = Ok r) ->
  is_datum d -> d_utterance d <> [] ->
  Forall (fun e => inside (d_utterance d) e /\ on_tokens k (d_utterance d) e) (d_entities d) ->
  (forall a b, In a (d_entities d) -> In b (d_entities d) -> e_end a = e_start b -> e_label a <> e_label b) ->
  exists y ints m als coll ls d', transform E p d = Ok (y, ints, m, als, coll) /\
    align_inverse_all E als m = Ok ls /\ pack_to_datum (d_utterance d) ints ls = Ok d' /\
    d_utterance d' = d_utterance d /\ same_set (d_intents d') (d_intents d) /\
    d_entities d' = map bare_entity (d_entities d).
Proof.
  intros HS [[[y als] coll] HR] HD HU HF HA.
  destruct (pack_unpack d HD HU) as (u & is_ & ls & d' & UP & PK & E1 & E2 & E3); [|exact HA|].
  { eapply Forall_impl; [|exact HF]. intros e [I1 (I2 & I3 & _)]. split; [exact I1|]. split; lia. }
  destruct (unpack_inside d HD) as (ls' & UP' & LL & HLab); [eapply Forall_impl; [|exact HF]; now intros e []|].
  rewrite UP in UP'. injection UP' as -> -> ->.
  assert (TW : token_wise k (d_utterance d) ls').
  { apply (entities_token_wise k d); try assumption; eapply Forall_impl; try exact HF; now intros e []. }
  apply (HS _ _ _ HR) in TW. destruct TW as (m & M1 & M2).
  exists y, (d_intents d), m, als, coll, ls', d'. unfold transform. rewrite UP. cbn [bind]. rewrite HR. cbn [bind]. rewrite M1. cbn [bind].
  repeat split; try assumption; apply E2.
Qed.
