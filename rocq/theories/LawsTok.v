(** Tokens and their labels by recursion on the characters (for C76 and C77). *)

From Verif Require Import Py PyFacts Edit Labels SpecEdit SpecLabels SpecSeg SpecRuns SpecWords SpecOps Ops RunsProofs SegProofs TokProofs OpLaws.
From Coq Require Import List Lia.

Definition flush {A} (w : list A) : list (list A) := match w with [] => [] | _ => [w] end.

(** [cur] is the word that has been read so far *)
Fixpoint tk {A} (k : A -> kind) (cur s : list A) : list (list A) :=
  match s with
  | [] => flush cur
  | c :: s =>
      match k c with
      | Gap => flush cur ++ tk k [] s
      | Single => flush cur ++ [c] :: tk k [] s
      | Word => tk k (cur ++ [c]) s
      end
  end.

(** [cur] is the label of the word that is being read *)
Fixpoint chlab (k : Z -> kind) (cur : option Z) (s : str) (l : list Z) : list Z :=
  match s with
  | [] => []
  | c :: s =>
      match k c, cur with
      | Gap, _ => 0%Z :: chlab k None s l
      | Single, _ => hd 0%Z l :: chlab k None s (tl l)
      | Word, Some x => x :: chlab k (Some x) s l
      | Word, None => hd 0%Z l :: chlab k (Some (hd 0%Z l)) s (tl l)
      end
  end.

Definition lab (w : list (Z * Z)) : Z :=
  if forallb fits (map snd w) then mode (map snd w) else 0%Z.

(** ** The link with the cut of a text *)

Lemma flush_app {A} (w : list A) x : flush (w ++ [x]) = [w ++ [x]].
Proof. destruct w; reflexivity. Qed.

Lemma tk_word {A} (k : A -> kind) w : forall cur s, (forall c, In c w -> k c = Word) ->
  tk k cur (w ++ s) = tk k (cur ++ w) s.
Proof.
  induction w as [|c w IH]; intros cur s H; cbn [app tk]; [now rewrite app_nil_r|].
  rewrite (H c) by now left. rewrite IH by (intros; apply H; now right). now rewrite <- app_assoc.
Qed.
Lemma tk_gap {A} (k : A -> kind) w : forall s, (forall c, In c w -> k c = Gap) -> tk k [] (w ++ s) = tk k [] s.
Proof.
  induction w as [|c w IH]; intros s H; cbn [app tk flush]; [reflexivity|].
  rewrite (H c) by now left. cbn [app]. apply IH. intros; apply H; now right.
Qed.
Lemma tk_gap_cur {A} (k : A -> kind) w cur s : w <> [] -> (forall c, In c w -> k c = Gap) ->
  tk k cur (w ++ s) = flush cur ++ tk k [] s.
Proof.
  intros N H. destruct w as [|c w]; [congruence|]. cbn [app tk]. rewrite (H c) by now left.
  f_equal. apply tk_gap. intros; apply H; now right.
Qed.
Lemma tk_end {A} (k : A -> kind) s : forall cur w, (forall c, In c w -> k c = Gap) -> tk k cur (s ++ w) = tk k cur s.
Proof.
  induction s as [|c s IH]; intros cur w H; cbn [app tk].
  - destruct w as [|c w]; [reflexivity|]. cbn [tk]. rewrite (H c) by now left.
    rewrite <- (app_nil_r w), tk_gap by (intros; apply H; now right). cbn. now rewrite app_nil_r.
  - destruct (k c); rewrite ?IH by exact H; reflexivity.
Qed.
Lemma tk_map {A B} (f : A -> B) (k : B -> kind) s : forall cur,
  tk k (map f cur) (map f s) = map (map f) (tk (fun a => k (f a)) cur s).
Proof.
  assert (FL : forall w : list A, flush (map f w) = map (map f) (flush w)) by (intros []; reflexivity).
  induction s as [|c s IH]; intros cur; cbn [map tk]; [apply FL|].
  destruct (k (f c)).
  - rewrite map_app, FL. f_equal. apply (IH []).
  - rewrite map_app, FL. cbn [map]. f_equal. f_equal. apply (IH []).
  - rewrite <- IH, map_app. reflexivity.
Qed.

Lemma combine_fst {A B} (s : list A) (l : list B) : length s = length l -> map fst (combine s l) = s.
Proof. revert l. induction s as [|c s IH]; intros [|x l] H; try discriminate; cbn; [reflexivity|]. f_equal. apply IH. now injection H. Qed.
Lemma combine_snd {A B} (s : list A) (l : list B) : length s = length l -> map snd (combine s l) = l.
Proof. revert l. induction s as [|c s IH]; intros [|x l] H; try discriminate; cbn; [reflexivity|]. f_equal. apply IH. now injection H. Qed.
Lemma combine_firstn_app {A B} (a b : list A) (l : list B) :
  combine (a ++ b) l = combine a (firstn (length a) l) ++ combine b (skipn (length a) l).
Proof.
  revert l. induction a as [|x a IH]; intros l; cbn [app length]; [reflexivity|].
  destruct l as [|y l]; cbn [firstn skipn combine]; [destruct b; reflexivity|]. cbn [app]. now rewrite IH.
Qed.
Lemma combine_two {A B} (a b : list A) (l m : list B) : length a = length l ->
  combine (a ++ b) (l ++ m) = combine a l ++ combine b m.
Proof.
  intros H. rewrite combine_firstn_app, H, firstn_app, skipn_app, Nat.sub_diag, firstn_all, skipn_all.
  cbn. now rewrite app_nil_r.
Qed.
Lemma combine_In_fst {A B} (s : list A) (l : list B) c : In c (combine s l) -> In (fst c) s.
Proof. destruct c. apply in_combine_l. Qed.

(** what follows a word starts with another kind *)
Definition no_word {A} (k : A -> kind) (s : list A) : Prop := match s with c :: _ => k c <> Word | [] => True end.

Lemma tk_close {A} (k : A -> kind) cur s : no_word k s -> tk k cur s = flush cur ++ tk k [] s.
Proof.
  destruct s as [|c s]; intros H; cbn [tk]; [now rewrite app_nil_r|].
  cbn in H. destruct (k c); [reflexivity|reflexivity|congruence].
Qed.

Lemma separate_no_word k w ps l : Forall (of_kind k) ps -> separate ((w, Word) :: ps) ->
  no_word (fun cx : Z * Z => k (fst cx)) (combine (concat (map fst ps)) l).
Proof.
  intros F S. destruct ps as [|[w' d] ps]; [exact I|].
  inversion F as [|? ? (F1 & F2 & _) _]; subst. cbn [fst snd] in *. destruct S as [S _]. cbn [snd] in S.
  destruct w' as [|c w']; [congruence|]. cbn [map concat fst app].
  destruct l; cbn [combine no_word fst]; [exact I|].
  rewrite (F2 c) by now left. destruct d; discriminate.
Qed.

Lemma separate_tl x ps : separate (x :: ps) -> separate ps.
Proof. destruct ps; [intros _; exact I|]. now intros [_ H]. Qed.

Theorem cut_labels k s ps l : cut k s ps -> length l = length s ->
  token_labels32 (kept ps) l = map lab (tk (fun cx => k (fst cx)) [] (combine s l)).
Proof.
  intros (<- & F & S). revert l. induction ps as [|[w d] ps IH]; intros l HL; [reflexivity|].
  inversion F as [|? ? (F1 & F2 & F3) FR]; subst. cbn [fst snd] in *.
  specialize (IH FR (separate_tl _ _ S)). cbn [map concat fst] in *. rewrite app_length in HL.
  rewrite combine_firstn_app. cbn [kept map fst snd token_labels32].
  assert (LH : length (firstn (length w) l) = length w) by (rewrite firstn_length; lia).
  assert (LR : length (skipn (length w) l) = length (concat (map fst ps))) by (rewrite skipn_length; lia).
  fold (kept ps). rewrite (IH _ LR). clear IH.
  pose proof (combine_snd w (firstn (length w) l) (eq_sym LH)) as CS.
  set (P := combine w (firstn (length w) l)) in *.
  assert (HP : forall c, In c P -> k (fst c) = d) by (intros c Hc; apply F2; now apply combine_In_fst in Hc).
  assert (NP : P <> []) by (intros Q; rewrite Q in CS; cbn in CS; rewrite <- CS in LH; destruct w; [congruence|discriminate]).
  destruct d.
  - now rewrite tk_gap by exact HP.
  - destruct P as [|p P]; [congruence|]. assert (P = []) as ->.
    { specialize (F3 eq_refl). rewrite <- LH, <- CS in F3. destruct P; [reflexivity|discriminate]. }
    cbn [app tk]. rewrite (HP p) by now left. cbn [flush app map]. f_equal. unfold lab. now rewrite CS.
  - rewrite tk_word by exact HP. cbn [app].
    rewrite (tk_close _ P) by (apply (separate_no_word k w); assumption).
    destruct P as [|p P]; [congruence|]. cbn [flush app map]. f_equal. unfold lab. now rewrite CS.
Qed.

Theorem cut_tokens_tk k s ps : cut k s ps -> tokens_of (kept ps) = tk k [] s.
Proof.
  intros (<- & F & S). induction ps as [|[w d] ps IH]; [reflexivity|].
  inversion F as [|? ? (F1 & F2 & F3) FR]; subst. cbn [fst snd] in *.
  specialize (IH FR (separate_tl _ _ S)). cbn [map concat fst].
  assert (TC : tokens_of (kept ((w, d) :: ps)) = match d with Gap => [] | _ => [w] end ++ tokens_of (kept ps)) by (destruct d; reflexivity).
  rewrite TC, IH. destruct d.
  - now rewrite tk_gap by exact F2.
  - specialize (F3 eq_refl). destruct w as [|c [|]]; try discriminate. cbn [app tk]. rewrite (F2 c) by now left. reflexivity.
  - rewrite tk_word by exact F2. cbn [app]. rewrite (tk_close _ w).
    + destruct w; [congruence|reflexivity].
    + pose proof (separate_no_word k w ps (repeat 0%Z (length (concat (map fst ps)))) FR S) as N.
      destruct (concat (map fst ps)); [exact I|exact N].
Qed.

Lemma chlab_gap k w : forall cur s l, (forall c, In c w -> k c = Gap) -> w <> [] ->
  chlab k cur (w ++ s) l = repeat 0%Z (length w) ++ chlab k None s l.
Proof.
  induction w as [|c w IH]; intros cur s l H N; [congruence|]. cbn [app chlab length repeat].
  rewrite (H c) by now left. cbn [app]. f_equal. destruct w as [|d w]; [reflexivity|].
  apply IH; [|discriminate]. intros; apply H; now right.
Qed.
Lemma chlab_word k w x : forall s l, (forall c, In c w -> k c = Word) ->
  chlab k (Some x) (w ++ s) l = repeat x (length w) ++ chlab k (Some x) s l.
Proof.
  induction w as [|c w IH]; intros s l H; [reflexivity|]. cbn [app chlab length repeat].
  rewrite (H c) by now left. cbn [app]. f_equal. apply IH. intros; apply H; now right.
Qed.
Lemma chlab_close k cur s l : no_word k s -> chlab k cur s l = chlab k None s l.
Proof.
  destruct s as [|c s]; [reflexivity|]. cbn [no_word chlab]. destruct (k c); [reflexivity|reflexivity|congruence].
Qed.
Lemma chlab_length k s : forall cur l, length (chlab k cur s l) = length s.
Proof.
  induction s as [|c s IH]; intros cur l; [reflexivity|]. cbn [chlab].
  destruct (k c); [|destruct cur..|destruct cur]; cbn [length]; now rewrite IH.
Qed.

Theorem cut_back_labels k s ps l : cut k s ps -> char_labels (kept ps) l = chlab k None s l.
Proof.
  intros (<- & F & S). revert l. induction ps as [|[w d] ps IH]; intros l; [reflexivity|].
  inversion F as [|? ? (F1 & F2 & F3) FR]; subst. cbn [fst snd] in *.
  specialize (IH FR (separate_tl _ _ S)). cbn [map concat fst kept snd]. fold (kept ps). destruct d; cbn [char_labels].
  - rewrite chlab_gap by assumption. now rewrite IH.
  - specialize (F3 eq_refl). destruct w as [|c [|]]; try discriminate. cbn [app chlab length repeat].
    rewrite (F2 c) by now left. now rewrite IH.
  - destruct w as [|c w]; [congruence|]. cbn [app chlab length repeat]. rewrite (F2 c) by now left. f_equal.
    rewrite chlab_word by (intros; apply F2; now right). rewrite IH. f_equal. symmetry. apply chlab_close.
    pose proof (separate_no_word k (c :: w) ps (repeat 0%Z (length (concat (map fst ps)))) FR S) as N.
    destruct (concat (map fst ps)); [exact I|exact N].
Qed.
