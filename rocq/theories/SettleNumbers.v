(** Number operators in front of a tokenizer: a second trip changes nothing (C93). *)

From Coq Require Import String.
From Verif Require Import Py PyFacts Edit Labels SpecEdit SpecLabels SpecSeg SpecRuns SpecWords SpecOps SpecLaws
  EditProofs LabelProofs EditApiProofs SegProofs RunsProofs Ops OpProofs StrOpProofs TokProofs OpLaws Json Elements Pipe SpecPipe PipeProofs PipeAlign
  RegexProofs LawsTok LawsProofs LawsText SpecTrip TripProofs SpecSettle SettleSegs SettleOps SettleTable SettlePipe.
From Coq Require Import List Lia.

(** ** Cells: pieces of the text, and numbers that are replaced by the pieces of a token *)

Inductive cell := Piece (w : str) (kept : bool) | Number (w : str) (ps : list (str * bool)).
Definition ctext (c : cell) : str := match c with Piece w _ => w | Number w _ => w end.
Definition cout (c : cell) : nat :=
  match c with Piece _ true => 1 | Piece _ false => 0 | Number _ ps => length (tokens_of ps) end.
Definition cf (c : cell) (ls : list Z) : list Z :=
  match c with
  | Piece _ true => [if forallb fits ls then mode ls else 0%Z]
  | Piece _ false => []
  | Number _ ps => token_labels32 ps (repeat (mode ls) (length (text_of ps)))
  end.
Definition cg (c : cell) (ms : list Z) : list Z :=
  match c with
  | Piece w true => repeat (hd 0%Z ms) (length w)
  | Piece w false => repeat 0%Z (length w)
  | Number w ps => by_entity_mode (char_labels ps ms) (length w)
  end.
Fixpoint fwd (bs : list cell) (l : list Z) : list Z :=
  match bs with
  | [] => []
  | c :: bs => cf c (firstn (length (ctext c)) l) ++ fwd bs (skipn (length (ctext c)) l)
  end.
Fixpoint bwd (bs : list cell) (m : list Z) : list Z :=
  match bs with
  | [] => []
  | c :: bs => cg c (firstn (cout c) m) ++ bwd bs (skipn (cout c) m)
  end.
Definition texts (bs : list cell) : str := concat (map ctext bs).
Fixpoint outs_of (bs : list cell) : nat := match bs with [] => 0 | c :: bs => cout c + outs_of bs end.
Definition solid (c : cell) : Prop :=
  ctext c <> [] /\ match c with Piece _ _ => True | Number _ ps => Forall (fun p : str * bool => fst p <> []) ps end.
Definition piece (p : str * bool) : cell := Piece (fst p) (snd p).

Lemma texts_app a b : texts (a ++ b) = texts a ++ texts b.
Proof. unfold texts. now rewrite map_app, concat_app. Qed.
Lemma outs_app a b : outs_of (a ++ b) = outs_of a + outs_of b.
Proof. induction a as [|c a IH]; cbn [app outs_of]; [reflexivity|]. rewrite IH. lia. Qed.
Lemma tokens_length ps l : length (token_labels32 ps l) = length (tokens_of ps).
Proof.
  revert l. unfold tokens_of. induction ps as [|[w []] ps IH]; intros l; cbn [token_labels32 filter map snd length]; [reflexivity| |]; now rewrite IH.
Qed.
Lemma cf_length c ls : length (cf c ls) = cout c.
Proof. destruct c as [w []|w ps]; cbn [cf cout length]; auto. apply tokens_length. Qed.
Lemma cg_length c ms : length (cg c ms) = length (ctext c).
Proof. destruct c as [w []|w ps]; cbn [cg ctext]; unfold by_entity_mode; apply repeat_length. Qed.
Lemma fwd_length bs l : length (fwd bs l) = outs_of bs.
Proof. revert l. induction bs as [|c bs IH]; intros l; cbn [fwd outs_of]; [reflexivity|]. now rewrite app_length, cf_length, IH. Qed.
Lemma bwd_length bs m : length (bwd bs m) = length (texts bs).
Proof.
  revert m. unfold texts. induction bs as [|c bs IH]; intros m; cbn [bwd map concat]; [reflexivity|].
  now rewrite !app_length, cg_length, IH.
Qed.
Lemma fwd_app a b l1 l2 : length l1 = length (texts a) -> fwd (a ++ b) (l1 ++ l2) = fwd a l1 ++ fwd b l2.
Proof.
  unfold texts. revert l1. induction a as [|c a IH]; intros l1 L; cbn [map concat app fwd] in *.
  - now destruct l1.
  - rewrite app_length in L.
    rewrite firstn_app, skipn_app. replace (length (ctext c) - length l1) with 0 by lia. cbn [firstn skipn].
    rewrite app_nil_r, IH by (rewrite skipn_length; lia). now rewrite app_assoc.
Qed.
Lemma bwd_app a b m : bwd (a ++ b) m = bwd a (firstn (outs_of a) m) ++ bwd b (skipn (outs_of a) m).
Proof.
  revert m. induction a as [|c a IH]; intros m; cbn [app bwd outs_of]; [reflexivity|].
  rewrite IH, <- app_assoc, !skipn_skipn_add. f_equal; [|f_equal].
  - rewrite firstn_firstn. f_equal. f_equal. lia.
  - f_equal. now rewrite skipn_firstn_comm, Nat.add_comm, Nat.add_sub.
Qed.
Lemma pieces_texts ps : texts (map piece ps) = text_of ps.
Proof. unfold texts, text_of. now rewrite map_map. Qed.
Lemma pieces_outs ps : outs_of (map piece ps) = length (tokens_of ps).
Proof. unfold tokens_of. induction ps as [|[w []] ps IH]; cbn [map outs_of piece cout fst snd filter length]; [reflexivity| |]; now rewrite IH. Qed.
Lemma pieces_fwd ps l : fwd (map piece ps) l = token_labels32 ps l.
Proof.
  revert l. induction ps as [|[w []] ps IH]; intros l; cbn [map piece fst snd fwd ctext cf token_labels32]; [reflexivity| |]; now rewrite IH.
Qed.
Lemma pieces_bwd ps m : bwd (map piece ps) m = char_labels ps m.
Proof.
  revert m. induction ps as [|[w []] ps IH]; intros m; cbn [map piece fst snd bwd cout cg char_labels]; [reflexivity| |].
  - rewrite IH. destruct m; reflexivity.
  - rewrite IH. reflexivity.
Qed.

(** ** Cells settle *)

Definition cap (x : Z) : Z := if fits x then x else 0%Z.
Lemma cap_cap x : cap (cap x) = cap x.
Proof. unfold cap. destruct (fits x) eqn:Q; [now rewrite Q|reflexivity]. Qed.
Lemma lab_repeat x n : 0 < n -> (if forallb fits (repeat x n) then mode (repeat x n) else 0%Z) = cap x.
Proof.
  intros H. unfold cap. rewrite mode_repeat by exact H.
  replace (forallb fits (repeat x n)) with (fits x); [reflexivity|].
  destruct n as [|n]; [lia|]. clear H. induction n as [|n IH]; [cbn; now destruct (fits x)|].
  change (repeat x (S (S n))) with (x :: repeat x (S n)). cbn [forallb]. rewrite <- IH. now destruct (fits x).
Qed.
Lemma uniform ps x : Forall (fun p : str * bool => fst p <> []) ps ->
  token_labels32 ps (repeat x (length (text_of ps))) = repeat (cap x) (length (tokens_of ps)).
Proof.
  unfold text_of, tokens_of. induction 1 as [|[w b] ps N F IH]; [reflexivity|]. cbn [fst] in N.
  cbn [map concat fst token_labels32 filter snd]. rewrite app_length, repeat_app.
  rewrite (firstn_app_len (length w)), (skipn_app_len (length w)) by apply repeat_length. rewrite IH.
  destruct b; cbn [map length repeat]; [|reflexivity]. f_equal. apply lab_repeat. destruct w; [congruence|cbn; lia].
Qed.

(** What comes back of a masked label. *)
Lemma masked_back ps y c n : Forall (fun p : str * bool => fst p <> []) ps ->
  exists z, by_entity_mode (char_labels ps (mask c (repeat y (length (tokens_of ps))))) n = repeat z n /\
    mask c (repeat z (length (tokens_of ps))) = mask c (repeat y (length (tokens_of ps))) /\ (z = y \/ z = 0%Z).
Proof.
  intros F. set (k := length (tokens_of ps)). set (M := mask c (repeat y k)).
  assert (HA : forall ps M, (forall x, In x (char_labels ps M) -> x = 0%Z \/ In x M)).
  { clear. unfold tokens_of. induction ps as [|[w []] ps IH]; intros M x H; cbn [char_labels] in H; [destruct H| |].
    - apply in_app_or in H as [H|H]; [apply repeat_spec in H; destruct M; cbn in *; auto|].
      apply IH in H as [H|H]; [now left|]. destruct M; cbn in *; auto.
    - apply in_app_or in H as [H|H]; [apply repeat_spec in H; auto|]. now apply IH in H. }
  assert (HB : forall ps M x, Forall (fun p : str * bool => fst p <> []) ps -> length M = length (tokens_of ps) -> In x M -> In x (char_labels ps M)).
  { clear. unfold tokens_of. intros ps M x F. revert M.
    induction F as [|[w b] ps N F IH]; intros M L HI; [destruct M; [destruct HI|discriminate]|]. cbn [fst] in N.
    destruct b; cbn [filter snd map length char_labels] in *.
    - destruct M as [|y M]; [discriminate|]. injection L as L. cbn [hd tl]. apply in_or_app. destruct HI as [-> |HI].
      + left. destruct w; [congruence|]. now left.
      + right. now apply IH.
    - apply in_or_app. right. now apply IH. }
  assert (HM : forall x, In x M -> x = y \/ x = 0%Z).
  { unfold M. clear. revert c. induction k as [|k IH]; intros c x H; [destruct H|]. cbn [repeat mask] in H.
    destruct H as [<-|H]; [destruct (c 0); auto|exact (IH _ _ H)]. }
  destruct (Z.eq_dec y 0) as [-> |NY].
  - exists 0%Z. split; [|auto]. apply by_entity_zero. apply Forall_forall. intros x HX. apply HA in HX as [HX|HX]; [exact HX|].
    apply HM in HX. tauto.
  - assert (HF : forall l : list Z, (forall z, In z l -> z = y \/ z = 0%Z) ->
      exists j, filter (fun y : Z => negb (y =? 0)%Z) l = repeat y j /\ (In y l -> 0 < j)).
    { clear -NY. induction l as [|x l IH]; intros H; [exists 0; split; [reflexivity|intros []]|].
      destruct IH as (j & E1 & E2); [intros; apply H; now right|]. cbn [filter].
      destruct (H x (or_introl eq_refl)) as [-> | ->].
      - destruct (Z.eqb_spec y 0); [congruence|]. exists (S j). cbn [negb repeat]. rewrite E1. split; [reflexivity|lia].
      - exists j. cbn [Z.eqb negb]. split; [exact E1|]. intros [Q|Q]; [congruence|auto]. }
    destruct (HF (char_labels ps M)) as (j & E1 & E2).
    { intros x HX. apply HA in HX as [HX|HX]; auto. }
    destruct (in_dec Z.eq_dec y M) as [IN|IN].
    + exists y. split; [|auto]. unfold by_entity_mode. rewrite E1. f_equal. apply mode_repeat, E2, HB; auto.
      unfold M. rewrite mask_length. apply repeat_length.
    + exists 0%Z. assert (Q : M = repeat 0%Z k).
      { assert (LM : length M = k) by (unfold M; rewrite mask_length; apply repeat_length). rewrite <- LM.
        apply repeat_all. intros x HX. destruct (HM x HX) as [-> |]; [contradiction|assumption]. }
      split; [|split; [rewrite mask_zeros; now symmetry|now right]].
      apply by_entity_zero. apply Forall_forall. intros x HX. apply HA in HX as [HX|HX]; [exact HX|].
      rewrite Q in HX. now apply repeat_spec in HX.
Qed.

Lemma cell_soft c b ls : solid c -> length ls = length (ctext c) ->
  mask b (cf c (cg c (mask b (cf c ls)))) = mask b (cf c ls).
Proof.
  intros (N & G) L. destruct c as [w []|w ps]; cbn [ctext] in *.
  - cbn [cf cg mask hd]. rewrite lab_repeat by (destruct w; [congruence|cbn; lia]).
    set (x := if forallb fits ls then mode ls else 0%Z).
    assert (CX : cap x = x).
    { unfold x, cap. destruct (forallb fits ls) eqn:Q; [|reflexivity]. rewrite forallb_forall in Q.
      assert (HI : In (mode ls) ls) by (apply first_mode_In, mode_first_mode; destruct ls; [destruct w; [congruence|discriminate]|discriminate]).
      now rewrite (Q _ HI). }
    destruct (b 0); [now rewrite CX|reflexivity].
  - reflexivity.
  - cbn [cf cg]. rewrite (uniform ps (mode ls) G).
    destruct (masked_back ps (cap (mode ls)) b (length w) G) as (z & -> & Q & D).
    rewrite mode_repeat by (destruct w; [congruence|cbn; lia]). rewrite (uniform ps _ G).
    replace (cap z) with z; [exact Q|]. destruct D as [-> | ->]; [now rewrite cap_cap|reflexivity].
Qed.

Lemma cells_soft bs : Forall solid bs -> forall b l, length l = length (texts bs) ->
  mask b (fwd bs (bwd bs (mask b (fwd bs l)))) = mask b (fwd bs l).
Proof.
  induction 1 as [|c bs S F IH]; intros b l L; [reflexivity|]. unfold texts in *. cbn [map concat] in L. rewrite app_length in L.
  assert (L1 : length (firstn (length (ctext c)) l) = length (ctext c)) by (rewrite firstn_length; lia).
  cbn [fwd bwd]. rewrite (mask_app b (cf c (firstn (length (ctext c)) l))), cf_length.
  rewrite (firstn_app_len (cout c)), (skipn_app_len (cout c)) by (now rewrite mask_length, cf_length).
  rewrite (firstn_app_len (length (ctext c))), (skipn_app_len (length (ctext c))) by apply cg_length.
  rewrite mask_app, cf_length, cell_soft by assumption. f_equal. apply IH. rewrite skipn_length. lia.
Qed.

(** ** The pieces of a tokenizer *)

Fixpoint pc (k : Z -> kind) (cur s : str) : list (str * bool) :=
  match s with
  | [] => map (fun w => (w, true)) (flush cur)
  | c :: s =>
      match k c with
      | Gap => map (fun w => (w, true)) (flush cur) ++ ([c], false) :: pc k [] s
      | Single => map (fun w => (w, true)) (flush cur) ++ ([c], true) :: pc k [] s
      | Word => pc k (cur ++ [c]) s
      end
  end.

Lemma flush_fwd cur lc ps l : length lc = length cur ->
  token_labels32 (map (fun w => (w, true)) (flush cur) ++ ps) (lc ++ l) =
  map lab (flush (combine cur lc)) ++ token_labels32 ps l.
Proof.
  intros L. destruct cur as [|c cur]; destruct lc as [|x lc]; try discriminate; [reflexivity|].
  cbn [flush map app combine token_labels32].
  change (x :: lc ++ l) with ((x :: lc) ++ l). rewrite firstn_app_len, skipn_app_len by exact L. f_equal.
  unfold lab. pose proof (combine_snd (c :: cur) (x :: lc) (eq_sym L)) as Q. cbn [combine] in Q. now rewrite Q.
Qed.
Lemma pc_fwd k s : forall cur lc l, length lc = length cur -> length l = length s ->
  token_labels32 (pc k cur s) (lc ++ l) = map lab (tk (fun cx => k (fst cx)) (combine cur lc) (combine s l)).
Proof.
  induction s as [|c s IH]; intros cur lc [|x l] LC L; try discriminate; cbn [pc tk combine].
  - pose proof (flush_fwd cur lc [] [] LC) as Q. rewrite app_nil_r in Q. rewrite Q. cbn. now rewrite app_nil_r.
  - injection L as L. cbn [fst]. destruct (k c).
    + rewrite (flush_fwd cur lc _ _ LC). cbn [token_labels32 length skipn]. rewrite map_app. f_equal.
      exact (IH [] [] l eq_refl L).
    + rewrite (flush_fwd cur lc _ _ LC). cbn [token_labels32 length skipn firstn]. rewrite map_app. cbn [map]. f_equal.
      f_equal. exact (IH [] [] l eq_refl L).
    + change (x :: l) with ([x] ++ l). rewrite app_assoc, IH by (rewrite ?app_length; cbn; lia).
      now rewrite combine_two by (symmetry; exact LC).
Qed.
Lemma pc_bwd k s : forall cur m, char_labels (pc k cur s) m =
  match cur with [] => chlab k None s m | _ => repeat (hd 0%Z m) (length cur) ++ chlab k (Some (hd 0%Z m)) s (tl m) end.
Proof.
  induction s as [|c s IH]; intros cur m; cbn [pc chlab].
  - destruct cur; cbn; now rewrite ?app_nil_r.
  - destruct (k c).
    + destruct cur as [|d cur]; cbn [flush map app char_labels length repeat]; now rewrite (IH []).
    + destruct cur as [|d cur]; cbn [flush map app char_labels length repeat]; now rewrite (IH []).
    + rewrite IH. destruct cur as [|d cur]; cbn [app length repeat]; [reflexivity|].
      f_equal. rewrite app_length. cbn [length]. rewrite repeat_app, <- app_assoc. reflexivity.
Qed.
Lemma pc_text k s : forall cur, text_of (pc k cur s) = cur ++ s.
Proof.
  assert (FL : forall cur ps, text_of (map (fun w : str => (w, true)) (flush cur) ++ ps) = cur ++ text_of ps).
  { intros [|c cur] ps; reflexivity. }
  induction s as [|c s IH]; intros cur; cbn [pc].
  - rewrite <- (app_nil_r (map _ _)), FL. reflexivity.
  - destruct (k c); rewrite ?FL.
    + unfold text_of at 1. cbn [map concat fst]. fold (text_of (pc k [] s)). now rewrite IH.
    + unfold text_of at 1. cbn [map concat fst]. fold (text_of (pc k [] s)). now rewrite IH.
    + rewrite IH, <- app_assoc. reflexivity.
Qed.
Lemma pc_nonempty k s : forall cur, Forall (fun p : str * bool => fst p <> []) (pc k cur s).
Proof.
  assert (FL : forall cur, Forall (fun p : str * bool => fst p <> []) (map (fun w : str => (w, true)) (flush cur))).
  { intros [|c cur]; repeat constructor. discriminate. }
  induction s as [|c s IH]; intros cur; cbn [pc]; [apply FL|].
  destruct (k c); [apply Forall_app; split; [apply FL|constructor; [discriminate|apply IH]]..|apply IH].
Qed.
Lemma pc_split k x s2 : k x = Gap -> forall s1 cur, pc k cur (s1 ++ x :: s2) = pc k cur s1 ++ ([x], false) :: pc k [] s2.
Proof.
  intros K. induction s1 as [|c s1 IH]; intros cur; cbn [app pc]; [now rewrite K|].
  destruct (k c); rewrite ?IH, <- ?app_assoc; reflexivity.
Qed.

(** ** Operators that act cell by cell *)

Record lays (E : env) (ops : list op) (B : str -> list cell) : Prop := mk_lays {
  l_text : forall s, texts (B s) = s;
  l_solid : forall s, Forall solid (B s);
  l_split : forall s1 s2, B (s1 ++ 32%Z :: s2) = B s1 ++ Piece [32%Z] false :: B s2;
  l_acts : forall s, exists y, acts E ops (SStr s) y (fwd (B s)) (back32 (bwd (B s))) }.

Lemma tokenizer_lays E ops k : tokenizer_by E ops k -> k 32%Z = Gap ->
  lays E ops (fun s => map piece (pc k [] s)).
Proof.
  intros T K. split.
  - intros s. now rewrite pieces_texts, pc_text.
  - intros s. apply Forall_map. eapply Forall_impl; [|apply pc_nonempty]. intros [w b] N. now split.
  - intros s1 s2. rewrite pc_split by exact K. now rewrite map_app.
  - intros s. eexists. eapply acts_ext; [apply T| |].
    + intros l L. rewrite pieces_fwd. symmetry. apply (pc_fwd k s [] [] l eq_refl). exact L.
    + intros l L. unfold back32. now rewrite pieces_bwd, pc_bwd.
Qed.

(** One more operator in front, that replaces runs of a class by a text [ t ]. *)
Section prepend.
  Context (E : env) (ops : list op) (B : str -> list cell) (LB : lays E ops B).
  Context (t : str) (P : list (str * bool)) (HP : B t = map piece P).

  Fixpoint cells (acc : str) (sg : list (seg Z)) : list cell :=
    match sg with
    | [] => B acc
    | (o, None) :: sg => cells (acc ++ o) sg
    | (o, Some _) :: sg => B acc ++ Number o P :: cells [] sg
    end.
  Definition spaced_token (sg : list (seg Z)) : Prop :=
    forall o v, In (o, Some v) sg -> o <> [] /\ v = 32%Z :: t ++ [32%Z].

  Lemma spaced_token_tl x sg : spaced_token (x :: sg) -> spaced_token sg.
  Proof. intros H o v I. apply (H o v). now right. Qed.
  Lemma P_nonempty : Forall (fun p : str * bool => fst p <> []) P.
  Proof.
    pose proof (l_solid _ _ _ LB t) as F. rewrite HP in F. apply -> Forall_map in F. eapply Forall_impl; [|exact F].
    intros [w b] (N & _). exact N.
  Qed.
  Lemma P_text : text_of P = t.
  Proof. rewrite <- pieces_texts, <- HP. apply (l_text _ _ _ LB). Qed.
  Lemma cells_text sg : forall acc, texts (cells acc sg) = acc ++ olds sg.
  Proof.
    induction sg as [|[o [v|]] sg IH]; intros acc; cbn [cells].
    - rewrite (l_text _ _ _ LB). unfold olds. cbn. now rewrite app_nil_r.
    - rewrite texts_app, (l_text _ _ _ LB). change (texts (Number o P :: cells [] sg)) with (o ++ texts (cells [] sg)). now rewrite IH.
    - rewrite IH, <- app_assoc. reflexivity.
  Qed.
  Lemma cells_solid sg : spaced_token sg -> forall acc, Forall solid (cells acc sg).
  Proof.
    induction sg as [|[o [v|]] sg IH]; intros H acc; cbn [cells].
    - apply (l_solid _ _ _ LB).
    - apply Forall_app. split; [apply (l_solid _ _ _ LB)|]. constructor; [|apply IH; now apply spaced_token_tl in H].
      split; [exact (proj1 (H o v (or_introl eq_refl)))|exact P_nonempty].
    - apply IH. now apply spaced_token_tl in H.
  Qed.
  Lemma B_token acc rest : B (acc ++ (32%Z :: t ++ [32%Z]) ++ rest) =
    B acc ++ Piece [32%Z] false :: map piece P ++ Piece [32%Z] false :: B rest.
  Proof. cbn [app]. rewrite (l_split _ _ _ LB), <- app_assoc. cbn [app]. now rewrite (l_split _ _ _ LB), HP. Qed.
  Lemma B_len acc : length (texts (B acc)) = length acc.
  Proof. now rewrite (l_text _ _ _ LB). Qed.

  Lemma cells_fwd sg : spaced_token sg -> forall acc la l, length la = length acc -> length l = length (olds sg) ->
    fwd (B (acc ++ news sg)) (la ++ relabel (around by_mode) sg l) = fwd (cells acc sg) (la ++ l).
  Proof.
    induction sg as [|[o [v|]] sg IH]; intros H acc la l LA L.
    - destruct l; [|discriminate]. change (news (@nil (seg Z))) with (@nil Z). cbn [relabel cells]. now rewrite !app_nil_r.
    - destruct (H o v (or_introl eq_refl)) as (N & ->). specialize (IH (spaced_token_tl _ _ H)).
      rewrite news_cons. rewrite olds_cons, app_length in L. unfold old_of, new_of in *. cbn [fst snd relabel cells] in *.
      rewrite B_token. unfold old_of. cbn [fst]. set (ls := firstn (length o) l). set (r := skipn (length o) l).
      replace l with (ls ++ r) by apply firstn_skipn.
      assert (LR : length r = length (olds sg)) by (unfold r; rewrite skipn_length; lia).
      assert (LL : length ls = length o) by (unfold ls; rewrite firstn_length; lia).
      rewrite !fwd_app by (now rewrite B_len). f_equal.
      unfold around. cbn [length]. rewrite app_length. cbn [length].
      replace (S (length t + 1) - 2) with (length t) by lia. cbn [app fwd ctext length firstn skipn cf].
      unfold by_mode. rewrite <- app_assoc, fwd_app by (now rewrite pieces_texts, P_text, repeat_length).
      rewrite pieces_fwd. cbn [app fwd ctext length firstn skipn cf].
      rewrite (firstn_app_len (length o)), (skipn_app_len (length o)) by exact LL. rewrite P_text. f_equal.
      exact (IH [] [] r eq_refl LR).
    - specialize (IH (spaced_token_tl _ _ H)).
      rewrite news_cons. rewrite olds_cons, app_length in L. unfold old_of, new_of in *. cbn [fst snd relabel cells] in *.
      unfold old_of. cbn [fst]. rewrite !app_assoc. rewrite IH; [|rewrite !app_length, firstn_length; lia|rewrite skipn_length; lia].
      now rewrite <- app_assoc, firstn_skipn.
  Qed.

  Lemma firstn_plus {A} a b (l : list A) : firstn (a + b) l = firstn a l ++ firstn b (skipn a l).
  Proof. revert l. induction a as [|a IH]; intros [|x l]; cbn [Nat.add firstn skipn app]; try reflexivity; [now destruct b|]. now rewrite IH. Qed.

  Lemma cells_bwd sg : spaced_token sg -> forall acc m,
    firstn (length acc) (bwd (B (acc ++ news sg)) m) ++
      relabel by_entity_mode (swap sg) (skipn (length acc) (bwd (B (acc ++ news sg)) m)) = bwd (cells acc sg) m.
  Proof.
    induction sg as [|[o [v|]] sg IH]; intros H acc m.
    - change (news (@nil (seg Z))) with (@nil Z). cbn [swap map relabel cells]. rewrite !app_nil_r.
      apply firstn_all2. now rewrite bwd_length, B_len.
    - destruct (H o v (or_introl eq_refl)) as (N & ->). specialize (IH (spaced_token_tl _ _ H) []).
      rewrite news_cons. unfold new_of. cbn [fst snd cells]. rewrite B_token, !bwd_app.
      set (m1 := firstn (outs_of (B acc)) m). set (m2 := skipn (outs_of (B acc)) m).
      assert (L1 : length (bwd (B acc) m1) = length acc) by (now rewrite bwd_length, B_len).
      rewrite (firstn_app_len (length acc)), (skipn_app_len (length acc)) by exact L1. f_equal.
      unfold swap, swap1. cbn [map fst snd relabel]. fold (@swap Z). unfold old_of. cbn [fst].
      cbn [bwd cout cg firstn skipn]. rewrite bwd_app, pieces_bwd, pieces_outs. cbn [bwd cout cg firstn skipn].
      set (m3 := skipn (length (tokens_of P)) m2). set (q := firstn (length (tokens_of P)) m2).
      assert (LQ : length (char_labels P q) = length t).
      { rewrite <- pieces_bwd, bwd_length, pieces_texts, P_text. reflexivity. }
      cbn [length repeat]. rewrite (app_assoc (char_labels P q)).
      set (w := [0%Z] ++ char_labels P q ++ [0%Z]).
      match goal with |- context [firstn ?n ?x] => replace x with (w ++ bwd (B (news sg)) m3) by (unfold w; cbn [app]; rewrite <- !app_assoc; reflexivity) end.
      rewrite firstn_app_len, skipn_app_len by (unfold w; rewrite !app_length; cbn; lia).
      f_equal; [unfold w; cbn [app]; now apply entity_around|]. exact (IH m3).
    - specialize (IH (spaced_token_tl _ _ H) (acc ++ o) m). cbn [cells]. rewrite <- IH. rewrite news_cons.
      unfold new_of, swap, swap1. cbn [fst snd map relabel]. fold (@swap Z). unfold old_of. cbn [fst].
      rewrite <- app_assoc, app_length, firstn_plus, <- app_assoc, skipn_skipn_add. reflexivity.
  Qed.

  (** The operator. *)
  Context (o : op) (p : Z -> bool) (choose : str -> option str) (P32 : p 32%Z = false).
  Context (CH : forall r v, choose r = Some v -> v = 32%Z :: t ++ [32%Z]).
  Context (RW : forall s, rewrites E o s (seg_runs p choose s) (around by_mode) by_entity_mode).
  Definition front (s : str) : list cell := cells [] (seg_runs p choose s).

  Lemma runs_spaced s : spaced_token (seg_runs p choose s).
  Proof.
    intros w v I. split; [exact (seg_runs_nonempty _ _ _ _ _ I)|]. apply seg_runs_In in I. exact (CH _ _ I).
  Qed.
  Lemma cells_kept c s acc : p c = false -> cells acc (seg_runs p choose (c :: s)) = cells (acc ++ [c]) (seg_runs p choose s).
  Proof.
    intros H. unfold seg_runs. cbn [runs]. destruct (runs p s) as [|[b r] rs]; [|destruct b; rewrite H]; cbn [map fst snd cells Bool.eqb].
    - rewrite H. reflexivity.
    - reflexivity.
    - now rewrite <- app_assoc.
  Qed.
  Lemma cells_space sg : forall acc a, cells (acc ++ 32%Z :: a) sg = B acc ++ Piece [32%Z] false :: cells a sg.
  Proof.
    induction sg as [|[w [v|]] sg IH]; intros acc a; cbn [cells].
    - apply (l_split _ _ _ LB).
    - rewrite (l_split _ _ _ LB), <- app_assoc. reflexivity.
    - rewrite <- app_assoc. cbn [app]. apply IH.
  Qed.
  Lemma take_run s : exists r s', s = r ++ s' /\ all_in p true r /\ match s' with [] => True | c :: _ => p c = false end.
  Proof.
    induction s as [|c s (r & s' & -> & HA & HS)]; [exists [], []; repeat split; constructor|].
    destruct (p c) eqn:Q; [exists (c :: r), s'; repeat split; auto; now constructor|].
    exists [], (c :: r ++ s'). repeat split; auto. constructor.
  Qed.
  Lemma runs_take r s : r <> [] -> all_in p true r -> match s with [] => True | c :: _ => p c = false end ->
    runs p (r ++ s) = (true, r) :: runs p s.
  Proof.
    intros N A H. apply runs_cons_run; auto. pose proof (runs_hd_flag p s) as F.
    destruct (runs p s) as [|[b x] rs]; [exact Logic.I|]. destruct s as [|c s]; [destruct F|]. now rewrite F, H.
  Qed.
  Lemma front_split s2 : forall n s1 acc, length s1 <= n ->
    cells acc (seg_runs p choose (s1 ++ 32%Z :: s2)) = cells acc (seg_runs p choose s1) ++ Piece [32%Z] false :: front s2.
  Proof.
    induction n as [|n IH]; intros s1 acc L.
    - destruct s1; [|cbn in L; lia]. cbn [app]. rewrite cells_kept by exact P32. apply (cells_space _ acc []).
    - destruct s1 as [|c s1]; [cbn [app]; rewrite cells_kept by exact P32; apply (cells_space _ acc [])|]. cbn [length] in L.
      destruct (p c) eqn:Q.
      + destruct (take_run (c :: s1)) as (r & s' & E1 & HA & HS). rewrite E1.
        assert (N : r <> []).
        { intros ->. cbn [app] in E1. subst s'. rewrite Q in HS. discriminate. }
        rewrite <- app_assoc. unfold seg_runs. rewrite (runs_take r s' N HA HS).
        rewrite (runs_take r (s' ++ 32%Z :: s2) N HA) by (destruct s'; [exact P32|exact HS]).
        assert (LS : length s' <= n).
        { apply (f_equal (@length Z)) in E1. rewrite app_length in E1. cbn [length] in E1. destruct r; [congruence|cbn [length] in E1; lia]. }
        cbn [map fst snd cells]. destruct (choose r) as [v|].
        * rewrite <- app_assoc. f_equal. cbn [app]. f_equal. exact (IH s' [] LS).
        * exact (IH s' _ LS).
      + cbn [app]. rewrite !cells_kept by exact Q. apply IH. lia.
  Qed.
  Lemma front_plain s : (forall c, In c s -> p c = false) -> front s = B s.
  Proof.
    unfold front. intros H. assert (A : forall acc, cells acc (seg_runs p choose s) = B (acc ++ s)).
    { induction s as [|c s IH]; intros acc; [cbn; now rewrite app_nil_r|].
      rewrite cells_kept by (apply H; now left). rewrite IH by (intros; apply H; now right). now rewrite <- app_assoc. }
    apply (A []).
  Qed.
  Lemma front_lays : lays E (o :: ops) front.
  Proof.
    split.
    - intros s. unfold front. rewrite cells_text. cbn [app]. apply seg_runs_olds.
    - intros s. apply cells_solid, runs_spaced.
    - intros s1 s2. exact (front_split s2 (length s1) s1 [] (le_n _)).
    - intros s. destruct (RW s) as (O & M). apply acts_maps in M.
      destruct (l_acts _ _ _ LB (news (seg_runs p choose s))) as (y & A).
      exists y. eapply acts_ext; [exact (acts_app _ _ _ _ _ _ _ _ _ _ M A)| |].
      + intros l L. cbn [pseq_length] in L. exact (cells_fwd _ (runs_spaced s) [] [] l eq_refl ltac:(now rewrite O)).
      + intros l L. unfold back32. destruct (forallb fits l); cbn [bind]; [|reflexivity]. f_equal.
        exact (cells_bwd _ (runs_spaced s) [] l).
  Qed.
End prepend.

(** ** Pipes *)

Definition soft_all E als := forall c l m l', align_all als l = Ok m -> align_inverse_all E als (mask c m) = Ok l' ->
  exists m', align_all als l' = Ok m' /\ mask c m' = mask c m /\ length m' = length m.

Lemma lays_soft E ops B objs s y als coll : lays E ops B -> map o_op objs = ops ->
  Pipe.run E objs (SStr s) = Ok (y, als, coll) -> soft_all E als.
Proof.
  intros LB HO HR c l m l' A C. destruct (l_acts _ _ _ LB s) as (y' & AC).
  destruct (AC objs HO) as (als' & coll' & R & F1 & F2 & G1 & G2).
  rewrite R in HR. injection HR as -> -> ->. cbn [pseq_length] in *.
  destruct (Nat.eq_dec (length l) (length s)) as [L|L]; [|rewrite (F2 l L) in A; discriminate].
  destruct (F1 l L) as (Q & LF). rewrite A in Q. injection Q as ->.
  destruct (G1 (mask c (fwd (B s) l))) as (QG & LG); [now rewrite mask_length|].
  rewrite QG in C. unfold back32 in C. destruct (forallb fits (mask c (fwd (B s) l))) eqn:QF; [|discriminate]. injection C as <-.
  assert (LL : length (bwd (B s) (mask c (fwd (B s) l))) = length s) by (now rewrite bwd_length, (l_text _ _ _ LB)).
  destruct (F1 _ LL) as (Q2 & L2). eexists. split; [exact Q2|]. split; [|congruence].
  apply cells_soft; [apply (l_solid _ _ _ LB)|]. now rewrite (l_text _ _ _ LB).
Qed.

Lemma settles_after E als als' : soft_all E als -> steady als' -> gentle_all E als' -> settles E (als ++ als').
Proof.
  intros H1 S2 H2 l m l' A C. rewrite align_all_app in *. rewrite align_inverse_all_app in C.
  destruct (align_all als l) as [m1|] eqn:EA; cbn [bind] in A; [|discriminate].
  destruct (align_inverse_all E als' m) as [m2|] eqn:EB; cbn [bind] in C; [|discriminate].
  destruct (H2 (fun _ => true)) as (b & HB). destruct (HB m1 m A) as (P1 & n & P2 & P3). rewrite !mask_all in *.
  subst n. rewrite (P1 m2 EB) in C. destruct (H1 b l m1 l' EA C) as (m1' & Q1 & Q2 & K2).
  rewrite Q1. cbn [bind]. destruct (S2 m1 m m1' A K2) as (m' & A' & _).
  destruct (HB m1' m' A') as (_ & n & R2 & R3). rewrite !mask_all in R3. subst n. rewrite Q2, P2 in R2.
  now injection R2 as <-.
Qed.

Section pipes.
  Context (E : env) (PY : python E) (RX : regexes E).

  Lemma spaces_tokenizer tok : In tok [WhiteSpaceTokenizer; EngTokenizer; ZhCharTokenizer] -> forall spaces,
    Forall (fun o => In o spacers) spaces ->
    exists k, tokenizer_by E (spaces ++ [tok]) k /\ forall c, is_space E c = true -> k c = Gap.
  Proof.
    intros HT spaces F. assert (OC : ord_ok (ord_c E)) by apply PY. pose proof (space_32 E PY) as SP.
    induction F as [|o spaces H F (k & T & K)]; cbn [app].
    - destruct HT as [<-|[<-|[<-|[]]]].
      + exists (by_space E). split; [now apply ws_by|]. intros c H. unfold by_space. now rewrite H.
      + exists (by_punct E). split; [now apply eng_by|]. intros c H. unfold by_punct. now rewrite H.
      + exists (by_punct_cjk E). split; [now apply zh_by|]. intros c H. unfold by_punct_cjk. now rewrite H.
    - assert (RF : forall cls : Z -> bool, let k' := fun c => if cls c then match k c with Gap => Gap | _ => Single end else k c in
        refined cls k k' /\ forall c, is_space E c = true -> k' c = Gap).
      { intros cls k'. split; [intros c; reflexivity|]. intros c Hc. unfold k'. rewrite (K c Hc). now destruct (cls c). }
      destruct H as [<-|[<-|[<-|[<-|[]]]]].
      + exists k. split; [now apply merge_first|exact K].
      + exists k. split; [now apply strip_first|exact K].
      + destruct (RF cjk) as (R & K'). eexists. split; [exact (cjk_first E PY _ _ _ (K _ SP) R T)|exact K'].
      + destruct (RF (punctuation E)) as (R & K'). eexists. split; [exact (punct_first E PY _ _ _ (K _ SP) R T)|exact K'].
  Qed.

  Definition number_tokens : list str := [txt "_int_"; txt "_float_"; txt "_num_"].
  Lemma not_number c : token_letters E -> In c (txt " _int_float_num_") -> point c || digit E c = false.
  Proof.
    intros TL H. unfold digit. rewrite (TL c H). cbn [txt map] in H.
    repeat (destruct H as [<-|H]; [reflexivity|]). destruct H.
  Qed.
  Lemma numbers_lay ops k : token_letters E -> tokenizer_by E ops k -> (forall c, is_space E c = true -> k c = Gap) ->
    forall numbers, Forall (fun o => In o spaced_numbers) numbers ->
    exists B, lays E (numbers ++ ops) B /\ forall t, In t number_tokens -> exists P, B t = map piece P.
  Proof.
    intros TL T K numbers F. assert (OC : ord_ok (ord_c E)) by apply PY. pose proof (space_32 E PY) as SP.
    induction F as [|o numbers H F (B & LB & HB)]; cbn [app].
    - exists (fun s => map piece (pc k [] s)). split; [apply tokenizer_lays; [exact T|now apply K]|]. intros t _. eexists. reflexivity.
    - set (p := fun c => point c || digit E c).
      assert (NP : forall c, In c (txt " _int_float_num_") -> p c = false) by (intros c; now apply not_number).
      assert (P32 : p 32%Z = false) by (apply NP; now left).
      assert (NT : forall t, In t number_tokens -> forall c, In c t -> p c = false).
      { intros t HT c HC. apply NP. cbn in HT. cbn.
        destruct HT as [<-|[<-|[<-|[]]]]; cbn in HC; tauto. }
      assert (ST : forall t choose, In t number_tokens -> (forall r v, choose r = Some v -> v = 32%Z :: t ++ [32%Z]) ->
        (forall s, rewrites E o s (seg_runs p choose s) (around by_mode) by_entity_mode) ->
        exists B', lays E (o :: numbers ++ ops) B' /\ forall t, In t number_tokens -> exists P, B' t = map piece P).
      { intros t choose HT HC RW. destruct (HB t HT) as (P & HP). exists (front B P p choose). split.
        - exact (front_lays E (numbers ++ ops) B LB t P HP o p choose P32 HC RW).
        - intros t' HT'. destruct (HB t' HT') as (P' & HP'). exists P'. rewrite <- HP'. apply front_plain. now apply NT. }
      destruct H as [<-|[<-|[<-|[]]]].
      + apply (ST (txt "_int_") (fun r => if forallb (digit E) r then Some (txt " _int_ ") else None)); [now left| |].
        * intros r v. destruct (forallb _ r); [|discriminate]. now intros [= <-].
        * intros s. now apply int_space_rewrites.
      + apply (ST (txt "_float_") (fun r => if is_decimal (digit E) r then Some (txt " _float_ ") else None)); [right; now left| |].
        * intros r v. destruct (is_decimal _ r); [|discriminate]. now intros [= <-].
        * intros s. now apply float_space_rewrites.
      + apply (ST (txt "_num_") (fun r => if forallb (digit E) r then Some (txt " _num_ ") else None)); [right; right; now left| |].
        * intros r v. destruct (forallb _ r); [|discriminate]. now intros [= <-].
        * intros s. now apply num_space_rewrites.
  Qed.

  Lemma run_type ops x y als coll : ops <> [] -> input_type (hd Lowercase (map o_op ops)) = TStr ->
    Pipe.run E ops x = Ok (y, als, coll) -> exists s, x = SStr s.
  Proof.
    destruct ops as [|o ops]; [congruence|]. intros _. cbn [map hd Pipe.run]. intros HT.
    destruct (transform_op E (o_op o) x) as [[v a]|] eqn:Q; cbn [bind]; [|discriminate]. intros _.
    pose proof (AlignProofs.transform_type _ _ _ _ Q) as H. rewrite HT in H. destruct x; [now eexists|discriminate].
  Qed.

  Theorem numbers_settle p x y als coll : token_letters E -> reachable E p -> numbered (map o_op (steps p)) ->
    transform_sequence E p x = Ok (y, als, coll) -> settles E als.
  Proof.
    intros TL HP (b & nums & sp & tok & c & EO & HB & HN & HS & HT & HC) HR.
    destruct (reachable_sound _ _ HP) as (HM & _). unfold transform_sequence in HR.
    set (ops := steps p) in *. clearbody ops.
    destruct (map_app_split _ _ _ _ EO) as (o1 & o2 & -> & <- & EC). apply Forall_app in HM. destruct HM as (M1 & M2).
    destruct (run_split _ _ _ _ _ _ _ HR) as (v & as1 & co1 & as2 & co2 & R1 & R2 & ->).
    apply settles_app; [exact (run_returns E PY RX _ M1 HB _ _ _ _ R1)|].
    replace (nums ++ sp ++ tok :: c) with ((nums ++ sp ++ [tok]) ++ c) in EC by (rewrite <- !app_assoc; reflexivity).
    destruct (map_app_split _ _ _ _ EC) as (o3 & o4 & -> & E3 & <-). apply Forall_app in M2. destruct M2 as (M3 & M4).
    destruct (run_split _ _ _ _ _ _ _ R2) as (w & as3 & co3 & as4 & co4 & R3 & R4 & ->).
    destruct (spaces_tokenizer tok HT sp HS) as (k & T & K).
    destruct (numbers_lay _ k TL T K nums HN) as (B & LB & _).
    assert (exists s, v = SStr s) as (s & ->).
    { apply (run_type o3 v w as3 co3); [|rewrite E3|exact R3].
      - intros ->. apply (f_equal (@length op)) in E3. rewrite !app_length in E3. cbn in E3. lia.
      - destruct HN as [|o nums H _]; cbn [app hd].
        + destruct HS as [|o sp H _]; cbn [app hd].
          * destruct HT as [<-|[<-|[<-|[]]]]; reflexivity.
          * destruct H as [<-|[<-|[<-|[<-|[]]]]]; reflexivity.
        + destruct H as [<-|[<-|[<-|[]]]]; reflexivity. }
    apply settles_after; [exact (lays_soft _ _ _ _ _ _ _ _ LB E3 R3)|exact (run_steady E PY RX _ _ _ _ _ M4 R4)|].
    exact (run_gentle E PY RX _ M4 HC _ _ _ _ R4).
  Qed.
End pipes.
