(** The tokenizers: pieces, tokens and labels. *)

From Verif Require Import Py PyFacts Edit Labels SpecEdit SpecLabels SpecSeg SpecRuns SpecWords
  SpecOps EditProofs SpanProofs LabelProofs EditApiProofs SegProofs Regex Trie Ops RegexProofs
  PatternProofs TrieProofs WordProofs RunsProofs OpProofs StrOpProofs.

(** ** From pieces to edits *)

(** Dropped pieces are deleted. *)
Definition cuts (ps : list (str * bool)) : list (seg Z) :=
  map (fun p : str * bool => (fst p, if snd p then None else Some [])) ps.

Definition hd_dropped (ps : list (str * bool)) : bool :=
  match ps with (_, false) :: _ => true | _ => false end.

(** Dropped pieces consist of characters of [p], are not empty and not neighbours; tokens
    start with another character. *)
Fixpoint neat (p : Z -> bool) (ps : list (str * bool)) : Prop :=
  match ps with
  | [] => True
  | (w, true) :: ps => (exists c t, w = c :: t /\ p c = false) /\ neat p ps
  | (w, false) :: ps => w <> [] /\ forallb p w = true /\ hd_dropped ps = false /\ neat p ps
  end.

Lemma cuts_olds ps : olds (cuts ps) = text_of ps.
Proof.
  induction ps as [|[w b] ps IH]; [reflexivity|].
  unfold olds, cuts, text_of in *. cbn [map fst snd concat old_of]. now rewrite IH.
Qed.

Lemma cuts_news ps : news (cuts ps) = concat (tokens_of ps).
Proof.
  induction ps as [|[w []] ps IH]; [reflexivity| |];
    unfold news, cuts, tokens_of in *; cbn [map fst snd concat new_of filter app]; now rewrite IH.
Qed.

Lemma text_of_cons w b ps : text_of ((w, b) :: ps) = w ++ text_of ps.
Proof. reflexivity. Qed.

Lemma find_at_gap (p : Z -> bool) gap c t rest i :
  p c = false -> forallb p gap = true ->
  find_at (c :: t) (gap ++ (c :: t) ++ rest) i = Some (i + length gap).
Proof.
  intros HC. revert i; induction gap as [|g gap IH]; intros i HG.
  - cbn [length]. rewrite Nat.add_0_r.
    change (find_at (c :: t) ((c :: t) ++ rest) i = Some i).
    pose proof (prefixb_app (c :: t) rest) as HP. unfold find_at at 1.
    destruct ((c :: t) ++ rest); now rewrite HP.
  - cbn [forallb] in HG. apply andb_true_iff in HG. destruct HG as (G1 & G2).
    cbn [find_at app prefixb]. destruct (eqb_spec c g) as [->|N]; [congruence|].
    cbn [andb]. cbn [length]. replace (i + S (length gap)) with (S i + length gap) by lia.
    apply IH. exact G2.
Qed.

Definition fin (s : str) (x : nat * list (repl Z)) : list (repl Z) :=
  let '(sh, acc) := x in if sh =? length s then acc else radd acc sh (length s) [].

Lemma repl_loop_neat p ps : forall pre gap acc,
  neat p ps -> forallb p gap = true -> gap = [] \/ hd_dropped ps = false ->
  (x <- gen_repl_loop (pre ++ gap ++ text_of ps) (tokens_of ps) (length pre) acc ;;
   Ok (fin (pre ++ gap ++ text_of ps) x)) =
  Ok (acc ++ match gap with [] => [] | _ => [mkR (length pre) (length pre + length gap) []] end
          ++ grp (length pre + length gap) (cuts ps)).
Proof.
  induction ps as [|[w []] ps IH]; intros pre gap acc HN HG HD.
  - cbn [tokens_of text_of map filter concat gen_repl_loop bind cuts grp fin].
    rewrite !app_nil_r, app_length. destruct gap as [|g gap].
    + cbn [length]. rewrite Nat.add_0_r, Nat.eqb_refl, app_nil_r. reflexivity.
    + destruct (Nat.eqb_spec (length pre) (length pre + length (g :: gap))) as [Q|Q];
        [cbn [length] in Q; lia|].
      unfold radd. destruct (Nat.ltb_spec (length pre + length (g :: gap)) (length pre)); [lia|].
      reflexivity.
  - cbn [neat] in HN. destruct HN as ((c & t & -> & HC) & HN).
    rewrite text_of_cons.
    change (tokens_of ((c :: t, true) :: ps)) with ((c :: t) :: tokens_of ps).
    cbn [gen_repl_loop].
    assert (EF : py_find (pre ++ gap ++ (c :: t) ++ text_of ps) (c :: t) (length pre)
                 = Some (length pre + length gap)).
    { unfold py_find. destruct (Nat.ltb_spec (length (pre ++ gap ++ (c :: t) ++ text_of ps)) (length pre)) as [L|L];
        [rewrite app_length in L; lia|].
      rewrite skipn_app_exact. now apply find_at_gap with (p := p). }
    rewrite EF.
    assert (ES : slice (pre ++ gap ++ (c :: t) ++ text_of ps) (length pre) (length pre + length gap) = gap).
    { unfold slice. rewrite skipn_app_exact.
      replace (length pre + length gap - length pre) with (length gap) by lia. apply firstn_app_exact. }
    rewrite ES.
    set (acc' := match gap with [] => acc | _ :: _ => radd acc (length pre) (length pre + length gap) [] end).
    specialize (IH (pre ++ gap ++ (c :: t)) [] acc' HN eq_refl (or_introl eq_refl)).
    cbn [app] in IH. rewrite <- !app_assoc in IH. rewrite <- app_comm_cons in IH.
    rewrite <- app_comm_cons.
    replace (length (pre ++ gap ++ c :: t)) with (length pre + length gap + length (c :: t)) in IH
      by (rewrite !app_length; lia).
    rewrite IH. cbn [length]. rewrite Nat.add_0_r. cbn [cuts map fst snd grp].
    f_equal. unfold acc'. destruct gap as [|g gap]; [reflexivity|].
    unfold radd. destruct (Nat.ltb_spec (length pre + length (g :: gap)) (length pre)); [lia|].
    rewrite <- app_assoc. reflexivity.
  - cbn [neat] in HN. destruct HN as (NE & HW & HH & HN).
    destruct HD as [-> |HD]; [|discriminate]. cbn [app]. rewrite text_of_cons.
    change (tokens_of ((w, false) :: ps)) with (tokens_of ps).
    rewrite (IH pre w acc HN HW (or_intror HH)). f_equal. f_equal.
    cbn [length]. rewrite Nat.add_0_r. cbn [cuts map fst snd grp].
    destruct w as [|x w]; [congruence|]. reflexivity.
Qed.

Lemma neat_solid p ps : neat p ps -> solid (cuts ps).
Proof.
  unfold solid. induction ps as [|[w []] ps IH]; intros HN; [constructor| |]; constructor.
  - now left.
  - apply IH. apply HN.
  - right. apply HN.
  - apply IH. apply HN.
Qed.

Lemma replacement_group_neat ord p ps :
  ord_ok ord -> neat p ps ->
  gen_replacement_group ord (text_of ps) (tokens_of ps) = Ok (grp 0 (cuts ps)).
Proof.
  intros HO HN. pose proof (repl_loop_neat p ps [] [] [] HN eq_refl (or_introl eq_refl)) as E.
  cbn [app length Nat.add] in E. unfold gen_replacement_group.
  destruct (gen_repl_loop (text_of ps) (tokens_of ps) 0 []) as [[sh acc]|]; [|discriminate].
  cbn [bind] in *. unfold fin in E. injection E as E. rewrite E.
  apply rdone_grp; [exact HO|]. now apply neat_solid with (p := p).
Qed.

(** ** Labels *)

Lemma token_label_mode l : l <> [] -> u32_labels l -> token_label l = mode l.
Proof.
  intros HN HU. unfold token_label. destruct l as [|x l]; [congruence|].
  apply (first_mode_unique _ _ (x :: l)); [now apply count_most_common_spec|now apply mode_first_mode].
Qed.

Lemma u32_firstn n l : u32_labels l -> u32_labels (firstn n l).
Proof.
  unfold u32_labels. rewrite !Forall_forall. intros H x HI. apply H.
  rewrite <- (firstn_skipn n l). apply in_or_app. now left.
Qed.
Lemma u32_skipn n l : u32_labels l -> u32_labels (skipn n l).
Proof.
  unfold u32_labels. rewrite !Forall_forall. intros H x HI. apply H.
  rewrite <- (firstn_skipn n l). apply in_or_app. now right.
Qed.

Lemma fits_u32 l : forallb fits l = true <-> u32_labels l.
Proof.
  unfold u32_labels. rewrite forallb_forall, Forall_forall. unfold fits.
  split; intros H x HI; specialize (H x HI); change (2 ^ 32)%Z with 4294967296%Z in *; lia.
Qed.

Lemma token_label_fits l :
  l <> [] -> token_label l = if forallb fits l then mode l else 0%Z.
Proof.
  intros HN. destruct (forallb fits l) eqn:EF.
  - apply token_label_mode; [exact HN|now apply fits_u32].
  - apply token_label_overflow. rewrite <- fits_u32. congruence.
Qed.

Lemma token_labels32_ok ps : forall labels, u32_labels labels -> token_labels32 ps labels = token_labels ps labels.
Proof.
  induction ps as [|[w []] ps IH]; intros labels HU; [reflexivity| |]; cbn [token_labels32 token_labels].
  - rewrite IH by now apply u32_skipn.
    assert (F : forallb fits (firstn (length w) labels) = true) by (apply fits_u32; now apply u32_firstn).
    now rewrite F.
  - apply IH. now apply u32_skipn.
Qed.

Lemma reduce_cuts p ps : forall labels pre,
  neat p ps -> length labels = length (text_of ps) ->
  map (fun sp => token_label (slice (pre ++ relabel by_zero (cuts ps) labels) (fst sp) (snd sp)))
      (offsets (length pre) (tokens_of ps)) = token_labels32 ps labels.
Proof.
  induction ps as [|[w []] ps IH]; intros labels pre HN HL; [reflexivity| |];
    rewrite text_of_cons, app_length in HL; cbn [neat] in HN.
  - destruct HN as ((c & t & EW & _) & HN).
    change (tokens_of ((w, true) :: ps)) with (w :: tokens_of ps).
    cbn [offsets map token_labels32 fst snd].
    set (here := firstn (length w) labels).
    assert (EH : length here = length w) by (unfold here; rewrite firstn_length; lia).
    assert (ER : relabel by_zero (cuts ((w, true) :: ps)) labels
                 = here ++ relabel by_zero (cuts ps) (skipn (length w) labels)) by reflexivity.
    rewrite ER. f_equal.
    + assert (ES : slice (pre ++ here ++ relabel by_zero (cuts ps) (skipn (length w) labels))
                     (length pre) (length pre + length w) = here).
      { unfold slice. rewrite skipn_app_exact.
        replace (length pre + length w - length pre) with (length here) by lia. apply firstn_app_exact. }
      rewrite ES. apply token_label_fits.
      intros Q. rewrite Q, EW in EH. discriminate.
    + specialize (IH (skipn (length w) labels) (pre ++ here) HN).
      rewrite app_length, EH, <- app_assoc in IH. apply IH. rewrite skipn_length. lia.
  - destruct HN as (_ & _ & _ & HN).
    change (tokens_of ((w, false) :: ps)) with (tokens_of ps). cbn [token_labels32].
    assert (ER : relabel by_zero (cuts ((w, false) :: ps)) labels
                 = relabel by_zero (cuts ps) (skipn (length w) labels)) by reflexivity.
    rewrite ER. apply IH; [exact HN|rewrite skipn_length; lia].
Qed.

Lemma expand_cuts ps : forall labels lo,
  length labels = length (tokens_of ps) ->
  relabel by_zero (swap (cuts ps)) (spread labels (offsets lo (tokens_of ps))) = char_labels ps labels.
Proof.
  induction ps as [|[w []] ps IH]; intros labels lo HL.
  - reflexivity.
  - change (tokens_of ((w, true) :: ps)) with (w :: tokens_of ps) in *.
    destruct labels as [|x labels]; [discriminate|]. cbn [length] in HL.
    cbn [offsets spread char_labels hd tl].
    replace (lo + length w - lo) with (length w) by lia.
    change (swap (cuts ((w, true) :: ps))) with (@cons (seg Z) (w, None) (swap (cuts ps))).
    cbn [relabel old_of fst snd].
    assert (LR : length (repeat x (length w)) = length w) by apply repeat_length.
    rewrite (firstn_app_len _ _ _ LR), (skipn_app_len _ _ _ LR).
    f_equal. apply IH. lia.
  - change (tokens_of ((w, false) :: ps)) with (tokens_of ps) in *.
    change (swap (cuts ((w, false) :: ps))) with (@cons (seg Z) ([], Some w) (swap (cuts ps))).
    cbn [relabel old_of fst snd length firstn skipn char_labels]. f_equal. now apply IH.
Qed.

Lemma token_labels32_length ps : forall l, length (token_labels32 ps l) = length (tokens_of ps).
Proof.
  induction ps as [|[w []] ps IH]; intros l; [reflexivity| |]; cbn [token_labels32].
  - change (tokens_of ((w, true) :: ps)) with (w :: tokens_of ps). cbn [length]. now rewrite IH.
  - apply IH.
Qed.

Lemma token_labels_length ps : forall l, length (token_labels ps l) = length (tokens_of ps).
Proof.
  induction ps as [|[w []] ps IH]; intros l; [reflexivity| |]; cbn [token_labels].
  - change (tokens_of ((w, true) :: ps)) with (w :: tokens_of ps). cbn [length]. now rewrite IH.
  - apply IH.
Qed.

Lemma char_labels_length ps : forall l, length (char_labels ps l) = length (text_of ps).
Proof.
  induction ps as [|[w []] ps IH]; intros l; [reflexivity| |]; cbn [char_labels];
    rewrite text_of_cons, !app_length, repeat_length, IH; reflexivity.
Qed.

(** ** The operators *)

Definition tok_rules (fwd bwd : transducer) (ps : list (str * bool)) : Prop :=
  rule_ok fwd by_zero (cuts ps) /\ rule_ok bwd by_zero (swap (cuts ps)).

Lemma rules_except ps : tok_rules except_ne except_ne ps.
Proof.
  split; intros o v ls HI HL.
  - unfold cuts in HI. apply in_map_iff in HI. destruct HI as ([w []] & Q & _); inversion Q; subst.
    cbn. unfold except_ne. rewrite except_by_entity_mode. split; reflexivity.
  - unfold swap, cuts in HI. rewrite map_map in HI. apply in_map_iff in HI.
    destruct HI as ([w []] & Q & _); inversion Q; subst.
    destruct ls; [|discriminate]. unfold except_ne. rewrite except_by_entity_mode.
    split; [reflexivity|apply repeat_length].
Qed.

Lemma rules_none ps : Forall (fun p => snd p = true) ps -> tok_rules return_none return_none ps.
Proof.
  intros H. rewrite Forall_forall in H. split; intros o v ls HI HL.
  - unfold cuts in HI. apply in_map_iff in HI. destruct HI as ([w b] & Q & HI).
    apply H in HI. cbn in HI. subst b. discriminate.
  - unfold swap, cuts in HI. rewrite map_map in HI. apply in_map_iff in HI.
    destruct HI as ([w b] & Q & HI). apply H in HI. cbn in HI. subst b. discriminate.
Qed.

Lemma tok_tokenizes E o p ps toks fwd bwd :
  ord_ok (ord_c E) -> neat p ps -> tok_rules fwd bwd ps -> toks = Ok (tokens_of ps) ->
  transform_op E o (SStr (text_of ps)) =
    (r <- tok_result E (text_of ps) toks fwd bwd ;;
     _ <- guard (seqtype_eqb (type_of (fst r)) TList) TypeErr ;; Ok r) ->
  tokenizes E o (text_of ps) ps.
Proof.
  intros HO HN (HF & HB) -> HT. unfold tok_result in HT. cbn [bind] in HT.
  rewrite (replacement_group_neat _ p) in HT by assumption. cbn [bind] in HT.
  pose proof (apply_grp (cuts ps)) as EA. rewrite cuts_olds, cuts_news in EA.
  rewrite EA, gen_span_group_ok in HT by reflexivity.
  cbn [bind fst type_of seqtype_eqb guard] in HT.
  assert (NT : no_touching_deletions (grp 0 (cuts ps))).
  { destruct (gen_replacement_group_ok (ord_c E) _ _ _ HO (replacement_group_neat _ _ _ HO HN)) as (G & _).
    eapply gap_chain_no_touching; exact G. }
  pose proof (offsets_tiles 0 (tokens_of ps)) as TL. cbn [Nat.add] in TL.
  pose proof (inverse_grp (ord_c E) (cuts ps) HO NT) as EI. rewrite cuts_olds in EI.
  split; [reflexivity|]. eexists. split; [exact HT|].
  match goal with |- aligns E ?a _ _ _ _ _ /\ _ => set (al := a) end.
  assert (RAW : forall l, length l = length (text_of ps) -> align_raw al l = Ok (token_labels32 ps l)).
  { intros l HL. cbn [align_raw al]. rewrite (propagate_grp _ _ _ _ HF) by now rewrite cuts_olds.
    cbn [bind]. rewrite (reduce_spec _ _ _ TL).
    - f_equal. exact (reduce_cuts p ps l [] HN HL).
    - rewrite <- cuts_news. apply (relabel_length by_zero fwd); [exact HF|]. now rewrite cuts_olds. }
  split; [|split].
  - apply aligns_intro; auto.
    + intros l HL HU. rewrite RAW by exact HL. now rewrite token_labels32_ok.
    + intros l _ _. apply token_labels_length.
    + intros l HL HU. cbn [align_inverse_raw al]. rewrite EI. cbn [bind].
      rewrite (expand_spec _ _ _ TL); [|now rewrite offsets_length|exact HU]. cbn [bind].
      rewrite (propagate_grp _ _ _ _ HB).
      * f_equal. now apply expand_cuts.
      * rewrite (spread_length _ _ _ _ TL) by now rewrite offsets_length.
        rewrite swap_olds, cuts_news. lia.
    + intros l _ _. apply char_labels_length.
  - intros l HL. unfold align. cbn [input_length al]. fold al. rewrite HL, Nat.eqb_refl. cbn [guard bind].
    rewrite RAW by exact HL. cbn [bind output_length al]. rewrite token_labels32_length, Nat.eqb_refl.
    reflexivity.
  - intros l HL HU. unfold align_inverse, al.
    cbn [output_length input_length align_inverse_raw]. rewrite HL, Nat.eqb_refl. cbn [guard bind].
    rewrite EI. cbn [bind]. rewrite expand_overflow; [reflexivity|now rewrite offsets_length|exact HU].
Qed.

(** ** Cutting by kinds *)

Fixpoint cut_by (k : Z -> kind) (s : str) : list (str * kind) :=
  match s with
  | [] => []
  | c :: s =>
      match cut_by k s with
      | (w, d) :: rest => if same_run (k c) d then (c :: w, d) :: rest else ([c], k c) :: (w, d) :: rest
      | [] => [([c], k c)]
      end
  end.

Lemma cut_by_eq k c s :
  cut_by k (c :: s) =
  match cut_by k s with
  | (w, d) :: rest => if same_run (k c) d then (c :: w, d) :: rest else ([c], k c) :: (w, d) :: rest
  | [] => [([c], k c)]
  end.
Proof. reflexivity. Qed.

Lemma same_run_spec a b : same_run a b = true -> a = b /\ a <> Single.
Proof. destruct a, b; cbn; intros; split; congruence. Qed.

Lemma cut_by_hd k c s : exists w rest, cut_by k (c :: s) = (c :: w, k c) :: rest.
Proof.
  cbn [cut_by]. destruct (cut_by k s) as [|[w d] rest]; [eauto|].
  destruct (same_run (k c) d) eqn:Q; [|eauto].
  apply same_run_spec in Q. destruct Q as (-> & _). eauto.
Qed.

Lemma cut_by_cut k s : cut k s (cut_by k s).
Proof.
  induction s as [|c s (T & F & S)]; [repeat split; constructor|].
  cbn [cut_by]. destruct (cut_by k s) as [|[w d] rest] eqn:EC.
  - cbn in T. subst s. split; [reflexivity|]. split; [|exact I]. constructor; [|constructor].
    split; [discriminate|]. split; [|reflexivity]. intros x [<-|[]]. reflexivity.
  - inversion F as [|? ? (F1 & F2 & F3) FR]; subst. cbn [fst snd] in *.
    destruct (same_run (k c) d) eqn:Q.
    + split; [reflexivity|]. split.
      * constructor; [|exact FR]. apply same_run_spec in Q. destruct Q as (Q & Q2).
        split; [discriminate|]. cbn [fst snd]. split; [|congruence].
        intros x [<-|HX]; [exact Q|now apply F2].
      * destruct rest as [|y rest]; [exact I|]. destruct S as (S1 & S2). split; assumption.
    + split; [reflexivity|]. split.
      * constructor; [|exact F]. split; [discriminate|]. cbn [fst snd].
        split; [|reflexivity]. intros x [<-|[]]. reflexivity.
      * split; [exact Q|exact S].
Qed.

Lemma cut_cons_inv k c s ps :
  cut k (c :: s) ps ->
  exists w rest, ps = (c :: w, k c) :: rest /\
    match w with
    | [] => cut k s rest /\ match rest with (_, d) :: _ => same_run (k c) d = false | [] => True end
    | _ => k c <> Single /\ cut k s ((w, k c) :: rest)
    end.
Proof.
  intros (T & F & S). destruct ps as [|[w d] rest]; [discriminate|].
  inversion F as [|? ? (F1 & F2 & F3) FR]; subst. cbn [fst snd] in *.
  destruct w as [|x w]; [congruence|]. cbn [map concat fst app] in T. injection T as -> T.
  pose proof (F2 c (or_introl eq_refl)) as EK. exists w, rest. rewrite EK. split; [reflexivity|].
  destruct w as [|y w].
  - cbn in T. split; [|destruct rest as [|[w' d'] rest]; [exact I|exact (proj1 S)]].
    split; [exact T|]. split; [exact FR|]. destruct rest; [exact I|exact (proj2 S)].
  - split.
    + intros Q. specialize (F3 Q). discriminate.
    + split; [exact T|]. split; [|exact S].
      constructor; [|exact FR]. split; [discriminate|]. cbn [fst snd].
      split; [intros z HZ; apply F2; now right|]. intros Q. specialize (F3 Q). discriminate.
Qed.

Lemma cut_unique k s : forall ps, cut k s ps -> ps = cut_by k s.
Proof.
  induction s as [|c s IH]; intros ps H.
  - destruct H as (T & F & _). destruct ps as [|[w d] ps]; [reflexivity|].
    inversion F as [|? ? (F1 & _) _]; subst. cbn in F1, T. destruct w; [congruence|discriminate].
  - apply cut_cons_inv in H. destruct H as (w & rest & -> & H). cbn [cut_by].
    destruct w as [|y w].
    + destruct H as (HC & HR). rewrite <- (IH _ HC).
      destruct rest as [|[w' d'] rest]; [reflexivity|]. now rewrite HR.
    + destruct H as (HK & HC). rewrite <- (IH _ HC).
      destruct (k c) eqn:EK; cbn [same_run]; [reflexivity|congruence|reflexivity].
Qed.

Lemma kept_text ps : text_of (kept ps) = concat (map fst ps).
Proof. unfold text_of, kept. rewrite map_map. reflexivity. Qed.

Lemma kept_neat k p ps :
  (forall c, p c = match k c with Gap => true | _ => false end) ->
  Forall (of_kind k) ps -> separate ps -> neat p (kept ps).
Proof.
  intros HP. induction ps as [|[w d] ps IH]; intros F S; [exact I|].
  inversion F as [|? ? (F1 & F2 & F3) FR]; subst. cbn [fst snd] in *.
  assert (SR : separate ps) by (destruct ps; [exact I|exact (proj2 S)]).
  specialize (IH FR SR).
  destruct d; cbn [kept map fst snd neat].
  - split; [exact F1|]. split; [|split; [|exact IH]].
    + apply forallb_forall. intros c HC. now rewrite HP, (F2 c HC).
    + destruct ps as [|[w' []] ps]; try reflexivity. destruct S as (S1 & _). discriminate.
  - split; [|exact IH]. destruct w as [|c w]; [congruence|]. exists c, w. split; [reflexivity|].
    rewrite HP, (F2 c); [reflexivity|now left].
  - split; [|exact IH]. destruct w as [|c w]; [congruence|]. exists c, w. split; [reflexivity|].
    rewrite HP, (F2 c); [reflexivity|now left].
Qed.

(** The tokens, by recursion on the text. *)
Definition toks (k : Z -> kind) (s : str) : list str := tokens_of (kept (cut_by k s)).

Definition glue (k : Z -> kind) (w : str) (s : str) : list str :=
  match s, toks k s with
  | c :: _, w' :: ws => match k c with Word => (w ++ w') :: ws | _ => w :: w' :: ws end
  | _, ts => w :: ts
  end.

Lemma toks_gap k c s : k c = Gap -> toks k (c :: s) = toks k s.
Proof.
  intros HK. unfold toks. cbn [cut_by]. destruct (cut_by k s) as [|[w d] rest] eqn:EC; rewrite HK; [reflexivity|].
  destruct d; reflexivity.
Qed.

Lemma toks_single k c s : k c = Single -> toks k (c :: s) = [c] :: toks k s.
Proof.
  intros HK. unfold toks. cbn [cut_by]. destruct (cut_by k s) as [|[w d] rest] eqn:EC; rewrite HK; reflexivity.
Qed.

Lemma toks_word k c s : k c = Word -> toks k (c :: s) = glue k [c] s.
Proof.
  intros HK. unfold glue, toks. rewrite cut_by_eq. destruct s as [|d s].
  - cbn [cut_by]. rewrite HK. reflexivity.
  - destruct (cut_by_hd k d s) as (w & rest & EC). rewrite EC, HK.
    destruct (k d) eqn:ED; cbn [same_run].
    + cbn [kept map fst snd tokens_of filter]. destruct (map fst (filter snd _)); reflexivity.
    + reflexivity.
    + reflexivity.
Qed.

Lemma glue_word k w c s : k c = Word -> glue k w (c :: s) = glue k (w ++ [c]) s.
Proof.
  intros HK. unfold glue at 1. rewrite (toks_word k c s HK), HK. unfold glue.
  destruct s as [|d s]; [cbn; reflexivity|].
  destruct (toks k (d :: s)) as [|w' ws]; [reflexivity|].
  destruct (k d); try reflexivity. now rewrite <- app_assoc.
Qed.

Lemma glue_other k w c s : k c <> Word -> glue k w (c :: s) = w :: toks k (c :: s).
Proof.
  intros HK. unfold glue. destruct (toks k (c :: s)) as [|w' ws]; [reflexivity|].
  destruct (k c); [reflexivity|reflexivity|congruence].
Qed.

Lemma glue_nil k w : glue k w [] = [w].
Proof. reflexivity. Qed.

Lemma toks_ext k k' s : (forall c, In c s -> k c = k' c) -> toks k s = toks k' s.
Proof.
  intros H. unfold toks. do 2 f_equal. induction s as [|c s IH]; [reflexivity|].
  cbn [cut_by]. rewrite IH by (intros x HX; apply H; now right).
  rewrite (H c) by now left. reflexivity.
Qed.

(** ** The tokens of the code *)

Lemma split_from_glue E s : forall cur,
  py_split_from E s cur = match cur with [] => toks (by_space E) s | _ => glue (by_space E) cur s end.
Proof.
  induction s as [|c s IH]; intros cur.
  - destruct cur; reflexivity.
  - cbn [py_split_from]. destruct (is_space E c) eqn:EC.
    + assert (HK : by_space E c = Gap) by (unfold by_space; now rewrite EC).
      destruct cur as [|x cur].
      * rewrite IH. symmetry. now apply toks_gap.
      * rewrite IH. rewrite glue_other, toks_gap by congruence. reflexivity.
    + assert (HK : by_space E c = Word) by (unfold by_space; now rewrite EC).
      rewrite IH. destruct cur as [|x cur].
      * cbn [app]. symmetry. now apply toks_word.
      * cbn [app]. rewrite glue_word by exact HK. reflexivity.
Qed.

Lemma py_split_toks E s : py_split E s = toks (by_space E) s.
Proof. unfold py_split. now rewrite split_from_glue. Qed.

Definition in_word (E : env) (c : Z) : kind := if punctuation E c then Single else Word.

Lemma append_last_app (out : list str) w c : append_last (out ++ [w]) c = out ++ [w ++ [c]].
Proof.
  induction out as [|x out IH]; [reflexivity|]. cbn [app append_last].
  destruct (out ++ [w]) as [|y l] eqn:EO; [destruct out; discriminate|].
  now rewrite IH.
Qed.

Lemma split_on_punc_toks E s :
  (forall out, split_on_punc E s true out = out ++ toks (in_word E) s) /\
  (forall out w, split_on_punc E s false (out ++ [w]) = out ++ glue (in_word E) w s).
Proof.
  induction s as [|c s (IH1 & IH2)].
  - split; intros; cbn; now rewrite ?app_nil_r.
  - split; [intros out|intros out w]; cbn [split_on_punc]; rewrite is_punctuation_ok;
      destruct (punctuation E c) eqn:EP.
    + assert (HK : in_word E c = Single) by (unfold in_word; now rewrite EP).
      rewrite IH1, toks_single, <- app_assoc by exact HK. reflexivity.
    + assert (HK : in_word E c = Word) by (unfold in_word; now rewrite EP).
      rewrite append_last_app, IH2, toks_word by exact HK. reflexivity.
    + assert (HK : in_word E c = Single) by (unfold in_word; now rewrite EP).
      rewrite IH1, glue_other, toks_single, <- !app_assoc by congruence. reflexivity.
    + assert (HK : in_word E c = Word) by (unfold in_word; now rewrite EP).
      rewrite append_last_app, IH2, glue_word by exact HK. reflexivity.
Qed.

Definition starts_gap (k : Z -> kind) (s : str) : Prop :=
  match s with [] => True | c :: _ => k c = Gap end.

Lemma toks_nonnil k c s : k c <> Gap -> toks k (c :: s) <> [].
Proof.
  intros HK. destruct (k c) eqn:EK; [congruence| |].
  - rewrite toks_single by exact EK. discriminate.
  - rewrite toks_word by exact EK. unfold glue. destruct s as [|d s]; [discriminate|].
    destruct (toks k (d :: s)); [discriminate|]. destruct (k d); discriminate.
Qed.

Lemma toks_app k w rest : starts_gap k rest -> toks k (w ++ rest) = toks k w ++ toks k rest.
Proof.
  intros HR. induction w as [|c w IH]; [reflexivity|]. cbn [app].
  destruct (k c) eqn:EK.
  - now rewrite !toks_gap by exact EK.
  - rewrite !toks_single by exact EK. cbn [app]. now rewrite IH.
  - rewrite !toks_word by exact EK. destruct w as [|d w].
    + cbn [app glue]. destruct rest as [|r rest]; [reflexivity|].
      rewrite glue_other by (cbn in HR; congruence). reflexivity.
    + unfold glue. cbn [app]. cbn [app] in IH. rewrite IH.
      destruct (toks k (d :: w)) as [|w' ws] eqn:ET.
      * assert (HD : k d = Gap).
        { destruct (k d) eqn:ED; [reflexivity| |]; exfalso; apply (toks_nonnil k d w); congruence. }
        cbn [app]. destruct (toks k rest); [reflexivity|]. now rewrite HD.
      * cbn [app]. destruct (k d); reflexivity.
Qed.

Lemma toks_one_word k w : w <> [] -> (forall c, In c w -> k c = Word) -> toks k w = [w].
Proof.
  induction w as [|c w IH]; intros HN HW; [congruence|].
  rewrite toks_word by (apply HW; now left). destruct w as [|d w]; [reflexivity|].
  unfold glue. rewrite IH; [|discriminate|intros x HX; apply HW; now right].
  rewrite (HW d) by (right; now left). reflexivity.
Qed.

Lemma first_word k s :
  exists w rest, s = w ++ rest /\ (forall c, In c w -> k c <> Gap) /\ starts_gap k rest.
Proof.
  induction s as [|c s (w & rest & -> & HW & HR)].
  - exists [], []. split; [reflexivity|]. split; [intros c []|exact I].
  - destruct (k c) eqn:EK.
    + exists [], (c :: w ++ rest). split; [reflexivity|]. split; [intros x []|exact EK].
    + exists (c :: w), rest. split; [reflexivity|]. split; [|exact HR].
      intros x [<-|HX]; [congruence|now apply HW].
    + exists (c :: w), rest. split; [reflexivity|]. split; [|exact HR].
      intros x [<-|HX]; [congruence|now apply HW].
Qed.

(** Words first, then the pieces of every word. *)
Lemma toks_refine k1 k2 f :
  (forall c, k1 c = Gap <-> k2 c = Gap) -> (forall c, k1 c <> Single) ->
  (forall w, (forall c, In c w -> k2 c <> Gap) -> f w = toks k2 w) ->
  forall s, flat_map f (toks k1 s) = toks k2 s.
Proof.
  intros HG H1 HF s. remember (length s) as n eqn:EN. revert s EN.
  induction n as [n IH] using lt_wf_ind. intros s ->.
  destruct (first_word k2 s) as (w & rest & ES & HW & HR).
  assert (HR1 : starts_gap k1 rest) by (destruct rest; [exact I|now apply HG]).
  rewrite ES, !toks_app by assumption. rewrite flat_map_app.
  assert (EW : flat_map f (toks k1 w) = toks k2 w).
  { destruct w as [|c w]; [reflexivity|].
    rewrite toks_one_word; [cbn [flat_map]; rewrite app_nil_r; now apply HF|discriminate|].
    intros x HX. destruct (k1 x) eqn:EX; [|exfalso; now apply (H1 x)|reflexivity].
    exfalso. apply (HW x HX). now apply HG. }
  rewrite EW. f_equal.
  destruct rest as [|r rest]; [reflexivity|]. cbn in HR, HR1.
  rewrite !toks_gap by assumption. apply (IH (length rest)); [|reflexivity].
  rewrite ES, app_length. cbn. lia.
Qed.

Lemma split_words E s :
  flat_map (fun t => split_on_punc E t true []) (py_split E s) = toks (by_punct E) s.
Proof.
  rewrite py_split_toks. apply toks_refine.
  - intros c. unfold by_space, by_punct. destruct (is_space E c), (punctuation E c); intuition congruence.
  - intros c. unfold by_space. destruct (is_space E c); congruence.
  - intros w HW. destruct (split_on_punc_toks E w) as (H & _). rewrite H. cbn [app].
    apply toks_ext. intros c HC. specialize (HW c HC). unfold by_punct, in_word in *.
    destruct (is_space E c); [congruence|reflexivity].
Qed.

(** Every token is made of characters that are not separators. *)
Lemma toks_chars k s t c : In t (toks k s) -> In c t -> k c <> Gap /\ In c s.
Proof.
  unfold toks. destruct (cut_by_cut k s) as (T & F & _).
  unfold tokens_of, kept. intros HT HC. apply in_map_iff in HT.
  destruct HT as ([w b] & EW & HT). cbn in EW. subst w. apply filter_In in HT.
  destruct HT as (HT & Hb). cbn in Hb. subst b. apply in_map_iff in HT.
  destruct HT as ([w d] & EW & HT). cbn in EW. injection EW as -> ED.
  rewrite Forall_forall in F. destruct (F _ HT) as (_ & F2 & _). cbn in F2.
  split.
  - rewrite (F2 c HC). destruct d; congruence.
  - rewrite <- T. apply in_concat. exists t. split; [|exact HC].
    apply in_map_iff. now exists (t, d).
Qed.

Lemma toks_nonempty k s t : In t (toks k s) -> t <> [].
Proof.
  unfold toks. destruct (cut_by_cut k s) as (_ & F & _).
  unfold tokens_of, kept. intros HT. apply in_map_iff in HT.
  destruct HT as ([w b] & EW & HT). cbn in EW. subst w. apply filter_In in HT.
  destruct HT as (HT & _). apply in_map_iff in HT.
  destruct HT as ([w d] & EW & HT). cbn in EW. injection EW as -> ED.
  rewrite Forall_forall in F. destruct (F _ HT) as (F1 & _). exact F1.
Qed.

Lemma split_join E ts :
  is_space E SPACE = true ->
  (forall t, In t ts -> t <> [] /\ forall c, In c t -> is_space E c = false) ->
  py_split E (join_space ts) = ts.
Proof.
  intros HS H. rewrite py_split_toks. induction ts as [|t ts IH]; [reflexivity|].
  assert (ET : toks (by_space E) t = [t]).
  { destruct (H t (or_introl eq_refl)) as (HN & HC). apply toks_one_word; [exact HN|].
    intros c HI. unfold by_space. now rewrite HC. }
  destruct ts as [|u ts].
  - cbn [join_space]. exact ET.
  - change (join_space (t :: u :: ts)) with (t ++ SPACE :: join_space (u :: ts)).
    assert (HK : by_space E SPACE = Gap) by (unfold by_space; now rewrite HS).
    rewrite toks_app by exact HK. rewrite ET, toks_gap by exact HK. cbn [app]. f_equal.
    apply IH. intros x HX. apply H. now right.
Qed.

Lemma eng_toks E s : is_space E SPACE = true -> eng_tokenize E s = toks (by_punct E) s.
Proof.
  intros HS. unfold eng_tokenize. rewrite split_words. apply split_join; [exact HS|].
  intros t HT. split; [now apply toks_nonempty in HT|]. intros c HC.
  destruct (toks_chars _ _ _ _ HT HC) as (HK & _). unfold by_punct in HK.
  destruct (is_space E c); [congruence|reflexivity].
Qed.

Lemma zh_toks E s : is_space E SPACE = true -> zh_tokenize E s = toks (by_punct_cjk E) s.
Proof.
  intros HS. unfold zh_tokenize. rewrite eng_toks by exact HS.
  assert (KS : by_punct E SPACE = Gap) by (unfold by_punct; now rewrite HS).
  induction s as [|c s IH]; [reflexivity|].
  change (space_cjk (c :: s)) with ((if is_cjk c then [SPACE; c; SPACE] else [c]) ++ space_cjk s).
  rewrite is_cjk_ok. destruct (cjk c) eqn:EC.
  - cbn [app]. rewrite toks_gap by exact KS. destruct (is_space E c) eqn:ES.
    + rewrite !toks_gap; [exact IH| | |]; unfold by_punct, by_punct_cjk; now rewrite ?ES, ?HS.
    + rewrite (toks_single (by_punct_cjk E)).
      2:{ unfold by_punct_cjk. rewrite ES, EC, orb_true_r. reflexivity. }
      change (c :: SPACE :: space_cjk s) with ([c] ++ SPACE :: space_cjk s).
      rewrite toks_app by exact KS. rewrite (toks_gap _ SPACE) by exact KS. rewrite IH.
      f_equal. destruct (by_punct E c) eqn:EB.
      * unfold by_punct in EB. rewrite ES in EB. destruct (punctuation E c); discriminate.
      * now rewrite toks_single.
      * now rewrite toks_word.
  - cbn [app].
    assert (EB : by_punct_cjk E c = by_punct E c).
    { unfold by_punct_cjk, by_punct. now rewrite EC, orb_false_r. }
    destruct (by_punct E c) eqn:EK.
    + now rewrite !toks_gap by congruence.
    + rewrite !toks_single by congruence. now rewrite IH.
    + rewrite !toks_word by congruence. destruct s as [|d s]; [reflexivity|].
      change (space_cjk (d :: s)) with ((if is_cjk d then [SPACE; d; SPACE] else [d]) ++ space_cjk s) in *.
      rewrite is_cjk_ok in *. destruct (cjk d) eqn:ED.
      * cbn [app] in *. rewrite !glue_other; [now rewrite IH| |congruence].
        unfold by_punct_cjk. rewrite ED, orb_true_r. destruct (is_space E d); discriminate.
      * cbn [app] in *. unfold glue. rewrite IH.
        assert (EDK : by_punct_cjk E d = by_punct E d).
        { unfold by_punct_cjk, by_punct. now rewrite ED, orb_false_r. }
        rewrite EDK. reflexivity.
Qed.

(** ** The five operators *)

Lemma cut_tokenizes E o k s ps :
  ord_ok (ord_c E) -> (forall c, k c = Gap <-> is_space E c = true) -> cut k s ps ->
  transform_op E o (SStr s) =
    (r <- tok_result E s (Ok (toks k s)) except_ne except_ne ;;
     _ <- guard (seqtype_eqb (type_of (fst r)) TList) TypeErr ;; Ok r) ->
  tokenizes E o s (kept ps).
Proof.
  intros HO HK HC HT. pose proof (cut_unique _ _ _ HC) as ->.
  destruct HC as (T & F & S).
  assert (ES : s = text_of (kept (cut_by k s))) by (rewrite kept_text; now symmetry).
  assert (NT : neat (is_space E) (kept (cut_by k s))).
  { apply kept_neat with (k := k); [|exact F|exact S]. intros c. specialize (HK c).
    destruct (k c), (is_space E c); intuition congruence. }
  pose proof (tok_tokenizes E o (is_space E) (kept (cut_by k s)) (Ok (toks k s)) except_ne except_ne
    HO NT (rules_except _) eq_refl) as H.
  rewrite <- ES in H. apply H, HT.
Qed.

Lemma bind_ext {A B} (x : res A) (f g : A -> res B) : (forall a, f a = g a) -> bind x f = bind x g.
Proof. intros H. destruct x; cbn; auto. Qed.

Lemma ws_tokenizes E s ps :
  ord_ok (ord_c E) -> cut (by_space E) s ps ->
  tokenizes E WhiteSpaceTokenizer s (kept ps).
Proof.
  intros HO HC. apply cut_tokenizes with (k := by_space E) ; auto.
  - intros c. unfold by_space. destruct (is_space E c); intuition congruence.
  - rewrite <- py_split_toks. reflexivity.
Qed.

Lemma eng_tokenizes E s ps :
  ord_ok (ord_c E) -> is_space E 32 = true -> cut (by_punct E) s ps ->
  tokenizes E EngTokenizer s (kept ps).
Proof.
  intros HO HS HC. apply cut_tokenizes with (k := by_punct E) ; auto.
  - intros c. unfold by_punct. destruct (is_space E c), (punctuation E c); intuition congruence.
  - rewrite <- eng_toks by exact HS. reflexivity.
Qed.

Lemma zh_tokenizes E s ps :
  ord_ok (ord_c E) -> is_space E 32 = true -> cut (by_punct_cjk E) s ps ->
  tokenizes E ZhCharTokenizer s (kept ps).
Proof.
  intros HO HS HC. apply cut_tokenizes with (k := by_punct_cjk E) ; auto.
  - intros c. unfold by_punct_cjk. destruct (is_space E c), (punctuation E c || cjk c); intuition congruence.
  - rewrite <- zh_toks by exact HS. reflexivity.
Qed.

Lemma all_kept_text ts : text_of (all_kept ts) = concat ts.
Proof. unfold text_of, all_kept. rewrite map_map. cbn. now rewrite map_id. Qed.
Lemma all_kept_tokens ts : tokens_of (all_kept ts) = ts.
Proof. induction ts as [|t ts IH]; [reflexivity|]. unfold tokens_of, all_kept in *. cbn. now rewrite IH. Qed.
Lemma all_kept_neat ts : (forall t, In t ts -> t <> []) -> neat (fun _ => false) (all_kept ts).
Proof.
  induction ts as [|t ts IH]; intros H; [exact I|]. cbn. split.
  - destruct t as [|c t]; [exfalso; apply (H []); [now left|reflexivity]|]. exists c, t. auto.
  - apply IH. intros x HX. apply H. now right.
Qed.

Lemma char_tokenizes E s :
  ord_ok (ord_c E) ->
  tokenizes E CharTokenizer s (map (fun c => ([c], true)) s).
Proof.
  intros HO. set (ts := map (fun c : Z => [c]) s).
  assert (EP : map (fun c => ([c], true)) s = all_kept ts) by (unfold all_kept, ts; now rewrite map_map).
  rewrite EP.
  assert (ES : text_of (all_kept ts) = s).
  { rewrite all_kept_text. unfold ts. clear. induction s as [|c s IH]; [reflexivity|].
    cbn. now rewrite IH. }
  assert (NT : neat (fun _ => false) (all_kept ts)).
  { apply all_kept_neat. unfold ts. intros t HT. apply in_map_iff in HT. destruct HT as (c & <- & _). discriminate. }
  pose proof (tok_tokenizes E CharTokenizer (fun _ => false) (all_kept ts) (Ok ts) return_none return_none
    HO NT) as H. rewrite ES in H.
  apply H.
  - apply rules_none. unfold all_kept. rewrite Forall_forall. intros x HX. apply in_map_iff in HX.
    now destruct HX as (y & <- & _).
  - now rewrite all_kept_tokens.
  - reflexivity.
Qed.

Lemma make_trie_spec user_words :
  match user_words with
  | None | Some [] => make_trie user_words = Err ValueErr
  | Some ws => (fresh_words ws /\ exists t, make_trie user_words = Ok t /\ holds t ws) \/
               (~ fresh_words ws /\ make_trie user_words = Err AttributeErr)
  end.
Proof.
  destruct user_words as [[|w ws]|]; try reflexivity.
  apply (insert_all_cases (w :: ws) trie_empty [] holds_empty). constructor.
Qed.

Lemma custom_tokenizes E ws sh o s ps :
  ord_ok (ord_c E) -> make_custom (Some ws) sh = Ok o -> munched sh ws s ps ->
  tokenizes E o s (all_kept (map fst ps)).
Proof.
  intros HO HM HP. unfold make_custom in HM.
  pose proof (make_trie_spec (Some ws)) as HT. destruct ws as [|w0 ws0]; [rewrite HT in HM; discriminate|].
  set (ws := w0 :: ws0) in *.
  destruct HT as [(_ & t & ET & HH)|(_ & ET)]; rewrite ET in HM; [|discriminate].
  cbn [bind] in HM. injection HM as <-.
  destruct (custom_tokenize_munched t ws sh s (length s) 0 HH ltac:(lia) ltac:(lia)) as (ps' & HP' & EC).
  cbn [skipn] in HP'. rewrite (munched_unique _ _ _ _ _ HP' HP) in EC. clear ps' HP'.
  pose proof (munched_concat _ _ _ _ HP) as ECC.
  assert (ES : text_of (all_kept (map fst ps)) = s) by now rewrite all_kept_text.
  assert (NT : neat (fun _ => false) (all_kept (map fst ps))).
  { apply all_kept_neat. intros x HX. apply in_map_iff in HX. destruct HX as (p & <- & HX).
    pose proof (munched_nonempty _ _ _ _ HP) as F. rewrite Forall_forall in F. now apply F. }
  pose proof (tok_tokenizes E (CustomWordTokenizer t sh) (fun _ => false) (all_kept (map fst ps))
    (custom_tokenize (length s) t sh s 0) except_ne except_ne HO NT (rules_except _)) as H.
  rewrite ES in H. apply H; [now rewrite all_kept_tokens|reflexivity].
Qed.
