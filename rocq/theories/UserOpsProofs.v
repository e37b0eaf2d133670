(** Proofs about subclasses of the library's base classes. *)

From Verif Require Import Py PyFacts Edit Labels SpecEdit SpecLabels SpecSeg SpecRuns SpecWords SpecScan
  SpecOps EditProofs SpanProofs LabelProofs EditApiProofs SegProofs TouchProofs Regex Trie Ops ScanProofs OpProofs StrOpProofs TokProofs
  Elements Pipe UserPipe SpecUserPipe UserPipeProofs UserOps SpecUserOps.
From Coq Require Import Lia.

Lemma ualigns_intro a (ok : list Z -> Prop) n m F G :
  ua_in a = n -> ua_out a = m ->
  (forall l, length l = n -> ok l -> ua_fwd a l = Ok (F l)) ->
  (forall l, length l = n -> ok l -> length (F l) = m) ->
  (forall l, length l = m -> ok l -> ua_bwd a l = Ok (G l)) ->
  (forall l, length l = m -> ok l -> length (G l) = n) ->
  ualigns a ok n m F G.
Proof.
  intros HI HO H1 H2 H3 H4. split; [|split; [|split]]; intros l HL.
  - intros HK. split; [|auto]. apply ualign_ok. rewrite HI, HO. auto.
  - unfold ualign. rewrite HI. apply Nat.eqb_neq in HL. now rewrite HL.
  - intros HK. split; [|auto]. rewrite ualign_swap. apply ualign_ok. cbn. rewrite HI, HO. auto.
  - unfold ualign_inverse. rewrite HO. apply Nat.eqb_neq in HL. now rewrite HL.
Qed.

(** ** Text to text *)

Lemma str_gives E o (sg : list (seg Z)) group fwd bwd h k :
  u_in o = TStr -> u_out o = TStr ->
  u_run o (SStr (olds sg)) = ('(y, a) <- str_result (olds sg) group fwd bwd ;; Ok (y, seen E a)) ->
  group = Ok (grp 0 sg) -> ord_ok (ord_c E) ->
  rule_ok fwd h sg -> no_touching_deletions (grp 0 sg) \/ (~ deleted_twice sg /\ zero_on_empty bwd) -> rule_ok bwd k (SpecSeg.swap sg) ->
  exists a, gives o (olds sg) (SStr (news sg)) a /\
    ualigns a any_labels (length (olds sg)) (length (news sg)) (relabel h sg) (relabel k (SpecSeg.swap sg)).
Proof.
  intros HI HU HT HG HO HF HN HB. unfold str_result in HT. rewrite HG in HT. cbn [bind] in HT. rewrite apply_grp in HT.
  eexists. split.
  - unfold gives. apply utransform_ok. rewrite HI, HU. split; [reflexivity|]. split; [exact HT|reflexivity].
  - apply ualigns_intro; cbn [seen ua_in ua_out ua_fwd ua_bwd input_length output_length align_raw align_inverse_raw]; auto.
    + intros l HL _. now apply propagate_grp.
    + intros l HL _. now apply (relabel_length h fwd).
    + intros l HL _. destruct HN as [HN|(H1 & H2)]; [now apply inverse_propagate_grp|now apply inverse_propagate_once].
    + intros l HL _. rewrite <- (swap_news sg). apply (relabel_length k bwd); [exact HB|]. now rewrite swap_olds.
Qed.

Theorem recognizer_gives E find token fwd bwd h k s sg :
  ord_ok (ord_c E) -> in_bounds find -> follows fwd h sg -> follows bwd k (SpecSeg.swap sg) ->
  replaced find (fun _ => token) s 0 sg -> 
  token <> [] \/ ~ touching sg \/ (~ deleted_twice sg /\ forall n, bwd [] n = Ok (repeat 0%Z n)) ->
  olds sg = s /\
  exists a, gives (recognizer E find token fwd bwd) s (SStr (news sg)) a /\
    ualigns a any_labels (length s) (length (news sg)) (relabel h sg) (relabel k (SpecSeg.swap sg)).
Proof.
  intros HO HB RF RB HR HT.
  assert (ES : olds sg = s) by exact (replaced_ge find (fun _ => token) HB s 0 sg ltac:(lia) HR).
  split; [exact ES|]. pose proof (scan_group_replaced E find _ s sg HO HB HR) as HG. rewrite <- ES.
  apply (str_gives E _ sg (scan_group E find (fun _ => token) (olds sg)) fwd bwd); auto.
  - now rewrite ES.
  - destruct HT as [HT|[HT|HT]]; [left|left|now right].
    + apply grp_no_touching. intros o HI. apply HT. symmetry. exact (replaced_news _ _ _ _ _ _ _ HR HI).
    + apply (replaced_no_touching find (fun _ => token) HB s); [lia|exact HR|exact HT].
Qed.

(** If a text is deleted twice the labels cannot be taken back, whatever the transducers are. *)
Theorem recognizer_lost E find token fwd bwd s sg :
  ord_ok (ord_c E) -> in_bounds find -> replaced find (fun _ => token) s 0 sg -> deleted_twice sg ->
  exists a, gives (recognizer E find token fwd bwd) s (SStr (news sg)) a /\
    forall l, length l = length (news sg) -> ualign_inverse a l = Err AssertionErr.
Proof.
  intros HO HB HR HT.
  assert (ES : olds sg = s) by exact (replaced_ge find (fun _ => token) HB s 0 sg ltac:(lia) HR).
  pose proof (scan_group_replaced E find _ s sg HO HB HR) as HG. subst s.
  exists (seen E (AStr (olds sg) (grp 0 sg) (length (news sg)) fwd bwd)). split.
  - unfold gives. apply utransform_ok. split; [reflexivity|]. split; [|reflexivity].
    cbn [recognizer u_run]. unfold str_result. rewrite HG. cbn [bind]. now rewrite apply_grp.
  - intros l HL. unfold ualign_inverse. cbn [seen ua_in ua_out ua_bwd input_length output_length align_inverse_raw].
    rewrite HL, Nat.eqb_refl. cbn [guard bind]. now rewrite (inverse_twice (ord_c E) sg HO HT).
Qed.

(** the output does not depend on the transducers nor on touching matches *)
Theorem recognizer_output E find token fwd bwd s :
  ord_ok (ord_c E) -> in_bounds find ->
  (exists sg, replaced find (fun _ => token) s 0 sg /\ olds sg = s /\
     exists a, gives (recognizer E find token fwd bwd) s (SStr (news sg)) a) \/
  (stuck find s 0 /\ forall fuel, scan fuel find (fun _ => token) s 0 [] = Err OutOfFuel).
Proof.
  intros HO HB.
  assert (D : forall n p, length s - p <= n -> p <= length s ->
    (exists sg, replaced find (fun _ => token) s p sg) \/ stuck find s p).
  { induction n as [|n IH]; intros p HN HP.
    - left. eexists. apply rep_end. left. lia.
    - destruct (Nat.eq_dec p (length s)) as [->|NE]; [left; eexists; apply rep_end; auto|].
      destruct (find s p) as [[i e]|] eqn:F; [|left; eexists; apply rep_end; auto].
      destruct (HB s p i e HP F) as (B1 & B2 & B3).
      destruct (Nat.eq_dec p e) as [Q|Q].
      + right. apply stuck_here; [lia|]. rewrite F. repeat f_equal; lia.
      + destruct (IH e) as [(sg & H)|H]; try lia.
        * left. eexists. apply rep_match; [lia|exact F|exact H].
        * right. eapply stuck_later; [lia|exact F|exact H]. }
  destruct (D (length s) 0 ltac:(lia) ltac:(lia)) as [(sg & HR)|HS].
  - left. exists sg.
    assert (ES : olds sg = s) by exact (replaced_ge find (fun _ => token) HB s 0 sg ltac:(lia) HR).
    split; [exact HR|]. split; [exact ES|]. eexists. unfold gives. apply utransform_ok. split; [reflexivity|].
    cbn [recognizer u_run u_out]. unfold str_result. rewrite (scan_group_replaced E find _ s sg HO HB HR).
    cbn [bind]. split; [|reflexivity]. rewrite <- ES at 1. now rewrite apply_grp.
  - right. split; [exact HS|]. intros fuel. exact (scan_stuck find (fun _ => token) HB s 0 ltac:(lia) HS fuel []).
Qed.

Theorem spacer_gives E test s : ord_ok (ord_c E) ->
  exists a, gives (spacer E test) s (SStr (news (spaced test s))) a /\
    ualigns a any_labels (length s) (length (news (spaced test s)))
      (relabel (around SpecSeg.same) (spaced test s)) (relabel by_entity_mode (SpecSeg.swap (spaced test s))) /\
    forall l, length l = length s -> exists l', ualign a l = Ok l' /\ ualign_inverse a l' = Ok l.
Proof.
  intros HO. pose (newv := fun c => if test c then Some [SPACE; c; SPACE] else None).
  pose proof (char_segs_olds newv s) as ES.
  assert (SP : spaced test s = map (char_seg newv) s) by reflexivity.
  assert (G : exists a, gives (spacer E test) s (SStr (news (spaced test s))) a /\
    ualigns a any_labels (length s) (length (news (spaced test s)))
      (relabel (around SpecSeg.same) (spaced test s)) (relabel by_entity_mode (SpecSeg.swap (spaced test s)))).
  { enough (Q : exists a, gives (spacer E test) (olds (map (char_seg newv) s)) (SStr (news (spaced test s))) a /\
      ualigns a any_labels (length (olds (map (char_seg newv) s))) (length (news (spaced test s)))
        (relabel (around SpecSeg.same) (spaced test s)) (relabel by_entity_mode (SpecSeg.swap (spaced test s)))).
    { now rewrite ES in Q. }
    rewrite SP.
    apply (str_gives E _ _ (char_group E newv (olds (map (char_seg newv) s))) around_single except_ne); auto.
    - rewrite ES. now apply char_group_ok.
    - rewrite <- SP. apply rule_around_single. intros o' v HI. apply (spaced_In test) in HI.
      destruct HI as (c & -> & -> & _). auto.
    - left. apply nonempty_no_touching. rewrite <- SP. intros o' v HI. apply (spaced_In test) in HI.
      destruct HI as (c & -> & -> & _). discriminate.
    - apply rule_except. }
  destruct G as (a & G1 & G2). exists a. split; [exact G1|]. split; [exact G2|].
  intros l HL. destruct G2 as (A1 & _ & A3 & _). destruct (A1 l HL I) as (B1 & B2).
  eexists. split; [exact B1|]. destruct (A3 _ B2 I) as (C1 & _). rewrite C1. f_equal.
  apply relabel_round; [|rewrite SP, ES; exact HL].
  intros o v ls HI HLs. apply (spaced_In test) in HI. destruct HI as (c & -> & -> & _).
  destruct ls as [|x [|y ls]]; try discriminate. split; [reflexivity|].
  cbn. unfold by_entity_mode. cbn. destruct (x =? 0)%Z eqn:X; cbn; [apply Z.eqb_eq in X; now subst|].
  unfold mode. cbn. rewrite Nat.leb_refl. reflexivity.
Qed.

(** ** Tokenizers *)

Lemma text_dropped gap ps : text_of (dropped gap ++ ps) = gap ++ text_of ps.
Proof. destruct gap; reflexivity. Qed.
Lemma tokens_dropped gap ps : tokens_of (dropped gap ++ ps) = tokens_of ps.
Proof. destruct gap; reflexivity. Qed.

Lemma found_text ts s ps : found ts s ps -> text_of ps = s /\ tokens_of ps = ts.
Proof.
  induction 1 as [rest|t ts gap rest ps HM HF [IH1 IH2]].
  - destruct rest; unfold text_of, tokens_of; cbn; now rewrite ?app_nil_r.
  - rewrite text_dropped, text_of_cons, tokens_dropped, IH1. split; [reflexivity|].
    change (tokens_of ((t, true) :: ps)) with (t :: tokens_of ps). now rewrite IH2.
Qed.
Lemma found_unique ts s ps : found ts s ps -> forall ps', found ts s ps' -> ps' = ps.
Proof.
  induction 1 as [rest|t ts gap rest ps HM HF IH]; intros ps' H'; inversion H'; subst; [reflexivity|].
  assert (L : length gap = length gap0).
  { apply Nat.le_antisymm; [eapply HM; symmetry; eassumption|]. match goal with
      H : forall gap' rest', gap0 ++ _ = _ -> _ |- _ => eapply H; eassumption end. }
  assert (Q : gap0 = gap /\ t ++ rest0 = t ++ rest).
  { assert (X : gap0 ++ (t ++ rest0) = gap ++ (t ++ rest)) by assumption. clear -X L.
    revert gap0 X L. induction gap as [|a g IH]; intros [|b g0]; cbn; intros X L; try discriminate; [auto|].
    injection X as -> X. destruct (IH g0 X) as [-> ->]; [lia|]. auto. }
  destruct Q as [-> Q]. apply app_inv_head in Q. subst rest0. f_equal. f_equal. now apply IH.
Qed.

Lemma py_find_leftmost (pre gap t rest : str) :
  (forall gap' rest', gap ++ t ++ rest = gap' ++ t ++ rest' -> length gap <= length gap') ->
  py_find (pre ++ gap ++ t ++ rest) t (length pre) = Some (length pre + length gap).
Proof.
  intros HM. set (s := pre ++ gap ++ t ++ rest).
  assert (SK : forall j, skipn (length pre + j) s = skipn j (gap ++ t ++ rest)).
  { intros j. unfold s. rewrite skipn_app, skipn_all2 by lia.
    replace (length pre + j - length pre) with j by lia. reflexivity. }
  assert (SL : length s = length pre + length (gap ++ t ++ rest)) by (unfold s; apply app_length).
  destruct (py_find s t (length pre)) as [k|] eqn:F.
  - apply py_find_some in F. destruct F as (F1 & F2 & F3 & F4). f_equal.
    unfold slice in F3. replace (k + length t - k) with (length t) in F3 by lia.
    apply Nat.le_antisymm.
    + destruct (Nat.le_gt_cases k (length pre + length gap)) as [Q|Q]; [exact Q|]. exfalso.
      apply (F4 (length pre + length gap)); [lia|exact Q|]. unfold slice. rewrite SK.
      replace (length pre + length gap + length t - (length pre + length gap)) with (length t) by lia.
      rewrite skipn_app_exact. apply firstn_app_exact.
    + replace k with (length pre + (k - length pre)) in F3 by lia. rewrite SK in F3.
      pose proof (HM (firstn (k - length pre) (gap ++ t ++ rest))
                     (skipn (length t) (skipn (k - length pre) (gap ++ t ++ rest)))) as Q.
      rewrite firstn_length in Q. enough (length gap <= Nat.min (k - length pre) (length (gap ++ t ++ rest))) by lia.
      apply Q. rewrite <- F3 at 3. rewrite firstn_skipn. now rewrite firstn_skipn.
  - exfalso. apply (py_find_none _ _ _ F) with (k := length pre + length gap).
    + lia.
    + lia.
    + rewrite SL, !app_length. lia.
    + unfold slice. rewrite SK.
      replace (length pre + length gap + length t - (length pre + length gap)) with (length t) by lia.
      rewrite skipn_app_exact. apply firstn_app_exact.
Qed.

Lemma repl_loop_found ts s ps : found ts s ps -> forall pre acc,
  (x <- gen_repl_loop (pre ++ s) ts (length pre) acc ;; Ok (fin (pre ++ s) x)) =
  Ok (acc ++ grp (length pre) (cuts ps)).
Proof.
  induction 1 as [rest|t ts gap rest ps HM HF IH]; intros pre acc.
  - cbn [gen_repl_loop bind fin]. rewrite app_length. destruct rest as [|c rest].
    + cbn. now rewrite Nat.add_0_r, Nat.eqb_refl, app_nil_r.
    + destruct (Nat.eqb_spec (length pre) (length pre + length (c :: rest))) as [Q|Q]; [cbn in Q; lia|].
      unfold radd. destruct (Nat.ltb_spec (length pre + length (c :: rest)) (length pre)); [lia|]. reflexivity.
  - cbn [gen_repl_loop]. rewrite (py_find_leftmost _ _ _ _ HM).
    assert (ES : slice (pre ++ gap ++ t ++ rest) (length pre) (length pre + length gap) = gap).
    { unfold slice. rewrite skipn_app_exact.
      replace (length pre + length gap - length pre) with (length gap) by lia. apply firstn_app_exact. }
    rewrite ES.
    set (acc' := match gap with [] => acc | _ :: _ => radd acc (length pre) (length pre + length gap) [] end).
    specialize (IH (pre ++ gap ++ t) acc'). rewrite <- !app_assoc in IH.
    replace (length (pre ++ gap ++ t)) with (length pre + length gap + length t) in IH by (rewrite !app_length; lia).
    rewrite IH. f_equal. unfold acc'. destruct gap as [|g gap].
    + cbn [dropped app length]. rewrite Nat.add_0_r. reflexivity.
    + cbn [dropped app cuts map grp fst snd].
      unfold radd. destruct (Nat.ltb_spec (length pre + length (g :: gap)) (length pre)); [lia|].
      now rewrite <- app_assoc.
Qed.

Lemma found_dropped ts s ps gap : found ts s ps -> In (gap, false) ps -> gap <> [].
Proof.
  induction 1 as [rest|t ts g rest ps HM HF IH].
  - destruct rest; cbn; [contradiction|]. intros [[= <-]|[]]. discriminate.
  - intros HI. apply in_app_or in HI. destruct HI as [HI|[HI|HI]]; [|discriminate|auto].
    destruct g; cbn in HI; [contradiction|]. destruct HI as [[= <-]|[]]. discriminate.
Qed.
Lemma found_solid ts s ps : found ts s ps -> solid (cuts ps).
Proof.
  intros HF. unfold solid. rewrite Forall_forall. intros [o v] HI. unfold cuts in HI. apply in_map_iff in HI.
  destruct HI as ([w b] & Q & HI). cbn in *. injection Q as <- <-. destruct b; [now left|]. right.
  exact (found_dropped ts s ps w HF HI).
Qed.
Lemma drops_forward fwd bwd k ps : drops fwd bwd k ps -> rule_ok fwd by_zero (cuts ps).
Proof.
  intros D o v ls HI HL. unfold cuts in HI. apply in_map_iff in HI. destruct HI as ([w []] & Q & HI); inversion Q; subst.
  split; [|reflexivity]. cbn. now apply (D o HI).
Qed.
Lemma drops_back fwd bwd k ps : drops fwd bwd k ps -> rule_ok bwd k (SpecSeg.swap (cuts ps)).
Proof.
  intros D o v ls HI HL. unfold SpecSeg.swap, cuts in HI. rewrite map_map in HI. apply in_map_iff in HI.
  destruct HI as ([w []] & Q & HI); inversion Q; subst. destruct ls; [|discriminate]. apply (D v HI).
Qed.

Lemma replacement_group_found ord ts s ps : ord_ok ord -> found ts s ps ->
  gen_replacement_group ord s ts = Ok (grp 0 (cuts ps)).
Proof.
  intros HO HF. pose proof (repl_loop_found ts s ps HF [] []) as E. cbn [app length] in E.
  unfold gen_replacement_group. destruct (gen_repl_loop s ts 0 []) as [[sh acc]|]; [|discriminate].
  cbn [bind] in *. unfold fin in E. injection E as E. rewrite E. apply rdone_grp; [exact HO|exact (found_solid ts s ps HF)].
Qed.

Lemma label_fits l : token_label l = if forallb fits l then mode l else 0%Z.
Proof. destruct l; [reflexivity|]. apply token_label_fits. discriminate. Qed.

Lemma reduce_cuts_all h ps : (forall ls, h ls 0 = []) -> forall labels pre,
  length labels = length (text_of ps) ->
  map (fun sp => token_label (slice (pre ++ relabel h (cuts ps) labels) (fst sp) (snd sp)))
      (offsets (length pre) (tokens_of ps)) = token_labels32 ps labels.
Proof.
  intros H0. induction ps as [|[w []] ps IH]; intros labels pre HL; [reflexivity| |];
    rewrite text_of_cons, app_length in HL.
  - change (tokens_of ((w, true) :: ps)) with (w :: tokens_of ps).
    cbn [offsets map token_labels32 fst snd].
    set (here := firstn (length w) labels).
    assert (EH : length here = length w) by (unfold here; rewrite firstn_length; lia).
    assert (ER : relabel h (cuts ((w, true) :: ps)) labels
                 = here ++ relabel h (cuts ps) (skipn (length w) labels)) by reflexivity.
    rewrite ER. f_equal.
    + assert (ES : slice (pre ++ here ++ relabel h (cuts ps) (skipn (length w) labels))
                     (length pre) (length pre + length w) = here).
      { unfold slice. rewrite skipn_app_exact.
        replace (length pre + length w - length pre) with (length here) by lia. apply firstn_app_exact. }
      rewrite ES. apply label_fits.
    + specialize (IH (skipn (length w) labels) (pre ++ here)).
      rewrite app_length, EH, <- app_assoc in IH. apply IH. rewrite skipn_length. lia.
  - change (tokens_of ((w, false) :: ps)) with (tokens_of ps). cbn [token_labels32].
    assert (ER : relabel h (cuts ((w, false) :: ps)) labels
                 = relabel h (cuts ps) (skipn (length w) labels)).
    { cbn [cuts map relabel fst snd old_of length]. now rewrite H0. }
    rewrite ER. apply IH. rewrite skipn_length; lia.
Qed.

Lemma expand_cuts_all k ps : forall labels lo,
  length labels = length (tokens_of ps) ->
  relabel k (SpecSeg.swap (cuts ps)) (spread labels (offsets lo (tokens_of ps))) = char_labels_by k ps labels.
Proof.
  induction ps as [|[w []] ps IH]; intros labels lo HL.
  - reflexivity.
  - change (tokens_of ((w, true) :: ps)) with (w :: tokens_of ps) in *.
    destruct labels as [|x labels]; [discriminate|]. cbn [length] in HL.
    cbn [offsets spread char_labels_by hd tl].
    replace (lo + length w - lo) with (length w) by lia.
    change (SpecSeg.swap (cuts ((w, true) :: ps))) with (@cons (seg Z) (w, None) (SpecSeg.swap (cuts ps))).
    cbn [relabel old_of fst snd].
    assert (LR : length (repeat x (length w)) = length w) by apply repeat_length.
    rewrite (firstn_app_len _ _ _ LR), (skipn_app_len _ _ _ LR).
    f_equal. apply IH. lia.
  - change (tokens_of ((w, false) :: ps)) with (tokens_of ps) in *.
    change (SpecSeg.swap (cuts ((w, false) :: ps))) with (@cons (seg Z) ([], Some w) (SpecSeg.swap (cuts ps))).
    cbn [relabel old_of fst snd length firstn skipn char_labels_by]. f_equal. now apply IH.
Qed.

Lemma char_labels_by_length f g k ps : drops f g k ps -> forall l, length (char_labels_by k ps l) = length (text_of ps).
Proof.
  induction ps as [|[w []] ps IH]; intros D l; [reflexivity| |]; cbn [char_labels_by];
    (rewrite text_of_cons, !app_length, IH; [|intros gap HI; apply D; now right]).
  - now rewrite repeat_length.
  - destruct (D w (or_introl eq_refl)) as (_ & _ & ->). reflexivity.
Qed.

Theorem tokenizer_gives E tokenize fwd bwd k s ts ps :
  ord_ok (ord_c E) -> tokenize s = Ok ts -> found ts s ps -> drops fwd bwd k ps ->
  exists a, gives (tokenizer E tokenize fwd bwd) s (SLst (map ETok ts)) a /\
    ualigns a u32_labels (length s) (length ts) (token_labels ps) (char_labels_by k ps) /\
    (forall l, length l = length s -> ualign a l = Ok (token_labels32 ps l)) /\
    (forall l, length l = length ts -> ~ u32_labels l -> ualign_inverse a l = Err OverflowErr).
Proof.
  intros HO HT HF D. pose proof (drops_forward _ _ _ _ D) as RF. pose proof (drops_back _ _ _ _ D) as RB.
  pose proof (found_text ts s ps HF) as [TX TK].
  pose proof (replacement_group_found (ord_c E) ts s ps HO HF) as HG.
  pose proof (apply_grp (cuts ps)) as EA. rewrite cuts_olds, cuts_news, TX, TK in EA.
  pose (al := ATok s (grp 0 (cuts ps)) (offsets 0 ts) (length ts) fwd bwd).
  assert (GV : gives (tokenizer E tokenize fwd bwd) s (SLst (map ETok ts)) (seen E al)).
  { apply utransform_ok. split; [reflexivity|]. split; [|reflexivity]. cbn [tokenizer u_run]. unfold tok_result. rewrite HT.
    cbn [bind]. rewrite HG. cbn [bind]. rewrite EA, gen_span_group_ok by reflexivity. reflexivity. }
  assert (NT : no_touching_deletions (grp 0 (cuts ps))).
  { destruct (gen_replacement_group_ok (ord_c E) _ _ _ HO HG) as (G & _). eapply gap_chain_no_touching; exact G. }
  pose proof (offsets_tiles 0 ts) as TL. cbn [Nat.add] in TL.
  pose proof (inverse_grp (ord_c E) (cuts ps) HO NT) as EI. rewrite cuts_olds, TX in EI.
  assert (RAW : forall l, length l = length s -> align_raw al l = Ok (token_labels32 ps l)).
  { intros l HL. cbn [align_raw al]. rewrite (propagate_grp _ _ _ _ RF) by now rewrite cuts_olds, TX.
    cbn [bind]. rewrite (reduce_spec _ _ _ TL).
    - f_equal. rewrite <- TK. apply (reduce_cuts_all by_zero ps) with (pre := []); [reflexivity|now rewrite TX].
    - rewrite <- TK, <- cuts_news. apply (relabel_length by_zero fwd); [exact RF|]. now rewrite cuts_olds, TX. }
  exists (seen E al). split; [exact GV|]. split; [|split].
  - apply ualigns_intro; cbn [seen ua_in ua_out ua_fwd ua_bwd]; auto.
    + intros l HL HU. rewrite RAW by exact HL. now rewrite token_labels32_ok.
    + intros l _ _. rewrite <- TK. apply token_labels_length.
    + intros l HL HU. cbn [align_inverse_raw al]. rewrite EI. cbn [bind].
      rewrite (expand_spec _ _ _ TL); [|now rewrite offsets_length|exact HU]. cbn [bind].
      rewrite (propagate_grp _ _ _ _ RB).
      * f_equal. rewrite <- TK at 1. apply expand_cuts_all. now rewrite TK.
      * rewrite (spread_length _ _ _ _ TL) by now rewrite offsets_length.
        rewrite swap_olds, cuts_news, TK. lia.
    + intros l _ _. rewrite <- TX. now apply (char_labels_by_length fwd bwd).
  - intros l HL. apply ualign_ok. cbn [seen ua_in ua_out ua_fwd]. split; [exact HL|]. split; [now apply RAW|].
    rewrite token_labels32_length, TK. reflexivity.
  - intros l HL HU. unfold ualign_inverse, al. cbn [seen ua_in ua_out ua_bwd output_length input_length align_inverse_raw].
    rewrite HL, Nat.eqb_refl. cbn [guard bind].
    rewrite EI. cbn [bind]. rewrite expand_overflow; [reflexivity|now rewrite offsets_length|exact HU].
Qed.

(** which token lists are accepted *)
Lemma found_exists ts : forall s, occurs_in_order ts s -> exists ps, found ts s ps.
Proof.
  induction ts as [|t ts IH]; intros s H; [eexists; apply found_end|].
  inversion H as [|gap t' ts' rest HR]; subst.
  (* the first place where [t] occurs *)
  assert (M : exists g r, gap ++ t ++ rest = g ++ t ++ r /\
    (forall g' r', gap ++ t ++ rest = g' ++ t ++ r' -> length g <= length g')).
  { destruct (py_find (gap ++ t ++ rest) t 0) as [j|] eqn:F.
    - apply py_find_some in F. destruct F as (_ & F2 & F3 & F4).
      exists (firstn j (gap ++ t ++ rest)), (skipn (j + length t) (gap ++ t ++ rest)). split.
      + unfold slice in F3. replace (j + length t - j) with (length t) in F3 by lia. rewrite <- F3 at 3.
        rewrite <- skipn_skipn_add. now rewrite !firstn_skipn.
      + intros g' r' E. rewrite firstn_length. destruct (Nat.le_gt_cases j (length g')) as [Q|Q]; [lia|]. exfalso.
        apply (F4 (length g')); [lia|exact Q|]. rewrite E. unfold slice.
        replace (length g' + length t - length g') with (length t) by lia. rewrite skipn_app_exact. apply firstn_app_exact.
    - exfalso. apply (py_find_none _ _ _ F ltac:(lia)) with (k := length gap).
      + lia.
      + rewrite !app_length. lia.
      + unfold slice. replace (length gap + length t - length gap) with (length t) by lia.
        rewrite skipn_app_exact. apply firstn_app_exact. }
  destruct M as (g & r & E & HM). rewrite E in *.
  (* what follows the first place is longer *)
  assert (O : occurs_in_order ts r).
  { pose proof (HM gap rest (eq_sym E)) as LE.
    assert (X : exists z, r = z ++ rest).
    { assert (LR : length rest <= length r) by (apply (f_equal (@length Z)) in E; rewrite !app_length in E; lia).
      exists (firstn (length r - length rest) r).
      enough (Z1 : rest = skipn (length r - length rest) r) by (rewrite Z1 at 2; symmetry; apply firstn_skipn).
      assert (Y : skipn (length (gap ++ t)) (gap ++ t ++ rest) = rest) by (rewrite app_assoc; apply skipn_app_exact).
      rewrite E in Y. rewrite app_assoc in Y. rewrite skipn_app in Y.
      apply (f_equal (@length Z)) in E. rewrite !app_length in E.
      rewrite skipn_all2 in Y by (rewrite !app_length; lia). cbn [app] in Y. rewrite <- Y at 1. f_equal. rewrite !app_length. lia. }
    destruct X as (z & ->). inversion HR; subst.
    - apply occ_nil.
    - rewrite app_assoc. now apply occ_cons. }
  destruct (IH r O) as (ps & HP). eexists. apply found_next; [|exact HP]. intros g' r' E'. apply (HM g' r'). exact E'.
Qed.

Theorem tokenizer_refuses E tokenize fwd bwd s :
  ord_ok (ord_c E) ->
  (forall e, tokenize s = Err e -> utransform has_type (tokenizer E tokenize fwd bwd) (SStr s) = Err e) /\
  (forall ts, tokenize s = Ok ts ->
     (occurs_in_order ts s -> exists ps, found ts s ps /\ text_of ps = s /\ tokens_of ps = ts /\
        exists a, gives (tokenizer E tokenize fwd bwd) s (SLst (map ETok ts)) a) /\
     (~ occurs_in_order ts s -> utransform has_type (tokenizer E tokenize fwd bwd) (SStr s) = Err ValueErr)).
Proof.
  intros HO. split.
  - intros e HE. unfold utransform. cbn [tokenizer u_in u_run]. change (has_type (SStr s) TStr) with true.
    cbn [guard bind]. unfold tok_result. now rewrite HE.
  - intros ts HT. split.
    + intros HI. destruct (found_exists ts s HI) as (ps & HF). exists ps. split; [exact HF|].
      pose proof (found_text ts s ps HF) as [TX TK]. split; [exact TX|]. split; [exact TK|].
      pose proof (replacement_group_found (ord_c E) ts s ps HO HF) as HG.
      destruct (gen_replacement_group_ok (ord_c E) _ _ _ HO HG) as (_ & EA).
      eexists. apply utransform_ok. split; [reflexivity|]. split; [|reflexivity]. cbn [tokenizer u_run]. unfold tok_result.
      rewrite HT. cbn [bind]. rewrite HG. cbn [bind]. rewrite EA, gen_span_group_ok by reflexivity. reflexivity.
    + intros HN. destruct (gen_replacement_group_full Z _ (ord_c E) s ts HO) as [HV _].
      unfold utransform. cbn [tokenizer u_in u_run]. change (has_type (SStr s) TStr) with true.
      cbn [guard bind]. unfold tok_result. rewrite HT. cbn [bind]. now rewrite (HV HN).
Qed.

(** ** The lengths given to the aligners *)

Theorem subclasses_honest E :
  (forall find token fwd bwd, honest pseq_length (recognizer E find token fwd bwd)) /\
  (forall test, honest pseq_length (spacer E test)) /\
  (forall tokenize fwd bwd, honest pseq_length (tokenizer E tokenize fwd bwd)).
Proof.
  repeat split; (destruct x as [s|l]; cbn in H; [|discriminate]); revert H;
    unfold str_result, tok_result.
  1,2: destruct (scan_group _ _ _ _); cbn [bind]; [|discriminate]; intros [= <- <-]; reflexivity.
  1,2: destruct (char_group _ _ _); cbn [bind]; [|discriminate]; intros [= <- <-]; reflexivity.
  1,2: destruct (tokenize s) as [ts|]; cbn [bind]; [|discriminate];
       destruct (gen_replacement_group _ _ _); cbn [bind]; [|discriminate];
       destruct (gen_span_group _ _); cbn [bind]; [|discriminate]; intros [= <- <-]; cbn; rewrite ?map_length; reflexivity.
Qed.

(** ** The library's classes *)

Theorem library_derived E ob u : derived E (o_op ob) u -> forall x,
  utransform has_type u x = utransform has_type (view_op E ob) x.
Proof.
  intros D x. unfold view_op, utransform, in_type, out_type.
  destruct D; cbn [recognizer spacer tokenizer u_in u_out u_run input_type output_type];
    destruct x as [s|l]; try reflexivity; cbn [transform_str];
    try (match goal with H : re_compile _ _ = Some _ |- _ => rewrite H end);
    unfold seen, view_aligner, bind;
    try (destruct (str_result _ _ _ _) as [[y a']|]; reflexivity);
    destruct (tok_result _ _ _ _ _) as [[y a']|]; reflexivity.
Qed.
