(** Greedy segmentation: tokenizer and edits driven by a trie, and the stopword scan. *)

From Verif Require Import Py PyFacts Edit Labels SpecEdit SpecLabels SpecSeg SpecRuns SpecWords
  EditProofs LabelProofs SegProofs Regex Trie Ops RegexProofs PatternProofs TrieProofs.
From Coq Require Import Sorted.

(** ** The relation is a total function *)

Lemma prefix_app w s : is_prefix w s -> exists t, s = w ++ t.
Proof. intros H; exact H. Qed.

Lemma prefix_same_length w w' s :
  is_prefix w s -> is_prefix w' s -> length w = length w' -> w = w'.
Proof.
  intros H H' L. destruct (prefix_firstn _ _ H) as (E & _).
  destruct (prefix_firstn _ _ H') as (E' & _). congruence.
Qed.

Lemma best_unique sh ws s w w' : best_word sh ws s w -> best_word sh ws s w' -> w = w'.
Proof.
  destruct sh; intros (I & N & P & M) (I' & N' & P' & M');
    apply (prefix_same_length w w' s P P');
    specialize (M w' I' N' P'); specialize (M' w I N P); lia.
Qed.

Lemma best_exists sh ws s : (exists w, best_word sh ws s w) \/ no_word ws s.
Proof.
  induction ws as [|w ws IH]; [right; intros w []|].
  destruct w as [|a w].
  { destruct IH as [(w' & H)|H].
    - left. exists w'. destruct sh; destruct H as (I & N & P & M);
        (split; [right; exact I|split; [exact N|split; [exact P|]]]);
        intros w2 [<-|I2] N2 P2; try congruence; apply M; auto.
    - right. intros w' [<-|I'] N' P'; [congruence|]. apply (H w'); auto. }
  destruct (prefixb (a :: w) s) eqn:EP.
  - apply prefixb_spec in EP. left.
    destruct IH as [(w' & H)|H].
    + destruct sh; destruct H as (I & N & P & M).
      * destruct (le_lt_dec (length (a :: w)) (length w')) as [L|L].
        -- exists (a :: w). split; [left; auto|split; [discriminate|split; [exact EP|]]].
           intros w2 [<-|I2] N2 P2; [lia|]. specialize (M w2 I2 N2 P2). lia.
        -- exists w'. split; [right; auto|split; [exact N|split; [exact P|]]].
           intros w2 [<-|I2] N2 P2; [lia|]. specialize (M w2 I2 N2 P2). lia.
      * destruct (le_lt_dec (length (a :: w)) (length w')) as [L|L].
        -- exists w'. split; [right; auto|split; [exact N|split; [exact P|]]].
           intros w2 [<-|I2] N2 P2; [lia|]. specialize (M w2 I2 N2 P2). lia.
        -- exists (a :: w). split; [left; auto|split; [discriminate|split; [exact EP|]]].
           intros w2 [<-|I2] N2 P2; [lia|]. specialize (M w2 I2 N2 P2). lia.
    + exists (a :: w). destruct sh;
        (split; [left; auto|split; [discriminate|split; [exact EP|]]]);
        intros w2 [<-|I2] N2 P2; [lia| |lia|]; exfalso; apply (H w2); auto.
  - assert (NP : ~ is_prefix (a :: w) s).
    { intros Q. apply prefixb_spec in Q. congruence. }
    destruct IH as [(w' & H)|H].
    + left. exists w'. destruct sh; destruct H as (I & N & P & M);
        (split; [right; exact I|split; [exact N|split; [exact P|]]]);
        intros w2 [<-|I2] N2 P2; try tauto; apply M; auto.
    + right. intros w' [<-|I'] N' P'; [tauto|]. apply (H w'); auto.
Qed.

Lemma best_prefix sh ws s w : best_word sh ws s w -> w <> [] /\ is_prefix w s /\ In w ws.
Proof. destruct sh; intros (I & N & P & _); auto. Qed.

Lemma munched_exists sh ws s : exists ps, munched sh ws s ps.
Proof.
  remember (length s) as n eqn:EN. assert (HN : length s <= n) by lia. clear EN.
  revert s HN; induction n as [|n IH]; intros s HN.
  - destruct s; [|cbn in HN; lia]. exists []. constructor.
  - destruct s as [|c s]; [exists []; constructor|].
    destruct (best_exists sh ws (c :: s)) as [(w & HB)|HB].
    + destruct (best_prefix _ _ _ _ HB) as (N & (t & E) & _).
      destruct (IH t) as (ps & HM).
      { assert (L : length (c :: s) = length (w ++ t)) by now rewrite E.
        rewrite app_length in L. destruct w; [congruence|]. cbn in *. lia. }
      exists ((w, true) :: ps). rewrite E in *. now constructor.
    + destruct (IH s) as (ps & HM); [cbn in HN; lia|].
      exists (([c], false) :: ps). now constructor.
Qed.

Lemma munched_unique sh ws s ps ps' : munched sh ws s ps -> munched sh ws s ps' -> ps = ps'.
Proof.
  intros H; revert ps'; induction H as [|w rest ps HB H IH|c rest ps HB H IH]; intros ps' H'.
  - inversion H' as [|w rest ps0 HB H0 E|]; [reflexivity|].
    destruct (best_prefix _ _ _ _ HB) as (N & _). destruct w; [congruence|discriminate].
  - destruct (best_prefix _ _ _ _ HB) as (N & P & I).
    inversion H' as [E|w' rest' ps0 HB' H0 E|c rest' ps0 HB' H0 E].
    + destruct w; [congruence|discriminate].
    + rewrite E in HB'. pose proof (best_unique _ _ _ _ _ HB HB') as <-.
      apply app_inv_head in E. subst rest'. f_equal. now apply IH.
    + exfalso. rewrite E in HB'. apply (HB' w); auto.
  - inversion H' as [|w' rest' ps0 HB' H0 E|c' rest' ps0 HB' H0 E].
    + exfalso. destruct (best_prefix _ _ _ _ HB') as (N & P & I). rewrite E in P.
      apply (HB w'); auto.
    + subst. f_equal. now apply IH.
Qed.

Lemma munched_concat sh ws s ps : munched sh ws s ps -> concat (map fst ps) = s.
Proof. induction 1; cbn; [reflexivity|now rewrite IHmunched|now rewrite IHmunched]. Qed.

Lemma munched_nonempty sh ws s ps : munched sh ws s ps -> Forall (fun p => fst p <> []) ps.
Proof.
  induction 1 as [|w rest ps HB H IH|c rest ps HB H IH]; constructor; auto.
  - apply (best_prefix _ _ _ _ HB).
  - discriminate.
Qed.

(** ** CustomWordTokenizer *)

Lemma skipn_cons_slice (s : str) k :
  k < length s -> exists c, skipn k s = c :: skipn (S k) s /\ slice s k (k + 1) = [c].
Proof.
  intros H. destruct (skipn k s) as [|c t] eqn:E.
  - exfalso. assert (L : length (skipn k s) = 0) by now rewrite E. rewrite skipn_length in L. lia.
  - exists c. split.
    + replace (S k) with (k + 1) by lia. rewrite <- skipn_skipn_add, E. reflexivity.
    + unfold slice. rewrite E. replace (k + 1 - k) with 1 by lia. reflexivity.
Qed.

Lemma match_step t ws s shortest start :
  holds t ws -> start < length s ->
  (exists w, match_prefix t (skipn start s) shortest = Some w /\
     best_word shortest ws (skipn start s) w /\
     skipn start s = w ++ skipn (start + length w) s /\ 0 < length w /\
     start + length w <= length s) \/
  (match_prefix t (skipn start s) shortest = None /\ no_word ws (skipn start s)).
Proof.
  intros HH HL. pose proof (match_prefix_best t ws (skipn start s) shortest HH) as MB.
  destruct (match_prefix t (skipn start s) shortest) as [w|]; [left|right; auto].
  exists w. destruct (best_prefix _ _ _ _ MB) as (N & (u & E) & _).
  split; [reflexivity|]. split; [exact MB|].
  assert (L : length (skipn start s) = length (w ++ u)) by now rewrite E.
  rewrite skipn_length, app_length in L.
  split; [|split; [destruct w; [congruence|cbn; lia]|lia]].
  rewrite <- skipn_skipn_add, E, skipn_app_exact. reflexivity.
Qed.

Lemma custom_tokenize_munched t ws shortest s fuel start :
  holds t ws -> start <= length s -> length s - start <= fuel ->
  exists ps, munched shortest ws (skipn start s) ps /\
    custom_tokenize fuel t shortest s start = Ok (map fst ps).
Proof.
  intros HH. revert start; induction fuel as [|fuel IH]; intros start HS HF.
  - exists []. assert (start = length s) as -> by lia. rewrite skipn_all.
    split; [constructor|]. cbn [custom_tokenize]. rewrite Nat.leb_refl. reflexivity.
  - destruct (Nat.eq_dec start (length s)) as [->|NE].
    { exists []. rewrite skipn_all. split; [constructor|].
      cbn [custom_tokenize]. rewrite Nat.leb_refl. reflexivity. }
    cbn [custom_tokenize]. destruct (Nat.leb_spec (length s) start) as [L|L]; [lia|].
    destruct (match_step t ws s shortest start HH L) as
      [(w & EM & HB & EW & W0 & WL)|(EM & HN)]; rewrite EM.
    + destruct (IH (start + length w)) as (ps & H1 & H2); [lia|lia|].
      exists ((w, true) :: ps). rewrite H2. cbn [bind map fst]. split; [|reflexivity].
      rewrite EW in *. now constructor.
    + destruct (skipn_cons_slice s start L) as (c & E1 & E2).
      destruct (IH (start + 1)) as (ps & H1 & H2); [lia|lia|].
      exists (([c], false) :: ps). rewrite H2, E2. cbn [bind map fst]. split; [|reflexivity].
      rewrite E1 in *. replace (start + 1) with (S start) in H1 by lia. now constructor.
Qed.

(** ** AddWhitespaceAroundWordnZhChar *)

Definition word_seg (p : str * bool) : seg Z :=
  (fst p, if snd p || forallb is_cjk (fst p) then Some (with_space (fst p)) else None).

Lemma word_edits_munched t ws shortest s fuel start acc :
  holds t ws -> start <= length s -> length s - start <= fuel ->
  exists ps, munched shortest ws (skipn start s) ps /\
    word_edits fuel t shortest s start acc = Ok (acc ++ grp start (map word_seg ps)).
Proof.
  intros HH. revert start acc; induction fuel as [|fuel IH]; intros start acc HS HF.
  - exists []. assert (start = length s) as -> by lia. rewrite skipn_all.
    split; [constructor|]. cbn [word_edits]. rewrite Nat.leb_refl. cbn. now rewrite app_nil_r.
  - destruct (Nat.eq_dec start (length s)) as [->|NE].
    { exists []. rewrite skipn_all. split; [constructor|].
      cbn [word_edits]. rewrite Nat.leb_refl. cbn. now rewrite app_nil_r. }
    cbn [word_edits]. destruct (Nat.leb_spec (length s) start) as [L|L]; [lia|].
    destruct (match_step t ws s shortest start HH L) as
      [(w & EM & HB & EW & W0 & WL)|(EM & HN)]; rewrite EM.
    + rewrite radd_ok by lia.
      destruct (IH (start + length w) (acc ++ [mkR start (start + length w) (with_space w)]))
        as (ps & H1 & H2); [lia|lia|].
      exists ((w, true) :: ps). rewrite H2. split.
      * rewrite EW in *. now constructor.
      * cbn [map word_seg fst snd orb grp]. now rewrite <- app_assoc.
    + destruct (skipn_cons_slice s start L) as (c & E1 & E2). cbn zeta. rewrite E2.
      destruct (IH (start + 1)
        (if forallb is_cjk [c] then radd acc start (start + 1) (with_space [c]) else acc))
        as (ps & H1 & H2); [lia|lia|].
      exists (([c], false) :: ps). rewrite H2. split.
      * rewrite E1 in *. replace (start + 1) with (S start) in H1 by lia. now constructor.
      * cbn [map]. unfold word_seg at 2. cbn [fst snd orb].
        destruct (forallb is_cjk [c]); cbn [grp length].
        -- rewrite radd_ok by lia. rewrite <- app_assoc. reflexivity.
        -- reflexivity.
Qed.

Lemma word_segs_olds ps : olds (map word_seg ps) = concat (map fst ps).
Proof. unfold olds. rewrite map_map. reflexivity. Qed.

Lemma word_group_munched E t ws shortest s :
  ord_ok (ord_c E) -> holds t ws ->
  exists ps, munched shortest ws s ps /\ word_group E t shortest s = Ok (grp 0 (map word_seg ps)).
Proof.
  intros HO HH.
  destruct (word_edits_munched t ws shortest s (length s) 0 [] HH) as (ps & H1 & H2); [lia|lia|].
  cbn [skipn] in H1. exists ps. split; [exact H1|]. unfold word_group. rewrite H2.
  cbn [bind app]. apply rdone_grp; [exact HO|]. apply nonempty_solid.
  intros o v HI. apply in_map_iff in HI. destruct HI as ([w b] & EQ & HI).
  pose proof (munched_nonempty _ _ _ _ H1) as F. rewrite Forall_forall in F.
  specialize (F _ HI). unfold word_seg in EQ. cbn in *. congruence.
Qed.

(** ** Stopwords *)

Definition stop_seg (p : str * bool) : seg Z := (fst p, if snd p then Some [SPACE] else None).

Lemma stopwords_nonempty : forallb nonempty stopwords = true.
Proof. vm_compute. reflexivity. Qed.

Fixpoint lengths_down (ws : list str) : bool :=
  match ws with
  | [] => true
  | w :: ws => forallb (fun w' => length w' <=? length w) ws && lengths_down ws
  end.

Lemma stopwords_down : lengths_down stopwords = true.
Proof. vm_compute. reflexivity. Qed.

Lemma filter_hd_longest ws s w :
  lengths_down ws = true -> forallb nonempty ws = true -> best_word false ws s w ->
  hd_error (filter (fun w => prefixb w s) ws) = Some w.
Proof.
  intros HD HN HB. destruct HB as (I & N & P & M).
  assert (HH : forall w', hd_error (filter (fun w => prefixb w s) ws) = Some w' ->
                          length w <= length w').
  { clear M HN. induction ws as [|x ws IH]; intros w' E; [destruct I|].
    cbn [lengths_down] in HD. apply andb_prop in HD. destruct HD as (D1 & D2).
    cbn [filter] in E. destruct (prefixb x s) eqn:EP.
    - cbn in E. injection E as <-. destruct I as [<-|I]; [lia|].
      rewrite forallb_forall in D1. specialize (D1 w I). now apply Nat.leb_le in D1.
    - apply IH; auto. destruct I as [<-|I]; auto.
      apply prefixb_spec in P. congruence. }
  destruct (filter (fun w => prefixb w s) ws) as [|x l] eqn:EF.
  - exfalso. assert (Q : In w (filter (fun w => prefixb w s) ws)).
    { apply filter_In. split; [exact I|]. now apply prefixb_spec. }
    rewrite EF in Q. destruct Q.
  - cbn. f_equal. specialize (HH x eq_refl).
    assert (Q : In x (filter (fun w => prefixb w s) ws)) by (rewrite EF; left; auto).
    apply filter_In in Q. destruct Q as (Q1 & Q2). apply prefixb_spec in Q2.
    apply (prefix_same_length x w s Q2 P).
    rewrite forallb_forall in HN. specialize (HN x Q1).
    assert (x <> []) by (destruct x; [discriminate|discriminate]).
    specialize (M x Q1 H Q2). lia.
Qed.

Lemma stop_matches s pre rest ps :
  s = pre ++ rest -> munched false stopwords rest ps ->
  matches re_stopwords (fun _ => [SPACE]) s (length pre) (map stop_seg ps).
Proof.
  intros ES H. revert pre ES; induction H as [|w rest ps HB H IH|c rest ps HB H IH];
    intros pre ES.
  - exact I.
  - cbn [map stop_seg fst snd matches]. destruct (best_prefix _ _ _ _ HB) as (N & _).
    split; [exact N|]. split; [reflexivity|]. split.
    + rewrite ends_stopwords, ES, skipn_app_exact.
      pose proof (filter_hd_longest _ _ _ stopwords_down stopwords_nonempty HB) as Q.
      destruct (filter _ stopwords); [discriminate|]. cbn in *. congruence.
    + rewrite <- app_length. apply IH. now rewrite <- app_assoc.
  - cbn [map stop_seg fst snd matches]. split.
    + intros j Hj. cbn in Hj. assert (j = length pre) as -> by lia.
      rewrite ends_stopwords, ES, skipn_app_exact.
      replace (filter (fun w => prefixb w (c :: rest)) stopwords) with (@nil str); [reflexivity|].
      symmetry. apply nil_no_in. intros w HI. apply filter_In in HI. destruct HI as (H1 & H2).
      apply prefixb_spec in H2. apply (HB w H1); [|exact H2].
      pose proof stopwords_nonempty as SN. rewrite forallb_forall in SN. specialize (SN w H1).
      destruct w; discriminate.
    + rewrite <- app_length. apply IH. now rewrite <- app_assoc.
Qed.

Lemma stop_end s : ends re_stopwords s (length s) = [].
Proof.
  rewrite ends_stopwords, skipn_all.
  replace (filter (fun w => prefixb w []) stopwords) with (@nil str); [reflexivity|].
  symmetry. apply nil_no_in. intros w HI. apply filter_In in HI. destruct HI as (H1 & H2).
  pose proof stopwords_nonempty as SN. rewrite forallb_forall in SN. specialize (SN w H1).
  destruct w; discriminate.
Qed.

Lemma stop_segs_olds ps : olds (map stop_seg ps) = concat (map fst ps).
Proof. unfold olds. rewrite map_map. reflexivity. Qed.
