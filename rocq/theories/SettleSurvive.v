(** Which labels come back through an operator (C92). *)

From Coq Require Import String.
From Verif Require Import Py PyFacts Edit Labels SpecEdit SpecLabels SpecSeg SpecRuns SpecWords SpecScan SpecOps SpecHash
  EditProofs LabelProofs EditApiProofs SegProofs RunsProofs WordProofs TrieProofs Ops OpProofs StrOpProofs ScanProofs ListOpProofs
  TokProofs HashProofs AlignProofs OpLaws Pipe SpecTrip TripProofs SpecSettle SettleSegs SettleOps SettleTable SettlePipe.
From Coq Require Import List Lia.

Lemma survives_one E a l : survives E [a] l <-> exists m, align a l = Ok m /\ align_inverse E a m = Ok l.
Proof. unfold survives. split; intros (m & H); exists m; rewrite align_one, align_inverse_one in *; exact H. Qed.

Lemma maps_survives E o x y F G P : maps E o any_labels x y F G ->
  (forall l, length l = pseq_length x -> (G (F l) = l <-> P l)) -> survives_when E o x P.
Proof.
  intros M HP y0 a T l. destruct (maps_inv _ _ _ _ _ _ _ _ _ M T) as [-> (A1 & A2 & A3 & A4)].
  rewrite survives_one. split.
  - intros (m & H1 & H2). destruct (Nat.eq_dec (length l) (pseq_length x)) as [L|L]; [|rewrite (A2 l L) in H1; discriminate].
    split; [exact L|]. apply HP; [exact L|]. destruct (A1 l L Logic.I) as (Q1 & L1). rewrite Q1 in H1. injection H1 as <-.
    destruct (A3 _ L1 Logic.I) as (Q2 & _). congruence.
  - intros (L & H). destruct (A1 l L Logic.I) as (Q1 & L1). destruct (A3 _ L1 Logic.I) as (Q2 & _).
    exists (F l). split; [exact Q1|]. rewrite Q2. f_equal. now apply HP.
Qed.

Lemma rewrites_survives E o s sg h k (P : list Z -> list Z -> Prop) : rewrites E o s sg h k -> sizes h sg -> back_sizes k sg ->
  (forall w v ls, In (w, Some v) sg -> length ls = length w -> (k (h ls (length v)) (length w) = ls <-> P v ls)) ->
  survives_when E o (SStr s) (in_replaced sg P).
Proof.
  intros (EO & M) HS HB HP. apply (maps_survives _ _ _ _ _ _ _ M). intros l L. cbn [pseq_length] in L.
  rewrite (relabel_survives h k sg l HS HB) by (now rewrite EO).
  assert (K : forall sg1 w v sg2, sg = sg1 ++ (w, Some v) :: sg2 ->
    In (w, Some v) sg /\ length (firstn (length w) (skipn (length (olds sg1)) l)) = length w).
  { intros sg1 w v sg2 Q. split; [rewrite Q; apply in_or_app; right; now left|].
    assert (LO : length (olds sg) = length (olds sg1) + (length w + length (olds sg2))).
    { unfold olds. rewrite Q, map_app, concat_app, app_length. cbn [map concat old_of fst]. now rewrite app_length. }
    rewrite firstn_length, skipn_length. rewrite EO in LO. lia. }
  unfold piece_survives, in_replaced. split; intros H sg1 w v sg2 Q; destruct (K sg1 w v sg2 Q) as (K1 & K2);
    specialize (H sg1 w v sg2 Q); unfold slice in *; cbn zeta in *;
    replace (length (olds sg1) + length w - length (olds sg1)) with (length w) in * by lia; now apply (HP w v).
Qed.

(** ** Rules *)

Lemma one_label_repeat x n : one_label (repeat x n).
Proof. intros a b Ha Hb. apply repeat_spec in Ha, Hb. congruence. Qed.
Lemma one_label_is l : one_label l -> l = repeat (mode l) (length l).
Proof.
  intros H. destruct l as [|x l]; [reflexivity|]. assert (Q : x :: l = repeat x (length (x :: l))).
  { apply repeat_all. intros y HY. apply H; [exact HY|now left]. }
  assert (M : mode (x :: l) = x) by (rewrite Q; apply mode_repeat; cbn; lia). now rewrite M.
Qed.
Lemma all_zero_repeat l : all_zero l <-> l = repeat 0%Z (length l).
Proof.
  split; [intros H; now apply repeat_all|]. intros -> x HX. now apply repeat_spec in HX.
Qed.
Lemma same_mode l n : length l = n -> (repeat (mode l) n = l <-> one_label l).
Proof.
  intros <-. split; [intros <-; apply one_label_repeat|]. intros H. symmetry. now apply one_label_is.
Qed.

Lemma merge_survives E s : ord_ok (ord_c E) ->
  survives_when E MergeWhiteSpaceCharacters (SStr s)
    (in_replaced (seg_runs (is_space E) (fun _ => Some blank) s) (fun _ => one_label)).
Proof.
  intros OC. apply (rewrites_survives _ _ _ _ _ _ _ (merge_rewrites E s OC)); [apply sizes_by_mode|apply back_by_mode|].
  intros w v ls I L. apply seg_runs_In in I. cbn in I. injection I as <-. rewrite <- (same_mode ls (length w) L).
  unfold by_mode. now rewrite mode_repeat by (cbn; lia).
Qed.

Lemma number_survives E o p (choice : str -> bool) tok s h :
  let sg := seg_runs p (fun r => if choice r then Some tok else None) s in
  rewrites E o s sg h by_entity_mode -> 3 <= length tok -> h = by_mode \/ h = around by_mode ->
  survives_when E o (SStr s) (in_replaced sg (fun _ => one_label)).
Proof.
  intros sg R L D.
  assert (NN : forall o v, In (o, Some v) sg -> 3 <= length v).
  { intros o' v I. now rewrite (seg_runs_new _ _ _ _ _ _ I). }
  apply (rewrites_survives _ _ _ _ _ _ _ R); [|apply back_by_entity|].
  - destruct D as [-> | ->]; [apply sizes_by_mode|].
    intros o' v ls I _. unfold around, by_mode. cbn [length]. rewrite app_length, repeat_length. cbn [length].
    pose proof (NN o' v I). lia.
  - intros w v ls I LL. pose proof (NN w v I). rewrite <- (same_mode ls (length w) LL).
    destruct D as [-> | ->].
    + unfold by_mode. rewrite by_entity_mode_repeat by lia. reflexivity.
    + unfold around, by_mode. rewrite around_entity by lia. reflexivity.
Qed.

Lemma int_survives E s : ord_ok (ord_c E) ->
  survives_when E IntToken (SStr s) (in_replaced (int_like E (txt "_int_") s) (fun _ => one_label)) /\
  survives_when E IntTokenWithSpace (SStr s) (in_replaced (int_like E (txt " _int_ ") s) (fun _ => one_label)) /\
  survives_when E NumTokenWithSpace (SStr s) (in_replaced (int_like E (txt " _num_ ") s) (fun _ => one_label)).
Proof.
  intros OC. split; [|split].
  - eapply number_survives; [exact (int_rewrites E s OC)|cbn; lia|now left].
  - eapply number_survives; [exact (int_space_rewrites E s OC)|cbn; lia|now right].
  - eapply number_survives; [exact (num_space_rewrites E s OC)|cbn; lia|now right].
Qed.
Lemma float_survives E s : ord_ok (ord_c E) ->
  survives_when E FloatToken (SStr s) (in_replaced (float_like E (txt "_float_") s) (fun _ => one_label)) /\
  survives_when E FloatTokenWithSpace (SStr s) (in_replaced (float_like E (txt " _float_ ") s) (fun _ => one_label)).
Proof.
  intros OC. split.
  - eapply number_survives; [exact (float_rewrites E s OC)|cbn; lia|now left].
  - eapply number_survives; [exact (float_space_rewrites E s OC)|cbn; lia|now right].
Qed.

Lemma stop_survives E s ps : ord_ok (ord_c E) -> munched false stopword_set s ps ->
  survives_when E StopwordsToWhitespace (SStr s) (in_replaced (stop_spaced ps) (fun _ => all_zero)).
Proof.
  intros OC HM. destruct (stop_rewrites E s OC) as (ps' & HM' & R). rewrite (munched_unique _ _ _ _ _ HM HM').
  apply (rewrites_survives _ _ _ _ _ _ _ R); [apply sizes_by_zero|apply back_by_zero|].
  intros w v ls _ L. unfold by_zero. rewrite all_zero_repeat, L. split; intros H; now symmetry.
Qed.

Lemma zero_at_firstn p l n : (forall i, p i <-> i < n) -> n <= length l ->
  (zero_at p l <-> firstn n l = repeat 0%Z n).
Proof.
  intros HP HL. assert (LF : length (firstn n l) = n) by (rewrite firstn_length; lia). split.
  - intros H. rewrite <- LF at 2. apply repeat_all. intros y HY. apply In_nth_error in HY. destruct HY as (i & HI).
    assert (i < n) by (rewrite <- LF; apply nth_error_Some; congruence).
    rewrite nth_error_firstn_lt in HI by assumption. apply (H i y); [now apply HP|exact HI].
  - intros H i x PI HI. apply HP in PI. rewrite <- (nth_error_firstn_lt l n i PI), H in HI.
    apply nth_error_In, repeat_spec in HI. exact HI.
Qed.
Lemma zero_at_skipn p l n : (forall i, p i <-> n <= i) ->
  (zero_at p l <-> skipn n l = repeat 0%Z (length l - n)).
Proof.
  intros HP. rewrite <- skipn_length. split.
  - intros H. apply repeat_all. intros y HY. apply In_nth_error in HY. destruct HY as (i & HI).
    rewrite nth_error_skipn in HI. apply (H (n + i) y); [apply HP; lia|exact HI].
  - intros H i x PI HI. apply HP in PI. replace i with (n + (i - n)) in HI by lia. rewrite <- nth_error_skipn, H in HI.
    apply nth_error_In, repeat_spec in HI. exact HI.
Qed.
Lemma zero_at_or p q l : zero_at (fun i => p i \/ q i) l <-> zero_at p l /\ zero_at q l.
Proof. unfold zero_at. split; [intros H; split; intros i x Hp; apply H; auto|]. intros (H1 & H2) i x [Hp|Hq]; eauto. Qed.

Lemma strip_survives E s : ord_ok (ord_c E) ->
  let p := is_space E in
  survives_when E StripWhiteSpaceCharacters (SStr s)
    (zero_at (fun i => i < lead p s \/ lead p s + length (strip p s) <= i)).
Proof.
  intros OC p. apply (maps_survives _ _ _ _ _ _ _ (strip_maps E s OC)). intros l L. cbn [pseq_length] in L. fold p.
  destruct (strip_size p s) as (q & LQ). rewrite zero_at_or.
  set (a := lead p s) in *. set (n := length (strip p s)) in *.
  rewrite (zero_at_firstn _ l a) by (tauto || lia). rewrite (zero_at_skipn _ l (a + n)) by tauto.
  replace (length s - a - n) with q by lia. replace (length l - (a + n)) with q by lia.
  pose proof (firstn_skipn a l) as F1. pose proof (firstn_skipn n (skipn a l)) as F2. rewrite skipn_skipn_add in F2.
  rewrite <- F1 at 2. rewrite <- F2 at 2. split.
  - intros H. apply app_inj_len in H; [|rewrite repeat_length, firstn_length; lia]. destruct H as (H1 & H2).
    apply app_inv_head in H2. auto.
  - intros (H1 & H2). now rewrite H1, H2.
Qed.

Lemma endpoint_survives E s : ord_ok (ord_c E) ->
  survives_when E PunctuationExceptEndpointToWhitespace (SStr s)
    (zero_at (fun i => exists c, nth_error s i = Some c /\ endless_punct E c = true)).
Proof.
  intros OC. apply (maps_survives _ _ _ _ _ _ _ (endpoint_maps E s OC)). intros l L. cbn [pseq_length] in L.
  set (p := endless_punct E). revert l L. induction s as [|c s IH]; intros [|x l] L; try discriminate.
  - split; [intros _ i x (c & Q & _); destruct i; discriminate|reflexivity].
  - injection L as L. specialize (IH l L). unfold zero_where in *. cbn [combine map fst snd]. split.
    + intros H. injection H as H1 H2. apply IH in H2. intros [|i] y (d & Q & PD) HY; cbn [nth_error] in *.
      * injection Q as <-. injection HY as <-. rewrite PD in H1. congruence.
      * exact (H2 i y (ex_intro _ d (conj Q PD)) HY).
    + intros H. f_equal.
      * destruct (p c) eqn:PC; [|reflexivity]. symmetry. exact (H 0 x (ex_intro _ c (conj eq_refl PC)) eq_refl).
      * apply IH. intros i y (d & Q & PD) HY. exact (H (S i) y (ex_intro _ d (conj Q PD)) HY).
Qed.

Lemma replace_survives E p b find s sg : ord_ok (ord_c E) -> re_compile E p = Some find -> in_bounds find ->
  replaced find (fun _ => b) s 0 sg -> ~ deleted_twice sg ->
  survives_when E (ReplaceAwithB p b) (SStr s)
    (in_replaced sg (fun v ls => one_label ls /\ (v = [] -> all_zero ls))).
Proof.
  intros OC HC HB HR HT. apply (rewrites_survives _ _ _ _ _ _ _ (replace_rewrites E p b find s sg OC HC HB HR HT));
    [apply sizes_by_entity|apply back_by_entity|].
  intros w v ls _ L. destruct v as [|c v].
  - cbn [length]. unfold by_entity_mode at 2. cbn [repeat]. unfold by_entity_mode. cbn [filter]. change (mode []) with 0%Z.
    rewrite <- L. split.
    + intros H. assert (Z0 : all_zero ls) by (apply all_zero_repeat; now symmetry). split; [|intros _; exact Z0].
      intros a d Ha Hd. now rewrite (Z0 a Ha), (Z0 d Hd).
    + intros (_ & H). symmetry. apply all_zero_repeat. now apply H.
  - unfold by_entity_mode at 2. rewrite by_entity_mode_repeat by (cbn; lia). split.
    + intros <-. split; [apply one_label_repeat|discriminate].
    + intros (H & _). rewrite <- L. clear L. destruct ls as [|x ls]; [reflexivity|].
      assert (Q : x :: ls = repeat x (length (x :: ls))) by (apply repeat_all; intros y HY; apply H; [exact HY|now left]).
      rewrite Q at 3. f_equal. rewrite Q at 1. destruct (Z.eqb_spec x 0) as [-> |N].
      * replace (filter _ _) with (@nil Z); [reflexivity|]. generalize (length (0%Z :: ls)). clear. intros n.
        induction n as [|n IH]; [reflexivity|]. cbn [repeat filter]. exact IH.
      * replace (filter _ _) with (repeat x (length (x :: ls))); [apply mode_repeat; cbn; lia|].
        apply Z.eqb_neq in N. generalize (length (x :: ls)). clear -N. intros n.
        induction n as [|n IH]; [reflexivity|]. cbn [repeat filter]. rewrite N. cbn [negb]. now rewrite <- IH.
Qed.

Lemma replace_twice_survives E p b find s sg : ord_ok (ord_c E) -> re_compile E p = Some find -> in_bounds find ->
  replaced find (fun _ => b) s 0 sg -> deleted_twice sg -> survives_when E (ReplaceAwithB p b) (SStr s) (fun _ => False).
Proof.
  intros OC HC HB HR HT y a T l. destruct (replace_lost E p b find s sg OC HC HB HR HT) as (a' & T' & _ & A2).
  rewrite T' in T. injection T as <- <-. rewrite survives_one. split; [|tauto].
  intros (m & H1 & H2). exfalso.
  destruct (Nat.eq_dec (length m) (length (news sg))) as [L|L]; [rewrite (A2 m L) in H2; discriminate|].
  destruct (replace_sound E p b find s _ _ OC HC HB T') as (_ & S2 & _). rewrite (S2 m L) in H2. discriminate.
Qed.

Lemma pad_survives E m t l : ord_ok (ord_e E) ->
  survives_when E (Pad m t) (SLst l) (zero_at (fun i => Z.to_nat m <= i)).
Proof.
  intros OE y a T.
  destruct (Z.ltb_spec m 0) as [L|L]; [rewrite pad_negative in T by exact L; discriminate|].
  assert (HL : (Z.of_nat (length l) < 2 ^ 32)%Z \/ Z.of_nat (length l) = m).
  { destruct (Z.ltb_spec (Z.of_nat (length l)) (2 ^ 32)) as [Q|Q]; [now left|].
    destruct (Z.eq_dec (Z.of_nat (length l)) m) as [R|R]; [now right|].
    rewrite pad_too_long in T by assumption. discriminate. }
  revert y a T. apply (maps_survives _ _ _ _ _ _ _ (pad_maps E m t l OE L HL)). intros ls LL. cbn [pseq_length] in LL.
  set (k := Z.to_nat m). rewrite (zero_at_skipn _ ls k) by tauto. rewrite LL.
  destruct (Nat.le_gt_cases k (length l)) as [Q|Q].
  - replace (k - length l) with 0 by lia. cbn [repeat]. rewrite app_nil_r.
    rewrite (firstn_all2 (n := length l) (firstn k ls)) by (rewrite firstn_length; lia).
    rewrite <- (firstn_skipn k ls) at 2. split; [intros H; apply app_inv_head in H; now symmetry|now intros ->].
  - replace (length l - k) with 0 by lia. rewrite (firstn_all2 (n := k) ls) by lia. rewrite (firstn_app_len _ _ _ LL).
    rewrite skipn_all2 by lia. cbn [repeat]. rewrite app_nil_r. tauto.
Qed.

(** ** Tokenizers *)

Lemma tokens_kept (ts : list str) : all_kept ts = kept (map (fun t => (t, Word)) ts).
Proof. unfold all_kept, kept. now rewrite map_map. Qed.

Lemma u32_app l m : u32_labels (l ++ m) <-> u32_labels l /\ u32_labels m.
Proof. apply Forall_app. Qed.

Lemma pieces_tokens (ts : list str) l : (forall t, In t ts -> t <> []) -> length l = length (concat ts) ->
  (pieces_ok (map (fun t => (t, Word)) ts) l <-> u32_labels l /\ in_tokens ts one_label l).
Proof.
  revert l. induction ts as [|t ts IH]; intros l NE L.
  - cbn in *. destruct l; [|discriminate]. split; [|reflexivity]. intros _. split; [constructor|].
    intros [|] ? ? Q; discriminate.
  - cbn [map pieces_ok]. cbn [concat] in L. rewrite app_length in L.
    rewrite IH by (auto using in_cons || (rewrite skipn_length; lia)). clear IH.
    assert (LF : length (firstn (length t) l) = length t) by (rewrite firstn_length; lia).
    rewrite <- (firstn_skipn (length t) l) at 4. rewrite u32_app.
    assert (NT : t <> []) by (apply NE; now left).
    assert (E1 : piece_ok Word (length t) (firstn (length t) l) <-> u32_labels (firstn (length t) l) /\ one_label (firstn (length t) l)).
    { split.
      - intros (x & -> & FX & _). split; [|apply one_label_repeat]. apply Forall_forall. intros y HY.
        apply repeat_spec in HY. subst. exact FX.
      - intros (U & O). exists (mode (firstn (length t) l)). pose proof (one_label_is _ O) as Q. rewrite LF in Q.
        split; [exact Q|]. split; [|discriminate]. unfold u32_labels in U; rewrite Forall_forall in U. apply U.
        destruct (firstn (length t) l) as [|x r]; [destruct t; [congruence|discriminate]|].
        rewrite Q. destruct (length t); [discriminate|]. left. rewrite <- Q. reflexivity. }
    rewrite E1.
    assert (E2 : in_tokens (t :: ts) one_label l <-> one_label (firstn (length t) l) /\ in_tokens ts one_label (skipn (length t) l)).
    { unfold in_tokens. split.
      - intros H. split; [exact (H [] t ts eq_refl)|]. intros ts1 u ts2 Q. specialize (H (t :: ts1) u ts2).
        cbn [app concat] in H. rewrite app_length in H. rewrite skipn_skipn_add. apply H. now rewrite Q.
      - intros (H1 & H2) [|u ts1] w ts2 Q; cbn [app] in Q; injection Q as -> Q.
        + exact H1.
        + cbn [concat]. rewrite app_length, <- skipn_skipn_add. exact (H2 _ _ _ Q). }
    rewrite E2. tauto.
Qed.

Lemma tokens_survive E o s (ts : list str) : tokenizes E o s (all_kept ts) -> (forall t, In t ts -> t <> []) ->
  survives_when E o (SStr s) (fun l => u32_labels l /\ in_tokens ts one_label l).
Proof.
  intros (TX & a & T & (A1 & A2 & A3 & A4) & AF & AB) NE y a' T' l. rewrite T in T'. injection T' as <- <-.
  rewrite survives_one. cbn [pseq_length].
  assert (LT : text_of (all_kept ts) = concat ts) by apply all_kept_text.
  assert (K : length l = length s -> (char_labels (all_kept ts) (token_labels32 (all_kept ts) l) = l <->
     u32_labels l /\ in_tokens ts one_label l)).
  { intros L. rewrite tokens_kept, piece_trip.
    - apply pieces_tokens; [exact NE|]. now rewrite L, <- TX, LT.
    - intros w d I. apply in_map_iff in I. destruct I as (t & Q & I). injection Q as <- <-. now apply NE.
    - rewrite L, <- TX, LT, map_map, map_id. reflexivity. }
  assert (LA : forall l, length l = length s -> length (token_labels32 (all_kept ts) l) = length (tokens_of (all_kept ts))).
  { intros l0 L. clear -ts. rewrite all_kept_tokens. revert l0. induction ts as [|t ts IH]; intros l0; [reflexivity|].
    cbn [all_kept map token_labels32 length]. f_equal. apply IH. }
  assert (UF : u32_labels (token_labels32 (all_kept ts) l)).
  { clear -NE. revert l. induction ts as [|t ts IH]; intros l; [constructor|]. cbn [all_kept map token_labels32].
    constructor; [|apply IH; intros; apply NE; now right].
    destruct (forallb fits (firstn (length t) l)) eqn:Q; [|cbn; lia].
    destruct (firstn (length t) l) as [|x h]; [cbn; lia|]. rewrite forallb_forall in Q.
    apply fits_range, Q, first_mode_In, mode_first_mode. discriminate. }
  split.
  - intros (m & H1 & H2). destruct (Nat.eq_dec (length l) (length s)) as [L|L]; [|rewrite (A2 l L) in H1; discriminate].
    split; [exact L|]. apply K; [exact L|]. rewrite (AF l L) in H1. injection H1 as <-.
    destruct (A3 _ (LA l L) UF) as (Q & _). congruence.
  - intros (L & H). exists (token_labels32 (all_kept ts) l). split; [exact (AF l L)|].
    destruct (A3 _ (LA l L) UF) as (Q & _). rewrite Q. f_equal. now apply K.
Qed.

Lemma custom_survives E ws sh o s ps : ord_ok (ord_c E) -> make_custom (Some ws) sh = Ok o -> munched sh ws s ps ->
  survives_when E o (SStr s) (fun l => u32_labels l /\ in_tokens (map fst ps) one_label l).
Proof.
  intros OC HM HP. apply tokens_survive; [exact (custom_tokenizes E ws sh o s ps OC HM HP)|].
  intros t I. apply in_map_iff in I as (p & <- & I).
  pose proof (munched_nonempty _ _ _ _ HP) as F. rewrite Forall_forall in F. now apply F.
Qed.

Lemma char_survives E s : ord_ok (ord_c E) -> survives_when E CharTokenizer (SStr s) u32_labels.
Proof.
  intros OC. pose proof (char_tokenizes E s OC) as T.
  assert (EP : map (fun c => ([c], true)) s = all_kept (map (fun c => [c]) s)) by (unfold all_kept; now rewrite map_map).
  rewrite EP in T. intros y a TT l. 
  rewrite (tokens_survive E _ s _ T ltac:(intros t I; apply in_map_iff in I as (c & <- & _); discriminate) y a TT l).
  split; [tauto|]. intros (L & U). split; [exact L|]. split; [exact U|].
  intros ts1 t ts2 Q. assert (I : In t (map (fun c => [c]) s)) by (rewrite Q; apply in_or_app; right; now left).
  apply in_map_iff in I as (c & <- & _). cbn [length].
  intros x z HX HZ. destruct (skipn (length (concat ts1)) l) as [|w r]; cbn in HX, HZ; [tauto|].
  destruct HX as [<-|[]], HZ as [<-|[]]. reflexivity.
Qed.

(** ** Lists *)

Lemma subwords_survives E v u m ts outs : ord_ok (ord_e E) -> ~ ((0 <= m)%Z /\ two_empty ts) -> Forall2 (subwords v u m) ts outs ->
  survives_when E (SpanSubwords v u m) (SLst (map ETok ts)) (zero_at (fun i => nth_error outs i = Some [])).
Proof.
  intros OE NT HF. destruct (subwords_maps_all E v u m ts OE NT) as (outs' & HF' & M).
  assert (outs' = outs) as ->.
  { clear -HF HF'. revert outs' HF'. induction HF as [|t o ts outs H1 H2 IH]; intros outs' HF'; inversion HF'; subst; [reflexivity|].
    f_equal; [eapply subwords_det; eauto|now apply IH]. }
  apply (maps_survives _ _ _ _ _ _ _ M). intros l L. cbn [pseq_length] in L. rewrite map_length in L.
  assert (LO : length l = length outs) by (rewrite L; clear -HF; induction HF; cbn; congruence).
  clear -LO. revert l LO. induction outs as [|o outs IH]; intros [|x l] L; try discriminate.
  - split; [intros _ [|i] x Q; discriminate|reflexivity].
  - injection L as L. specialize (IH l L). unfold repeat_each. cbn [combine map fst snd concat gather].
    fold (repeat_each outs l). rewrite firstn_app_len, skipn_app_len by apply repeat_length.
    assert (HX : mode (filter (fun x => negb (x =? 0)%Z) (repeat x (length o))) = x <-> (o = [] -> x = 0%Z)).
    { destruct o as [|d o]; [cbn; split; [intros <-; auto|intros H; symmetry; auto]|]. split; [intros _; discriminate|]. intros _.
      pose proof (by_entity_mode_repeat x (length (d :: o)) 1 ltac:(cbn; lia)) as Q. unfold by_entity_mode in Q. cbn [repeat] in Q.
      now injection Q. }
    split.
    + intros H. injection H as H1 H2. apply IH in H2. intros [|i] y Q HY; cbn [nth_error] in *.
      * injection Q as ->. injection HY as <-. now apply (proj1 HX).
      * exact (H2 i y Q HY).
    + intros H. f_equal; [apply (proj2 HX); intros ->; exact (H 0 x eq_refl eq_refl)|].
      apply IH. intros i y Q HY. exact (H (S i) y Q HY).
Qed.

Lemma subwords_twice_survives E v u m ts : ord_ok (ord_e E) -> (0 <= m)%Z -> two_empty ts ->
  survives_when E (SpanSubwords v u m) (SLst (map ETok ts)) (fun _ => False).
Proof.
  intros OE M T y a H l. rewrite survives_one. split; [|tauto]. intros (k & _ & H2). exfalso.
  destruct (subwords_sound E v u m _ y a OE H) as (_ & S2 & _ & S4 & _).
  destruct (Nat.eq_dec (length k) (pseq_length y)) as [L|L]; [|rewrite (S2 k L) in H2; discriminate].
  destruct (S4 k L ltac:(now left)) as [(N & _)|(_ & Q)]; [|congruence].
  apply N. split; [exact M|]. exists ts. auto.
Qed.

(** ** The others *)

Lemma harmless_survives E o x : python E -> built E o -> harmless o x -> survives_when E o x (fun _ => True).
Proof.
  intros PY B HH y a T l. rewrite survives_one.
  destruct (all_sound E o x y a PY B T) as (S1 & S2 & S3 & S4 & _).
  destruct (op_table E o x y a PY B T) as (_ & _ & T3 & _). specialize (T3 HH).
  split.
  - intros (m & H & _). destruct (Nat.eq_dec (length l) (pseq_length x)) as [L|L]; [auto|rewrite (S1 l L) in H; discriminate].
  - intros (L & _). destruct (S3 l L) as (m & A & LM).
    destruct (S4 m LM) as [(_ & l' & A' & _)|(W & _)].
    + left. destruct o; try reflexivity; destruct HH.
    + exists m. split; [exact A|]. rewrite A'. f_equal. exact (T3 _ _ _ A A').
    + exfalso. destruct o; cbn [deletes_twice harmless] in W, HH; try (now destruct x).
      destruct x as [s|ll]; [exact W|]. destruct W as (_ & ts & -> & TE). cbn [harmless] in HH.
      revert TE. apply no_empty_two. intros t I ->. apply (HH _ eq_refl). now apply (in_map ETok).
Qed.
