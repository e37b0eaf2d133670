(** Operators piece by piece (C97). *)

From Coq Require Import String Ascii Bool.
From Verif Require Import Py PyFacts Edit Labels SpecEdit SpecLabels SpecSeg SpecRuns SpecWords SpecScan SpecOps Ops Json Elements Pipe SpecLaws RegexProofs PatternProofs RunsProofs SegProofs OpProofs StrOpProofs ScanProofs WordProofs TokProofs ListOpProofs OpLaws LawsTok LawsProofs LawsText LawsCommute AlignProofs SettleDatum SpecGlue.
From Coq Require Import List Lia.

(** ** One operator *)

(** Labels of the right number give labels of the right number; the way back may overflow. *)
Definition forth (n : nat) (r : res (list Z)) : Prop := exists m, r = Ok m /\ length m = n.
Definition back (n : nat) (r : res (list Z)) : Prop := forth n r \/ r = Err OverflowErr.
Definition calm (E : env) (x y : pseq) (a : aligner) : Prop :=
  (forall l, length l = pseq_length x -> forth (pseq_length y) (align a l)) /\
  (forall l, length l = pseq_length y -> back (pseq_length x) (align_inverse E a l)).

Definition does (E : env) (o : op) (x y : pseq) (F G : list Z -> res (list Z)) : Prop :=
  exists a, transform_op E o x = Ok (y, a) /\ calm E x y a /\
    (forall l, length l = pseq_length x -> align a l = F l) /\
    (forall l, length l = pseq_length y -> align_inverse E a l = G l).

Lemma does_maps E o x y F G : maps E o any_labels x y F G -> does E o x y (fun l => Ok (F l)) (fun l => Ok (G l)).
Proof.
  intros (a & T & A1 & _ & A2 & _). exists a. split; [exact T|]. split; [|split; intros l HL].
  - split; intros l HL; [|left].
    + destruct (A1 l HL Logic.I). eexists; eauto.
    + destruct (A2 l HL Logic.I). eexists; eauto.
  - now destruct (A1 l HL Logic.I).
  - now destruct (A2 l HL Logic.I).
Qed.

Lemma does_tokenizes E o s ps : tokenizes E o s ps ->
  does E o (SStr s) (SLst (map ETok (tokens_of ps))) (fun l => Ok (token_labels32 ps l)) (back32 (char_labels ps)).
Proof.
  intros (_ & a & T & (_ & _ & G & _) & F & GO). exists a. split; [exact T|].
  assert (GG : forall l, length l = length (tokens_of ps) -> align_inverse E a l = back32 (char_labels ps) l /\
             back (length s) (align_inverse E a l)).
  { intros l HL. unfold back32. destruct (forallb fits l) eqn:Q.
    - apply fits_u32 in Q. destruct (G l HL Q) as (Q1 & Q2). split; [exact Q1|]. left. eexists; eauto.
    - assert (O : align_inverse E a l = Err OverflowErr).
      { apply GO; [exact HL|]. intros U. apply fits_u32 in U. congruence. }
      split; [exact O|now right]. }
  unfold calm. cbn [pseq_length]. rewrite map_length. split; [split|split].
  - intros l HL. exists (token_labels32 ps l). split; [now apply F|apply token_labels32_length].
  - intros l HL. now apply GG.
  - exact F.
  - intros l HL. now apply GG.
Qed.

(** [glued], with what the labels of the parts can give *)
Definition glued2 (E : env) (o : op) (x1 x2 : pseq) : Prop :=
  forall y1 a1 y2 a2, transform_op E o x1 = Ok (y1, a1) -> transform_op E o x2 = Ok (y2, a2) ->
  calm E x1 y1 a1 /\ calm E x2 y2 a2 /\
  exists a, transform_op E o (glue x1 x2) = Ok (glue y1 y2, a) /\
    forall l1 l2,
      (length l1 = pseq_length x1 -> length l2 = pseq_length x2 ->
         align a (l1 ++ l2) = both (align a1 l1) (align a2 l2)) /\
      (length l1 = pseq_length y1 -> length l2 = pseq_length y2 ->
         align_inverse E a (l1 ++ l2) = both (align_inverse E a1 l1) (align_inverse E a2 l2)).

Lemma does_glued E o x1 x2 y1 y2 F1 F2 F G1 G2 G :
  does E o x1 y1 F1 G1 -> does E o x2 y2 F2 G2 -> does E o (glue x1 x2) (glue y1 y2) F G ->
  pseq_length (glue x1 x2) = (pseq_length x1 + pseq_length x2)%nat ->
  pseq_length (glue y1 y2) = (pseq_length y1 + pseq_length y2)%nat ->
  (forall l1 l2, length l1 = pseq_length x1 -> length l2 = pseq_length x2 -> F (l1 ++ l2) = both (F1 l1) (F2 l2)) ->
  (forall l1 l2, length l1 = pseq_length y1 -> length l2 = pseq_length y2 -> G (l1 ++ l2) = both (G1 l1) (G2 l2)) ->
  glued2 E o x1 x2.
Proof.
  intros (a1 & T1 & C1 & A1 & B1) (a2 & T2 & C2 & A2 & B2) (a & T & _ & A & B) LX LY HF HG z1 b1 z2 b2 U1 U2.
  rewrite T1 in U1. rewrite T2 in U2. injection U1 as <- <-. injection U2 as <- <-.
  split; [exact C1|]. split; [exact C2|].
  exists a. split; [exact T|]. intros l1 l2. split; intros H1 H2.
  - rewrite A by (rewrite app_length; lia). rewrite HF, A1, A2 by assumption. reflexivity.
  - rewrite B by (rewrite app_length; lia). rewrite HG, B1, B2 by assumption. reflexivity.
Qed.

Lemma str_length s t : pseq_length (glue (SStr s) (SStr t)) = (pseq_length (SStr s) + pseq_length (SStr t))%nat.
Proof. apply app_length. Qed.
Lemma lst_length l m : pseq_length (glue (SLst l) (SLst m)) = (pseq_length (SLst l) + pseq_length (SLst m))%nat.
Proof. apply app_length. Qed.

(** ** Rewriting piece by piece *)

Lemma relabel_two {A} h (a b : list (seg A)) l m : length l = length (olds a) ->
  relabel h (a ++ b) (l ++ m) = relabel h a l ++ relabel h b m.
Proof.
  intros H. rewrite OpProofs.relabel_app, <- H, firstn_app, skipn_app, Nat.sub_diag, firstn_all, skipn_all.
  cbn [firstn skipn app]. now rewrite app_nil_r.
Qed.

Lemma rewrites_glued E o s t a b c h k :
  rewrites E o s a h k -> rewrites E o t b h k -> rewrites E o (s ++ t) c h k -> same_pieces c (a ++ b) ->
  glued2 E o (SStr s) (SStr t).
Proof.
  intros (O1 & M1) (O2 & M2) (_ & M3) (Q1 & Q2 & Q3).
  apply does_maps in M1, M2, M3. rewrite Q2, news_app in M3.
  change (SStr (s ++ t)) with (glue (SStr s) (SStr t)) in M3.
  change (SStr (news a ++ news b)) with (glue (SStr (news a)) (SStr (news b))) in M3.
  eapply does_glued; [exact M1|exact M2|exact M3|apply str_length|apply str_length|..];
    intros l1 l2 H1 H2; cbn [both pseq_length] in *; f_equal.
  - rewrite (proj1 (Q3 _ _)). apply relabel_two. now rewrite O1.
  - rewrite (proj2 (Q3 _ _)). unfold swap. rewrite map_app. apply relabel_two.
    rewrite H1. symmetry. f_equal. apply swap_olds.
Qed.

Lemma same_glued E o f s t :
  (forall s, maps E o any_labels (SStr s) (SStr (map f s)) keep keep) -> glued2 E o (SStr s) (SStr t).
Proof.
  intros H. pose proof (does_maps _ _ _ _ _ _ (H s)) as M1. pose proof (does_maps _ _ _ _ _ _ (H t)) as M2.
  pose proof (does_maps _ _ _ _ _ _ (H (s ++ t))) as M3. rewrite map_app in M3.
  change (SStr (s ++ t)) with (glue (SStr s) (SStr t)) in M3.
  change (SStr (map f s ++ map f t)) with (glue (SStr (map f s)) (SStr (map f t))) in M3.
  eapply does_glued; [exact M1|exact M2|exact M3|apply str_length|apply str_length|..]; reflexivity.
Qed.

Lemma lower_glued E s t : python E -> glued2 E Lowercase (SStr s) (SStr t).
Proof. intros (HO & _). apply (same_glued E _ lower). intros u. now apply lowercase_maps. Qed.

Lemma spaced_app cls s t : spaced cls (s ++ t) = spaced cls s ++ spaced cls t.
Proof. apply map_app. Qed.

Lemma cjk_glued E s t : python E -> glued2 E AddWhitespaceAroundCJK (SStr s) (SStr t).
Proof.
  intros (HO & _). eapply rewrites_glued; [apply cjk_rewrites, HO..|]. rewrite spaced_app. apply same_pieces_refl.
Qed.
Lemma punct_glued E s t : python E -> glued2 E AddWhitespaceAroundPunctuation (SStr s) (SStr t).
Proof.
  intros (HO & _). eapply rewrites_glued; [apply punct_rewrites, HO..|]. rewrite spaced_app. apply same_pieces_refl.
Qed.

Lemma zero_two p s t l m : length l = length s -> zero_where p (s ++ t) (l ++ m) = zero_where p s l ++ zero_where p t m.
Proof. intros H. unfold zero_where. rewrite combine_two by now symmetry. apply map_app. Qed.

Lemma endpoint_glued E s t : python E -> glued2 E PunctuationExceptEndpointToWhitespace (SStr s) (SStr t).
Proof.
  intros (HO & _). pose proof (does_maps _ _ _ _ _ _ (endpoint_maps E s HO)) as M1.
  pose proof (does_maps _ _ _ _ _ _ (endpoint_maps E t HO)) as M2.
  pose proof (does_maps _ _ _ _ _ _ (endpoint_maps E (s ++ t) HO)) as M3. rewrite map_app in M3.
  change (SStr (s ++ t)) with (glue (SStr s) (SStr t)) in M3.
  match type of M3 with context [SStr (?a ++ ?b)] => change (SStr (a ++ b)) with (glue (SStr a) (SStr b)) in M3 end.
  eapply does_glued; [exact M1|exact M2|exact M3|apply str_length|apply str_length|..];
    intros l1 l2 H1 H2; cbn [both pseq_length] in *; f_equal; apply zero_two; [exact H1|].
  now rewrite map_length in H1.
Qed.

Lemma stripped_app E s t : nfd E (s ++ t) = nfd E s ++ nfd E t -> stripped E (s ++ t) = stripped E s ++ stripped E t.
Proof. intros H. unfold stripped. rewrite H. apply filter_app. Qed.

Lemma accent_glued E s t : python E -> nfd E (s ++ t) = nfd E s ++ nfd E t -> glued2 E StripAccentToken (SStr s) (SStr t).
Proof.
  intros (HO & _) HN. apply stripped_app in HN.
  destruct (accent_maps E s HO) as (S1 & S2). destruct (accent_maps E t HO) as (T1 & T2).
  destruct (accent_maps E (s ++ t) HO) as (U1 & _).
  destruct (Nat.eq_dec (length (stripped E s)) (length s)) as [LS|LS];
    [|intros y1 a1 y2 a2 Q; rewrite (S2 LS) in Q; discriminate].
  destruct (Nat.eq_dec (length (stripped E t)) (length t)) as [LT|LT];
    [|intros y1 a1 y2 a2 _ Q; rewrite (T2 LT) in Q; discriminate].
  specialize (S1 LS). specialize (T1 LT). rewrite HN, !app_length, LS, LT in U1. specialize (U1 eq_refl).
  apply does_maps in S1, T1, U1. change (SStr (s ++ t)) with (glue (SStr s) (SStr t)) in U1.
  change (SStr (stripped E s ++ stripped E t)) with (glue (SStr (stripped E s)) (SStr (stripped E t))) in U1.
  eapply does_glued; [exact S1|exact T1|exact U1|apply str_length|apply str_length|..]; reflexivity.
Qed.

(** ** Runs *)

Lemma wf_semi p rs : wf_runs p rs -> semi p rs.
Proof.
  induction rs as [|[b r] rs IH]; [auto|]. intros (N & A & B & W). cbn [semi]. split; [exact N|]. split; [exact A|].
  split; [|now apply IH]. intros ->. destruct rs as [|[b' r'] rs]; [exact Logic.I|]. cbn in B. now subst b'.
Qed.

Lemma semi_app p a b : semi p a -> semi p b ->
  (forall a' r q b', a = a' ++ [(true, r)] -> b = (true, q) :: b' -> False) -> semi p (a ++ b).
Proof.
  induction a as [|[f r] a IH]; [auto|]. intros (N & A & B & W) SB H. cbn [app semi].
  split; [exact N|]. split; [exact A|]. split.
  - intros ->. destruct a as [|[f' r'] a]; [|exact (B eq_refl)]. cbn [app].
    destruct b as [|[[|] q] b]; try exact Logic.I. now apply (H [] r q b).
  - apply IH; auto. intros a' r0 q b' -> ->. now apply (H ((f, r) :: a') r0 q b').
Qed.

Lemma runs_no_meet p s t : ~ meet p s t -> forall a' r q b', runs p s = a' ++ [(true, r)] ->
  runs p t = (true, q) :: b' -> False.
Proof.
  intros H a' r q b' Q1 Q2.
  pose proof (runs_wf p s) as W1. pose proof (runs_wf p t) as W2.
  pose proof (RegexProofs.runs_concat p s) as C1. pose proof (RegexProofs.runs_concat p t) as C2.
  rewrite Q1 in W1, C1. rewrite Q2 in W2, C2. destruct W2 as (N2 & A2 & _).
  assert (R : r <> [] /\ all_in p true r).
  { clear -W1. induction a' as [|[f x] a' IH]; cbn [app wf_runs] in W1; [destruct W1 as (? & ? & _); auto|].
    apply IH. now destruct W1 as (_ & _ & _ & W1). }
  destruct R as (N1 & A1).
  destruct (exists_last N1) as (r' & c & ->). destruct q as [|d q]; [congruence|].
  apply H. exists (concat (map snd a') ++ r'), c, d, (q ++ concat (map snd b')).
  split; [|split; [|split]].
  - rewrite <- C1, map_app, concat_app. cbn. now rewrite app_nil_r, app_assoc.
  - now rewrite <- C2.
  - unfold all_in in A1. rewrite Forall_forall in A1. apply A1. apply in_or_app. right. now left.
  - now inversion A2.
Qed.

Lemma runs_pieces p choose s t : ~ meet p s t -> same_pieces (seg_runs p choose (s ++ t)) (seg_runs p choose s ++ seg_runs p choose t).
Proof.
  intros H. unfold seg_runs at 2 3. rewrite <- map_app. fold (fine choose (runs p s ++ runs p t)).
  rewrite <- (RegexProofs.runs_concat p s) at 1. rewrite <- (RegexProofs.runs_concat p t) at 1.
  rewrite <- concat_app, <- map_app. apply runs_fine. apply semi_app; [apply wf_semi, runs_wf..|].
  now apply runs_no_meet.
Qed.

Lemma merge_glued E s t : python E -> ~ meet (is_space E) s t -> glued2 E MergeWhiteSpaceCharacters (SStr s) (SStr t).
Proof. intros (HO & _) H. eapply rewrites_glued; [apply merge_rewrites, HO..|]. now apply runs_pieces. Qed.

Lemma number_glued E o s t : python E ->
  In o [IntToken; IntTokenWithSpace; FloatToken; FloatTokenWithSpace; NumTokenWithSpace] ->
  ~ meet (fun c => point c || digit E c) s t -> glued2 E o (SStr s) (SStr t).
Proof.
  intros (HO & _) HI H. cbn [In] in HI. destruct HI as [<-|[<-|[<-|[<-|[<-|[]]]]]].
  - eapply rewrites_glued; [apply int_rewrites, HO..|]. now apply runs_pieces.
  - eapply rewrites_glued; [apply int_space_rewrites, HO..|]. now apply runs_pieces.
  - eapply rewrites_glued; [apply float_rewrites, HO..|]. now apply runs_pieces.
  - eapply rewrites_glued; [apply float_space_rewrites, HO..|]. now apply runs_pieces.
  - eapply rewrites_glued; [apply num_space_rewrites, HO..|]. now apply runs_pieces.
Qed.

(** ** Words *)

Lemma prefix_two w s t : is_prefix w (s ++ t) -> is_prefix w s \/ exists v t', v <> [] /\ w = s ++ v /\ t = v ++ t'.
Proof.
  intros (u & H). revert w H. induction s as [|c s IH]; intros w H.
  - cbn [app] in H. destruct w as [|d w]; [left; exists []; reflexivity|]. right. exists (d :: w), u. repeat split; [discriminate|exact H].
  - destruct w as [|d w]; [left; now exists (c :: s)|]. cbn [app] in H. injection H as <- H.
    destruct (IH w H) as [(x & ->)|(v & t' & N & -> & ->)]; [left; now exists x|]. right. exists v, t'. auto.
Qed.

Lemma prefix_more w s t : is_prefix w s -> is_prefix w (s ++ t).
Proof. intros (u & ->). exists (u ++ t). now rewrite app_assoc. Qed.

Lemma no_straddle ws s t w : ~ straddled ws s t -> s <> [] -> In w ws -> is_prefix w (s ++ t) -> is_prefix w s.
Proof.
  intros H N HI HP. destruct (prefix_two _ _ _ HP) as [Q|(v & t' & NV & -> & ->)]; [exact Q|].
  exfalso. apply H. exists s, v, [], t'. auto.
Qed.

Lemma straddled_tail ws r s t : straddled ws s t -> straddled ws (r ++ s) t.
Proof. intros (u & v & s' & t' & -> & H). exists u, v, (r ++ s'), t'. now rewrite app_assoc. Qed.

Lemma best_two sh ws s t w : ~ straddled ws s t -> s <> [] -> best_word sh ws s w -> best_word sh ws (s ++ t) w.
Proof.
  intros H N. unfold best_word, longest_word, shortest_word.
  destruct sh; intros (HI & NW & HP & HM); (split; [exact HI|]); (split; [exact NW|]); (split; [now apply prefix_more|]);
    intros w' HI' NW' HP'; apply HM; auto; eapply no_straddle; eauto.
Qed.

Lemma munched_two sh ws s t ps qs : ~ straddled ws s t -> munched sh ws s ps -> munched sh ws t qs ->
  munched sh ws (s ++ t) (ps ++ qs).
Proof.
  intros H P Q. revert H. induction P as [|w rest ps B P IH|c rest ps B P IH]; intros H; [exact Q| |].
  - assert (N : w <> []) by (destruct sh; destruct B as (_ & N & _); exact N).
    assert (N' : w ++ rest <> []) by (destruct w; [congruence|discriminate]).
    cbn [app]. rewrite <- app_assoc. constructor.
    + rewrite app_assoc. now apply best_two.
    + apply IH. intros S'. apply H. now apply straddled_tail.
  - cbn [app]. constructor.
    + intros w HI N HP. apply (B w HI N). change (c :: rest ++ t) with ((c :: rest) ++ t) in HP.
      eapply no_straddle; eauto. discriminate.
    + apply IH. intros S'. apply H. now apply (straddled_tail ws [c]).
Qed.

Lemma stop_glued E s t : python E -> ~ straddled stopword_set s t -> glued2 E StopwordsToWhitespace (SStr s) (SStr t).
Proof.
  intros (HO & _) H. destruct (stop_rewrites E s HO) as (ps & P & R1). destruct (stop_rewrites E t HO) as (qs & Q & R2).
  destruct (stop_rewrites E (s ++ t) HO) as (rs & R & R3).
  rewrite (munched_unique _ _ _ _ _ R (munched_two _ _ _ _ _ _ H P Q)) in R3.
  eapply rewrites_glued; [exact R1|exact R2|exact R3|]. unfold stop_spaced. rewrite map_app. apply same_pieces_refl.
Qed.

Lemma wordn_glued E o ws sh s t : python E -> make_wordn (Some ws) sh = Ok o -> ~ straddled ws s t ->
  glued2 E o (SStr s) (SStr t).
Proof.
  intros (HO & _) HM H. unfold make_wordn in HM. pose proof (make_trie_spec (Some ws)) as HT.
  destruct ws as [|w0 ws0]; [rewrite HT in HM; discriminate|]. set (ws := w0 :: ws0) in *.
  destruct HT as [(_ & tr & ET & HH)|(_ & ET)]; rewrite ET in HM; [|discriminate].
  cbn [bind] in HM. injection HM as <-.
  destruct (wordn_rewrites E tr ws sh s HO HH) as (ps & P & R1).
  destruct (wordn_rewrites E tr ws sh t HO HH) as (qs & Q & R2).
  destruct (wordn_rewrites E tr ws sh (s ++ t) HO HH) as (rs & R & R3).
  rewrite (munched_unique _ _ _ _ _ R (munched_two _ _ _ _ _ _ H P Q)) in R3.
  eapply rewrites_glued; [exact R1|exact R2|exact R3|]. unfold word_spaced. rewrite map_app. apply same_pieces_refl.
Qed.

(** ** Tokens *)

Lemma tokens_two ps qs : tokens_of (ps ++ qs) = tokens_of ps ++ tokens_of qs.
Proof. unfold tokens_of. now rewrite filter_app, map_app. Qed.

Lemma token_labels_two ps qs : forall l m, length l = length (text_of ps) ->
  token_labels32 (ps ++ qs) (l ++ m) = token_labels32 ps l ++ token_labels32 qs m.
Proof.
  induction ps as [|[w b] ps IH]; intros l m H; [destruct l; [reflexivity|discriminate]|].
  unfold text_of in H. cbn [map concat fst] in H. rewrite app_length in H. fold (text_of ps) in H.
  cbn [app token_labels32]. rewrite firstn_app, skipn_app. replace (length w - length l)%nat with 0%nat by lia.
  cbn [firstn skipn]. rewrite app_nil_r, IH by (rewrite skipn_length; lia). now destruct b.
Qed.

Lemma char_labels_two ps qs : forall l m, length l = length (tokens_of ps) ->
  char_labels (ps ++ qs) (l ++ m) = char_labels ps l ++ char_labels qs m.
Proof.
  induction ps as [|[w [|]] ps IH]; intros l m H; [destruct l; [reflexivity|discriminate]| |].
  - destruct l as [|x l]; [discriminate|]. unfold tokens_of in H. cbn in H. cbn [app char_labels hd tl].
    rewrite IH by (unfold tokens_of; lia). now rewrite app_assoc.
  - cbn [app char_labels]. rewrite (IH l m H). now rewrite app_assoc.
Qed.

Lemma back32_two (G G1 G2 : list Z -> list Z) l m : G (l ++ m) = G1 l ++ G2 m ->
  back32 G (l ++ m) = both (back32 G1 l) (back32 G2 m).
Proof. intros H. unfold back32. rewrite forallb_app. destruct (forallb fits l), (forallb fits m); cbn [both andb]; congruence. Qed.

Lemma tokenizes_glued E o s t ps qs :
  tokenizes E o s ps -> tokenizes E o t qs -> tokenizes E o (s ++ t) (ps ++ qs) -> glued2 E o (SStr s) (SStr t).
Proof.
  intros T1 T2 T3. destruct (proj1 T1). destruct (proj1 T2). apply does_tokenizes in T1, T2, T3.
  rewrite tokens_two, map_app in T3.
  change (SStr (text_of ps ++ text_of qs)) with (glue (SStr (text_of ps)) (SStr (text_of qs))) in T3.
  match type of T3 with context [SLst (?a ++ ?b)] => change (SLst (a ++ b)) with (glue (SLst a) (SLst b)) in T3 end.
  eapply does_glued; [exact T1|exact T2|exact T3|apply str_length|apply lst_length|..];
    intros l1 l2 H1 H2; cbn [pseq_length] in *.
  - cbn [both]. f_equal. now apply token_labels_two.
  - rewrite map_length in H1. apply back32_two. now apply char_labels_two.
Qed.

Lemma char_glued E s t : python E -> glued2 E CharTokenizer (SStr s) (SStr t).
Proof.
  intros (HO & _). eapply tokenizes_glued; [apply char_tokenizes, HO..|]. rewrite <- map_app. now apply char_tokenizes.
Qed.

Lemma custom_glued E o ws sh s t : python E -> make_custom (Some ws) sh = Ok o -> ~ straddled ws s t ->
  glued2 E o (SStr s) (SStr t).
Proof.
  intros (HO & _) HM H. destruct (munched_exists sh ws s) as (ps & P). destruct (munched_exists sh ws t) as (qs & Q).
  eapply tokenizes_glued; [eapply custom_tokenizes; eauto|eapply custom_tokenizes; eauto|].
  unfold all_kept. rewrite <- map_app, <- map_app. eapply custom_tokenizes; eauto. now apply munched_two.
Qed.

(** Cutting by kinds. *)

Fixpoint open {A} (k : A -> kind) (b : bool) (s : list A) : bool :=
  match s with [] => b | c :: s => open k (match k c with Word => true | _ => false end) s end.

Lemma open_last {A} (k : A -> kind) s : forall b c, open k b (s ++ [c]) = match k c with Word => true | _ => false end.
Proof. induction s as [|d s IH]; intros b c; [reflexivity|]. cbn [app open]. apply IH. Qed.

Lemma open_meet k s t : ~ meet (wordy k) s t -> open k false s = false \/ LawsTok.no_word k t.
Proof.
  intros H. destruct t as [|d t]; [right; exact Logic.I|]. destruct s as [|c s _] using rev_ind; [left; reflexivity|].
  rewrite open_last. cbn [LawsTok.no_word]. destruct (k c) eqn:K; auto. destruct (k d) eqn:D; [right; discriminate..|].
  exfalso. apply H. exists s, c, d, t. unfold wordy. now rewrite K, D.
Qed.

Lemma open_combine (k : Z -> kind) s : forall b (l : list Z), length l = length s ->
  open (fun cx : Z * Z => k (fst cx)) b (combine s l) = open k b s.
Proof. induction s as [|c s IH]; intros b [|x l] H; try discriminate; [reflexivity|]. cbn [combine open fst]. apply IH. now injection H. Qed.

Lemma no_word_combine (k : Z -> kind) t (l : list Z) : LawsTok.no_word k t -> LawsTok.no_word (fun cx : Z * Z => k (fst cx)) (combine t l).
Proof. destruct t as [|c t], l as [|x l]; intros H; exact H || exact Logic.I. Qed.

Lemma tk_two {A} (k : A -> kind) s t : forall cur,
  open k (match cur with [] => false | _ => true end) s = false \/ LawsTok.no_word k t ->
  tk k cur (s ++ t) = tk k cur s ++ tk k [] t.
Proof.
  induction s as [|c s IH]; intros cur H.
  - cbn [app tk]. destruct H as [H|H]; [|now apply tk_close]. cbn [open] in H. destruct cur; [reflexivity|discriminate].
  - cbn [app tk]. cbn [open] in H. destruct (k c).
    + rewrite (IH [] H). now rewrite app_assoc.
    + rewrite (IH [] H). rewrite <- app_assoc. reflexivity.
    + apply IH. destruct cur; exact H.
Qed.

Lemma chlab_two k s t : forall cur w l m,
  open k (match cur with None => false | _ => true end) s = false \/ LawsTok.no_word k t ->
  (match cur with None => w = [] | Some _ => w <> [] end) ->
  length (tk k w s) = (length l + match cur with None => 0 | Some _ => 1 end)%nat ->
  chlab k cur (s ++ t) (l ++ m) = chlab k cur s l ++ chlab k None t m.
Proof.
  induction s as [|c s IH]; intros cur w l m H W L.
  - cbn [app chlab]. assert (l = []) as ->.
    { destruct l; [reflexivity|]. cbn [tk] in L. unfold flush in L. destruct cur, w; cbn in L; congruence || lia. }
    cbn [app]. destruct H as [H|H]; [|now apply chlab_close]. cbn [open] in H. destruct cur; [discriminate|reflexivity].
  - cbn [app chlab tk open] in *. destruct (k c).
    + cbn [app]. f_equal. apply (IH None []); auto.
      rewrite app_length in L. destruct cur, w; cbn [flush length] in L; congruence || lia.
    + rewrite app_length in L. cbn [length] in L.
      destruct l as [|x l]; [destruct cur, w; cbn [flush length] in L; congruence || lia|].
      cbn [app hd tl]. f_equal. apply (IH None []); auto. destruct cur, w; cbn [flush length] in L; congruence || lia.
    + destruct cur as [x|].
      * cbn [app]. f_equal. apply (IH (Some x) (w ++ [c])); auto. now destruct w.
      * subst w. cbn [app] in L.
        assert (NE : forall u v, v <> [] -> (1 <= length (tk k v u))%nat).
        { clear. induction u as [|c u IH]; intros v N; cbn [tk].
          - destruct v; [congruence|]. cbn. lia.
          - destruct (k c); [destruct v; [congruence|]; cbn; lia|destruct v; [congruence|]; cbn; lia|].
            apply IH. now destruct v. }
        specialize (NE s [c] ltac:(discriminate)). destruct l as [|x l]; [cbn in L; lia|].
        cbn [app hd tl]. f_equal. apply (IH (Some x) [c]); auto; [discriminate|]. cbn [length] in L. lia.
Qed.

Lemma does_cut E o k s : (forall ps, cut k s ps -> tokenizes E o s (kept ps)) ->
  does E o (SStr s) (SLst (map ETok (tk k [] s))) (fun l => Ok (tok_fwd k s l)) (back32 (chlab k None s)).
Proof.
  intros H. pose proof (cut_by_cut k s) as C. specialize (H _ C). apply does_tokenizes in H.
  rewrite (cut_tokens_tk k s _ C) in H. destruct H as (a & T & C2 & F & G). exists a. split; [exact T|]. split; [exact C2|]. split; intros l HL.
  - rewrite F by exact HL. f_equal. apply (cut_labels k s _ l C HL).
  - rewrite G by exact HL. unfold back32. now rewrite (cut_back_labels k s _ l C).
Qed.

Lemma cut_glued E o k s t : (forall s ps, cut k s ps -> tokenizes E o s (kept ps)) -> ~ meet (wordy k) s t ->
  glued2 E o (SStr s) (SStr t).
Proof.
  intros H M. pose proof (does_cut E o k s (H s)) as T1. pose proof (does_cut E o k t (H t)) as T2.
  pose proof (does_cut E o k (s ++ t) (H (s ++ t))) as T3. apply open_meet in M.
  rewrite (tk_two k s t []) in T3 by exact M. rewrite map_app in T3.
  change (SStr (s ++ t)) with (glue (SStr s) (SStr t)) in T3.
  match type of T3 with context [SLst (?a ++ ?b)] => change (SLst (a ++ b)) with (glue (SLst a) (SLst b)) in T3 end.
  eapply does_glued; [exact T1|exact T2|exact T3|apply str_length|apply lst_length|..];
    intros l1 l2 H1 H2; cbn [pseq_length] in *.
  - cbn [both]. f_equal. unfold tok_fwd. rewrite combine_two by now symmetry. rewrite <- map_app. f_equal.
    apply tk_two. rewrite open_combine by exact H1. destruct M as [M|M]; [left; exact M|right; now apply no_word_combine].
  - rewrite map_length in H1. apply back32_two. apply (chlab_two k s t None []); auto. lia.
Qed.

Lemma kinds_cut E o k : python E ->
  In (o, k) [(WhiteSpaceTokenizer, by_space E); (EngTokenizer, by_punct E); (ZhCharTokenizer, by_punct_cjk E)] ->
  forall s ps, cut k s ps -> tokenizes E o s (kept ps).
Proof.
  intros (HO & _ & HS) HI s ps C. cbn [In] in HI. destruct HI as [Q|[Q|[Q|[]]]]; injection Q as <- <-.
  - now apply ws_tokenizes.
  - now apply eng_tokenizes.
  - now apply zh_tokenizes.
Qed.

(** ** Strip *)

Lemma strip_all p s : Forall (fun c => p c = true) s -> strip p s = [] /\ lead p s = length s.
Proof.
  intros H. assert (Q : lstrip p s = []).
  { unfold lstrip. rewrite <- (app_nil_r s). rewrite drop_while_all by exact H. reflexivity. }
  unfold strip, lead. rewrite Q. split; [reflexivity|]. cbn [length]. lia.
Qed.

Definition trimmed (p : Z -> bool) (s w1 m w2 : str) : Prop :=
  s = w1 ++ m ++ w2 /\ all_in p true w1 /\ all_in p true w2 /\ (m = [] -> w2 = []) /\
  (forall c, nth_error m 0 = Some c -> p c = false) /\ (forall c, nth_error (rev m) 0 = Some c -> p c = false).

Lemma trimmed_strip p s w1 m w2 : trimmed p s w1 m w2 -> strip p s = m /\ lead p s = length w1.
Proof.
  intros (ES & A1 & A2 & H0 & H1 & H2). pose proof (lstrip_split p s w1 m w2 ES A1 H0 H1) as EL. split.
  - unfold strip. rewrite EL. unfold rstrip. rewrite rev_app_distr, drop_while_all.
    + rewrite drop_while_none by exact H2. apply rev_involutive.
    + apply Forall_rev. exact A2.
  - unfold lead. rewrite EL, ES, !app_length. lia.
Qed.

Lemma trimmed_exists p s : exists w1 m w2, trimmed p s w1 m w2.
Proof. destruct (strip_split p s) as (w1 & w2 & H). exists w1, (strip p s), w2. exact H. Qed.

Lemma does_strip E s w1 m w2 : python E -> trimmed (is_space E) s w1 m w2 ->
  does E StripWhiteSpaceCharacters (SStr s) (SStr m) (fun l => Ok (firstn (length m) (skipn (length w1) l)))
    (fun l => Ok (repeat 0%Z (length w1) ++ l ++ repeat 0%Z (length w2))).
Proof.
  intros (HO & _) T. pose proof (does_maps _ _ _ _ _ _ (strip_maps E s HO)) as M.
  destruct (trimmed_strip _ _ _ _ _ T) as (E1 & E2). rewrite E1, E2 in M. cbn beta in M.
  destruct T as (ES & _). replace (length s - length w1 - length m)%nat with (length w2) in M; [exact M|].
  rewrite ES, !app_length. lia.
Qed.

Lemma strip_three E s t w1 m w2 u1 n u2 v1 q v2 : python E ->
  trimmed (is_space E) s w1 m w2 -> trimmed (is_space E) t u1 n u2 -> trimmed (is_space E) (s ++ t) v1 q v2 ->
  q = m ++ n ->
  (forall l1 l2 : list Z, length l1 = length s -> length l2 = length t ->
     firstn (length q) (skipn (length v1) (l1 ++ l2)) =
     firstn (length m) (skipn (length w1) l1) ++ firstn (length n) (skipn (length u1) l2)) ->
  (forall l1 l2 : list Z, length l1 = length m -> length l2 = length n ->
     repeat 0%Z (length v1) ++ (l1 ++ l2) ++ repeat 0%Z (length v2) =
     (repeat 0%Z (length w1) ++ l1 ++ repeat 0%Z (length w2)) ++ repeat 0%Z (length u1) ++ l2 ++ repeat 0%Z (length u2)) ->
  glued2 E StripWhiteSpaceCharacters (SStr s) (SStr t).
Proof.
  intros PY T1 T2 T3 -> HF HG. apply (does_strip E _ _ _ _ PY) in T1, T2, T3.
  change (SStr (s ++ t)) with (glue (SStr s) (SStr t)) in T3. change (SStr (m ++ n)) with (glue (SStr m) (SStr n)) in T3.
  eapply does_glued; [exact T1|exact T2|exact T3|apply str_length|apply str_length|..];
    intros l1 l2 H1 H2; cbn [both pseq_length] in *; f_equal; auto.
Qed.

Lemma strip_glued E s t : python E ->
  Forall (fun c => is_space E c = true) s \/ Forall (fun c => is_space E c = true) t \/
  meet (fun c => negb (is_space E c)) s t -> glued2 E StripWhiteSpaceCharacters (SStr s) (SStr t).
Proof.
  intros PY H. destruct (trimmed_exists (is_space E) s) as (w1 & m & w2 & T1).
  destruct (trimmed_exists (is_space E) t) as (u1 & n & u2 & T2).
  assert (LS : length s = (length w1 + (length m + length w2))%nat) by (destruct T1 as (-> & _); now rewrite !app_length).
  assert (LT : length t = (length u1 + (length n + length u2))%nat) by (destruct T2 as (-> & _); now rewrite !app_length).
  destruct m as [|c0 m0].
  { (* whitespace first *)
    destruct T1 as (ES & A1 & _ & H0 & _). rewrite (H0 eq_refl) in *. cbn [app] in ES. rewrite app_nil_r in ES. subst w1.
    eapply (strip_three E s t s [] [] u1 n u2 (s ++ u1) n u2 PY).
    - repeat split; auto; try constructor; try discriminate. now rewrite app_nil_r.
    - exact T2.
    - destruct T2 as (ET & B1 & B2 & B0 & B3 & B4). repeat split; auto.
      + rewrite ET at 1. now rewrite <- app_assoc.
      + apply Forall_app. split; assumption.
    - reflexivity.
    - intros l1 l2 L1 L2. rewrite app_length, skipn_app, <- L1. rewrite skipn_all2 by lia.
      cbn [length firstn app]. f_equal. f_equal. lia.
    - intros [|] l2 L1 L2; [|discriminate]. cbn [length repeat app]. rewrite app_length, repeat_app, app_nil_r. now rewrite <- app_assoc. }
  destruct n as [|d0 n0].
  { destruct T2 as (ET & B1 & _ & B0 & _). rewrite (B0 eq_refl) in *. cbn [app] in ET. rewrite app_nil_r in ET. subst u1.
    eapply (strip_three E s t w1 (c0 :: m0) w2 t [] [] w1 (c0 :: m0) (w2 ++ t) PY).
    - exact T1.
    - repeat split; auto; try constructor; try discriminate. now rewrite app_nil_r.
    - destruct T1 as (ES & A1 & A2 & A0 & A3 & A4). repeat split; auto; try discriminate.
      + rewrite ES at 1. now rewrite <- !app_assoc.
      + apply Forall_app. split; assumption.
    - now rewrite app_nil_r.
    - intros l1 l2 L1 L2. rewrite skipn_app, firstn_app. rewrite skipn_length.
      replace (length (c0 :: m0) - (length l1 - length w1))%nat with 0%nat by lia. reflexivity.
    - intros l1 [|] L1 L2; [|discriminate]. cbn [length repeat app]. rewrite app_length, repeat_app, !app_nil_r, <- !app_assoc. reflexivity. }
  assert (HM : meet (fun c => negb (is_space E c)) s t).
  { destruct H as [H|[H|H]]; [exfalso|exfalso|exact H].
    - destruct T1 as (ES & _ & _ & _ & A3 & _). rewrite ES in H. rewrite !Forall_app in H. destruct H as (_ & H & _).
      inversion H; subst. specialize (A3 c0 eq_refl). congruence.
    - destruct T2 as (ET & _ & _ & _ & B3 & _). rewrite ET in H. rewrite !Forall_app in H. destruct H as (_ & H & _).
      inversion H; subst. specialize (B3 d0 eq_refl). congruence. }
  destruct HM as (s' & c & d & t' & QS & QT & NC & ND).
  assert (W2 : w2 = []).
  { destruct w2 as [|x w2 _] using rev_ind; [reflexivity|]. exfalso. destruct T1 as (ES & _ & A2 & _).
    rewrite QS in ES. rewrite !app_assoc in ES. apply app_inj_tail in ES. destruct ES as (_ & <-).
    unfold all_in in A2. rewrite Forall_app in A2. destruct A2 as (_ & A2). inversion A2; subst.
    match goal with Z : is_space E c = true |- _ => now rewrite Z in NC end. }
  assert (U1 : u1 = []).
  { destruct u1 as [|x u1]; [reflexivity|]. exfalso. destruct T2 as (ET & B1 & _). rewrite QT in ET. injection ET as <- _.
    inversion B1; subst. match goal with Z : is_space E d = true |- _ => now rewrite Z in ND end. }
  subst w2 u1.
  eapply (strip_three E s t w1 (c0 :: m0) [] [] (d0 :: n0) u2 w1 ((c0 :: m0) ++ d0 :: n0) u2 PY).
  - exact T1.
  - exact T2.
  - destruct T1 as (ES & A1 & A2 & A0 & A3 & A4). destruct T2 as (ET & B1 & B2 & B0 & B3 & B4).
    repeat split; auto; try discriminate.
    + rewrite ES, ET at 1. rewrite app_nil_r. cbn [app]. now rewrite <- !app_assoc.
    + intros x Q. apply B4. change (nth_error (rev ((c0 :: m0) ++ d0 :: n0)) 0 = Some x) in Q. rewrite rev_app_distr in Q.
      destruct (rev (d0 :: n0)) as [|y r] eqn:R; [apply (f_equal (@length Z)) in R; rewrite rev_length in R; discriminate|].
      cbn [app nth_error] in *. exact Q.
  - reflexivity.
  - intros l1 l2 L1 L2. cbn [length] in LS. rewrite app_length, skipn_app. cbn [skipn].
    replace (length w1 - length l1)%nat with 0%nat by lia. cbn [skipn].
    rewrite firstn_app, skipn_length.
    replace (length (c0 :: m0) + length (d0 :: n0) - (length l1 - length w1))%nat with (length (d0 :: n0)) by (cbn [length]; lia).
    f_equal. rewrite !firstn_all2; [reflexivity| |]; rewrite skipn_length; cbn [length]; lia.
  - intros l1 l2 L1 L2. cbn [length repeat app]. rewrite app_nil_r, <- !app_assoc. reflexivity.
Qed.

(** ** Lists *)

Lemma null_glued E o newv l m : python E ->
  (forall l, transform_op E o (SLst l) =
    (r <- lst_result_null l (elem_group E newv l) ;;
     _ <- guard (seqtype_eqb (type_of (fst r)) TList) TypeErr ;; Ok r)) ->
  (forall x v, newv x = Ok (Some v) -> exists z, v = [z]) ->
  glued2 E o (SLst l) (SLst m).
Proof.
  intros (_ & HO & _) HT HV y1 a1 y2 a2 T1 T2.
  assert (HI : forall u y a, transform_op E o (SLst u) = Ok (y, a) -> forall x, In x u -> exists v, newv x = Ok v).
  { intros u y a H. rewrite HT in H. unfold lst_result_null, elem_group in H.
    destruct (elem_edits newv 0 u []) as [g|] eqn:EG; [|discriminate]. eapply elem_edits_inv; eauto. }
  pose (f := fun x => match newv x with Ok (Some [z]) => z | _ => x end).
  assert (M : forall u, (forall x, In x u -> exists v, newv x = Ok v) ->
            does E o (SLst u) (SLst (map f u)) (fun l => Ok (keep l)) (fun l => Ok (keep l))).
  { intros u HU. apply does_maps, (null_maps E o newv); auto. intros x HX. destruct (HU x HX) as (v & EV).
    destruct v as [v|].
    - destruct (HV x v EV) as (z & ->). exists true. split; [|discriminate]. unfold f. now rewrite EV.
    - exists false. split; [exact EV|]. unfold f. now rewrite EV. }
  pose proof (M l (HI _ _ _ T1)) as M1. pose proof (M m (HI _ _ _ T2)) as M2.
  assert (M3 : does E o (SLst (l ++ m)) (SLst (map f (l ++ m))) (fun l => Ok (keep l)) (fun l => Ok (keep l))).
  { apply M. intros x HX. apply in_app_or in HX. destruct HX as [HX|HX]; [exact (HI _ _ _ T1 x HX)|exact (HI _ _ _ T2 x HX)]. }
  rewrite map_app in M3. change (SLst (l ++ m)) with (glue (SLst l) (SLst m)) in M3.
  change (SLst (map f l ++ map f m)) with (glue (SLst (map f l)) (SLst (map f m))) in M3.
  revert y1 a1 y2 a2 T1 T2. change (glued2 E o (SLst l) (SLst m)).
  eapply does_glued; [exact M1|exact M2|exact M3|apply lst_length|apply lst_length|..]; reflexivity.
Qed.

Lemma elements_glued E o l m : python E ->
  (exists tok, o = PureNum2Token tok) \/ (exists d unk, o = Token2Index d unk) \/
  (exists d, o = Token2IndexwithHash d) -> glued2 E o (SLst l) (SLst m).
Proof.
  intros PY [(tok & ->)|[(d & unk & ->)|(d & ->)]].
  - apply (null_glued E _ (purenum_newv E tok)); auto. intros x v. unfold purenum_newv.
    destruct x; repeat match goal with |- context [match ?b with _ => _ end] => destruct b end;
      try discriminate; intros [= <-]; eauto.
  - apply (null_glued E _ (index_newv d unk)); auto. intros x v. unfold index_newv, bind.
    destruct x; repeat match goal with |- context [match ?b with _ => _ end] => destruct b end;
      try discriminate; intros [= <-]; eauto.
  - apply (null_glued E _ (hash_newv d)); auto. intros x v. unfold hash_newv, bind.
    destruct x; repeat match goal with |- context [match ?b with _ => _ end] => destruct b end;
      try discriminate; intros [= <-]; eauto.
Qed.

Lemma two_empty_parts ts us : ~ two_empty (ts ++ us) -> ~ two_empty ts /\ ~ two_empty us.
Proof.
  induction ts as [|t ts IH]; intros H; [split; [auto|exact H]|].
  destruct IH as (I1 & I2); [intros Q; apply H; now right|]. split; [|exact I2].
  intros [(-> & Q)|Q]; [|now apply I1]. apply H. left. split; [reflexivity|].
  destruct ts; [discriminate|exact Q].
Qed.

Lemma repeat_two (outs outs' : list (list elem)) l m : length l = length outs ->
  repeat_each (outs ++ outs') (l ++ m) = repeat_each outs l ++ repeat_each outs' m.
Proof. intros H. unfold repeat_each. rewrite combine_two by now symmetry. now rewrite map_app, concat_app. Qed.

Lemma gather_two (outs outs' : list (list elem)) : forall l m, length l = length (concat outs) ->
  gather (outs ++ outs') (l ++ m) = gather outs l ++ gather outs' m.
Proof.
  induction outs as [|o outs IH]; intros l m H; [destruct l; [reflexivity|discriminate]|].
  cbn [concat] in H. rewrite app_length in H. cbn [app gather].
  rewrite firstn_app, skipn_app. replace (length o - length l)%nat with 0%nat by lia.
  cbn [firstn skipn]. rewrite app_nil_r, IH by (rewrite skipn_length; lia). reflexivity.
Qed.

Lemma Forall2_len {A B} (R : A -> B -> Prop) l m : Forall2 R l m -> length l = length m.
Proof. induction 1; cbn; congruence. Qed.

Lemma subwords_fun vocab unk maxlen t o o' : subwords vocab unk maxlen t o -> subwords vocab unk maxlen t o' -> o = o'.
Proof.
  intros [(H1 & ps & P & ->)|(H1 & ->)] [(H2 & qs & Q & ->)|(H2 & ->)].
  - now rewrite (splits_unique _ _ _ _ _ P Q).
  - destruct H2 as [H2|H2]; [lia|]. exfalso. eauto.
  - destruct H1 as [H1|H1]; [lia|]. exfalso. eauto.
  - reflexivity.
Qed.

Lemma Forall2_fun {A B} (R : A -> B -> Prop) : (forall a b c, R a b -> R a c -> b = c) ->
  forall l m n, Forall2 R l m -> Forall2 R l n -> m = n.
Proof.
  intros H l m n F. revert n. induction F as [|a b l m HR F IH]; intros n G; inversion G; subst; [reflexivity|].
  f_equal; eauto.
Qed.

Lemma subwords_glued E vocab unk maxlen ts us : python E -> ~ two_empty (ts ++ us) ->
  glued2 E (SpanSubwords vocab unk maxlen) (SLst (map ETok ts)) (SLst (map ETok us)).
Proof.
  intros (_ & HO & _) H. destruct (two_empty_parts _ _ H) as (H1 & H2).
  destruct (subwords_maps E vocab unk maxlen ts HO H1) as (o1 & S1 & M1).
  destruct (subwords_maps E vocab unk maxlen us HO H2) as (o2 & S2 & M2).
  destruct (subwords_maps E vocab unk maxlen (ts ++ us) HO H) as (o3 & S3 & M3).
  pose proof (Forall2_fun _ (subwords_fun vocab unk maxlen) _ _ _ S3 (Forall2_app S1 S2)) as ->.
  apply does_maps in M1, M2, M3. rewrite map_app, concat_app in M3.
  change (SLst (map ETok ts ++ map ETok us)) with (glue (SLst (map ETok ts)) (SLst (map ETok us))) in M3.
  change (SLst (concat o1 ++ concat o2)) with (glue (SLst (concat o1)) (SLst (concat o2))) in M3.
  eapply does_glued; [exact M1|exact M2|exact M3|apply lst_length|apply lst_length|..];
    intros l1 l2 L1 L2; cbn [both pseq_length] in *; f_equal.
  - apply repeat_two. rewrite L1, map_length. now apply (Forall2_len _ _ _ S1).
  - now apply gather_two.
Qed.

(** ** All of them *)

(** ** ReplaceAwithB *)

Lemma same_pieces_nil sg : same_pieces sg (([], None) :: sg).
Proof.
  split; [reflexivity|]. split; [reflexivity|]. intros h l. split; reflexivity.
Qed.

Lemma replaced_right find newv s t : (forall p, p < length t -> find (s ++ t) (length s + p) = right_by (length s) (find t p)) ->
  forall p sg, p <= length t -> in_bounds find -> replaced find newv t p sg -> replaced find newv (s ++ t) (length s + p) sg.
Proof.
  intros H p sg HP HB HR. induction HR as [p HE|p i e sg HLt HF HR IH].
  - replace (skipn p t) with (skipn (length s + p) (s ++ t)).
    2:{ rewrite skipn_app, skipn_all2 by lia. now replace (length s + p - length s) with p by lia. }
    apply rep_end. rewrite app_length. destruct (Nat.eq_dec p (length t)) as [->|N]; [now left|right].
    destruct HE as [HE|HE]; [congruence|]. rewrite H by lia. now rewrite HE.
  - pose proof (HB t p i e HP HF) as (B1 & B2 & B3).
    assert (SK : forall j, skipn (length s + j) (s ++ t) = skipn j t).
    { intros j. rewrite skipn_app, skipn_all2 by lia. now replace (length s + j - length s) with j by lia. }
    replace (i - p) with ((length s + i) - (length s + p)) by lia. rewrite <- (SK p).
    replace (e - i) with ((length s + e) - (length s + i)) by lia. rewrite <- (SK i).
    apply rep_match; [rewrite app_length; lia|rewrite H by lia; now rewrite HF|now apply IH].
Qed.

Lemma replaced_two find newv s t sg2 : in_bounds find -> local_search find s t -> replaced find newv t 0 sg2 ->
  forall p sg1, p <= length s -> replaced find newv s p sg1 ->
  exists sg, replaced find newv (s ++ t) p sg /\ same_pieces sg (sg1 ++ sg2).
Proof.
  intros HB (L1 & L2) R2 p sg1 HP R1. induction R1 as [p HE|p i e sg1 HLt HF R1 IH].
  - destruct (Nat.eq_dec p (length s)) as [->|N].
    + exists sg2. rewrite skipn_all. cbn [app]. split; [|apply same_pieces_nil].
      pose proof (replaced_right find newv s t L2 0 sg2 ltac:(lia) HB R2) as H. now rewrite Nat.add_0_r in H.
    + assert (SP : skipn p (s ++ t) = skipn p s ++ t).
      { rewrite skipn_app. now replace (p - length s) with 0 by lia. }
      destruct HE as [HE|HE]; [congruence|]. pose proof (L1 p ltac:(lia)) as F. rewrite HE in F.
      inversion R2 as [q HE2|q i e sg HLt HF R3]; subst; rewrite ?skipn_O in *.
      * exists [(skipn p (s ++ t), None)]. rewrite SP. split; [|apply (same_pieces_join _ _ [])].
        rewrite <- SP. apply rep_end. right. destruct HE2 as [HE2|HE2]; [|now rewrite F, HE2].
        destruct t; [|discriminate]. now rewrite app_nil_r.
      * rewrite HF in F. cbn [right_by] in F. pose proof (HB t 0 i e ltac:(lia) HF) as (B1 & B2 & B3).
        pose proof (replaced_right find newv s t L2 e sg B3 HB R3) as R.
        pose proof (rep_match find newv (s ++ t) p _ _ _ ltac:(rewrite app_length; lia) F R) as RR.
        eexists. split; [exact RR|]. rewrite SP.
        assert (SI : skipn (length s + i) (s ++ t) = skipn i t).
        { rewrite skipn_app, skipn_all2 by lia. now replace (length s + i - length s) with i by lia. }
        rewrite SI. replace (length s + e - (length s + i)) with (e - i) by lia.
        rewrite firstn_app, skipn_length. replace (length s + i - p - (length s - p)) with (i - 0) by lia.
        rewrite firstn_all2 by (rewrite skipn_length; lia). apply same_pieces_join.
  - pose proof (HB s p i e HP HF) as (B1 & B2 & B3). destruct (IH B3) as (sg & R & SP).
    assert (F : find (s ++ t) p = Some (i, e)) by (rewrite L1 by lia; now rewrite HF).
    pose proof (rep_match find newv (s ++ t) p i e sg ltac:(rewrite app_length; lia) F R) as RR.
    eexists. split; [exact RR|]. cbn [app].
    assert (F1 : firstn (i - p) (skipn p (s ++ t)) = firstn (i - p) (skipn p s)).
    { rewrite skipn_app, firstn_app, skipn_length. replace (i - p - (length s - p)) with 0 by lia. now rewrite firstn_O, app_nil_r. }
    assert (F2 : firstn (e - i) (skipn i (s ++ t)) = firstn (e - i) (skipn i s)).
    { rewrite skipn_app, firstn_app, skipn_length. replace (e - i - (length s - i)) with 0 by lia. now rewrite firstn_O, app_nil_r. }
    rewrite F1, F2. now apply same_pieces_cons, same_pieces_cons.
Qed.

Lemma replace_glued E a b find s t : python E -> re_compile E a = Some find -> in_bounds find -> b <> [] ->
  local_search find s t -> glued2 E (ReplaceAwithB a b) (SStr s) (SStr t).
Proof.
  intros (HO & _) HC HB NB HL y1 a1 y2 a2 T1 T2.
  assert (ONE : forall u y c, transform_op E (ReplaceAwithB a b) (SStr u) = Ok (y, c) -> exists sg, replaced find (fun _ => b) u 0 sg).
  { intros u y c T. destruct (replaced_or_stuck find (fun _ => b) HB u 0 ltac:(lia)) as [H|H]; [exact H|].
    destruct (replace_diverges E a b find u HC HB H) as (_ & D). rewrite D in T. discriminate. }
  destruct (ONE _ _ _ T1) as (sg1 & R1). destruct (ONE _ _ _ T2) as (sg2 & R2).
  destruct (replaced_two find _ s t sg2 HB HL R2 0 sg1 ltac:(lia) R1) as (sg & R & SP).
  refine (rewrites_glued E _ s t sg1 sg2 sg by_entity_mode by_entity_mode _ _ _ SP _ _ _ _ T1 T2);
    (eapply replace_rewrites; [exact HO|exact HC|exact HB|eassumption|eapply replaced_once; eauto]).
Qed.

Lemma seam_glued2 E o x1 x2 : python E -> seam E o x1 x2 -> glued2 E o x1 x2.
Proof.
  intros PY H. destruct H as [o s t H|s t H|s t H|s t H|o s t H H'|s t H|o ws sh s t H H'|o k s t H H'|o l m H|v u n ts us H|a b find s t HC HB HN HL].
  - cbn [In] in H. destruct H as [<-|[<-|[<-|[<-|[<-|[]]]]]].
    + now apply lower_glued.
    + now apply cjk_glued.
    + now apply punct_glued.
    + now apply endpoint_glued.
    + now apply char_glued.
  - now apply accent_glued.
  - now apply merge_glued.
  - now apply strip_glued.
  - now apply number_glued.
  - now apply stop_glued.
  - destruct H as [H|H]; [eapply wordn_glued; eauto|eapply custom_glued; eauto].
  - eapply cut_glued; [apply (kinds_cut E o k PY H)|exact H'].
  - now apply elements_glued.
  - now apply subwords_glued.
  - now apply (replace_glued E a b find).
Qed.

Theorem seam_glued E o x1 x2 : python E -> seam E o x1 x2 -> glued E o x1 x2.
Proof. intros PY H y1 a1 y2 a2 T1 T2. now destruct (seam_glued2 E o x1 x2 PY H y1 a1 y2 a2 T1 T2) as (_ & _ & Q). Qed.

(** ** Pipes *)

Definition calm_all (E : env) (x y : pseq) (als : list aligner) : Prop :=
  (forall l, length l = pseq_length x -> forth (pseq_length y) (align_all als l)) /\
  (forall l, length l = pseq_length y -> back (pseq_length x) (align_inverse_all E als l)).

Lemma align_all_cons a als l : align_all (a :: als) l = (m <- align a l ;; align_all als m).
Proof. reflexivity. Qed.
Lemma align_inverse_all_cons E a als l :
  align_inverse_all E (a :: als) l = (m <- align_inverse_all E als l ;; align_inverse E a m).
Proof.
  unfold align_inverse_all. cbn [rev]. rewrite foldM_app. destruct (foldM _ (rev als) l) as [m|]; [|reflexivity].
  cbn [bind foldM]. now destruct (align_inverse E a m).
Qed.

Lemma both_back n1 n2 r1 r2 (f : list Z -> res (list Z)) f1 f2 : back n1 r1 -> back n2 r2 ->
  (forall m1 m2, length m1 = n1 -> length m2 = n2 -> f (m1 ++ m2) = both (f1 m1) (f2 m2)) ->
  (forall m1, length m1 = n1 -> exists n, back n (f1 m1)) ->
  (m <- both r1 r2 ;; f m) = both (m <- r1 ;; f1 m) (m <- r2 ;; f2 m).
Proof.
  intros [(m1 & -> & L1)| ->] [(m2 & -> & L2)| ->] H B; cbn [both bind]; auto.
  destruct (B m1 L1) as (n & [(m & -> & _)| ->]); reflexivity.
Qed.

Lemma back_bind n k r f : back n r -> (forall m, length m = n -> back k (f m)) -> back k (m <- r ;; f m).
Proof. intros [(m & -> & L)| ->] H; cbn [bind]; [now apply H|now right]. Qed.

Theorem seams_glued E ops : forall x1 x2, python E -> seams E ops x1 x2 -> glued_steps E ops x1 x2.
Proof.
  assert (forall x1 x2, python E -> seams E ops x1 x2 ->
    forall y1 als1 coll1 y2 als2 coll2,
    Pipe.run E ops x1 = Ok (y1, als1, coll1) -> Pipe.run E ops x2 = Ok (y2, als2, coll2) ->
    calm_all E x1 y1 als1 /\ calm_all E x2 y2 als2 /\
    exists als coll, Pipe.run E ops (glue x1 x2) = Ok (glue y1 y2, als, coll) /\
    coll = map (fun xy => glue (fst xy) (snd xy)) (combine coll1 coll2) /\
    forall l1 l2,
      (length l1 = pseq_length x1 -> length l2 = pseq_length x2 ->
         align_all als (l1 ++ l2) = both (align_all als1 l1) (align_all als2 l2)) /\
      (length l1 = pseq_length y1 -> length l2 = pseq_length y2 ->
         align_inverse_all E als (l1 ++ l2) = both (align_inverse_all E als1 l1) (align_inverse_all E als2 l2))) as X.
  2: { intros x1 x2 PY H y1 als1 c1 y2 als2 c2 R1 R2. now destruct (X x1 x2 PY H _ _ _ _ _ _ R1 R2) as (_ & _ & Q). }
  induction ops as [|o ops IH]; intros x1 x2 PY H y1 als1 c1 y2 als2 c2 R1 R2.
  - cbn in R1, R2. injection R1 as <- <- <-. injection R2 as <- <- <-.
    assert (CA : forall x, calm_all E x x []) by (intros x; split; intros l L; [|left]; exists l; auto).
    split; [apply CA|]. split; [apply CA|]. exists [], [glue x1 x2]. repeat split; reflexivity.
  - inversion H as [|? ? ? ? HS HR]; subst. cbn [Pipe.run] in R1, R2.
    destruct (transform_op E (o_op o) x1) as [[z1 a1]|] eqn:T1; [|discriminate].
    destruct (transform_op E (o_op o) x2) as [[z2 a2]|] eqn:T2; [|discriminate].
    cbn [bind] in R1, R2.
    destruct (Pipe.run E ops z1) as [[[w1 b1] d1]|] eqn:Q1; [|discriminate].
    destruct (Pipe.run E ops z2) as [[[w2 b2] d2]|] eqn:Q2; [|discriminate].
    cbn [bind] in R1, R2. injection R1 as <- <- <-. injection R2 as <- <- <-.
    destruct (seam_glued2 E _ _ _ PY HS _ _ _ _ T1 T2) as ((C1 & C1') & (C2 & C2') & a & T & HA).
    destruct (IH z1 z2 PY (HR _ _ _ _ eq_refl eq_refl) _ _ _ _ _ _ Q1 Q2) as ((D1 & D1') & (D2 & D2') & als & coll & R & HC & HB).
    assert (CA : forall x z w a b, (forall l, length l = pseq_length x -> forth (pseq_length z) (align a l)) ->
        (forall l, length l = pseq_length z -> back (pseq_length x) (align_inverse E a l)) ->
        (forall l, length l = pseq_length z -> forth (pseq_length w) (align_all b l)) ->
        (forall l, length l = pseq_length w -> back (pseq_length z) (align_inverse_all E b l)) -> calm_all E x w (a :: b)).
    { intros x z w a' b P1 P2 P3 P4. split; intros l L.
      - rewrite align_all_cons. destruct (P1 l L) as (m & -> & LM). cbn [bind]. now apply P3.
      - rewrite align_inverse_all_cons. eapply back_bind; [now apply P4|exact P2]. }
    split; [now apply (CA _ z1)|]. split; [now apply (CA _ z2)|].
    exists (a :: als), (glue x1 x2 :: coll). split; [cbn [Pipe.run]; rewrite T; cbn [bind]; rewrite R; reflexivity|].
    split; [cbn [combine map fst snd]; now rewrite HC|]. intros l1 l2. split; intros L1 L2.
    + rewrite !align_all_cons. rewrite (proj1 (HA l1 l2) L1 L2).
      destruct (C1 l1 L1) as (m1 & -> & LM1). destruct (C2 l2 L2) as (m2 & -> & LM2). cbn [both bind].
      now apply HB.
    + rewrite !align_inverse_all_cons. rewrite (proj2 (HB l1 l2) L1 L2).
      apply (both_back (pseq_length z1) (pseq_length z2)); auto.
      * intros m1 m2 LM1 LM2. now apply HA.
      * intros m1 LM1. eexists. apply (C1' m1 LM1).
Qed.
