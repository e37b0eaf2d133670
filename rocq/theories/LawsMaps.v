(** Spacers and lower case change places with other operators; doing it again changes nothing (C76). *)

From Coq Require Import String Ascii Bool.
From Verif Require Import Py PyFacts Edit Labels SpecEdit SpecLabels SpecSeg SpecRuns SpecWords SpecOps SpecBert Ops Json Elements Pipe SpecLaws RegexProofs PatternProofs RunsProofs SegProofs StrOpProofs TokProofs OpLaws BertProofs BertRefProofs LawsTok LawsProofs LawsText LawsCommute.
From Coq Require Import List Lia.
Local Open Scope Z_scope.

(** ** Two spacers *)

Lemma spaced_twice c1 c2 s : c1 32 = false -> c2 32 = false ->
  news (spaced c2 (news (spaced c1 s))) = news (spaced c1 (news (spaced c2 s))).
Proof.
  intros H1 H2. induction s as [|c s IH]; [reflexivity|]. rewrite !(news_spaced _ c s).
  destruct (c1 c) eqn:Q1, (c2 c) eqn:Q2; cbn [app]; rewrite !news_spaced, ?H1, ?H2, ?Q1, ?Q2; cbn [app]; now rewrite IH.
Qed.

Lemma spaced_labels c1 c2 s : c1 32 = false -> c2 32 = false -> forall l, length l = length s ->
  relabel (around SpecSeg.same) (spaced c2 (news (spaced c1 s))) (relabel (around SpecSeg.same) (spaced c1 s) l) =
  relabel (around SpecSeg.same) (spaced c1 (news (spaced c2 s))) (relabel (around SpecSeg.same) (spaced c2 s) l).
Proof.
  intros H1 H2. induction s as [|c s IH]; intros [|x l] HL; try discriminate; [reflexivity|].
  injection HL as HL. specialize (IH l HL). rewrite !(news_spaced _ c s), !(spaced_cons _ c s).
  destruct (c1 c) eqn:Q1, (c2 c) eqn:Q2; cbn [app relabel old_of fst snd length firstn skipn around SpecSeg.same Nat.sub];
    rewrite !spaced_cons, ?H1, ?H2, ?Q1, ?Q2;
    cbn [app relabel old_of fst snd length firstn skipn around SpecSeg.same Nat.sub]; now rewrite IH.
Qed.

Lemma entity_one a b c : exists x, by_entity_mode [a; b; c] 1%nat = [x].
Proof. eexists. reflexivity. Qed.

Lemma spaced_back c1 c2 s : c1 32 = false -> c2 32 = false -> forall l, length l = length (news (spaced c2 (news (spaced c1 s)))) ->
  relabel by_entity_mode (swap (spaced c1 s)) (relabel by_entity_mode (swap (spaced c2 (news (spaced c1 s)))) l) =
  relabel by_entity_mode (swap (spaced c2 s)) (relabel by_entity_mode (swap (spaced c1 (news (spaced c2 s)))) l).
Proof.
  intros H1 H2. induction s as [|c s IH]; intros l HL; [reflexivity|].
  revert HL. rewrite !(news_spaced _ c s), !(swap_spaced _ c s).
  assert (R : forall x y z v m, relabel by_entity_mode (([x; y; z] : str, Some ([v] : str)) :: m) =
    fun l => by_entity_mode (firstn 3%nat l) 1%nat ++ relabel by_entity_mode m (skipn 3%nat l)) by reflexivity.
  assert (N : forall x m, relabel by_entity_mode (([x] : str, None) :: m) = fun l => firstn 1%nat l ++ relabel by_entity_mode m (skipn 1%nat l)) by reflexivity.
  destruct (c1 c) eqn:Q1, (c2 c) eqn:Q2; cbn [app]; rewrite !news_spaced, !swap_spaced, ?H1, ?H2, ?Q1, ?Q2; cbn [app length]; intros HL.
  - do 5 (destruct l as [|? l]; [discriminate HL|]). specialize (IH l ltac:(cbn in HL; lia)). repeat (first [rewrite R | rewrite N]; cbn [firstn skipn app by_entity_mode repeat]). now rewrite IH.
  - do 3 (destruct l as [|? l]; [discriminate HL|]). specialize (IH l ltac:(cbn in HL; lia)). repeat (first [rewrite R | rewrite N]; cbn [firstn skipn app by_entity_mode repeat]). now rewrite IH.
  - do 3 (destruct l as [|? l]; [discriminate HL|]). specialize (IH l ltac:(cbn in HL; lia)). repeat (first [rewrite R | rewrite N]; cbn [firstn skipn app by_entity_mode repeat]). now rewrite IH.
  - do 1 (destruct l as [|? l]; [discriminate HL|]). specialize (IH l ltac:(cbn in HL; lia)). rewrite !N.
    cbn [firstn skipn app]. now rewrite IH.
Qed.

Lemma punct_blank E : is_pcat E 32 = false -> punctuation E 32 = false.
Proof. intros H. unfold punctuation. now rewrite H. Qed.

Theorem spacers_commute E s : ord_ok (ord_c E) -> is_pcat E 32 = false ->
  interchangeable E [AddWhitespaceAroundCJK; AddWhitespaceAroundPunctuation]
    [AddWhitespaceAroundPunctuation; AddWhitespaceAroundCJK] (SStr s).
Proof.
  intros OC HP. assert (PB : punctuation E 32 = false) by now apply punct_blank.
  assert (CB : cjk 32 = false) by reflexivity.
  destruct (cjk_rewrites E s OC) as (_ & M1). destruct (punct_rewrites E s OC) as (_ & M2).
  destruct (punct_rewrites E (news (spaced cjk s)) OC) as (_ & M2'). destruct (cjk_rewrites E (news (spaced (punctuation E) s)) OC) as (_ & M1').
  rewrite <- (spaced_twice cjk (punctuation E) s CB PB) in M1'.
  eapply (maps_commute E _ _ (SStr s) _ _ _ _ _ _ _ _ _ _ _ M1 M2' M2 M1'); intros l HL; cbn [pseq_length] in HL.
  - now apply spaced_labels.
  - now apply spaced_back.
Qed.

(** ** Lower case *)

Definition seg_map (f : Z -> Z) (x : seg Z) : seg Z := (map f (fst x), option_map (map f) (snd x)).

Lemma relabel_seg_map h f sg : forall l, relabel h (map (seg_map f) sg) l = relabel h sg l.
Proof.
  induction sg as [|[o v] sg IH]; intros l; [reflexivity|]. cbn [map relabel fst snd]. unfold old_of, seg_map. cbn [fst snd].
  rewrite map_length, IH. destruct v as [v|]; cbn [option_map]; [|reflexivity]. now rewrite map_length.
Qed.

Lemma swap_seg_map f sg : swap (map (seg_map f) sg) = map (seg_map f) (swap sg).
Proof.
  unfold swap. rewrite !map_map. apply map_ext. intros [o [v|]]; reflexivity.
Qed.

Lemma news_seg_map f sg : news (map (seg_map f) sg) = map f (news sg).
Proof.
  unfold news. rewrite concat_map, !map_map. f_equal. apply map_ext. intros [o [v|]]; reflexivity.
Qed.

Lemma runs_map p f s : (forall c, p (f c) = p c) -> runs p (map f s) = map (fun br => (fst br, map f (snd br))) (runs p s).
Proof.
  intros H. induction s as [|c s IH]; [reflexivity|]. cbn [map runs]. rewrite IH. destruct (runs p s) as [|[b r] rs]; cbn [map fst snd].
  - now rewrite H.
  - rewrite H. destruct (Bool.eqb b (p c)); reflexivity.
Qed.

Lemma seg_runs_map p f choose s : (forall c, p (f c) = p c) ->
  (forall r, choose (map f r) = option_map (map f) (choose r)) ->
  seg_runs p choose (map f s) = map (seg_map f) (seg_runs p choose s).
Proof.
  intros H HC. unfold seg_runs. rewrite runs_map by exact H. rewrite !map_map. apply map_ext. intros [b r]. cbn [fst snd].
  unfold seg_map. cbn [fst snd]. f_equal. destruct b; [apply HC|reflexivity].
Qed.

Lemma maps_lower E o s y y' F G F' G' : ord_ok (ord_c E) ->
  maps E o any_labels (SStr s) (SStr y) F G -> maps E o any_labels (SStr (map lower s)) (SStr y') F' G' -> y' = map lower y ->
  (forall l, F' l = F l) -> (forall l, G' l = G l) ->
  interchangeable E [Lowercase; o] [o; Lowercase] (SStr s).
Proof.
  intros OC M M' -> HF HG. pose proof (lowercase_maps E s OC) as L. pose proof (lowercase_maps E y OC) as L'.
  eapply (maps_commute E _ _ (SStr s) _ _ _ _ _ _ _ _ _ _ _ L M' M L'); intros l HL; unfold keep; [apply HF|apply HG].
Qed.

Lemma rewrites_lower E o s (sg : str -> list (seg Z)) h k : ord_ok (ord_c E) ->
  (forall s, rewrites E o s (sg s) h k) -> sg (map lower s) = map (seg_map lower) (sg s) ->
  interchangeable E [Lowercase; o] [o; Lowercase] (SStr s).
Proof.
  intros OC R Q. destruct (R s) as (_ & M). destruct (R (map lower s)) as (_ & M').
  apply (maps_lower E o s _ _ _ _ _ _ OC M M'); rewrite Q.
  - apply news_seg_map.
  - apply relabel_seg_map.
  - intros l. rewrite swap_seg_map. apply relabel_seg_map.
Qed.

Lemma lower_digit E c : ascii_digits E -> digit E (lower c) = digit E c.
Proof.
  intros H. unfold lower. destruct (ascii_capital c) eqn:Q; [|reflexivity].
  unfold ascii_capital, SpecOps.between in Q. cbn in Q. apply andb_true_iff in Q. destruct Q as [Q1 Q2]. apply Z.leb_le in Q1, Q2.
  unfold digit. rewrite (H c), (H (c - 65 + 97)) by lia. unfold ascii_digit, SpecOps.between. cbn.
  repeat match goal with |- context [?a <=? ?b] => destruct (Z.leb_spec a b); try lia end;
  repeat match goal with |- context [?a =? ?b] => destruct (Z.eqb_spec a b); try lia end; reflexivity.
Qed.

Lemma lower_point c : point (lower c) = point c.
Proof.
  unfold lower. destruct (ascii_capital c) eqn:Q; [|reflexivity].
  unfold ascii_capital, SpecOps.between in Q. cbn in Q. apply andb_true_iff in Q. destruct Q as [Q1 Q2]. apply Z.leb_le in Q1, Q2.
  unfold point. cbn. repeat match goal with |- context [?a =? ?b] => destruct (Z.eqb_spec a b); try lia end; reflexivity.
Qed.

Lemma lower_dot c : (lower c =? 46) = (c =? 46).
Proof.
  unfold lower. destruct (ascii_capital c) eqn:Q; [|reflexivity].
  unfold ascii_capital, SpecOps.between in Q. cbn in Q. apply andb_true_iff in Q. destruct Q as [Q1 Q2]. apply Z.leb_le in Q1, Q2.
  destruct (Z.eqb_spec c 46), (Z.eqb_spec (c - 65 + 97) 46); try lia; reflexivity.
Qed.

Lemma forallb_map {A B} (f : A -> B) p l : forallb p (map f l) = forallb (fun x => p (f x)) l.
Proof. induction l as [|x l IH]; [reflexivity|]. cbn. now rewrite IH. Qed.
Lemma forallb_same {A} (p q : A -> bool) l : (forall x, p x = q x) -> forallb p l = forallb q l.
Proof. intros H. induction l as [|x l IH]; [reflexivity|]. cbn. now rewrite H, IH. Qed.

Lemma drop_map p f s : (forall c, p (f c) = p c) -> drop_while p (map f s) = map f (drop_while p s).
Proof. intros H. induction s as [|c s IH]; [reflexivity|]. cbn. rewrite H. destruct (p c); [exact IH|reflexivity]. Qed.
Lemma strip_map p f s : (forall c, p (f c) = p c) -> strip p (map f s) = map f (strip p s).
Proof.
  intros H. unfold strip, rstrip, lstrip. now rewrite drop_map, <- map_rev, drop_map, <- map_rev.
Qed.
Lemma lead_map p f s : (forall c, p (f c) = p c) -> lead p (map f s) = lead p s.
Proof. intros H. unfold lead, lstrip. now rewrite drop_map, !map_length. Qed.

Lemma spaced_map cls f s : (forall c, cls (f c) = cls c) -> f 32 = 32 -> spaced cls (map f s) = map (seg_map f) (spaced cls s).
Proof.
  intros H H32. unfold spaced. rewrite !map_map. apply map_ext. intros c. unfold seg_map. cbn [fst snd map]. rewrite H.
  change blank with [32]. destruct (cls c); cbn [app map option_map]; rewrite ?H32; reflexivity.
Qed.

Lemma zero_map p f s l : (forall c, p (f c) = p c) -> zero_where p (map f s) l = zero_where p s l.
Proof.
  intros H. unfold zero_where. revert l. induction s as [|c s IH]; intros [|x l]; try reflexivity. cbn. now rewrite H, IH.
Qed.

Lemma decimal_lower E r : ascii_digits E -> is_decimal (digit E) (map lower r) = is_decimal (digit E) r.
Proof.
  intros H. unfold is_decimal. rewrite map_length.
  induction (seq 0 (length r)) as [|k ks IH]; [reflexivity|]. cbn [existsb]. rewrite IH. f_equal.
  rewrite skipn_map, firstn_map. destruct (skipn k r) as [|d [|x rest]]; [reflexivity|reflexivity|]. cbn [map].
  rewrite lower_dot. change (lower x :: map lower rest) with (map lower (x :: rest)).
  assert (FL : forall t, forallb (fun x => digit E (lower x)) t = forallb (digit E) t) by (intros t; apply forallb_same; intros; now apply lower_digit).
  rewrite !forallb_map. now rewrite !FL.
Qed.

Definition lower_friends : list op :=
  [MergeWhiteSpaceCharacters; StripWhiteSpaceCharacters; AddWhitespaceAroundCJK; AddWhitespaceAroundPunctuation;
   PunctuationExceptEndpointToWhitespace; IntToken; IntTokenWithSpace; NumTokenWithSpace; FloatToken; FloatTokenWithSpace].

Lemma int_lower E tok s : ascii_digits E -> map lower tok = tok -> int_like E tok (map lower s) = map (seg_map lower) (int_like E tok s).
Proof.
  intros H HT. apply seg_runs_map.
  - intros c. now rewrite lower_point, lower_digit.
  - intros r. rewrite forallb_map, (forallb_same (fun x => digit E (lower x)) (digit E)) by (intros; now apply lower_digit).
    destruct (forallb (digit E) r); cbn; now rewrite ?HT.
Qed.
Lemma float_lower E tok s : ascii_digits E -> map lower tok = tok -> float_like E tok (map lower s) = map (seg_map lower) (float_like E tok s).
Proof.
  intros H HT. apply seg_runs_map.
  - intros c. now rewrite lower_point, lower_digit.
  - intros r. rewrite decimal_lower by exact H. destruct (is_decimal (digit E) r); cbn; now rewrite ?HT.
Qed.

Theorem lowercase_commutes E o s : ord_ok (ord_c E) -> letters E -> ascii_digits E -> In o lower_friends ->
  interchangeable E [Lowercase; o] [o; Lowercase] (SStr s).
Proof.
  intros OC LE AD HO. pose proof (fun c => lower_class E c LE) as LC.
  assert (LS : forall c, is_space E (lower c) = is_space E c) by (intros; apply LC).
  assert (LP : forall c, punctuation E (lower c) = punctuation E c) by (intros; apply LC).
  assert (LQ : forall c, endless_punct E (lower c) = endless_punct E c) by (intros; unfold endless_punct; now rewrite LP, lower_point).
  unfold lower_friends in HO. cbn [In] in HO. destruct HO as [<-|[<-|[<-|[<-|[<-|[<-|[<-|[<-|[<-|[<-|[]]]]]]]]]]].
  - eapply (rewrites_lower E _ s (seg_runs (is_space E) (fun _ => Some blank))); [exact OC|intros; now apply merge_rewrites|].
    apply seg_runs_map; [exact LS|reflexivity].
  - pose proof (strip_maps E s OC) as M. pose proof (strip_maps E (map lower s) OC) as M'. cbv zeta in M, M'.
    apply (maps_lower E _ s _ _ _ _ _ _ OC M M'); [now apply strip_map| |]; intros l; rewrite strip_map, lead_map, ?map_length by exact LS; reflexivity.
  - eapply (rewrites_lower E _ s (spaced cjk)); [exact OC|intros; now apply cjk_rewrites|]. apply spaced_map; [apply lower_cjk|reflexivity].
  - eapply (rewrites_lower E _ s (spaced (punctuation E))); [exact OC|intros; now apply punct_rewrites|]. apply spaced_map; [exact LP|reflexivity].
  - pose proof (endpoint_maps E s OC) as M. pose proof (endpoint_maps E (map lower s) OC) as M'. cbv zeta in M, M'.
    apply (maps_lower E _ s _ _ _ _ _ _ OC M M'); [|intros; now apply zero_map|intros; now apply zero_map].
    rewrite !map_map. apply map_ext. intros c. rewrite LQ. destruct (endless_punct E c); reflexivity.
  - eapply (rewrites_lower E _ s (int_like E _)); [exact OC|intros; now apply int_rewrites|]. now apply int_lower.
  - eapply (rewrites_lower E _ s (int_like E _)); [exact OC|intros; now apply int_space_rewrites|]. now apply int_lower.
  - eapply (rewrites_lower E _ s (int_like E _)); [exact OC|intros; now apply num_space_rewrites|]. now apply int_lower.
  - eapply (rewrites_lower E _ s (float_like E _)); [exact OC|intros; now apply float_rewrites|]. now apply float_lower.
  - eapply (rewrites_lower E _ s (float_like E _)); [exact OC|intros; now apply float_space_rewrites|]. now apply float_lower.
Qed.

(** ** Doing it again *)

Lemma maps_again E o x y F G F' G' : maps E o any_labels x y F G -> maps E o any_labels y y F' G' ->
  (forall l, length l = pseq_length x -> F' (F l) = F l) -> (forall l, length l = pseq_length y -> G (G' l) = G l) ->
  interchangeable E [o; o] [o] x.
Proof.
  intros M M' HF HG. apply acts_maps in M, M'. pose proof (acts_app _ _ _ _ _ _ _ _ _ _ M M') as A.
  eapply acts_same; [exact A|exact M|exact HF|]. intros l HL. cbn [bind]. f_equal. now apply HG.
Qed.

Lemma maps_nothing E o x y F G F' G' : maps E o any_labels x y F G -> maps E o any_labels y y F' G' ->
  (forall l, length l = pseq_length y -> F' l = l) -> (forall l, length l = pseq_length y -> G' l = l) ->
  interchangeable E [o; o] [o] x.
Proof.
  intros M M' HF HG. assert (LF : forall l, length l = pseq_length x -> length (F l) = pseq_length y).
  { destruct M as (a & _ & H & _). intros l HL. now apply (H l HL I). }
  eapply maps_again; [exact M|exact M'| |]; intros l HL; [apply HF; now apply LF|now rewrite HG].
Qed.

Lemma fine_none h ch rs : Forall (fun br : bool * str => fst br = true -> ch (snd br) = None) rs -> forall l, length l = length (concat (map snd rs)) ->
  relabel h (fine ch rs) l = l /\ relabel h (swap (fine ch rs)) l = l /\ news (fine ch rs) = concat (map snd rs).
Proof.
  intros F. induction F as [|[b r] rs Q F IH]; intros l HL.
  - destruct l; [|discriminate]. repeat split.
  - cbn [map concat snd] in HL. rewrite app_length in HL.
    assert (L2 : length (skipn (length r) l) = length (concat (map snd rs))) by (rewrite skipn_length; lia).
    destruct (IH _ L2) as (I1 & I2 & I3). rewrite swap_fine, fine_cons. cbn [fst snd] in Q.
    assert ((if b then ch r else None) = None) as -> by (destruct b; auto).
    cbn [relabel snd]. unfold old_of. cbn [fst]. rewrite I1, I2, firstn_skipn. split; [reflexivity|]. split; [reflexivity|].
    change (news ((r, None) :: fine ch rs)) with (r ++ news (fine ch rs)). now rewrite I3.
Qed.

Lemma recogniser_again E o p ch h k s :
  (forall s, rewrites E o s (seg_runs p ch s) h k) ->
  (forall r v, ch r = Some v -> all_in p false v /\ v <> []) ->
  interchangeable E [o; o] [o] (SStr s).
Proof.
  intros R V. destruct (R s) as (_ & M). set (y := news (seg_runs p ch s)) in *. destruct (R y) as (_ & M').
  assert (S : semi p (map (after_choice ch) (runs p s))) by (apply semi_after; [apply runs_wf|exact V]).
  pose proof (runs_fine p ch _ S) as (_ & N & B). rewrite <- (news_after p ch s) in N, B. fold y in N, B.
  assert (F : Forall (fun br : bool * str => fst br = true -> ch (snd br) = None) (map (after_choice ch) (runs p s))).
  { apply Forall_forall. intros br HI. apply in_map_iff in HI. destruct HI as ([b r] & <- & _). unfold after_choice. cbn [fst snd].
    destruct b; [|discriminate]. destruct (ch r) eqn:Q; cbn [fst snd]; [discriminate|intros _; exact Q]. }
  assert (Y : concat (map snd (map (after_choice ch) (runs p s))) = y) by (symmetry; apply news_after).
  assert (N' : news (seg_runs p ch y) = y).
  { rewrite N. destruct (fine_none h ch _ F y) as (_ & _ & Q); [now rewrite Y|]. now rewrite Q, Y. }
  rewrite N' in M'. eapply maps_nothing; [exact M|exact M'| |]; intros l HL; cbn [pseq_length] in HL; rewrite <- Y in HL.
  - destruct (B h l) as [-> _]. now apply (fine_none h ch _ F).
  - destruct (B k l) as [_ ->]. now apply (fine_none k ch _ F).
Qed.

Lemma relabel_single_mode (sg : list (seg Z)) : Forall (fun x => match snd x with Some v => length (fst x) = 1%nat /\ length v = 1%nat | None => True end) sg ->
  forall l, length l = length (olds sg) -> relabel by_mode sg l = l.
Proof.
  intros F. induction F as [|[o v] sg Q F IH]; intros l HL; [now destruct l|].
  change (olds ((o, v) :: sg)) with (o ++ olds sg) in HL. rewrite app_length in HL. cbn [relabel snd fst]. unfold old_of in *. cbn [fst snd] in *.
  rewrite IH by (rewrite skipn_length; lia). destruct v as [v|]; [|apply firstn_skipn].
  destruct Q as [Q1 Q2]. rewrite Q1 in *. destruct l as [|x l]; [discriminate|]. cbn [firstn skipn]. rewrite Q2.
  unfold by_mode. change [x] with (repeat x 1). rewrite mode_repeat by lia. reflexivity.
Qed.

Lemma merged_runs E s : is_space E 32 = true -> forall r, In (true, r) (runs (is_space E) (merged (is_space E) [32] s)) -> length r = 1%nat.
Proof.
  intros SP r HI. pose proof (runs_flags (is_space E) (merged (is_space E) [32] s)) as FL. rewrite Forall_forall in FL.
  specialize (FL _ HI). cbn [fst snd] in FL.
  pose proof (merged_no_adjacent (is_space E) 32 s SP) as NA.
  pose proof (runs_wf (is_space E) (merged (is_space E) [32] s)) as W.
  pose proof (runs_concat (is_space E) (merged (is_space E) [32] s)) as C.
  apply in_split in HI. destruct HI as (a & b & Q). rewrite Q in *. rewrite map_app, concat_app in C. cbn [map concat snd] in C.
  assert (r <> []) as N.
  { clear -W. induction a as [|[x y] a IH]; cbn [app wf_runs] in W; [tauto|]. apply IH. tauto. }
  destruct r as [|c [|d r]]; [congruence|reflexivity|exfalso].
  rewrite <- C in NA. apply (NA (length (concat (map snd a))) c d).
  - rewrite nth_error_app2, Nat.sub_diag by lia. reflexivity.
  - rewrite nth_error_app2 by lia. replace (S (length (concat (map snd a))) - length (concat (map snd a)))%nat with 1%nat by lia. reflexivity.
  - apply FL. now left.
  - apply FL. right. now left.
Qed.

Definition repeatable : list op :=
  [Lowercase; MergeWhiteSpaceCharacters; StripWhiteSpaceCharacters; PunctuationExceptEndpointToWhitespace;
   IntToken; IntTokenWithSpace; NumTokenWithSpace; FloatToken; FloatTokenWithSpace].

Theorem once_is_enough E o s : python E -> ascii_digits E -> is_pcat E 32 = false -> In o repeatable ->
  interchangeable E [o; o] [o] (SStr s).
Proof.
  intros (OC & _ & SP) AD HP HO.
  unfold repeatable in HO. cbn [In] in HO. destruct HO as [<-|[<-|[<-|[<-|HO]]]].
  - eapply maps_nothing; [now apply lowercase_maps| |reflexivity|reflexivity].
    replace (SStr (map lower s)) with (SStr (map lower (map lower s))) at 2; [now apply lowercase_maps|].
    f_equal. rewrite map_map. apply map_ext. intros c. apply lower_idem.
  - destruct (merge_rewrites E s OC) as (_ & M). set (y := news (seg_runs (is_space E) (fun _ => Some blank) s)) in *.
    destruct (merge_rewrites E y OC) as (O & M').
    assert (Y : y = merged (is_space E) [32] s) by reflexivity.
    assert (N : news (seg_runs (is_space E) (fun _ => Some blank) y) = y).
    { rewrite Y. exact (merged_idem (is_space E) 32 s SP). }
    rewrite N in M'. pose proof (merged_runs E s SP) as MR. rewrite <- Y in MR.
    eapply maps_nothing; [exact M|exact M'| |]; intros l HL; cbn [pseq_length] in HL; apply relabel_single_mode.
    + apply Forall_forall. intros [o v] HI. cbn [fst snd]. destruct v as [v|]; [|exact I]. unfold seg_runs in HI. apply in_map_iff in HI.
      destruct HI as ([b r] & Q & HI). cbn [fst snd] in Q. destruct b; [|discriminate]. injection Q as <- <-. split; [now apply MR|reflexivity].
    + now rewrite O.
    + apply Forall_forall. intros [o v] HI. cbn [fst snd]. destruct v as [v|]; [|exact I]. unfold swap, seg_runs in HI. rewrite map_map in HI. apply in_map_iff in HI.
      destruct HI as ([b r] & Q & HI). unfold swap1 in Q. cbn [fst snd] in Q. destruct b; [|discriminate]. injection Q as <- <-. split; [reflexivity|now apply MR].
    + now rewrite swap_olds, N.
  - pose proof (strip_maps E s OC) as M. pose proof (strip_maps E (strip (is_space E) s) OC) as M'. cbv zeta in M, M'.
    destruct (strip_split (is_space E) s) as (w1 & w2 & ES & A1 & A2 & H0 & H1 & H2). set (m := strip (is_space E) s) in *.
    assert (SM : strip (is_space E) m = m) by apply strip_idem. rewrite SM in M'.
    assert (LD : lead (is_space E) m = 0%nat).
    { unfold lead, lstrip. destruct m as [|c m]; [reflexivity|]. cbn [drop_while]. rewrite (H1 c eq_refl). lia. }
    rewrite LD, Nat.sub_0_r, Nat.sub_diag in M'.
    eapply maps_nothing; [exact M|exact M'| |]; intros l HL; cbn [pseq_length] in HL.
    + cbn [skipn]. now rewrite <- HL, firstn_all.
    + cbn [repeat app]. apply app_nil_r.
  - pose proof (endpoint_maps E s OC) as M. cbv zeta in M. set (p := endless_punct E) in *.
    set (y := map (fun c => if p c then 32 else c) s) in *. pose proof (endpoint_maps E y OC) as M'. cbv zeta in M'. fold p in M'.
    assert (P32 : p 32 = false) by (unfold p, endless_punct; now rewrite punct_blank).
    assert (PY : forall c, In c y -> p c = false).
    { intros c HI. apply in_map_iff in HI. destruct HI as (d & <- & _). destruct (p d) eqn:Q; auto. }
    assert (N : map (fun c => if p c then 32 else c) y = y).
    { rewrite <- (map_id y) at 2. apply map_ext_in. intros c HI. now rewrite PY. }
    rewrite N in M'.
    assert (ZW : forall l, length l = length y -> zero_where p y l = l).
    { clear -PY. induction y as [|c y IH]; intros [|x l] HL; try discriminate; [reflexivity|].
      unfold zero_where. cbn. rewrite PY by now left. f_equal. apply IH; [intros; apply PY; now right|]. now injection HL. }
    eapply maps_nothing; [exact M|exact M'| |]; intros l HL; cbn [pseq_length] in HL; now apply ZW.
  - assert (T : forall tok : str, forallb (fun c => (0 <=? c) && (c <? 128) && negb ((c =? 46) || ascii_digit c)) tok = true -> tok <> [] ->
      forall (P : str -> bool) r v, (if P r then Some tok else None) = Some v -> all_in (fun c => point c || digit E c) false v /\ v <> [])
      by (intros tok HT HN P r v Q; destruct (P r); [injection Q as <-; split; [now apply token_outside|exact HN]|discriminate]).
    destruct HO as [<-|[<-|[<-|[<-|[<-|[]]]]]].
    + eapply recogniser_again; [intros; now apply int_rewrites|]. intros r v Q. apply (T _) in Q; [exact Q|reflexivity|discriminate].
    + eapply recogniser_again; [intros; now apply int_space_rewrites|]. intros r v Q. apply (T _) in Q; [exact Q|reflexivity|discriminate].
    + eapply recogniser_again; [intros; now apply num_space_rewrites|]. intros r v Q. apply (T _) in Q; [exact Q|reflexivity|discriminate].
    + eapply recogniser_again; [intros; now apply float_rewrites|]. intros r v Q. apply (T _) in Q; [exact Q|reflexivity|discriminate].
    + eapply recogniser_again; [intros; now apply float_space_rewrites|]. intros r v Q. apply (T _) in Q; [exact Q|reflexivity|discriminate].
Qed.
