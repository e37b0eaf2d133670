(** Operators that can change places (C76). *)

From Coq Require Import String Ascii Bool.
From Verif Require Import Py PyFacts Edit Labels SpecEdit SpecLabels SpecSeg SpecRuns SpecWords SpecOps Ops Json Elements Pipe SpecLaws RegexProofs PatternProofs RunsProofs SegProofs StrOpProofs TokProofs OpLaws LawsTok LawsProofs LawsText.
From Coq Require Import List Lia.
Local Open Scope Z_scope.

Lemma maps_commute E o1 o2 x y1 y2 z F1 G1 F2 G2 F1' G1' F2' G2' :
  maps E o1 any_labels x y1 F1 G1 -> maps E o2 any_labels y1 z F2' G2' ->
  maps E o2 any_labels x y2 F2 G2 -> maps E o1 any_labels y2 z F1' G1' ->
  (forall l, length l = pseq_length x -> F2' (F1 l) = F1' (F2 l)) ->
  (forall l, length l = pseq_length z -> G1 (G2' l) = G2 (G1' l)) ->
  interchangeable E [o1; o2] [o2; o1] x.
Proof.
  intros M1 M2' M2 M1' HF HG. apply acts_maps in M1, M2, M1', M2'.
  pose proof (acts_app _ _ _ _ _ _ _ _ _ _ M1 M2') as A. pose proof (acts_app _ _ _ _ _ _ _ _ _ _ M2 M1') as B.
  eapply acts_same; [exact A|exact B|exact HF|]. intros l HL. cbn [bind]. f_equal. now apply HG.
Qed.

(** ** Cutting at more places *)

Definition same_pieces (a b : list (seg Z)) : Prop :=
  olds a = olds b /\ news a = news b /\ forall h l, relabel h a l = relabel h b l /\ relabel h (swap a) l = relabel h (swap b) l.

Lemma same_pieces_refl a : same_pieces a a.
Proof. repeat split. Qed.
Lemma same_pieces_trans a b c : same_pieces a b -> same_pieces b c -> same_pieces a c.
Proof.
  intros (A1 & A2 & A3) (B1 & B2 & B3). split; [congruence|]. split; [congruence|]. intros h l.
  destruct (A3 h l), (B3 h l). split; congruence.
Qed.
Lemma same_pieces_cons x a b : same_pieces a b -> same_pieces (x :: a) (x :: b).
Proof.
  intros (A1 & A2 & A3). split; [now rewrite !olds_cons, A1|]. split; [now rewrite !news_cons, A2|].
  intros h l. cbn [relabel swap map]. split; f_equal; apply A3.
Qed.
Lemma skipn_plus {A} a : forall b (l : list A), skipn (a + b) l = skipn b (skipn a l).
Proof. induction a as [|a IH]; intros b l; [reflexivity|]. destruct l; cbn [skipn Nat.add]; [now destruct b|apply IH]. Qed.
Lemma same_pieces_join u v sg : same_pieces ((u ++ v, None) :: sg) ((u, None) :: (v, None) :: sg).
Proof.
  split; [|split].
  - cbn. unfold old_of. cbn. now rewrite <- app_assoc.
  - cbn. unfold new_of. cbn. now rewrite <- app_assoc.
  - intros h l. cbn [relabel swap map swap1 snd fst old_of]. unfold old_of. cbn [fst].
    rewrite app_length, firstn_add, <- !app_assoc, skipn_plus. split; reflexivity.
Qed.

(** pieces with a flag, neighbouring pieces outside of the class are allowed *)
Fixpoint semi (p : Z -> bool) (rs : list (bool * str)) : Prop :=
  match rs with
  | [] => True
  | (b, r) :: rs => r <> [] /\ all_in p b r /\
      (b = true -> match rs with (true, _) :: _ => False | _ => True end) /\ semi p rs
  end.

Definition fine (choose : str -> option str) (rs : list (bool * str)) : list (seg Z) :=
  map (fun br : bool * str => (snd br, if fst br then choose (snd br) else None)) rs.

Lemma runs_false_app p r t : r <> [] -> all_in p false r ->
  runs p (r ++ t) = match runs p t with (false, r') :: rest => (false, r ++ r') :: rest | rs => (false, r) :: rs end.
Proof.
  intros N A. induction A as [|c r Hc A IH]; [congruence|]. cbn [app runs]. destruct r as [|d r].
  - cbn [app]. destruct (runs p t) as [|[b r'] rs]; rewrite Hc; [reflexivity|]. destruct b; reflexivity.
  - rewrite IH by discriminate. destruct (runs p t) as [|[b r'] rs]; [now rewrite Hc|].
    destruct b; rewrite Hc; reflexivity.
Qed.

Lemma runs_fine p choose rs : semi p rs -> same_pieces (seg_runs p choose (concat (map snd rs))) (fine choose rs).
Proof.
  induction rs as [|[b r] rs IH]; [intros _; apply same_pieces_refl|]. intros (N & A & B & S). specialize (IH S).
  cbn [map concat snd fine fst]. fold (fine choose rs). destruct b.
  - unfold seg_runs. rewrite (runs_cons_run p true r); [|exact N|exact A|].
    + cbn [map fst snd]. apply same_pieces_cons, IH.
    + specialize (B eq_refl). pose proof (runs_hd_flag p (concat (map snd rs))) as H.
      destruct rs as [|[b' r'] rs]; [exact I|]. destruct b'; [contradiction|]. destruct S as (N' & A' & _).
      cbn [map snd concat] in *. destruct r' as [|c r']; [congruence|]. cbn [app] in *. inversion A'; subst.
      destruct (runs p (c :: r' ++ concat (map snd rs))) as [|[b2 r2] rs2]; [exact I|]. subst b2. cbn. assumption.
  - unfold seg_runs in *. rewrite runs_false_app by assumption.
    destruct (runs p (concat (map snd rs))) as [|[[|] r'] rest].
    + cbn [map fst snd] in *. apply same_pieces_cons, IH.
    + cbn [map fst snd] in *. apply same_pieces_cons, IH.
    + cbn [map fst snd] in *. eapply same_pieces_trans; [apply same_pieces_join|]. apply same_pieces_cons, IH.
Qed.

(** ** Recognisers of different runs *)

Definition after_choice (choose : str -> option str) (br : bool * str) : bool * str :=
  if fst br then match choose (snd br) with Some v => (false, v) | None => br end else br.

Lemma semi_after p choose rs : wf_runs p rs ->
  (forall r v, choose r = Some v -> all_in p false v /\ v <> []) -> semi p (map (after_choice choose) rs).
Proof.
  intros W H. induction rs as [|[b r] rs IH]; [exact I|]. destruct W as (N & A & B & W). specialize (IH W).
  cbn [map]. unfold after_choice at 1. cbn [fst snd]. destruct b.
  - destruct (choose r) as [v|] eqn:Q.
    + destruct (H r v Q). cbn [semi]. repeat split; auto. discriminate.
    + cbn [semi]. repeat split; auto. intros _. destruct rs as [|[b' r'] rs]; [exact I|].
      cbn in B. subst b'. exact I.
  - cbn [semi]. repeat split; auto. discriminate.
Qed.

Lemma news_after p choose s : news (seg_runs p choose s) = concat (map snd (map (after_choice choose) (runs p s))).
Proof.
  rewrite seg_runs_news, map_map. f_equal. apply map_ext. intros [b r]. unfold after_choice. cbn [fst snd].
  destruct b; [|reflexivity]. destruct (choose r); reflexivity.
Qed.

Definition exclusive (c1 c2 : str -> option str) : Prop := forall r, c1 r = None \/ c2 r = None.

Lemma fine_cons choose b r rs : fine choose ((b, r) :: rs) = (r, if b then choose r else None) :: fine choose rs.
Proof. reflexivity. Qed.

Lemma firstn_exact {A} (a b : list A) n : length a = n -> firstn n (a ++ b) = a.
Proof. intros <-. rewrite firstn_app, Nat.sub_diag, firstn_all. cbn. apply app_nil_r. Qed.
Lemma skipn_exact {A} (a b : list A) n : length a = n -> skipn n (a ++ b) = b.
Proof. intros <-. rewrite skipn_app, Nat.sub_diag, skipn_all. reflexivity. Qed.

Lemma fine_commute c1 c2 h1 h2 rs : exclusive c1 c2 ->
  (forall r v ls, c1 r = Some v -> length (h1 ls (length v)) = length v) ->
  (forall r v ls, c2 r = Some v -> length (h2 ls (length v)) = length v) ->
  forall l, length l = length (concat (map snd rs)) ->
  relabel h2 (fine c2 (map (after_choice c1) rs)) (relabel h1 (fine c1 rs) l) =
  relabel h1 (fine c1 (map (after_choice c2) rs)) (relabel h2 (fine c2 rs) l).
Proof.
  intros X H1 H2. induction rs as [|[b r] rs IH]; intros l HL; [reflexivity|].
  cbn [map concat snd] in HL. rewrite app_length in HL.
  assert (L1 : length (firstn (length r) l) = length r) by (rewrite firstn_length; lia).
  assert (L2 : length (skipn (length r) l) = length (concat (map snd rs))) by (rewrite skipn_length; lia).
  specialize (IH _ L2). cbn [map]. unfold after_choice at 1 3. cbn [fst snd].
  destruct b; [destruct (X r) as [Q|Q]; rewrite Q|].
  - destruct (c2 r) as [v|] eqn:Q2; rewrite !fine_cons; rewrite ?Q, ?Q2; cbn [relabel snd fst]; unfold old_of; cbn [fst].
    + rewrite !(firstn_exact _ _ (length r)), !(skipn_exact _ _ (length r)) by exact L1.
      rewrite !(firstn_exact _ _ (length v)), !(skipn_exact _ _ (length v)) by now apply (H2 r). now rewrite IH.
    + rewrite !(firstn_exact _ _ (length r)), !(skipn_exact _ _ (length r)) by exact L1. now rewrite IH.
  - destruct (c1 r) as [v|] eqn:Q2; rewrite !fine_cons; rewrite ?Q, ?Q2; cbn [relabel snd fst]; unfold old_of; cbn [fst].
    + rewrite !(firstn_exact _ _ (length r)), !(skipn_exact _ _ (length r)) by exact L1.
      rewrite !(firstn_exact _ _ (length v)), !(skipn_exact _ _ (length v)) by now apply (H1 r). now rewrite IH.
    + rewrite !(firstn_exact _ _ (length r)), !(skipn_exact _ _ (length r)) by exact L1. now rewrite IH.
  - rewrite !fine_cons. cbn [relabel snd fst]. unfold old_of. cbn [fst].
    rewrite !(firstn_exact _ _ (length r)), !(skipn_exact _ _ (length r)) by exact L1. now rewrite IH.
Qed.

Lemma after_commute c1 c2 br : exclusive c1 c2 -> after_choice c1 (after_choice c2 br) = after_choice c2 (after_choice c1 br).
Proof.
  intros X. destruct br as [b r]. unfold after_choice. cbn [fst snd]. destruct b; [|reflexivity].
  destruct (X r) as [Q|Q]; rewrite Q.
  - destruct (c2 r) eqn:Q2; cbn [fst snd]; [now rewrite ?Q2|now rewrite Q, Q2].
  - destruct (c1 r) eqn:Q2; cbn [fst snd]; [now rewrite Q2|now rewrite Q, Q2].
Qed.

Lemma swap_fine choose b r rs : swap (fine choose ((b, r) :: rs)) =
  (match (if b then choose r else None) with Some v => (v, Some r) | None => (r, None) end) :: swap (fine choose rs).
Proof. cbn. unfold swap1. cbn [snd fst]. destruct b; [|reflexivity]. destruct (choose r); reflexivity. Qed.

Lemma fine_commute_back c1 c2 (k1 k2 : rule) rs : exclusive c1 c2 ->
  (forall ls n, length (k1 ls n) = n) -> (forall ls n, length (k2 ls n) = n) ->
  forall l, length l = length (concat (map snd (map (after_choice c2) (map (after_choice c1) rs)))) ->
  relabel k1 (swap (fine c1 rs)) (relabel k2 (swap (fine c2 (map (after_choice c1) rs))) l) =
  relabel k2 (swap (fine c2 rs)) (relabel k1 (swap (fine c1 (map (after_choice c2) rs))) l).
Proof.
  intros X H1 H2. induction rs as [|[b r] rs IH]; intros l HL; [reflexivity|].
  cbn [map concat] in *. rewrite app_length in HL.
  set (T := concat (map snd (map (after_choice c2) (map (after_choice c1) rs)))) in *.
  unfold after_choice in HL. unfold after_choice at 1 3. cbn [fst snd] in *.
  destruct b; [destruct (X r) as [Q|Q]; rewrite Q in *|].
  - cbn [fst snd] in *. destruct (c2 r) as [v|] eqn:Q2; cbn [snd fst] in HL; rewrite ?Q, ?Q2 in HL; cbn [snd fst] in HL; rewrite !swap_fine; rewrite ?Q, ?Q2; cbn [relabel snd fst]; unfold old_of; cbn [fst].
    + assert (L1 : length (firstn (length v) l) = length v) by (rewrite firstn_length; lia).
      assert (L2 : length (skipn (length v) l) = length T) by (rewrite skipn_length; lia).
      rewrite !(firstn_exact _ _ (length v)), !(skipn_exact _ _ (length v)) by exact L1.
      rewrite !(firstn_exact _ _ (length r)), !(skipn_exact _ _ (length r)) by now rewrite H2. now rewrite IH.
    + assert (L1 : length (firstn (length r) l) = length r) by (rewrite firstn_length; lia).
      assert (L2 : length (skipn (length r) l) = length T) by (rewrite skipn_length; lia).
      rewrite !(firstn_exact _ _ (length r)), !(skipn_exact _ _ (length r)) by exact L1. now rewrite IH.
  - destruct (c1 r) as [v|] eqn:Q2; cbn [fst snd] in *; rewrite ?Q, ?Q2 in HL; cbn [snd fst] in HL; rewrite !swap_fine; rewrite ?Q, ?Q2; cbn [relabel snd fst]; unfold old_of; cbn [fst].
    + assert (L1 : length (firstn (length v) l) = length v) by (rewrite firstn_length; lia).
      assert (L2 : length (skipn (length v) l) = length T) by (rewrite skipn_length; lia).
      rewrite !(firstn_exact _ _ (length v)), !(skipn_exact _ _ (length v)) by exact L1.
      rewrite !(firstn_exact _ _ (length r)), !(skipn_exact _ _ (length r)) by now rewrite H1. now rewrite IH.
    + assert (L1 : length (firstn (length r) l) = length r) by (rewrite firstn_length; lia).
      assert (L2 : length (skipn (length r) l) = length T) by (rewrite skipn_length; lia).
      rewrite !(firstn_exact _ _ (length r)), !(skipn_exact _ _ (length r)) by exact L1. now rewrite IH.
  - cbn [fst snd] in HL. rewrite !swap_fine. cbn [relabel snd fst]. unfold old_of. cbn [fst].
    assert (L1 : length (firstn (length r) l) = length r) by (rewrite firstn_length; lia).
    assert (L2 : length (skipn (length r) l) = length T) by (rewrite skipn_length; lia).
    rewrite !(firstn_exact _ _ (length r)), !(skipn_exact _ _ (length r)) by exact L1. now rewrite IH.
Qed.

Theorem recognisers_commute E o1 o2 p c1 c2 h1 h2 k1 k2 s :
  (forall s, rewrites E o1 s (seg_runs p c1 s) h1 k1) -> (forall s, rewrites E o2 s (seg_runs p c2 s) h2 k2) ->
  exclusive c1 c2 ->
  (forall r v, c1 r = Some v -> (all_in p false v /\ v <> []) /\ forall ls, length (h1 ls (length v)) = length v) ->
  (forall r v, c2 r = Some v -> (all_in p false v /\ v <> []) /\ forall ls, length (h2 ls (length v)) = length v) ->
  (forall ls n, length (k1 ls n) = n) -> (forall ls n, length (k2 ls n) = n) ->
  interchangeable E [o1; o2] [o2; o1] (SStr s).
Proof.
  intros R1 R2 X V1 V2 K1 K2.
  assert (S1 : semi p (map (after_choice c1) (runs p s))) by (apply semi_after; [apply runs_wf|intros r v Q; now apply V1 in Q]).
  assert (S2 : semi p (map (after_choice c2) (runs p s))) by (apply semi_after; [apply runs_wf|intros r v Q; now apply V2 in Q]).
  destruct (R1 s) as (O1 & M1). destruct (R2 s) as (O2 & M2).
  destruct (R2 (news (seg_runs p c1 s))) as (_ & M2'). destruct (R1 (news (seg_runs p c2 s))) as (_ & M1').
  pose proof (runs_fine p c2 _ S1) as (_ & N2 & B2). pose proof (runs_fine p c1 _ S2) as (_ & N1 & B1).
  rewrite <- news_after in N1, N2, B1, B2.
  assert (EQ : news (fine c2 (map (after_choice c1) (runs p s))) = news (fine c1 (map (after_choice c2) (runs p s)))).
  { assert (forall c rs, news (fine c rs) = concat (map snd (map (after_choice c) rs))) as NF.
    { intros c rs. unfold news, fine. rewrite !map_map. f_equal. apply map_ext. intros [b r]. unfold after_choice, new_of. cbn [fst snd].
      destruct b; [|reflexivity]. destruct (c r); reflexivity. }
    rewrite !NF, !map_map. f_equal. apply map_ext. intros br. now rewrite (after_commute c1 c2 br X). }
  rewrite N2 in M2'. rewrite N1, <- EQ in M1'.
  eapply (maps_commute E o1 o2 (SStr s) _ _ _ _ _ _ _ _ _ _ _ M1 M2' M2 M1').
  - intros l HL. cbn [pseq_length] in HL. destruct (B2 h2 (relabel h1 (seg_runs p c1 s) l)) as [-> _].
    destruct (B1 h1 (relabel h2 (seg_runs p c2 s) l)) as [-> _].
    change (seg_runs p c1 s) with (fine c1 (runs p s)). change (seg_runs p c2 s) with (fine c2 (runs p s)).
    apply fine_commute; [exact X|intros r v ls Q; apply (V1 r v Q)|intros r v ls Q; apply (V2 r v Q)|now rewrite runs_concat].
  - intros l HL. cbn [pseq_length] in HL. destruct (B2 k2 l) as [_ ->]. destruct (B1 k1 l) as [_ ->].
    change (seg_runs p c1 s) with (fine c1 (runs p s)). change (seg_runs p c2 s) with (fine c2 (runs p s)).
    apply fine_commute_back; [exact X|exact K1|exact K2|]. rewrite HL.
    assert (forall c rs, news (fine c rs) = concat (map snd (map (after_choice c) rs))) as NF.
    { intros c rs. unfold news, fine. rewrite !map_map. f_equal. apply map_ext. intros [b r]. unfold after_choice, new_of. cbn [fst snd].
      destruct b; [|reflexivity]. destruct (c r); reflexivity. }
    now rewrite NF.
Qed.

(** ** Numbers *)

Lemma class_ascii E c : ascii_digits E -> (0 <= c < 128)%Z -> point c || digit E c = (c =? 46) || ascii_digit c.
Proof.
  intros H R. unfold point, digit. rewrite (H c R). cbn [existsb txt List.map String.list_ascii_of_string].
  change (Z.of_nat (Ascii.nat_of_ascii ".")) with 46. rewrite orb_false_r.
  repeat match goal with |- context [c =? ?n] => match n with 46 => fail 1 | _ => destruct (Z.eqb_spec c n); [lia|] end end.
  now rewrite !orb_false_r.
Qed.

Lemma token_outside E (tok : str) : ascii_digits E ->
  forallb (fun c => (0 <=? c) && (c <? 128) && negb ((c =? 46) || ascii_digit c)) tok = true ->
  all_in (fun c => point c || digit E c) false tok.
Proof.
  intros H F. apply Forall_forall. intros c Hc. rewrite forallb_forall in F. specialize (F c Hc).
  apply andb_true_iff in F. destruct F as [F1 F2]. apply andb_true_iff in F1. destruct F1 as [F0 F1].
  apply Z.leb_le in F0. apply Z.ltb_lt in F1. rewrite class_ascii by auto. now apply negb_true_iff.
Qed.

Lemma int_float_exclusive E t1 t2 : ascii_digits E ->
  exclusive (fun r => if forallb (digit E) r then Some t1 else None) (fun r => if is_decimal (digit E) r then Some t2 else None).
Proof.
  intros H r. destruct (forallb (digit E) r) eqn:F; [|now left]. right.
  destruct (is_decimal (digit E) r) eqn:D; [|reflexivity]. exfalso.
  unfold is_decimal in D. apply existsb_exists in D. destruct D as (k & _ & D).
  destruct (skipn k r) as [|d [|x rest]] eqn:SK; try discriminate.
  apply andb_true_iff in D. destruct D as [D _]. apply andb_true_iff in D. destruct D as [D _].
  apply andb_true_iff in D. destruct D as [D _]. apply Z.eqb_eq in D. subst d.
  rewrite forallb_forall in F. assert (In 46 r) as HI.
  { rewrite <- (firstn_skipn k r), SK. apply in_or_app. right. now left. }
  specialize (F 46 HI). unfold digit in F. rewrite (H 46) in F by lia. vm_compute in F. discriminate.
Qed.

Lemma right_mode ls n : length (by_mode ls n) = n.
Proof. apply repeat_length. Qed.
Lemma right_entity ls n : length (by_entity_mode ls n) = n.
Proof. apply repeat_length. Qed.
Lemma right_around ls n : (2 <= n)%nat -> length (around by_mode ls n) = n.
Proof. intros H. unfold around. cbn [length]. rewrite app_length, right_mode. cbn. lia. Qed.

Theorem numbers_commute E o1 o2 s : ord_ok (ord_c E) -> ascii_digits E ->
  In o1 [IntToken; IntTokenWithSpace; NumTokenWithSpace] -> In o2 [FloatToken; FloatTokenWithSpace] ->
  interchangeable E [o1; o2] [o2; o1] (SStr s).
Proof.
  intros OC AD H1 H2.
  assert (exists t1 h1, (forall s, rewrites E o1 s (int_like E t1 s) h1 by_entity_mode) /\
    (all_in (fun c => point c || digit E c) false t1 /\ t1 <> []) /\ forall ls, length (h1 ls (length t1)) = length t1) as (t1 & h1 & R1 & V1 & L1).
  { destruct H1 as [<-|[<-|[<-|[]]]].
    - exists (txt "_int_"), by_mode. split; [intros; now apply int_rewrites|]. split; [split; [now apply token_outside|discriminate]|]. intros; apply right_mode.
    - exists (txt " _int_ "), (around by_mode). split; [intros; now apply int_space_rewrites|]. split; [split; [now apply token_outside|discriminate]|]. intros; apply right_around. cbn; lia.
    - exists (txt " _num_ "), (around by_mode). split; [intros; now apply num_space_rewrites|]. split; [split; [now apply token_outside|discriminate]|]. intros; apply right_around. cbn; lia. }
  assert (exists t2 h2, (forall s, rewrites E o2 s (float_like E t2 s) h2 by_entity_mode) /\
    (all_in (fun c => point c || digit E c) false t2 /\ t2 <> []) /\ forall ls, length (h2 ls (length t2)) = length t2) as (t2 & h2 & R2 & V2 & L2).
  { destruct H2 as [<-|[<-|[]]].
    - exists (txt "_float_"), by_mode. split; [intros; now apply float_rewrites|]. split; [split; [now apply token_outside|discriminate]|]. intros; apply right_mode.
    - exists (txt " _float_ "), (around by_mode). split; [intros; now apply float_space_rewrites|]. split; [split; [now apply token_outside|discriminate]|]. intros; apply right_around. cbn; lia. }
  eapply recognisers_commute; [exact R1|exact R2|now apply int_float_exclusive| | |apply right_entity|apply right_entity].
  - intros r v Q. apply (choose_if (forallb (digit E)) t1) in Q. subst v. split; assumption.
  - intros r v Q. apply (choose_if (is_decimal (digit E)) t2) in Q. subst v. split; assumption.
Qed.

(** ** Merge and strip *)

Lemma relabel_app h (a b : list (seg Z)) : forall l,
  relabel h (a ++ b) l = relabel h a l ++ relabel h b (skipn (length (olds a)) l).
Proof.
  induction a as [|x a IH]; intros l; [reflexivity|]. cbn [app relabel]. rewrite IH, <- app_assoc, olds_cons.
  rewrite app_length, skipn_plus. reflexivity.
Qed.

Lemma relabel_firstn h (sg : list (seg Z)) : forall l n, (length (olds sg) <= n)%nat ->
  relabel h sg (firstn n l) = relabel h sg l.
Proof.
  induction sg as [|x sg IH]; intros l n H; [reflexivity|]. rewrite olds_cons, app_length in H. cbn [relabel].
  rewrite firstn_firstn, Nat.min_l by lia. rewrite skipn_firstn_comm, IH by lia. reflexivity.
Qed.

(** the ends of a text that starts and ends outside of the class *)
Lemma runs_first p m c t : runs p m = (true, c) :: t -> (forall d, nth_error m 0 = Some d -> p d = false) -> False.
Proof.
  intros R H. pose proof (runs_hd_flag p m) as Q. rewrite R in Q. destruct m as [|d m]; [exact Q|].
  specialize (H d eq_refl). congruence.
Qed.

Lemma wf_last p rs b r : wf_runs p (rs ++ [(b, r)]) -> r <> [] /\ all_in p b r.
Proof.
  induction rs as [|[b' r'] rs IH]; cbn [app wf_runs]; [intros (N & A & _); now split|].
  intros (_ & _ & _ & W). exact (IH W).
Qed.

Lemma runs_last p m : m <> [] -> (forall d, nth_error (rev m) 0 = Some d -> p d = false) ->
  exists rs r, runs p m = rs ++ [(false, r)] /\ r <> [].
Proof.
  intros N H. destruct (runs p m) as [|x t] eqn:R using rev_ind.
  - pose proof (runs_hd_flag p m) as Q. rewrite R in Q. destruct m; [congruence|contradiction].
  - clear IHt. destruct x as [b r]. pose proof (runs_wf p m) as W. rewrite R in W. apply wf_last in W. destruct W as [NR A].
    assert (EM : m = concat (map snd t) ++ r).
    { rewrite <- (runs_concat p m), R, map_app, concat_app. cbn. now rewrite app_nil_r. }
    destruct (rev r) as [|d u] eqn:ER; [apply (f_equal (@rev _)) in ER; rewrite rev_involutive in ER; cbn in ER; congruence|].
    specialize (H d). rewrite EM, rev_app_distr, ER in H. specialize (H eq_refl).
    assert (In d r) as HI by (apply in_rev; rewrite ER; now left).
    unfold all_in in A. rewrite Forall_forall in A. specialize (A d HI). assert (b = false) as -> by congruence.
    exists t, r. now split.
Qed.

Lemma semi_wf p rs : wf_runs p rs -> semi p rs.
Proof.
  induction rs as [|[b r] rs IH]; [easy|]. intros (N & A & B & W). cbn [semi]. repeat split; auto.
  intros ->. destruct rs as [|[b' r'] rs]; [exact I|]. cbn in B. now subst b'.
Qed.

Lemma semi_app_true p rs r w : semi p (rs ++ [(false, r)]) -> w <> [] -> all_in p true w -> semi p ((rs ++ [(false, r)]) ++ [(true, w)]).
Proof.
  intros S N A. induction rs as [|[b u] rs IH].
  - cbn in *. destruct S as (S1 & S2 & _). repeat split; auto; discriminate.
  - cbn [app semi] in *. destruct S as (S1 & S2 & S3 & S4). repeat split; auto.
    intros B. specialize (S3 B). destruct rs as [|[b' u'] rs]; cbn in *; auto.
Qed.

Definition opt (w : str) : list (bool * str) := match w with [] => [] | _ => [(true, w)] end.

Lemma opt_text w : concat (map snd (opt w)) = w.
Proof. destruct w; cbn; [reflexivity|]. now rewrite app_nil_r. Qed.

Lemma split_semi p w1 m w2 : all_in p true w1 -> all_in p true w2 -> (m = [] -> w2 = []) ->
  (forall c, nth_error m 0 = Some c -> p c = false) -> (forall c, nth_error (rev m) 0 = Some c -> p c = false) ->
  semi p (opt w1 ++ runs p m ++ opt w2).
Proof.
  intros A1 A2 H0 H1 H2.
  assert (S2 : semi p (runs p m ++ opt w2)).
  { destruct w2 as [|c w2]; cbn [opt]; [rewrite app_nil_r; apply semi_wf, runs_wf|].
    destruct m as [|d m]; [specialize (H0 eq_refl); discriminate|].
    destruct (runs_last p (d :: m)) as (rs & r & R & NR); [discriminate|exact H2|]. pose proof (runs_wf p (d :: m)) as W.
    rewrite R in *. apply semi_app_true; [now apply semi_wf|discriminate|exact A2]. }
  destruct w1 as [|c w1]; cbn [opt app]; [exact S2|]. cbn [semi]. split; [discriminate|]. split; [exact A1|]. split; [|exact S2].
  intros _. destruct (runs p m) as [|[b r] rs] eqn:R.
  - cbn [app]. destruct m as [|d m]; [rewrite (H0 eq_refl); exact I|].
    pose proof (runs_hd_flag p (d :: m)) as Q. rewrite R in Q. contradiction.
  - cbn [app]. destruct b; [exfalso; exact (runs_first p m r rs R H1)|exact I].
Qed.

Lemma fine_app ch a b : fine ch (a ++ b) = fine ch a ++ fine ch b.
Proof. apply map_app. Qed.

Lemma news_ends p v m : (forall c, nth_error m 0 = Some c -> p c = false) -> (forall c, nth_error (rev m) 0 = Some c -> p c = false) ->
  let y := news (seg_runs p (fun _ => Some v) m) in
  (forall c, nth_error y 0 = Some c -> p c = false) /\ (forall c, nth_error (rev y) 0 = Some c -> p c = false) /\ (y = [] -> m = []).
Proof.
  intros H1 H2 y. destruct m as [|d m].
  { unfold y. cbn. split; [discriminate|]. split; [discriminate|reflexivity]. }
  pose proof (runs_wf p (d :: m)) as W. pose proof (runs_flags p (d :: m)) as FL.
  split; [|split].
  - intros c Hc. unfold y, seg_runs in Hc. destruct (runs p (d :: m)) as [|[b r] rs] eqn:R.
    + discriminate.
    + destruct b; [exfalso; exact (runs_first p (d :: m) r rs R H1)|]. cbn in Hc. destruct W as (N & A & _).
      destruct r as [|x r]; [congruence|]. injection Hc as <-. now inversion A.
  - intros c Hc. destruct (runs_last p (d :: m)) as (rs & r & R & NR); [discriminate|exact H2|].
    change y with (news (fine (fun _ => Some v) (runs p (d :: m)))) in Hc. rewrite R in *. rewrite fine_app, news_app, rev_app_distr in Hc. cbn in Hc. rewrite app_nil_r in Hc.
    apply wf_last in W. destruct W as [_ A]. unfold all_in in A. rewrite Forall_forall in A. apply A.
    destruct (rev r) as [|x u] eqn:ER; [apply (f_equal (@rev _)) in ER; rewrite rev_involutive in ER; cbn in ER; congruence|].
    cbn in Hc. injection Hc as <-. apply in_rev. rewrite ER. now left.
  - intros Y. exfalso. change y with (news (fine (fun _ => Some v) (runs p (d :: m)))) in Y. destruct (runs_last p (d :: m)) as (rs & r & R & NR); [discriminate|exact H2|].
    rewrite R, fine_app, news_app in Y. cbn in Y. rewrite app_nil_r in Y. apply app_eq_nil in Y. unfold new_of in Y. cbn in Y. now destruct Y.
Qed.

Lemma relabel_mode_length (sg : list (seg Z)) l : (length (olds sg) <= length l)%nat -> length (relabel by_mode sg l) = length (news sg).
Proof.
  revert l. induction sg as [|[o v] sg IH]; intros l HL; [reflexivity|].
  cbn [relabel old_of fst snd]. rewrite news_cons, !app_length. rewrite olds_cons, app_length in HL. cbn [old_of fst] in HL.
  rewrite IH by (rewrite skipn_length; unfold old_of in *; cbn [fst] in *; lia). f_equal. destruct v; cbn [new_of snd fst].
  - apply repeat_length.
  - rewrite firstn_length. unfold old_of in *. cbn [fst] in *. lia.
Qed.

Theorem merge_strip_commute E s : python E ->
  interchangeable E [MergeWhiteSpaceCharacters; StripWhiteSpaceCharacters] [StripWhiteSpaceCharacters; MergeWhiteSpaceCharacters] (SStr s).
Proof.
  intros (OC & _ & SP). set (p := is_space E).
  destruct (strip_split p s) as (w1 & w2 & ES & A1 & A2 & H0 & H1 & H2).
  pose proof (strip_maps E s OC) as MS. cbv zeta in MS. fold p in MS.
  pose proof (lstrip_split p s w1 _ w2 ES A1 H0 H1) as EL.
  set (m := strip p s) in *.
  assert (ELD : lead p s = length w1).
  { unfold lead. rewrite EL. apply (f_equal (@length Z)) in ES. rewrite !app_length in *. lia. }
  assert (LW : (length s - length w1 - length m = length w2)%nat).
  { apply (f_equal (@length Z)) in ES. rewrite !app_length in ES. lia. }
  rewrite ELD, LW in MS. clearbody m. clear EL ELD LW.
  destruct (merge_rewrites E s OC) as (OM & MM). destruct (merge_rewrites E m OC) as (OM' & MM'). fold p in MM, MM', OM, OM'.
  pose proof (split_semi p w1 m w2 A1 A2 H0 H1 H2) as S.
  pose proof (runs_fine p (fun _ => Some blank) _ S) as (_ & N & B).
  replace (concat (map snd (opt w1 ++ runs p m ++ opt w2))) with s in N, B
    by (rewrite !map_app, !concat_app, !opt_text, runs_concat; exact ES).
  rewrite !fine_app in N, B. change (fine (fun _ => Some blank) (runs p m)) with (seg_runs p (fun _ => Some blank) m) in N, B.
  set (b1 := match w1 with [] => [] | _ => blank end). set (b2 := match w2 with [] => [] | _ => blank end).
  assert (NO : forall w, news (fine (fun _ => Some blank) (opt w)) = match w with [] => [] | _ => blank end) by (intros []; reflexivity).
  assert (OO : forall w, olds (fine (fun _ => Some blank) (opt w)) = w) by (intros []; cbn; rewrite ?app_nil_r; reflexivity).
  rewrite !news_app, !NO in N. fold b1 b2 in N.
  destruct (news_ends p blank m H1 H2) as (Y1 & Y2 & Y3).
  set (y := news (seg_runs p (fun _ => Some blank) m)) in *.
  assert (B1 : all_in p true b1) by (unfold b1; destruct w1; [constructor|constructor; [exact SP|constructor]]).
  assert (B2 : all_in p true b2) by (unfold b2; destruct w2; [constructor|constructor; [exact SP|constructor]]).
  assert (YB : y = [] -> b2 = []) by (intros Q; unfold b2; now rewrite (H0 (Y3 Q))).
  assert (ST : strip p (news (seg_runs p (fun _ => Some blank) s)) = y) by (rewrite N; now apply strip_unique).
  pose proof (strip_maps E (news (seg_runs p (fun _ => Some blank) s)) OC) as MS'. cbv zeta in MS'. fold p in MS'.
  pose proof (lstrip_split p _ b1 y b2 N B1 YB Y1) as EL'.
  assert (ELD' : lead p (news (seg_runs p (fun _ => Some blank) s)) = length b1).
  { unfold lead. rewrite EL', N, !app_length. lia. }
  rewrite ELD', ST in MS'.
  assert (LW' : (length (news (seg_runs p (fun _ => Some blank) s)) - length b1 - length y = length b2)%nat) by (rewrite N, !app_length; lia).
  rewrite LW' in MS'.
  eapply (maps_commute E _ _ (SStr s) _ _ _ _ _ _ _ _ _ _ _ MM MS' MS MM').
  - intros l HL. cbn [pseq_length] in HL. rewrite ES, !app_length in HL. destruct (B by_mode l) as [-> _].
    rewrite !relabel_app, OO, OM'.
    assert (length (relabel by_mode (fine (fun _ => Some blank) (opt w1)) l) = length b1) as L1.
    { unfold b1. destruct w1; reflexivity. }
    rewrite skipn_exact by exact L1. rewrite firstn_exact.
    + symmetry. apply relabel_firstn. now rewrite OM'.
    + now rewrite relabel_mode_length by (rewrite skipn_length, OM'; lia).
  - intros l HL. cbn [pseq_length] in HL.
    match goal with |- relabel by_mode (swap _) ?X = _ => destruct (B by_mode X) as [_ ->] end.
    unfold swap. rewrite !map_app. fold (swap (fine (fun _ => Some blank) (opt w1))) (swap (fine (fun _ => Some blank) (opt w2))) (swap (seg_runs p (fun _ => Some blank) m)).
    rewrite !relabel_app, !swap_olds, NO. fold b1. fold y.
    rewrite skipn_exact by apply repeat_length. rewrite skipn_exact by exact HL. f_equal; [|f_equal].
    + unfold b1. destruct w1; [reflexivity|]. apply app_nil_r.
    + rewrite <- (relabel_firstn by_mode _ (l ++ _) (length y)) by now rewrite swap_olds. now rewrite firstn_exact by exact HL.
    + unfold b2. destruct w2; [reflexivity|]. apply app_nil_r.
Qed.
