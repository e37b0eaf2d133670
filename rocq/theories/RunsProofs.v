(** Facts about maximal runs, stripping and words. *)

From Verif Require Import Py PyFacts Edit Labels SpecEdit SpecLabels SpecSeg SpecRuns
  EditProofs LabelProofs SegProofs Regex Ops RegexProofs PatternProofs.

Lemma runs_ext p q s : (forall c, p c = q c) -> runs p s = runs q s.
Proof.
  intros H. induction s as [|c s IH]; [reflexivity|]. cbn [runs]. rewrite IH, H. reflexivity.
Qed.

(** A run in front of a text whose first run has the other flag. *)
Lemma runs_cons_run p b r t :
  r <> [] -> all_in p b r ->
  match runs p t with [] => True | (b', _) :: _ => b' = negb b end ->
  runs p (r ++ t) = (b, r) :: runs p t.
Proof.
  intros HN HA HB. induction r as [|c r IH]; [congruence|].
  inversion HA as [|? ? E1 HA']; subst.
  destruct r as [|d r].
  - cbn [app runs]. destruct (runs p t) as [|[b' r'] rs] eqn:ER; [reflexivity|].
    cbn in HB. subst b'. now destruct (p c).
  - change ((c :: d :: r) ++ t) with (c :: (d :: r) ++ t). cbn [runs].
    change (runs p ((d :: r) ++ t)) with (runs p ((d :: r) ++ t)).
    rewrite IH; [|discriminate|exact HA']. now rewrite Bool.eqb_reflx.
Qed.

Lemma runs_unique p rs : wf_runs p rs -> runs p (concat (map snd rs)) = rs.
Proof.
  induction rs as [|[b r] rs IH]; [reflexivity|].
  cbn [wf_runs map snd concat]. intros (HN & HA & HB & HW).
  rewrite (runs_cons_run p b); auto.
  - now rewrite IH.
  - rewrite IH by auto. destruct rs as [|[b' r'] rs]; auto.
Qed.

Lemma runs_hd_flag p s :
  match runs p s, s with
  | [], [] => True
  | (b, _) :: _, c :: _ => b = p c
  | _, _ => False
  end.
Proof.
  destruct s as [|c s]; [exact I|]. cbn [runs].
  destruct (runs p s) as [|[b r] rs]; [reflexivity|].
  destruct (Bool.eqb b (p c)) eqn:E; [|reflexivity]. now apply Bool.eqb_prop.
Qed.

Lemma class_runs_false p r t : all_in p false r -> class_runs p (r ++ t) = class_runs p t.
Proof.
  induction r as [|c r IH]; intros HA; [reflexivity|]. inversion HA as [|? ? E1 HA']; subst.
  rewrite <- (IH HA'). unfold class_runs. cbn [app runs]. rewrite E1.
  destruct (runs p (r ++ t)) as [|[b x] rs]; [reflexivity|]. now destruct b.
Qed.

Lemma class_runs_true p r t :
  r <> [] -> all_in p true r -> match t with [] => True | c :: _ => p c = false end ->
  class_runs p (r ++ t) = r :: class_runs p t.
Proof.
  intros HN HA HB. unfold class_runs. rewrite (runs_cons_run p true r t HN HA); [reflexivity|].
  pose proof (runs_hd_flag p t) as F. destruct (runs p t) as [|[b x] rs]; [exact I|].
  destruct t; [destruct F|]. now rewrite F, HB.
Qed.

(** Runs of the class after replacing the chosen ones by a text outside the class. *)
Lemma class_runs_replaced p choose rs :
  wf_runs p rs ->
  (forall r v, choose r = Some v -> all_in p false v /\ v <> []) ->
  class_runs p (concat (map (fun br : bool * str =>
      match (if fst br then choose (snd br) else None) with Some v => v | None => snd br end) rs))
  = filter (fun r => match choose r with Some _ => false | None => true end)
      (map snd (filter fst rs)).
Proof.
  intros HW HC. induction rs as [|[b r] rs IH]; [reflexivity|].
  cbn [wf_runs] in HW. destruct HW as (HN & HA & HB & HW). specialize (IH HW).
  cbn [map concat fst snd filter]. destruct b.
  - cbn [map snd filter]. destruct (choose r) as [v|] eqn:EC.
    + destruct (HC _ _ EC) as (V1 & _). rewrite class_runs_false by exact V1. exact IH.
    + rewrite class_runs_true; [now rewrite IH|exact HN|exact HA|].
      destruct rs as [|[b' r'] rs]; [exact I|]. cbn in HB. subst b'. cbn [map concat fst snd].
      destruct HW as (HN' & HA' & _). destruct r' as [|c r']; [congruence|].
      now inversion HA'.
  - rewrite class_runs_false by exact HA. exact IH.
Qed.

Lemma seg_runs_news p choose s :
  news (seg_runs p choose s)
  = concat (map (fun br : bool * str =>
      match (if fst br then choose (snd br) else None) with Some v => v | None => snd br end)
      (runs p s)).
Proof.
  unfold news, seg_runs. rewrite map_map. f_equal.
Qed.

Lemma seg_runs_left p choose s :
  (forall r v, choose r = Some v -> all_in p false v /\ v <> []) ->
  Forall (fun r => choose r = None) (class_runs p (news (seg_runs p choose s))).
Proof.
  intros HC. rewrite seg_runs_news, class_runs_replaced; [|apply runs_wf|exact HC].
  apply Forall_forall. intros r HI. apply filter_In in HI. destruct HI as (_ & H).
  now destruct (choose r).
Qed.

Lemma seg_runs_nonempty p choose s : nonempty_olds (seg_runs p choose s).
Proof.
  intros o v HI. apply in_map_iff in HI. destruct HI as ([b r] & E & HI).
  injection E as <- _. cbn [snd].
  pose proof (runs_wf p s) as W. induction (runs p s) as [|[b' r'] rs IH]; [destruct HI|].
  destruct W as (W1 & _ & _ & W2). destruct HI as [H|HI]; [|now apply IH].
  injection H as <- <-. exact W1.
Qed.

Lemma seg_runs_In p choose s o v :
  In (o, Some v) (seg_runs p choose s) -> choose o = Some v.
Proof.
  intros HI. apply in_map_iff in HI. destruct HI as ([b r] & E & HI).
  cbn [fst snd] in E. destruct b; [|discriminate]. injection E as <- E. exact E.
Qed.

(** Mapping every run of a class. *)
Lemma wf_runs_map p f rs :
  wf_runs p rs ->
  concat (map (fun br : bool * str => if fst br then map f (snd br) else snd br) rs)
  = map (fun c => if p c then f c else c) (concat (map snd rs)).
Proof.
  induction rs as [|[b r] rs IH]; [reflexivity|].
  cbn [wf_runs map concat fst snd]. intros (HN & HA & _ & HW).
  rewrite (IH HW), map_app. f_equal. clear -HA. unfold all_in in HA.
  destruct b; [|transitivity (map (fun c : Z => c) r); [symmetry; apply map_id|]];
    apply map_ext_in; intros c HI; rewrite Forall_forall in HA; now rewrite (HA c HI).
Qed.

Lemma seg_runs_map p f s :
  news (seg_runs p (fun r => Some (map f r)) s) = map (fun c => if p c then f c else c) s.
Proof.
  rewrite seg_runs_news. transitivity (map (fun c => if p c then f c else c)
    (concat (map snd (runs p s)))); [|now rewrite runs_concat].
  rewrite <- wf_runs_map by apply runs_wf. f_equal. apply map_ext. intros [[|] r]; reflexivity.
Qed.

(** ** Merging whitespace *)

Definition merged (p : Z -> bool) (sp : str) (s : str) : str :=
  news (seg_runs p (fun _ => Some sp) s).

Lemma merged_runs p c s :
  p c = true ->
  runs p (merged p [c] s) = map (fun br : bool * str => (fst br, if fst br then [c] else snd br)) (runs p s).
Proof.
  intros HC. unfold merged. rewrite seg_runs_news.
  transitivity (runs p (concat (map snd (map (fun br : bool * str =>
    (fst br, if fst br then [c] else snd br)) (runs p s))))).
  - f_equal. f_equal. rewrite map_map. apply map_ext. intros [[|] r]; reflexivity.
  - apply runs_unique. pose proof (runs_wf p s) as W.
    induction (runs p s) as [|[b r] rs IH]; [exact I|].
    destruct W as (W1 & W2 & W3 & W4). cbn [map fst snd wf_runs].
    split; [|split; [|split]].
    + destruct b; [discriminate|exact W1].
    + destruct b; [|exact W2]. constructor; [exact HC|constructor].
    + destruct rs as [|[b' r'] rs]; auto.
    + now apply IH.
Qed.

Lemma merged_idem p c s : p c = true -> merged p [c] (merged p [c] s) = merged p [c] s.
Proof.
  intros HC. unfold merged at 1. rewrite seg_runs_news, (merged_runs p c s HC), map_map.
  unfold merged. rewrite seg_runs_news. f_equal. apply map_ext. intros [[|] r]; reflexivity.
Qed.

Lemma no_adjacent p t :
  (forall r, In r (class_runs p t) -> length r <= 1) ->
  forall i a b, nth_error t i = Some a -> nth_error t (S i) = Some b -> p a = true -> p b = true ->
  False.
Proof.
  intros H i a b H1 H2 PA PB.
  assert (SP : exists t1 t2, t = t1 ++ a :: b :: t2).
  { apply nth_error_split in H1. destruct H1 as (t1 & t2 & -> & L).
    rewrite nth_error_app2 in H2 by lia. replace (S i - length t1) with 1 in H2 by lia.
    destruct t2 as [|b' t2]; [discriminate|]. cbn in H2. injection H2 as ->. eauto. }
  destruct SP as (t1 & t2 & ->). clear H1 H2.
  assert (Q : exists r, In r (class_runs p (t1 ++ a :: b :: t2)) /\ 2 <= length r).
  { clear H. induction t1 as [|c t1 IH].
    - cbn [app]. unfold class_runs. cbn [runs]. rewrite PA, PB.
      destruct (runs p t2) as [|[[|] r] rs]; cbn; eexists; (split; [left; reflexivity|cbn; lia]).
    - destruct IH as (r & HI & HL). cbn [app]. unfold class_runs in *. cbn [runs].
      destruct (runs p (t1 ++ a :: b :: t2)) as [|[b' r'] rs] eqn:ER; [destruct HI|].
      destruct (Bool.eqb b' (p c)) eqn:EB.
      + apply Bool.eqb_prop in EB. subst b'. destruct (p c); cbn [filter fst map snd] in *.
        * destruct HI as [<-|HI]; [exists (c :: r'); split; [left; auto|cbn; lia]|].
          exists r. split; [right; exact HI|exact HL].
        * exists r. auto.
      + exists r. split; [|exact HL]. cbn [filter fst] in *. destruct (p c); [right|]; exact HI. }
  destruct Q as (r & HI & HL). specialize (H r HI). lia.
Qed.

Lemma merged_no_adjacent p c s :
  p c = true ->
  forall i a b, nth_error (merged p [c] s) i = Some a -> nth_error (merged p [c] s) (S i) = Some b ->
  p a = true -> p b = true -> False.
Proof.
  intros HC. apply no_adjacent. unfold class_runs. rewrite merged_runs by exact HC.
  intros r HI. apply in_map_iff in HI. destruct HI as ([b x] & <- & HI).
  apply filter_In in HI. destruct HI as (HI & HB). cbn in HB. subst b.
  apply in_map_iff in HI. destruct HI as ([b y] & E & HI). cbn [fst snd] in *.
  injection E as E1 E2. subst b. subst x. cbn. lia.
Qed.

(** ** Stripping *)

Lemma drop_while_none p s :
  (forall c, nth_error s 0 = Some c -> p c = false) -> drop_while p s = s.
Proof. intros H. destruct s as [|c s]; [reflexivity|]. cbn. now rewrite (H c). Qed.

Lemma strip_idem p s : strip p (strip p s) = strip p s.
Proof.
  destruct (strip_split p s) as (w1 & w2 & _ & _ & _ & _ & H1 & H2).
  unfold strip at 1. unfold lstrip. rewrite (drop_while_none p (strip p s) H1).
  unfold rstrip. rewrite drop_while_none by exact H2. apply rev_involutive.
Qed.

Lemma drop_while_all p w t : all_in p true w -> drop_while p (w ++ t) = drop_while p t.
Proof.
  induction 1 as [|c w E H IH]; [reflexivity|]. cbn [app drop_while]. now rewrite E.
Qed.

(** The split is unique: anything between two runs of the class that starts and ends outside
    the class is the stripped text. *)
Lemma strip_unique p w1 m w2 :
  all_in p true w1 -> all_in p true w2 ->
  (forall c, nth_error m 0 = Some c -> p c = false) ->
  (forall c, nth_error (rev m) 0 = Some c -> p c = false) ->
  strip p (w1 ++ m ++ w2) = m.
Proof.
  intros A1 A2 H1 H2. unfold strip, lstrip. rewrite drop_while_all by exact A1.
  destruct m as [|c m].
  - cbn [app]. rewrite <- (app_nil_r w2), drop_while_all by exact A2. reflexivity.
  - rewrite drop_while_none.
    + unfold rstrip. rewrite rev_app_distr, drop_while_all by now apply all_in_rev.
      rewrite drop_while_none by exact H2. apply rev_involutive.
    + exact H1.
Qed.

(** ** Words *)

Lemma words_false p r : r <> [] -> all_in p false r -> words p r = [r].
Proof.
  intros HN HA. unfold words. rewrite <- (app_nil_r r), (runs_cons_run p false r []); auto.
  now rewrite app_nil_r. exact I.
Qed.

(** Pieces from a word to the end of the text, whitespace runs replaced by [sep]. *)
Lemma joined_runs p sep rs :
  wf_runs p rs ->
  let out := concat (map (fun br : bool * str => if fst br then sep else snd br) rs) in
  let ws := map snd (filter (fun br : bool * str => negb (fst br)) rs) in
  match rs with
  | [] => True
  | (false, _) :: _ =>
      exists tail, out = joined sep ws ++ tail /\ (tail = [] \/ tail = sep) /\ ws <> []
  | (true, _) :: _ =>
      exists tail, out = sep ++ joined sep ws ++ tail /\ (tail = [] \/ tail = sep) /\
                   (ws = [] -> tail = [])
  end.
Proof.
  induction rs as [|[b r] rs IH]; intros HW; [exact I|].
  cbn [wf_runs] in HW. destruct HW as (HN & HA & HB & HW). specialize (IH HW). cbn zeta in *.
  destruct b; cbn [map concat fst snd filter negb].
  - destruct rs as [|[b' r'] rs].
    + exists []. cbn. auto.
    + cbn in HB. subst b'. destruct IH as (tail & E & T & N). exists tail.
      split; [now rewrite E|]. split; [exact T|]. intros Q. congruence.
  - destruct rs as [|[b' r'] rs].
    + exists []. cbn. split; [reflexivity|]. split; [auto|discriminate].
    + cbn in HB. subst b'. cbn [negb] in IH. destruct IH as (tail & E & T & N).
      cbn [filter fst negb] in *.
      destruct (map snd (filter (fun br : bool * str => negb (fst br)) rs)) as [|w ws] eqn:EW.
      * exists sep. specialize (N eq_refl). subst tail. cbn [joined] in *. rewrite E.
        split; [cbn; now rewrite app_nil_r|]. split; [auto|discriminate].
      * exists tail. rewrite E. split; [|split; [exact T|discriminate]].
        cbn [joined]. now rewrite <- !app_assoc.
Qed.

Lemma words_edges p s :
  forall w, In w (words p s) -> w <> [] /\ all_in p false w.
Proof.
  intros w HI. unfold words in HI. apply in_map_iff in HI. destruct HI as ([b r] & <- & HI).
  apply filter_In in HI. destruct HI as (HI & HB). cbn in HB. destruct b; [discriminate|].
  cbn [snd]. pose proof (runs_wf p s) as W. induction (runs p s) as [|[b' r'] rs IH]; [destruct HI|].
  destruct W as (W1 & W2 & _ & W3). destruct HI as [H|HI]; [|auto]. injection H as <- <-. auto.
Qed.

Lemma joined_hd sep ws c :
  (forall w, In w ws -> w <> []) -> nth_error (joined sep ws) 0 = Some c ->
  exists w, In w ws /\ nth_error w 0 = Some c.
Proof.
  intros HN E. destruct ws as [|w ws]; [discriminate|].
  exists w. split; [left; auto|]. specialize (HN w (or_introl eq_refl)).
  destruct w as [|x w]; [congruence|]. destruct ws; cbn in *; exact E.
Qed.

Lemma joined_last sep ws c :
  (forall w, In w ws -> w <> []) -> nth_error (rev (joined sep ws)) 0 = Some c ->
  exists w, In w ws /\ In c w.
Proof.
  induction ws as [|w ws IH]; intros HN E; [discriminate|].
  destruct ws as [|w' ws].
  - exists w. split; [left; auto|]. apply nth_error_In in E. cbn in E. now apply in_rev in E.
  - assert (J : joined sep (w' :: ws) <> []).
    { pose proof (HN w' (or_intror (or_introl eq_refl))) as N.
      destruct w'; [congruence|]. destruct ws; discriminate. }
    change (joined sep (w :: w' :: ws)) with (w ++ sep ++ joined sep (w' :: ws)) in E.
    rewrite !rev_app_distr, <- app_assoc in E.
    rewrite nth_error_app1 in E.
    + destruct IH as (x & X1 & X2); [intros x HX; apply HN; now right|exact E|].
      exists x. split; [now right|exact X2].
    + rewrite rev_length. destruct (joined sep (w' :: ws)); [congruence|cbn; lia].
Qed.

Lemma strip_merged p c s :
  p c = true -> strip p (merged p [c] s) = joined [c] (words p s).
Proof.
  intros HC. unfold merged. rewrite seg_runs_news.
  assert (EO : concat (map (fun br : bool * str =>
      match (if fst br then Some [c] else None) with Some v => v | None => snd br end) (runs p s))
    = concat (map (fun br : bool * str => if fst br then [c] else snd br) (runs p s))).
  { f_equal. apply map_ext. intros [[|] r]; reflexivity. }
  rewrite EO. clear EO.
  pose proof (joined_runs p [c] (runs p s) (runs_wf p s)) as J. cbn zeta in J.
  fold (words p s) in J.
  assert (W1 : forall x, nth_error (joined [c] (words p s)) 0 = Some x -> p x = false).
  { intros x E. apply joined_hd in E.
    - destruct E as (w & HI & E). destruct (words_edges p s w HI) as (_ & A).
      unfold all_in in A. rewrite Forall_forall in A. apply A. now apply nth_error_In in E.
    - intros w HI. now apply (words_edges p s). }
  assert (W2 : forall x, nth_error (rev (joined [c] (words p s))) 0 = Some x -> p x = false).
  { intros x E. apply joined_last in E.
    - destruct E as (w & HI & E). destruct (words_edges p s w HI) as (_ & A).
      unfold all_in in A. rewrite Forall_forall in A. now apply A.
    - intros w HI. now apply (words_edges p s). }
  assert (AC : all_in p true [c]) by (constructor; [exact HC|constructor]).
  destruct (runs p s) as [|[b r] rs] eqn:ER.
  - unfold words. rewrite ER. reflexivity.
  - destruct b.
    + destruct J as (tail & E & T & _). rewrite E. apply strip_unique; auto.
      destruct T; subst tail; [constructor|exact AC].
    + destruct J as (tail & E & T & _). rewrite E.
      change (joined [c] (words p s) ++ tail) with ([] ++ joined [c] (words p s) ++ tail).
      apply strip_unique; auto; [constructor|].
      destruct T; subst tail; [constructor|exact AC].
Qed.
