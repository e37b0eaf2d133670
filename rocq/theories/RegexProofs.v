(** The regular expression matcher and the scanning loop. *)

From Verif Require Import Py PyFacts Edit Labels SpecEdit SpecLabels SpecSeg SpecRuns EditProofs
  LabelProofs SegProofs Regex Ops.

(** ** Runs *)

Definition all_in (p : Z -> bool) (b : bool) (r : str) : Prop := Forall (fun c => p c = b) r.

Fixpoint wf_runs (p : Z -> bool) (rs : list (bool * str)) : Prop :=
  match rs with
  | [] => True
  | (b, r) :: rs =>
      r <> [] /\ all_in p b r /\
      match rs with [] => True | (b', _) :: _ => b' = negb b end /\ wf_runs p rs
  end.

Lemma runs_wf p s : wf_runs p (runs p s).
Proof.
  induction s as [|c s IH]; [exact I|]. cbn [runs].
  destruct (runs p s) as [|[b r] rs].
  - cbn. repeat split; try discriminate. repeat constructor.
  - destruct (Bool.eqb b (p c)) eqn:E.
    + apply Bool.eqb_prop in E. cbn in *. destruct IH as (H1 & H2 & H3 & H4).
      split; [discriminate|]. split; [|auto]. constructor; auto.
    + cbn [wf_runs] in *. split; [discriminate|]. split; [repeat constructor|].
      split; [|exact IH]. destruct b, (p c); cbn in *; congruence.
Qed.

Lemma runs_concat p s : concat (map snd (runs p s)) = s.
Proof.
  induction s as [|c s IH]; [reflexivity|]. cbn [runs].
  destruct (runs p s) as [|[b r] rs].
  - cbn in *. now subst.
  - destruct (Bool.eqb b (p c)); cbn in *; now rewrite IH.
Qed.

Lemma seg_runs_olds p choose s : olds (seg_runs p choose s) = s.
Proof.
  unfold olds, seg_runs. rewrite map_map. rewrite <- (runs_concat p s) at 2. f_equal.
Qed.

(** ** Ends of matches *)

Lemma run_length_le c s : run_length c s <= length s.
Proof. induction s as [|x s IH]; cbn; [lia|]. destruct (c x); lia. Qed.

Lemma ends_bounds r s i e : i <= length s -> In e (ends r s i) -> i <= e <= length s.
Proof.
  revert i e; induction r as [l|c|c|a IHa b IHb|a IHa b IHb|c|c| |]; intros i e HI H;
    cbn [ends] in H.
  - destruct (prefixb l (skipn i s)) eqn:E; [|destruct H]. destruct H as [<-|[]].
    apply prefixb_spec in E. destruct E as (t & E).
    assert (L : length (skipn i s) = length (l ++ t)) by now rewrite E.
    rewrite skipn_length, app_length in L. lia.
  - apply in_map_iff in H. destruct H as (k & <- & H). apply in_rev, in_seq in H.
    pose proof (run_length_le c (skipn i s)) as L. rewrite skipn_length in L. lia.
  - apply in_map_iff in H. destruct H as (k & <- & H). apply in_rev, in_seq in H.
    pose proof (run_length_le c (skipn i s)) as L. rewrite skipn_length in L. lia.
  - apply in_flat_map in H. destruct H as (m & H1 & H2).
    apply IHa in H1; [|exact HI]. apply IHb in H2; lia.
  - apply in_app_iff in H. destruct H; auto.
  - destruct i as [|j]; [destruct H as [<-|[]]; lia|].
    destruct (nth_error s j) as [x|]; [destruct (c x)|]; try destruct H as [<-|[]]; try lia.
    destruct H.
  - destruct (nth_error s i) as [x|]; [destruct (c x)|]; try destruct H as [<-|[]]; try lia.
    destruct H.
  - destruct (i =? 0); [destruct H as [<-|[]]; lia|destruct H].
  - destruct (i =? length s); [destruct H as [<-|[]]; lia|destruct H].
Qed.

(** ** search *)

Lemma search_at_some r s n i j e :
  search_at r s n i = Some (j, e) ->
  i <= j <= i + n /\ hd_error (ends r s j) = Some e /\ forall k, i <= k < j -> ends r s k = [].
Proof.
  revert i; induction n as [|n IH]; intros i H; cbn [search_at] in H.
  - destruct (ends r s i) as [|x l] eqn:E; [discriminate|]. injection H as <- <-.
    rewrite E. split; [lia|]. split; [reflexivity|]. intros; lia.
  - destruct (ends r s i) as [|x l] eqn:E.
    + apply IH in H. destruct H as (H1 & H2 & H3). split; [lia|]. split; [exact H2|].
      intros k Hk. destruct (Nat.eq_dec k i) as [->|N]; [exact E|]. apply H3; lia.
    + injection H as <- <-. rewrite E. split; [lia|]. split; [reflexivity|]. intros; lia.
Qed.

Lemma search_at_none r s n i :
  search_at r s n i = None -> forall k, i <= k <= i + n -> ends r s k = [].
Proof.
  revert i; induction n as [|n IH]; intros i H k Hk; cbn [search_at] in H.
  - destruct (ends r s i) eqn:E; [|discriminate]. replace k with i by lia. exact E.
  - destruct (ends r s i) eqn:E; [|discriminate].
    destruct (Nat.eq_dec k i) as [->|N]; [exact E|]. apply (IH _ H). lia.
Qed.

Lemma search_some r s pos i e :
  search r s pos = Some (i, e) ->
  pos <= i <= length s /\ i <= e <= length s /\ hd_error (ends r s i) = Some e /\
  forall k, pos <= k < i -> ends r s k = [].
Proof.
  unfold search. destruct (Nat.ltb_spec (length s) pos) as [L|L]; [discriminate|].
  intros H. apply search_at_some in H. destruct H as (H1 & H2 & H3).
  assert (HI : i <= length s) by lia. split; [lia|].
  split; [|split; [exact H2|exact H3]].
  destruct (ends r s i) as [|x l] eqn:E; [discriminate|]. injection H2 as ->.
  apply (ends_bounds r s i e HI). rewrite E. left; reflexivity.
Qed.

Lemma search_none r s pos :
  search r s pos = None -> forall k, pos <= k <= length s -> ends r s k = [].
Proof.
  unfold search. destruct (Nat.ltb_spec (length s) pos) as [L|L]; [intros; lia|].
  intros H k Hk. apply (search_at_none _ _ _ _ H). lia.
Qed.

Lemma search_at_found r s n i j e :
  i <= j <= i + n -> hd_error (ends r s j) = Some e -> (forall k, i <= k < j -> ends r s k = []) ->
  search_at r s n i = Some (j, e).
Proof.
  revert i; induction n as [|n IH]; intros i HJ HE HK; cbn [search_at].
  - replace i with j by lia. destruct (ends r s j); [discriminate|]. injection HE as ->. reflexivity.
  - destruct (Nat.eq_dec i j) as [->|N].
    + destruct (ends r s j); [discriminate|]. injection HE as ->. reflexivity.
    + rewrite (HK i) by lia. apply IH; auto; [lia|]. intros k Hk; apply HK; lia.
Qed.

Lemma search_found r s pos j e :
  pos <= j <= length s -> hd_error (ends r s j) = Some e ->
  (forall k, pos <= k < j -> ends r s k = []) -> search r s pos = Some (j, e).
Proof.
  intros HJ HE HK. unfold search. destruct (Nat.ltb_spec (length s) pos); [lia|].
  apply search_at_found; auto; lia.
Qed.

Lemma search_not_found r s pos :
  pos <= length s -> (forall k, pos <= k <= length s -> ends r s k = []) -> search r s pos = None.
Proof.
  intros HP HK. destruct (search r s pos) as [[i e]|] eqn:E; [|reflexivity].
  apply search_some in E. destruct E as (H1 & _ & H2 & _). rewrite HK in H2 by lia. discriminate.
Qed.

(** ** The scanning loop on a segmentation *)

Fixpoint matches (r : re) (newv : str -> str) (s : str) (lo : nat) (sg : list (seg Z)) : Prop :=
  match sg with
  | [] => True
  | (o, None) :: sg =>
      (forall j, lo <= j < lo + length o -> ends r s j = []) /\
      matches r newv s (lo + length o) sg
  | (o, Some v) :: sg =>
      o <> [] /\ v = newv o /\ hd_error (ends r s lo) = Some (lo + length o) /\
      matches r newv s (lo + length o) sg
  end.

Lemma radd_ok {A} (acc : list (repl A)) st en v : st <= en -> radd acc st en v = acc ++ [mkR st en v].
Proof. intros H. unfold radd. destruct (Nat.ltb_spec en st); [lia|reflexivity]. Qed.

Lemma scan_stop fuel find newv s shift acc :
  length s <= shift -> scan fuel find newv s shift acc = Ok acc.
Proof. intros H. destruct fuel; cbn [scan]; destruct (Nat.leb_spec (length s) shift); auto; lia. Qed.

Lemma scan_matches r newv sg s pre st fuel acc :
  s = pre ++ olds sg -> st <= length pre -> length s - st <= fuel ->
  ends r s (length s) = [] ->
  (forall j, st <= j < length pre -> ends r s j = []) ->
  matches r newv s (length pre) sg ->
  scan fuel (search r) newv s st acc = Ok (acc ++ grp (length pre) sg).
Proof.
  revert pre st fuel acc; induction sg as [|[o [v|]] sg IH]; intros pre st fuel acc ES HL HF HE HK HM.
  - cbn [grp]. rewrite app_nil_r.
    destruct (Nat.leb_spec (length s) st) as [L|L]; [now apply scan_stop|].
    destruct fuel as [|fuel]; [lia|]. cbn [scan].
    destruct (Nat.leb_spec (length s) st) as [L'|_]; [lia|].
    rewrite search_not_found; [reflexivity|lia|].
    intros k Hk. destruct (Nat.eq_dec k (length s)) as [->|N]; [exact HE|]. apply HK.
    assert (LS : length s = length pre) by (rewrite ES, app_length; cbn; lia). lia.
  - cbn [matches] in HM. destruct HM as (HO & -> & HH & HM).
    assert (LO : 0 < length o) by (destruct o; [congruence|cbn; lia]).
    rewrite olds_cons in ES. cbn [old_of fst] in ES.
    assert (LS : length s = length pre + length o + length (olds sg)).
    { rewrite ES, !app_length. lia. }
    destruct fuel as [|fuel]; [lia|]. cbn [scan].
    destruct (Nat.leb_spec (length s) st) as [L|_]; [lia|].
    rewrite (search_found r s st (length pre) (length pre + length o)); auto; [|lia].
    rewrite radd_ok by lia.
    assert (E : slice s (length pre) (length pre + length o) = o).
    { subst s. unfold slice. rewrite skipn_app_exact.
      replace (length pre + length o - length pre) with (length o) by lia.
      apply firstn_app_exact. }
    rewrite E. rewrite app_assoc in ES.
    replace (length pre + length o) with (length (pre ++ o)) in * by apply app_length.
    rewrite (IH (pre ++ o)); auto; try lia; [|rewrite app_length in *; lia].
    cbn [grp]. rewrite <- app_assoc. cbn [app]. now rewrite app_length.
  - cbn [matches] in HM. destruct HM as (HO & HM).
    rewrite olds_cons in ES. cbn [old_of fst] in ES. rewrite app_assoc in ES.
    cbn [grp]. replace (length pre + length o) with (length (pre ++ o)) in * by apply app_length.
    apply IH; auto; [rewrite app_length; lia|].
    intros j Hj. destruct (Nat.ltb_spec j (length pre)); [apply HK; lia|apply HO; lia].
Qed.

Definition matched_nonempty (sg : list (seg Z)) : Prop := nonempty_olds sg.

Lemma matches_solid r newv s lo sg : matches r newv s lo sg -> nonempty_olds sg.
Proof.
  revert lo; induction sg as [|[o [v|]] sg IH]; intros lo H o' v' HI.
  - destruct HI.
  - cbn in H. destruct H as (H1 & _ & _ & H4). destruct HI as [E|HI].
    + injection E as <- <-. exact H1.
    + apply (IH _ H4 _ _ HI).
  - cbn in H. destruct H as (_ & H4). destruct HI as [E|HI]; [discriminate|]. apply (IH _ H4 _ _ HI).
Qed.

Lemma scan_group_matches E r newv sg :
  ord_ok (ord_c E) -> ends r (olds sg) (length (olds sg)) = [] ->
  matches r newv (olds sg) 0 sg ->
  scan_group E (search r) newv (olds sg) = Ok (grp 0 sg).
Proof.
  intros HO HE HM. unfold scan_group.
  rewrite (scan_matches r newv sg (olds sg) [] 0); auto.
  - cbn [bind app length]. apply rdone_grp; [exact HO|]. apply nonempty_solid.
    eapply matches_solid; exact HM.
  - lia.
  - intros j Hj. cbn in Hj; lia.
Qed.

(** ** Patterns on runs *)

(** A maximal run of [p] inside a text. *)
Definition run_at (p : Z -> bool) (pre r post : str) : Prop :=
  r <> [] /\ all_in p true r /\
  (forall c, nth_error (rev pre) 0 = Some c -> p c = false) /\
  (forall c, nth_error post 0 = Some c -> p c = false).

Lemma nth_error_rev_last (pre : str) c : nth_error (rev (pre ++ [c])) 0 = Some c.
Proof. rewrite rev_app_distr. reflexivity. Qed.

Lemma runs_matches_from r newv p choose rs s pre :
  s = pre ++ concat (map snd rs) -> wf_runs p rs ->
  (match rs with
   | (b, _) :: _ => forall c, nth_error (rev pre) 0 = Some c -> p c = negb b
   | [] => True end) ->
  (forall pre r1 post, s = pre ++ r1 ++ post -> run_at p pre r1 post ->
     match choose r1 with
     | Some v => v = newv r1 /\ hd_error (ends r s (length pre)) = Some (length pre + length r1)
     | None => forall j, length pre <= j < length pre + length r1 -> ends r s j = []
     end) ->
  (forall j c, nth_error s j = Some c -> p c = false -> ends r s j = []) ->
  matches r newv s (length pre)
    (map (fun br : bool * str => (snd br, if fst br then choose (snd br) else None)) rs).
Proof.
  revert pre; induction rs as [|[b r1] rs IH]; intros pre ES WF HB HC HN; [exact I|].
  cbn [wf_runs] in WF. destruct WF as (W1 & W2 & W3 & W4).
  cbn [map snd fst concat] in *.
  assert (REST : matches r newv s (length pre + length r1)
     (map (fun br : bool * str => (snd br, if fst br then choose (snd br) else None)) rs)).
  { replace (length pre + length r1) with (length (pre ++ r1)) by apply app_length.
    apply IH; auto.
    - now rewrite <- app_assoc.
    - destruct rs as [|[b' r'] rs]; [exact I|]. intros c Hc. rewrite rev_app_distr in Hc.
      destruct (rev r1) as [|d t] eqn:ER.
      { exfalso. apply W1. rewrite <- (rev_involutive r1), ER. reflexivity. }
      cbn in Hc. injection Hc as ->. subst b'. rewrite Bool.negb_involutive.
      unfold all_in in W2. rewrite Forall_forall in W2. apply W2.
      apply in_rev. rewrite ER. left; reflexivity. }
  destruct b.
  - assert (RA : run_at p pre r1 (concat (map snd rs))).
    { split; [exact W1|]. split; [exact W2|]. split; [exact HB|].
      intros c Hc. destruct rs as [|[b' r'] rs]; [discriminate|]. cbn in Hc.
      cbn [wf_runs] in W4. destruct W4 as (V1 & V2 & _). subst b'.
      destruct r' as [|d r']; [congruence|]. cbn in Hc. injection Hc as <-.
      unfold all_in in V2. inversion V2; subst. assumption. }
    specialize (HC pre r1 _ ES RA). cbn [matches].
    destruct (choose r1) as [v|].
    + destruct HC as (E1 & E2). repeat split; auto.
    + split; auto.
  - cbn [matches]. split; [|exact REST]. intros j Hj.
    destruct (nth_error s j) as [c|] eqn:EJ.
    + apply (HN j c EJ). rewrite ES in EJ. rewrite nth_error_app2 in EJ by lia.
      rewrite nth_error_app1 in EJ by lia. apply nth_error_In in EJ.
      unfold all_in in W2. rewrite Forall_forall in W2. now apply W2.
    + exfalso. apply nth_error_None in EJ. rewrite ES, !app_length in EJ. lia.
Qed.

Lemma runs_matches r newv p choose s :
  (forall pre r1 post, s = pre ++ r1 ++ post -> run_at p pre r1 post ->
     match choose r1 with
     | Some v => v = newv r1 /\ hd_error (ends r s (length pre)) = Some (length pre + length r1)
     | None => forall j, length pre <= j < length pre + length r1 -> ends r s j = []
     end) ->
  (forall j c, nth_error s j = Some c -> p c = false -> ends r s j = []) ->
  matches r newv s 0 (seg_runs p choose s).
Proof.
  intros HC HN. apply (runs_matches_from r newv p choose (runs p s) s []); auto.
  - now rewrite runs_concat.
  - apply runs_wf.
  - destruct (runs p s) as [|[b r1] rs]; [exact I|]. intros c Hc; discriminate.
Qed.
