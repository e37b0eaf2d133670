(** Where the built-in patterns match. *)

From Verif Require Import Py PyFacts Edit Labels SpecEdit SpecLabels SpecSeg SpecRuns EditProofs
  LabelProofs SegProofs Regex Ops RegexProofs SpecWords.

(** ** Members of [ends] *)

Lemma run_length_all c s j : j < run_length c s -> exists x, nth_error s j = Some x /\ c x = true.
Proof.
  revert j; induction s as [|x s IH]; intros j H; cbn in H; [lia|].
  destruct (c x) eqn:E; [|lia]. destruct j as [|j]; [exists x; auto|]. cbn. apply IH. lia.
Qed.

Lemma run_length_ge c s n :
  n <= length s -> (forall j, j < n -> forall x, nth_error s j = Some x -> c x = true) ->
  n <= run_length c s.
Proof.
  revert n; induction s as [|x s IH]; intros n HN H; cbn in *; [lia|].
  destruct n as [|n]; [lia|]. rewrite (H 0 ltac:(lia) x eq_refl).
  apply le_n_S, IH; [lia|]. intros j Hj y Hy. apply (H (S j)); [lia|exact Hy].
Qed.

Lemma in_plus c s i e :
  In e (ends (RPlus c) s i) <->
  i < e <= length s /\ (forall j x, i <= j < e -> nth_error s j = Some x -> c x = true).
Proof.
  cbn [ends]. rewrite in_map_iff. split.
  - intros (k & <- & H). apply in_rev, in_seq in H.
    pose proof (run_length_le c (skipn i s)) as L. rewrite skipn_length in L.
    split; [lia|]. intros j x Hj Hx.
    destruct (run_length_all c (skipn i s) (j - i) ltac:(lia)) as (y & H1 & H2).
    rewrite nth_error_skipn in H1. replace (i + (j - i)) with j in H1 by lia. congruence.
  - intros (H1 & H2). exists (e - i). split; [lia|]. apply in_rev. rewrite rev_involutive.
    apply in_seq.
    assert (e - i <= run_length c (skipn i s)).
    { apply run_length_ge; [rewrite skipn_length; lia|]. intros j Hj x Hx.
      rewrite nth_error_skipn in Hx. apply (H2 (i + j)); [lia|exact Hx]. }
    lia.
Qed.

Lemma in_seq_re a b s i e :
  In e (ends (RSeq a b) s i) <-> exists m, In m (ends a s i) /\ In e (ends b s m).
Proof. cbn [ends]. rewrite in_flat_map. reflexivity. Qed.

Lemma in_alt a b s i e : In e (ends (RAlt a b) s i) <-> In e (ends a s i) \/ In e (ends b s i).
Proof. cbn [ends]. apply in_app_iff. Qed.

Lemma in_not_behind c s i e :
  In e (ends (RNotBehind c) s i) <->
  e = i /\ (forall j x, i = S j -> nth_error s j = Some x -> c x = false).
Proof.
  cbn [ends]. destruct i as [|j].
  - cbn. split; [intros [<-|[]]; split; auto; intros; discriminate|intros (-> & _); auto].
  - destruct (nth_error s j) as [x|] eqn:E.
    + destruct (c x) eqn:EC.
      * split; [intros []|]. intros (_ & H). specialize (H j x eq_refl E). congruence.
      * cbn. split; [intros [<-|[]]; split; auto|intros (-> & _); auto].
        intros j' x' EJ Hx. injection EJ as <-. congruence.
    + cbn. split; [intros [<-|[]]; split; auto|intros (-> & _); auto].
      intros j' x' EJ Hx. injection EJ as <-. congruence.
Qed.

Lemma in_not_ahead c s i e :
  In e (ends (RNotAhead c) s i) <-> e = i /\ (forall x, nth_error s i = Some x -> c x = false).
Proof.
  cbn [ends]. destruct (nth_error s i) as [x|] eqn:E.
  - destruct (c x) eqn:EC.
    + split; [intros []|]. intros (_ & H). specialize (H x eq_refl). congruence.
    + cbn. split; [intros [<-|[]]; split; auto; congruence|intros (-> & _); auto].
  - cbn. split; [intros [<-|[]]; split; auto; congruence|intros (-> & _); auto].
Qed.

Lemma in_dot d s i e :
  In e (ends (RLit [d]) s i) <-> e = S i /\ nth_error s i = Some d.
Proof.
  cbn [ends length]. pose proof (nth_error_skipn i s 0) as E0. rewrite Nat.add_0_r in E0.
  destruct (skipn i s) as [|x t] eqn:E; cbn [prefixb] in *.
  - split; [intros []|]. intros (_ & H). cbn in E0. congruence.
  - cbn [nth_error] in E0. destruct (eqb d x) eqn:EQ; cbn [andb].
    + apply eqb_true_eq in EQ. subst x. cbn. split.
      * intros [<-|[]]. split; [lia|congruence].
      * intros (-> & _). left. lia.
    + split; [intros []|]. intros (_ & H). apply eqb_false_neq in EQ. congruence.
Qed.

Lemma in_end s i e : In e (ends REnd s i) <-> e = i /\ i = length s.
Proof.
  cbn [ends]. destruct (Nat.eqb_spec i (length s)); cbn; intuition congruence.
Qed.

Lemma in_begin s i e : In e (ends RBegin s i) <-> e = i /\ i = 0.
Proof. cbn [ends]. destruct (Nat.eqb_spec i 0); cbn; intuition congruence. Qed.

Lemma hd_unique {A} (l : list A) a : In a l -> (forall e, In e l -> e = a) -> hd_error l = Some a.
Proof. intros H1 H2. destruct l as [|x l]; [destruct H1|]. cbn. f_equal. apply H2. left; auto. Qed.

Lemma hd_app {A} (l m : list A) a : hd_error l = Some a -> hd_error (l ++ m) = Some a.
Proof. destruct l; [discriminate|auto]. Qed.

Lemma nil_no_in {A} (l : list A) : (forall e, ~ In e l) -> l = [].
Proof. destruct l as [|x l]; intros H; [reflexivity|]. exfalso. apply (H x). left; auto. Qed.

Lemma hd_plus c s i n :
  run_length c (skipn i s) = n -> 0 < n -> hd_error (ends (RPlus c) s i) = Some (i + n).
Proof.
  intros E H. cbn [ends]. rewrite E. destruct n as [|n]; [lia|].
  rewrite seq_S, rev_app_distr. cbn. f_equal.
Qed.

(** ** Runs in context *)

Lemma run_length_run p r post :
  all_in p true r -> (forall c, nth_error post 0 = Some c -> p c = false) ->
  run_length p (r ++ post) = length r.
Proof.
  intros H HP. induction H as [|x r Hx H IH]; cbn [app run_length length].
  - destruct post as [|c post]; [reflexivity|]. cbn. now rewrite (HP c eq_refl).
  - now rewrite Hx, IH.
Qed.

Section Ctx.
Context (p : Z -> bool) (pre r post s : str) (ES : s = pre ++ r ++ post)
  (RA : run_at p pre r post).

Lemma ctx_inside j : length pre <= j < length pre + length r ->
  exists x, nth_error s j = Some x /\ p x = true /\ nth_error r (j - length pre) = Some x.
Proof.
  intros Hj. destruct RA as (_ & RI & _ & _).
  destruct (nth_error r (j - length pre)) as [x|] eqn:E.
  - exists x. rewrite ES. rewrite nth_error_app2 by lia.
    rewrite nth_error_app1 by lia. split; [exact E|]. split; [|reflexivity].
    unfold all_in in RI. rewrite Forall_forall in RI. apply RI. eapply nth_error_In; eauto.
  - apply nth_error_None in E. lia.
Qed.

Lemma ctx_before j x : length pre = S j -> nth_error s j = Some x -> p x = false.
Proof.
  intros Hj Hx. destruct RA as (_ & _ & RB & _). apply RB.
  rewrite ES in Hx. rewrite nth_error_app1 in Hx by lia.
  destruct pre as [|a t] using rev_ind; [discriminate|]. clear IHt.
  rewrite app_length in Hj. cbn in Hj. rewrite nth_error_app2 in Hx by lia.
  replace (j - length t) with 0 in Hx by lia. rewrite rev_app_distr. exact Hx.
Qed.

Lemma ctx_after x : nth_error s (length pre + length r) = Some x -> p x = false.
Proof.
  intros Hx. destruct RA as (_ & _ & _ & RP). apply RP.
  rewrite ES in Hx. rewrite nth_error_app2 in Hx by lia. rewrite nth_error_app2 in Hx by lia.
  now replace (length pre + length r - length pre - length r) with 0 in Hx by lia.
Qed.

Lemma ctx_length : length s = length pre + length r + length post.
Proof. rewrite ES, !app_length. lia. Qed.

(** A match that starts in the run, stays in the class and must not be followed by the
    class ends where the run ends. *)
Lemma ctx_end e :
  length pre <= e <= length s ->
  (forall j x, length pre <= j < e -> nth_error s j = Some x -> p x = true) ->
  (forall x, nth_error s e = Some x -> p x = false) -> e = length pre + length r.
Proof.
  intros HE HJ HA. destruct (lt_eq_lt_dec e (length pre + length r)) as [[L|E]|G]; auto; exfalso.
  - destruct (ctx_inside e) as (x & H1 & H2 & _); [lia|]. rewrite (HA x H1) in H2. discriminate.
  - pose proof ctx_length as LS.
    destruct (nth_error s (length pre + length r)) as [x|] eqn:EX.
    + specialize (HJ (length pre + length r) x ltac:(lia) EX).
      rewrite (ctx_after x EX) in HJ. discriminate.
    + apply nth_error_None in EX. lia.
Qed.
End Ctx.

(** ** The patterns *)

(** Patterns of the form [class]+ replace every maximal run. *)
Lemma plus_matches c newv s : matches (RPlus c) newv s 0 (seg_runs c (fun r => Some (newv r)) s).
Proof.
  apply runs_matches.
  - intros pre r post ES RA. split; [reflexivity|].
    destruct RA as (R1 & R2 & _ & R4).
    apply hd_plus; [|destruct r; [congruence|cbn; lia]].
    rewrite ES, skipn_app_exact. now apply run_length_run.
  - intros j x Hx HC. apply nil_no_in. intros e He. apply in_plus in He.
    destruct He as (H1 & H2). rewrite (H2 j x) in HC; [discriminate|lia|exact Hx].
Qed.

Lemma plus_end c s : ends (RPlus c) s (length s) = [].
Proof. apply nil_no_in. intros e He. apply in_plus in He. lia. Qed.

Lemma digit_dotdigit E c : digit_class E c = true -> dotdigit_class E c = true.
Proof. unfold dotdigit_class. intros ->. apply Bool.orb_true_r. Qed.

Lemma forallb_nth (f : Z -> bool) l :
  forallb f l = true <-> forall j x, nth_error l j = Some x -> f x = true.
Proof.
  rewrite forallb_forall. split.
  - intros H j x Hx. apply H. eapply nth_error_In; eauto.
  - intros H x Hx. apply In_nth_error in Hx. destruct Hx as (j & Hx). eapply H; eauto.
Qed.

Lemma in_int E s i e :
  In e (ends (re_int E) s i) <->
  (forall j x, i = S j -> nth_error s j = Some x -> dotdigit_class E x = false) /\
  i < e <= length s /\
  (forall j x, i <= j < e -> nth_error s j = Some x -> digit_class E x = true) /\
  (forall x, nth_error s e = Some x -> dotdigit_class E x = false).
Proof.
  unfold re_int. rewrite in_seq_re. split.
  - intros (m & H1 & H2). apply in_not_behind in H1. destruct H1 as (-> & H1).
    apply in_seq_re in H2. destruct H2 as (m & H2 & H3). apply in_plus in H2.
    apply in_not_ahead in H3. destruct H3 as (-> & H3). tauto.
  - intros (H1 & H2 & H3 & H4). exists i. split; [apply in_not_behind; auto|].
    apply in_seq_re. exists e. split; [apply in_plus; auto|apply in_not_ahead; auto].
Qed.

(** In the middle of a run nothing can match. *)
Lemma int_middle E s pre r post j :
  s = pre ++ r ++ post -> run_at (dotdigit_class E) pre r post ->
  length pre < j < length pre + length r -> ends (re_int E) s j = [].
Proof.
  intros ES RA Hj. apply nil_no_in. intros e He. apply in_int in He. destruct He as (H1 & _).
  destruct j as [|j]; [lia|].
  destruct (ctx_inside _ _ _ _ _ ES RA j) as (x & E1 & E2 & _); [lia|].
  rewrite (H1 j x eq_refl E1) in E2. discriminate.
Qed.

Lemma int_matches E tok s :
  matches (re_int E) (fun _ => tok) s 0
    (seg_runs (dotdigit_class E)
       (fun r => if forallb (digit_class E) r then Some tok else None) s).
Proof.
  apply runs_matches.
  - intros pre r post ES RA. pose proof (ctx_length _ _ _ _ ES) as LS.
    assert (LR : 0 < length r) by (destruct RA as (R & _); destruct r; [congruence|cbn; lia]).
    destruct (forallb (digit_class E) r) eqn:EF.
    + split; [reflexivity|]. rewrite forallb_nth in EF. apply hd_unique.
      * apply in_int. split; [|split; [|split]].
        -- intros j x EJ Hx. apply (ctx_before _ _ _ _ _ ES RA j x EJ Hx).
        -- lia.
        -- intros j x Hj Hx. destruct (ctx_inside _ _ _ _ _ ES RA j Hj) as (y & E1 & _ & E3).
           rewrite E1 in Hx. injection Hx as <-. eapply EF; eauto.
        -- intros x Hx. apply (ctx_after _ _ _ _ _ ES RA x Hx).
      * intros e He. apply in_int in He. destruct He as (_ & H2 & H3 & H4).
        apply (ctx_end _ _ _ _ _ ES RA); auto; [lia|].
        intros j x Hj Hx. apply digit_dotdigit. eapply H3; eauto.
    + intros j Hj. destruct (Nat.eq_dec j (length pre)) as [->|N].
      * apply nil_no_in. intros e He. apply in_int in He. destruct He as (_ & H2 & H3 & H4).
        assert (e = length pre + length r) as ->.
        { apply (ctx_end _ _ _ _ _ ES RA); auto; [lia|].
          intros j x Hj' Hx. apply digit_dotdigit. eapply H3; eauto. }
        apply Bool.not_true_iff_false in EF. apply EF. apply forallb_nth.
        intros k x Hk.
        assert (k < length r) by (apply nth_error_Some; congruence).
        apply (H3 (length pre + k)); [lia|]. rewrite ES.
        rewrite nth_error_app2 by lia. rewrite nth_error_app1 by lia.
        now replace (length pre + k - length pre) with k by lia.
      * apply (int_middle E s pre r post); auto. lia.
  - intros j x Hx HC. apply nil_no_in. intros e He. apply in_int in He.
    destruct He as (_ & H2 & H3 & _). specialize (H3 j x ltac:(lia) Hx).
    apply digit_dotdigit in H3. congruence.
Qed.

Lemma int_end E s : ends (re_int E) s (length s) = [].
Proof. apply nil_no_in. intros e He. apply in_int in He. lia. Qed.

Lemma in_float E s i e :
  In e (ends (re_float E) s i) <->
  (forall j x, i = S j -> nth_error s j = Some x -> dotdigit_class E x = false) /\
  exists m, i < m /\ S m < e /\ e <= length s /\
  (forall j x, i <= j < m -> nth_error s j = Some x -> digit_class E x = true) /\
  nth_error s m = Some DOT /\
  (forall j x, S m <= j < e -> nth_error s j = Some x -> digit_class E x = true) /\
  (forall x, nth_error s e = Some x -> dotdigit_class E x = false).
Proof.
  unfold re_float. rewrite in_seq_re. split.
  - intros (m & H1 & H2). apply in_not_behind in H1. destruct H1 as (-> & H1).
    apply in_seq_re in H2. destruct H2 as (m & H2 & H3). apply in_plus in H2.
    apply in_seq_re in H3. destruct H3 as (m' & H3 & H4). apply in_dot in H3.
    destruct H3 as (-> & H3). apply in_seq_re in H4. destruct H4 as (m' & H4 & H5).
    apply in_plus in H4. apply in_not_ahead in H5. destruct H5 as (-> & H5).
    split; [exact H1|]. exists m. intuition lia.
  - intros (H1 & m & H2 & H3 & H4 & H5 & H6 & H7 & H8).
    exists i. split; [apply in_not_behind; auto|].
    apply in_seq_re. exists m. split; [apply in_plus; split; [lia|auto]|].
    apply in_seq_re. exists (S m). split; [apply in_dot; auto|].
    apply in_seq_re. exists e. split; [apply in_plus; split; [lia|auto]|apply in_not_ahead; auto].
Qed.

Lemma nth_error_firstn_lt {A} n (l : list A) j : j < n -> nth_error (firstn n l) j = nth_error l j.
Proof.
  revert l j; induction n as [|n IH]; intros l j H; [lia|].
  destruct l as [|x l]; [reflexivity|]. destruct j as [|j]; [reflexivity|]. cbn. apply IH. lia.
Qed.

Lemma is_decimal_spec d r :
  is_decimal d r = true <->
  exists k, 0 < k /\ S k < length r /\
    (forall j x, j < k -> nth_error r j = Some x -> d x = true) /\
    nth_error r k = Some DOT /\
    (forall j x, S k <= j -> nth_error r j = Some x -> d x = true).
Proof.
  unfold is_decimal. rewrite existsb_exists. split.
  - intros (k & Hk & H). apply in_seq in Hk. exists k.
    pose proof (nth_error_skipn k r 0) as E0. rewrite Nat.add_0_r in E0.
    pose proof (skipn_length k r) as EL.
    pose proof (fun j => nth_error_skipn k r (S j)) as ET.
    destruct (skipn k r) as [|a [|b rest]] eqn:ER; try discriminate.
    apply andb_prop in H. destruct H as (H & H4). apply andb_prop in H. destruct H as (H & H3).
    apply andb_prop in H. destruct H as (H1 & H2). cbn [tl] in H2.
    apply Z.eqb_eq in H1. apply Nat.ltb_lt in H4. cbn in EL, E0.
    split; [lia|]. split; [lia|]. split; [|split].
    + intros j x Hj Hx. rewrite forallb_nth in H3. apply (H3 j x).
      rewrite nth_error_firstn_lt by lia. exact Hx.
    + rewrite <- E0, H1. reflexivity.
    + intros j x Hj Hx. rewrite forallb_nth in H2. apply (H2 (j - S k) x).
      specialize (ET (j - S k)). cbn [nth_error] in ET. rewrite ET.
      now replace (k + S (j - S k)) with j by lia.
  - intros (k & H0 & H1 & H2 & H3 & H4). exists k. split; [apply in_seq; lia|].
    pose proof (nth_error_skipn k r 0) as E0. rewrite Nat.add_0_r in E0.
    pose proof (skipn_length k r) as EL.
    pose proof (fun j => nth_error_skipn k r (S j)) as ET.
    destruct (skipn k r) as [|a [|b rest]] eqn:ER; cbn in EL; try lia.
    cbn in E0. rewrite H3 in E0. injection E0 as ->. cbn [tl].
    change (46 =? 46)%Z with true. cbn [andb].
    apply andb_true_intro. split; [|apply Nat.ltb_lt; lia].
    apply andb_true_intro. split.
    + apply forallb_nth. intros j x Hx. apply (H4 (k + S j)); [lia|].
      rewrite <- ET. exact Hx.
    + apply forallb_nth. intros j x Hx.
      assert (j < k).
      { assert (j < length (firstn k r)) by (apply nth_error_Some; congruence).
        rewrite firstn_length in H. lia. }
      apply (H2 j); [lia|]. rewrite nth_error_firstn_lt in Hx by lia. exact Hx.
Qed.

Lemma float_matches E tok s :
  matches (re_float E) (fun _ => tok) s 0
    (seg_runs (dotdigit_class E)
       (fun r => if is_decimal (digit_class E) r then Some tok else None) s).
Proof.
  apply runs_matches.
  - intros pre r post ES RA. pose proof (ctx_length _ _ _ _ ES) as LS.
    assert (LR : 0 < length r) by (destruct RA as (R & _); destruct r; [congruence|cbn; lia]).
    assert (NR : forall k, k < length r -> nth_error s (length pre + k) = nth_error r k).
    { intros k Hk. rewrite ES, nth_error_app2 by lia. rewrite nth_error_app1 by lia. f_equal; lia. }
    assert (EE : forall e, In e (ends (re_float E) s (length pre)) -> e = length pre + length r).
    { intros e He. apply in_float in He. destruct He as (_ & m & H2 & H3 & H4 & H5 & H6 & H7 & H8).
      apply (ctx_end _ _ _ _ _ ES RA); auto; [lia|].
      intros j x Hj Hx. destruct (lt_eq_lt_dec j m) as [[L| ->]|G].
      - apply digit_dotdigit. apply (H5 j x); [lia|exact Hx].
      - rewrite H6 in Hx. injection Hx as <-. reflexivity.
      - apply digit_dotdigit. apply (H7 j x); [lia|exact Hx]. }
    destruct (is_decimal (digit_class E) r) eqn:ED.
    + split; [reflexivity|]. apply hd_unique; [|exact EE].
      apply is_decimal_spec in ED. destruct ED as (k & H0 & H1 & H2 & H3 & H4).
      apply in_float. split.
      * intros j x EJ Hx. apply (ctx_before _ _ _ _ _ ES RA j x EJ Hx).
      * exists (length pre + k). split; [lia|]. split; [lia|]. split; [lia|].
        split; [|split; [|split]].
        -- intros j x Hj Hx. apply (H2 (j - length pre)); [lia|].
           rewrite <- NR by lia. now replace (length pre + (j - length pre)) with j by lia.
        -- now rewrite NR by lia.
        -- intros j x Hj Hx. apply (H4 (j - length pre)); [lia|].
           rewrite <- NR by lia. now replace (length pre + (j - length pre)) with j by lia.
        -- intros x Hx. apply (ctx_after _ _ _ _ _ ES RA x Hx).
    + intros j Hj. apply nil_no_in. intros e He.
      destruct (Nat.eq_dec j (length pre)) as [->|N].
      * pose proof (EE e He) as ->. apply in_float in He.
        destruct He as (_ & m & H2 & H3 & H4 & H5 & H6 & H7 & H8).
        apply Bool.not_true_iff_false in ED. apply ED. apply is_decimal_spec.
        exists (m - length pre). split; [lia|]. split; [lia|]. split; [|split].
        -- intros j x Hj' Hx. apply (H5 (length pre + j)); [lia|]. rewrite NR by lia. exact Hx.
        -- rewrite <- NR by lia. now replace (length pre + (m - length pre)) with m by lia.
        -- intros j x Hj' Hx.
           assert (j < length r) by (apply nth_error_Some; congruence).
           apply (H7 (length pre + j)); [lia|]. rewrite NR by lia. exact Hx.
      * apply in_float in He. destruct He as (H1 & _).
        destruct j as [|j]; [lia|].
        destruct (ctx_inside _ _ _ _ _ ES RA j) as (x & E1 & E2 & _); [lia|].
        rewrite (H1 j x eq_refl E1) in E2. discriminate.
  - intros j x Hx HC. apply nil_no_in. intros e He. apply in_float in He.
    destruct He as (_ & m & H2 & H3 & H4 & H5 & _). specialize (H5 j x ltac:(lia) Hx).
    apply digit_dotdigit in H5. congruence.
Qed.

Lemma float_end E s : ends (re_float E) s (length s) = [].
Proof. apply nil_no_in. intros e He. apply in_float in He. destruct He as (_ & m & H). lia. Qed.

(** ** Strip *)

Lemma drop_while_split p s : exists w, s = w ++ drop_while p s /\ all_in p true w.
Proof.
  induction s as [|c s (w & E & H)]; [exists []; split; [reflexivity|constructor]|]. cbn.
  destruct (p c) eqn:EC.
  - exists (c :: w). split; [cbn; now rewrite <- E|constructor; auto].
  - exists []. split; [reflexivity|constructor].
Qed.

Lemma drop_while_hd p s c : nth_error (drop_while p s) 0 = Some c -> p c = false.
Proof.
  induction s as [|x s IH]; cbn; [discriminate|]. destruct (p x) eqn:E; [exact IH|].
  cbn. intros H. injection H as <-. exact E.
Qed.

Lemma all_in_rev p b w : all_in p b w -> all_in p b (rev w).
Proof. unfold all_in. rewrite !Forall_forall. intros H x Hx. apply H, in_rev, Hx. Qed.

(** A text is: leading whitespace, its [strip], trailing whitespace. *)
Lemma strip_split p s :
  exists w1 w2, s = w1 ++ strip p s ++ w2 /\ all_in p true w1 /\ all_in p true w2 /\
    (strip p s = [] -> w2 = []) /\
    (forall c, nth_error (strip p s) 0 = Some c -> p c = false) /\
    (forall c, nth_error (rev (strip p s)) 0 = Some c -> p c = false).
Proof.
  unfold strip, lstrip, rstrip.
  destruct (drop_while_split p s) as (w1 & E1 & H1).
  set (m := drop_while p s) in *.
  destruct (drop_while_split p (rev m)) as (w2 & E2 & H2).
  set (k := drop_while p (rev m)) in *.
  assert (EM : m = rev k ++ rev w2).
  { rewrite <- (rev_involutive m), E2, rev_app_distr. reflexivity. }
  exists w1, (rev w2). split; [rewrite <- EM; exact E1|]. split; [exact H1|].
  split; [now apply all_in_rev|]. split; [|split].
  - intros EK. rewrite EK in EM. cbn in EM. destruct w2 as [|x w2]; [reflexivity|]. exfalso.
    destruct m as [|c m'] eqn:EMM; [destruct (rev (x :: w2)) eqn:ER; [|discriminate]|].
    + cbn in ER. destruct (rev w2); discriminate.
    + pose proof (drop_while_hd p s c) as HD. fold m in HD. rewrite EMM in HD.
      specialize (HD eq_refl).
      assert (HI : In c (x :: w2)) by (apply in_rev; rewrite <- EM; left; reflexivity).
      unfold all_in in H2. rewrite Forall_forall in H2. rewrite (H2 c HI) in HD. discriminate.
  - intros c Hc. destruct (rev k) as [|d t] eqn:ER; [discriminate|]. cbn in Hc. injection Hc as ->.
    apply (drop_while_hd p s c). fold m. rewrite EM. reflexivity.
  - intros c Hc. rewrite rev_involutive in Hc. apply (drop_while_hd p (rev m) c Hc).
Qed.

Definition opt_seg (w : str) : list (seg Z) := match w with [] => [] | _ => [(w, Some [])] end.

Lemma opt_seg_olds w : olds (opt_seg w) = w.
Proof. destruct w; [reflexivity|]. unfold olds. cbn. now rewrite app_nil_r. Qed.
Lemma opt_seg_news w : news (opt_seg w) = [].
Proof. destruct w; reflexivity. Qed.

Lemma in_strip E s i e :
  In e (ends (re_strip E) s i) <->
  i < e <= length s /\ (i = 0 \/ e = length s) /\
  (forall j x, i <= j < e -> nth_error s j = Some x -> is_space E x = true).
Proof.
  unfold re_strip. rewrite in_alt, !in_seq_re. split.
  - intros [(m & H1 & H2)|(m & H1 & H2)].
    + apply in_begin in H1. destruct H1 as (-> & H1). apply in_plus in H2. tauto.
    + apply in_end in H2. destruct H2 as (-> & H2). apply in_plus in H1. tauto.
  - intros (H1 & [-> | ->] & H3).
    + left. exists 0. split; [apply in_begin; auto|apply in_plus; auto].
    + right. exists (length s). split; [apply in_plus; auto|apply in_end; auto].
Qed.

Lemma strip_end E s : ends (re_strip E) s (length s) = [].
Proof. apply nil_no_in. intros e He. apply in_strip in He. lia. Qed.

Lemma strip_matches E s w1 m w2 :
  s = w1 ++ m ++ w2 -> all_in (is_space E) true w1 -> all_in (is_space E) true w2 ->
  (m = [] -> w2 = []) ->
  (forall c, nth_error m 0 = Some c -> is_space E c = false) ->
  (forall c, nth_error (rev m) 0 = Some c -> is_space E c = false) ->
  matches (re_strip E) (fun _ => []) s 0 (opt_seg w1 ++ [(m, None)] ++ opt_seg w2).
Proof.
  intros ES H1 H2 H3 H4 H5.
  assert (LS : length s = length w1 + length m + length w2) by (rewrite ES, !app_length; lia).
  assert (HM : forall j, length w1 <= j < length w1 + length m -> ends (re_strip E) s j = []).
  { intros j Hj. apply nil_no_in. intros e He. apply in_strip in He.
    destruct He as (B & [-> | ->] & HS).
    - assert (length w1 = 0) by lia. destruct w1; [|discriminate]. destruct m as [|c m]; [cbn in *; lia|].
      specialize (H4 c eq_refl). specialize (HS 0 c ltac:(lia)). rewrite ES in HS.
      specialize (HS eq_refl). congruence.
    - destruct m as [|c m] using rev_ind; [cbn in *; lia|]. clear IHm.
      rewrite rev_app_distr in H5. specialize (H5 c eq_refl).
      rewrite app_length in *. cbn [length] in *.
      specialize (HS (length w1 + length m) c ltac:(lia)).
      rewrite ES in HS. rewrite nth_error_app2 in HS by lia.
      rewrite nth_error_app1 in HS by (rewrite app_length; cbn; lia).
      rewrite nth_error_app2 in HS by lia.
      replace (length w1 + length m - length w1 - length m) with 0 in HS by lia.
      specialize (HS eq_refl). congruence. }
  assert (HT : matches (re_strip E) (fun _ => []) s (length w1 + length m) (opt_seg w2)).
  { destruct w2 as [|c w2]; [exact I|]. cbn [opt_seg matches].
    assert (M0 : m <> []) by (intros ->; specialize (H3 eq_refl); discriminate).
    assert (0 < length m) by (destruct m; [congruence|cbn; lia]).
    split; [discriminate|]. split; [reflexivity|]. split; [|exact I].
    apply hd_unique.
    - apply in_strip. cbn [length] in *. split; [lia|]. split; [right; lia|].
      intros j x Hj Hx. rewrite ES, app_assoc in Hx.
      rewrite nth_error_app2 in Hx by (rewrite app_length; lia).
      apply nth_error_In in Hx. unfold all_in in H2. rewrite Forall_forall in H2. now apply H2.
    - intros e He. apply in_strip in He. cbn [length] in *. lia. }
  assert (HM2 : matches (re_strip E) (fun _ => []) s (length w1) ([(m, None)] ++ opt_seg w2)).
  { cbn [app matches]. split; [exact HM|exact HT]. }
  destruct w1 as [|c w1]; [exact HM2|].
  cbn [opt_seg app matches]. split; [discriminate|]. split; [reflexivity|]. split; [|exact HM2].
  assert (HH : hd_error (ends (RPlus (is_space E)) s 0) = Some (0 + length (c :: w1))).
  { apply hd_plus; [|cbn; lia]. cbn [skipn]. rewrite ES. apply run_length_run; [exact H1|].
    intros x Hx. destruct m as [|y m]; [|apply H4; exact Hx].
    rewrite (H3 eq_refl) in Hx. discriminate. }
  change (hd_error ((ends (RPlus (is_space E)) s 0 ++ []) ++
            ends (RSeq (RPlus (is_space E)) REnd) s 0) = Some (0 + length (c :: w1))).
  now apply hd_app, hd_app.
Qed.

(** ** Stopwords *)

Lemma ends_alts r rs s i :
  ends (fold_left RAlt rs r) s i = ends r s i ++ flat_map (fun x => ends x s i) rs.
Proof.
  revert r; induction rs as [|x rs IH]; intros r; cbn [fold_left flat_map].
  - now rewrite app_nil_r.
  - rewrite IH. cbn [ends]. now rewrite <- app_assoc.
Qed.

Lemma ends_lits ws s i :
  flat_map (fun x => ends x s i) (map RLit ws)
  = map (fun w => i + length w) (filter (fun w => prefixb w (skipn i s)) ws).
Proof.
  induction ws as [|w ws IH]; [reflexivity|]. cbn [map flat_map filter ends].
  rewrite IH. destruct (prefixb w (skipn i s)); reflexivity.
Qed.

Lemma ends_stopwords s i :
  ends re_stopwords s i
  = map (fun w => i + length w) (filter (fun w => prefixb w (skipn i s)) stopwords).
Proof.
  unfold re_stopwords. rewrite <- ends_lits.
  destruct (map RLit stopwords) as [|r rs] eqn:E; [discriminate|]. apply ends_alts.
Qed.
