(** The trie against the word list it was built from. *)

From Verif Require Import Py PyFacts Trie SpecWords.

(** The word stored at the node reached by [q]. *)
Fixpoint word_at (t : trie) (q : str) : option str :=
  match t with
  | Node ch w =>
      match q with
      | [] => w
      | c :: q => match dict_get ch c with None => None | Some t' => word_at t' q end
      end
  end.

Lemma word_at_empty q : word_at trie_empty q = None.
Proof. destruct q; reflexivity. Qed.

Lemma insert_word_at p w t t' q :
  trie_insert_at p w t = Ok t' -> word_at t' q = if eqb q p then Some w else word_at t q.
Proof.
  revert t t' q; induction p as [|c p IH]; intros [ch w0] t' q HI; cbn [trie_insert_at] in HI.
  - destruct (truthy w0); [discriminate|]. injection HI as <-.
    destruct q as [|d q]; [reflexivity|]. cbn. reflexivity.
  - inv_bind HI. injection HI as <-. specialize (IH _ _ (tl q) E).
    destruct q as [|d q]; [reflexivity|]. cbn [word_at tl] in *.
    destruct (eqb_spec d c) as [->|N].
    + rewrite dict_get_set_same. rewrite IH. cbn.
      destruct (Z.eqb_spec c c); [|congruence]. cbn.
      change (list_eqb q p) with (eqb q p).
      destruct (eqb q p); [reflexivity|].
      destruct (dict_get ch c); [reflexivity|]. apply word_at_empty.
    + rewrite dict_get_set_other by congruence. cbn.
      destruct (Z.eqb_spec d c); [congruence|]. reflexivity.
Qed.

Lemma insert_ok p w t :
  (exists t', trie_insert_at p w t = Ok t') <-> truthy (word_at t p) = false.
Proof.
  revert t; induction p as [|c p IH]; intros [ch w0]; cbn [trie_insert_at word_at].
  - destruct (truthy w0); split; intros H; try congruence; eauto. destruct H; discriminate.
  - destruct (dict_get ch c) as [t1|].
    + rewrite <- IH. split; intros (t' & H).
      * inv_bind H. eauto.
      * rewrite H. cbn. eauto.
    + split; [reflexivity|]. intros _.
      assert (Q : truthy (word_at trie_empty p) = false) by now rewrite word_at_empty.
      apply IH in Q. destruct Q as (t' & Q). rewrite Q. cbn. eauto.
Qed.

Lemma insert_err p w t e : trie_insert_at p w t = Err e -> e = AttributeErr.
Proof.
  revert t; induction p as [|c p IH]; intros [ch w0]; cbn [trie_insert_at].
  - destruct (truthy w0); congruence.
  - intros H. destruct (trie_insert_at p w _) eqn:E; cbn in H; [discriminate|].
    injection H as ->. eapply IH; eauto.
Qed.

(** The trie holds exactly the words of the list. *)
Definition holds (t : trie) (ws : list str) : Prop :=
  forall q, word_at t q = if memb q ws then Some q else None.

Lemma holds_empty : holds trie_empty [].
Proof. intros q. apply word_at_empty. Qed.

Lemma holds_insert t ws w t' : holds t ws -> trie_insert t w = Ok t' -> holds t' (ws ++ [w]).
Proof.
  intros HH HI q. rewrite (insert_word_at _ _ _ _ q HI), (HH q).
  unfold memb. rewrite existsb_app. cbn [existsb]. rewrite Bool.orb_false_r.
  destruct (eqb_spec q w) as [->|N]; [now rewrite Bool.orb_true_r|].
  now rewrite Bool.orb_false_r.
Qed.

Lemma insert_all_cases ws t done :
  holds t done -> fresh_words done ->
  (fresh_words (done ++ ws) /\ exists t', trie_insert_all t ws = Ok t' /\ holds t' (done ++ ws)) \/
  (~ fresh_words (done ++ ws) /\ trie_insert_all t ws = Err AttributeErr).
Proof.
  revert t done; induction ws as [|w ws IH]; intros t done HH HF.
  - left. rewrite app_nil_r. split; [exact HF|]. exists t. auto.
  - cbn [trie_insert_all]. replace (done ++ w :: ws) with ((done ++ [w]) ++ ws)
      by now rewrite <- app_assoc.
    destruct (trie_insert t w) as [t'|e] eqn:EI; cbn [bind].
    + apply IH; [eapply holds_insert; eauto|].
      unfold fresh_words. rewrite filter_app. cbn [filter].
      destruct w as [|a w]; cbn [nonempty]; [now rewrite app_nil_r|].
      remember (a :: w) as w0 eqn:EW. assert (N : w0 <> []) by (subst; discriminate).
      clear a w EW. rename w0 into w.
      assert (T : truthy (word_at t w) = false) by (apply (insert_ok w w t); eauto).
      rewrite (HH w) in T. destruct (memb w done) eqn:EM.
      { exfalso. destruct w; [apply N; reflexivity|cbn in T; discriminate T]. }
      assert (NI : ~ In w (filter nonempty done)).
      { intros HI. apply filter_In in HI. destruct HI as (HI & _).
        assert (memb w done = true) by (apply memb_In; exact HI). congruence. }
      assert (P : Permutation (w :: filter nonempty done)
                    (filter nonempty done ++ [w]))
        by apply Permutation_cons_append.
      eapply Permutation_NoDup; [exact P|]. constructor; auto.
    + right. rewrite (insert_err _ _ _ _ EI). split; [|reflexivity].
      assert (T : truthy (word_at t w) <> false).
      { intros T. apply (insert_ok w w t) in T. destruct T as (t' & T).
        unfold trie_insert in EI. congruence. }
      rewrite (HH w) in T. destruct (memb w done) eqn:EM; [|cbn in T; congruence].
      assert (W : w <> []) by (intros ->; cbn in T; congruence).
      apply memb_In in EM. unfold fresh_words. rewrite !filter_app. cbn [filter].
      intros HN. apply NoDup_remove_2 with (l := filter nonempty done)
        (l' := filter nonempty ws) (a := w).
      * destruct w as [|a w]; [congruence|]. cbn [nonempty] in HN.
        rewrite <- app_assoc in HN. exact HN.
      * apply in_app_iff. left. apply filter_In. split; [exact EM|].
        destruct w; [congruence|reflexivity].
Qed.

Lemma search_word_at t q : exactly_search t q = truthy (word_at t q).
Proof.
  revert t; induction q as [|c q IH]; intros [ch w]; cbn; [reflexivity|].
  destruct (dict_get ch c); [apply IH|reflexivity].
Qed.

(** ** match_prefix *)

Lemma match_prefix_longest t s acc :
  (exists k w, 0 < k <= length s /\ match_prefix_from t s false acc = Some w /\
     word_at t (firstn k s) = Some w /\ w <> [] /\
     forall k', k < k' <= length s -> truthy (word_at t (firstn k' s)) = false) \/
  (match_prefix_from t s false acc = acc /\
   forall k, 0 < k <= length s -> truthy (word_at t (firstn k s)) = false).
Proof.
  revert t acc; induction s as [|c s IH]; intros [ch w0] acc; cbn [match_prefix_from].
  - right. split; [reflexivity|]. cbn. intros; lia.
  - destruct (dict_get ch c) as [[ch1 w1]|] eqn:ED.
    + destruct (IH (Node ch1 w1) (if truthy w1 then w1 else acc)) as
        [(k & w & HK & HM & HW & HN & HL)|(HM & HL)].
      * left. exists (S k), w. split; [cbn; lia|].
        split; [destruct (truthy w1); exact HM|].
        split; [cbn [firstn word_at]; now rewrite ED|]. split; [exact HN|].
        intros k' Hk'. destruct k' as [|k']; [lia|]. cbn [firstn word_at]. rewrite ED.
        apply HL. cbn in Hk'. lia.
      * destruct (truthy w1) eqn:ET.
        -- left. destruct w1 as [[|a w1]|]; try discriminate. exists 1, (a :: w1).
           split; [cbn; lia|]. split; [exact HM|].
           split; [cbn [firstn word_at]; now rewrite ED|]. split; [discriminate|].
           intros k' Hk'. destruct k' as [|k']; [lia|]. cbn [firstn word_at]. rewrite ED.
           apply HL. cbn in Hk'. lia.
        -- right. split; [exact HM|]. intros k Hk. destruct k as [|k]; [lia|].
           cbn [firstn word_at]. rewrite ED. destruct k as [|k]; [exact ET|].
           apply HL. cbn in Hk. lia.
    + right. split; [reflexivity|]. intros k Hk. destruct k as [|k]; [lia|].
      cbn [firstn word_at]. now rewrite ED.
Qed.

Lemma match_prefix_shortest t s :
  (exists k w, 0 < k <= length s /\ match_prefix_from t s true None = Some w /\
     word_at t (firstn k s) = Some w /\ w <> [] /\
     forall k', 0 < k' < k -> truthy (word_at t (firstn k' s)) = false) \/
  (match_prefix_from t s true None = None /\
   forall k, 0 < k <= length s -> truthy (word_at t (firstn k s)) = false).
Proof.
  revert t; induction s as [|c s IH]; intros [ch w0]; cbn [match_prefix_from].
  - right. split; [reflexivity|]. cbn. intros; lia.
  - destruct (dict_get ch c) as [[ch1 w1]|] eqn:ED.
    + destruct (truthy w1) eqn:ET.
      * left. destruct w1 as [[|a w1]|]; try discriminate. exists 1, (a :: w1).
        split; [cbn; lia|]. split; [reflexivity|].
        split; [cbn [firstn word_at]; now rewrite ED|]. split; [discriminate|]. intros; lia.
      * destruct (IH (Node ch1 w1)) as [(k & w & HK & HM & HW & HN & HL)|(HM & HL)].
        -- left. exists (S k), w. split; [cbn; lia|]. split; [exact HM|].
           split; [cbn [firstn word_at]; now rewrite ED|]. split; [exact HN|].
           intros k' Hk'. destruct k' as [|k']; [lia|]. cbn [firstn word_at]. rewrite ED.
           destruct k' as [|k']; [exact ET|]. apply HL. lia.
        -- right. split; [exact HM|]. intros k Hk. destruct k as [|k]; [lia|].
           cbn [firstn word_at]. rewrite ED. destruct k as [|k]; [exact ET|].
           apply HL. cbn in Hk. lia.
    + right. split; [reflexivity|]. intros k Hk. destruct k as [|k]; [lia|].
      cbn [firstn word_at]. now rewrite ED.
Qed.

Lemma prefix_firstn w s : is_prefix w s -> firstn (length w) s = w /\ length w <= length s.
Proof.
  intros (t & ->). rewrite firstn_app_exact, app_length. split; [reflexivity|lia].
Qed.

Lemma holds_truthy t ws q : holds t ws -> (truthy (word_at t q) = true <-> In q ws /\ q <> []).
Proof.
  intros HH. rewrite (HH q), <- memb_In.
  destruct (memb q ws); cbn; [destruct q|]; intuition congruence.
Qed.

Lemma holds_not_truthy t ws q :
  holds t ws -> truthy (word_at t q) = false -> In q ws -> q <> [] -> False.
Proof.
  intros HH T HI HN. assert (Q : truthy (word_at t q) = true) by (apply (holds_truthy _ _ _ HH); auto).
  congruence.
Qed.

Lemma match_prefix_best t ws s shortest :
  holds t ws ->
  match match_prefix t s shortest with
  | Some w => best_word shortest ws s w
  | None => no_word ws s
  end.
Proof.
  intros HH. unfold match_prefix.
  assert (HW : forall k w, word_at t (firstn k s) = Some w -> w = firstn k s /\ In w ws).
  { intros k w E. rewrite (HH (firstn k s)) in E. destruct (memb (firstn k s) ws) eqn:EM;
      [|discriminate]. injection E as <-. apply memb_In in EM. auto. }
  destruct shortest.
  - destruct (match_prefix_shortest t s) as [(k & w & HK & HM & HA & HN & HL)|(HM & HL)]; rewrite HM.
    + destruct (HW k w HA) as (-> & HI). split; [exact HI|]. split; [exact HN|].
      split; [exists (skipn k s); now rewrite firstn_skipn|].
      intros w' I' N' P'. destruct (prefix_firstn _ _ P') as (E' & L').
      rewrite firstn_length. destruct (Nat.ltb_spec (length w') k) as [L|L]; [exfalso|lia].
      assert (0 < length w') by (destruct w'; [congruence|cbn; lia]).
      apply (holds_not_truthy t ws w' HH); auto. rewrite <- E'. apply HL. lia.
    + intros w I' N' P'. destruct (prefix_firstn _ _ P') as (E' & L').
      assert (0 < length w) by (destruct w; [congruence|cbn; lia]).
      apply (holds_not_truthy t ws w HH); auto. rewrite <- E'. apply HL. lia.
  - destruct (match_prefix_longest t s None) as [(k & w & HK & HM & HA & HN & HL)|(HM & HL)]; rewrite HM.
    + destruct (HW k w HA) as (-> & HI). split; [exact HI|]. split; [exact HN|].
      split; [exists (skipn k s); now rewrite firstn_skipn|].
      intros w' I' N' P'. destruct (prefix_firstn _ _ P') as (E' & L').
      rewrite firstn_length. destruct (Nat.ltb_spec k (length w')) as [L|L]; [exfalso|lia].
      apply (holds_not_truthy t ws w' HH); auto. rewrite <- E'. apply HL. lia.
    + intros w I' N' P'. destruct (prefix_firstn _ _ P') as (E' & L').
      assert (0 < length w) by (destruct w; [congruence|cbn; lia]).
      apply (holds_not_truthy t ws w HH); auto. rewrite <- E'. apply HL. lia.
Qed.
