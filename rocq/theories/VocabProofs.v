(** Proofs about which words of a word list or vocabulary matter. *)

From Coq Require Import Lia String ZArith.
From Verif Require Import Py PyFacts SizeProofs SpecEdit Trie TrieProofs SpecWords WordProofs Ops SpecOps Pipe PipeProofs SpecVocab.
From Coq Require Import List Permutation.

(** ** Word lists *)

Lemma prefix_same (w w' s : str) : is_prefix w s -> is_prefix w' s -> length w = length w' -> w = w'.
Proof.
  intros P P' L. destruct (prefix_firstn _ _ P) as [<- _], (prefix_firstn _ _ P') as [<- _]. now rewrite L.
Qed.

Lemma best_agree sh ws ws' s w w' :
  (forall u, u <> [] -> is_prefix u s -> (In u ws <-> In u ws')) ->
  best_word sh ws s w -> best_word sh ws' s w' -> w = w'.
Proof.
  intros A B B'. destruct sh; cbn in B, B'; destruct B as (I1 & N1 & P1 & M1), B' as (I2 & N2 & P2 & M2);
    (apply (prefix_same w w' s P1 P2)); (assert (In w ws') by (apply (A w N1 P1); exact I1));
    (assert (In w' ws) by (apply (A w' N2 P2); exact I2));
    pose proof (M1 w' ltac:(assumption) N2 P2); pose proof (M2 w ltac:(assumption) N1 P1); lia.
Qed.

Lemma match_agree t t' ws ws' s sh : holds t ws -> holds t' ws' ->
  (forall u, u <> [] -> is_prefix u s -> (In u ws <-> In u ws')) ->
  match_prefix t s sh = match_prefix t' s sh.
Proof.
  intros H H' A. pose proof (match_prefix_best t ws s sh H) as B. pose proof (match_prefix_best t' ws' s sh H') as B'.
  destruct (match_prefix t s sh) as [w|], (match_prefix t' s sh) as [w'|]; [|exfalso|exfalso|reflexivity].
  - f_equal. eapply best_agree; eauto.
  - assert (X : In w ws /\ w <> [] /\ is_prefix w s) by (destruct sh; cbn in B; firstorder).
    destruct X as (X1 & X2 & X3). apply (B' w); auto. now apply A.
  - assert (X : In w' ws' /\ w' <> [] /\ is_prefix w' s) by (destruct sh; cbn in B'; firstorder).
    destruct X as (X1 & X2 & X3). apply (B w'); auto. now apply A.
Qed.

Lemma agree_suffix s ws ws' k : agree_on s ws ws' ->
  forall u, u <> [] -> is_prefix u (skipn k s) -> (In u ws <-> In u ws').
Proof.
  intros A u N (b & Q). apply A; [exact N|]. exists (firstn k s), b. now rewrite <- Q, firstn_skipn.
Qed.

Lemma custom_agree t t' ws ws' sh s : holds t ws -> holds t' ws' -> agree_on s ws ws' ->
  forall fuel start, custom_tokenize fuel t sh s start = custom_tokenize fuel t' sh s start.
Proof.
  intros H H' A fuel. induction fuel as [|fuel IH]; intros start; [reflexivity|]. cbn [custom_tokenize].
  destruct (length s <=? start); [reflexivity|].
  rewrite (match_agree t t' ws ws' _ sh H H' (agree_suffix s ws ws' start A)).
  destruct (match_prefix t' (skipn start s) sh); now rewrite IH.
Qed.
Lemma word_agree t t' ws ws' sh s : holds t ws -> holds t' ws' -> agree_on s ws ws' ->
  forall fuel start acc, word_edits fuel t sh s start acc = word_edits fuel t' sh s start acc.
Proof.
  intros H H' A fuel. induction fuel as [|fuel IH]; intros start acc; [reflexivity|]. cbn [word_edits].
  destruct (length s <=? start); [reflexivity|].
  rewrite (match_agree t t' ws ws' _ sh H H' (agree_suffix s ws ws' start A)).
  destruct (match_prefix t' (skipn start s) sh); now rewrite IH.
Qed.

Lemma trie_made ws : 
  (ws = [] /\ make_trie (Some ws) = Err ValueErr) \/
  (ws <> [] /\ fresh_words ws /\ exists t, make_trie (Some ws) = Ok t /\ holds t ws) \/
  (ws <> [] /\ ~ fresh_words ws /\ make_trie (Some ws) = Err AttributeErr).
Proof.
  destruct ws as [|w ws]; [now left|]. right. cbn [make_trie].
  destruct (insert_all_cases (w :: ws) trie_empty []) as [(F & t & HT & HH)|(F & HT)].
  - exact holds_empty.
  - constructor.
  - left. split; [discriminate|]. split; [exact F|]. eauto.
  - right. split; [discriminate|]. auto.
Qed.
Lemma trie_holds ws t : make_trie (Some ws) = Ok t -> holds t ws.
Proof. destruct (trie_made ws) as [[_ Q]|[(_ & _ & t' & Q & H)|(_ & _ & Q)]]; rewrite Q; try discriminate. now injection 1 as <-. Qed.

Theorem words_that_occur E make ws ws' sh o o' s : In make [make_custom; make_wordn] ->
  make (Some ws) sh = Ok o -> make (Some ws') sh = Ok o' -> agree_on s ws ws' ->
  same_transform E o o' (SStr s).
Proof.
  intros HM HO HO' A. unfold same_transform.
  destruct HM as [<-|[<-|[]]]; [unfold make_custom in HO, HO'|unfold make_wordn in HO, HO'];
    (destruct (make_trie (Some ws)) as [t|] eqn:T; [|discriminate]); (destruct (make_trie (Some ws')) as [t'|] eqn:T'; [|discriminate]);
    cbn [bind] in HO, HO'; injection HO as <-; injection HO' as <-; apply trie_holds in T, T';
    unfold transform_op; cbn [transform_str input_type output_type type_of].
  - now rewrite (custom_agree t t' ws ws' sh s T T' A).
  - unfold word_group. now rewrite (word_agree t t' ws ws' sh s T T' A).
Qed.

Lemma filter_perm {A} (f : A -> bool) l l' : Permutation l l' -> Permutation (filter f l) (filter f l').
Proof.
  induction 1 as [|x l l' _ IH|x y l|l1 l2 l3 _ IH1 _ IH2]; cbn [filter]; auto.
  - destruct (f x); auto.
  - destruct (f x), (f y); auto. apply perm_swap.
  - now transitivity (filter f l2).
Qed.

Theorem words_in_any_order E make ws ws' sh : In make [make_custom; make_wordn] -> Permutation ws ws' ->
  match make (Some ws) sh, make (Some ws') sh with
  | Ok o, Ok o' => forall s, same_transform E o o' (SStr s)
  | Err e, Err e' => e = e'
  | _, _ => False
  end.
Proof.
  intros HM P.
  assert (F : fresh_words ws <-> fresh_words ws').
  { unfold fresh_words. split; apply Permutation_NoDup; [|symmetry]; now apply filter_perm. }
  assert (N : ws = [] <-> ws' = []).
  { split; intros ->; [now apply Permutation_nil|apply Permutation_nil; now symmetry]. }
  assert (X : forall m, In m [make_custom; make_wordn] ->
     (forall l e, make_trie (Some l) = Err e -> m (Some l) sh = Err e) /\
     (forall l t, make_trie (Some l) = Ok t -> exists o, m (Some l) sh = Ok o)).
  { intros m [<-|[<-|[]]]; (split; [intros l e Q; unfold make_custom, make_wordn; now rewrite Q|]);
      intros l t Q; unfold make_custom, make_wordn; rewrite Q; cbn [bind]; eauto. }
  destruct (X make HM) as [XE XO].
  destruct (trie_made ws) as [[Z0 Q]|[(Z0 & F1 & t & Q & H)|(Z0 & F1 & Q)]];
    destruct (trie_made ws') as [[Z1 Q']|[(Z1 & F2 & t' & Q' & H')|(Z1 & F2 & Q')]]; try tauto;
    try (rewrite (XE _ _ Q), (XE _ _ Q'); reflexivity).
  destruct (XO _ _ Q) as (o & O1), (XO _ _ Q') as (o' & O2). rewrite O1, O2. intros s.
  apply (words_that_occur E make ws ws' sh o o' s HM O1 O2). intros w _ _.
  split; apply Permutation_in; [|symmetry]; exact P.
Qed.

(** more words: the first token of a text can only become longer *)
Theorem more_words_longer E ws ws' o o' s w w' rest rest' a a' : incl ws ws' ->
  make_custom (Some ws) false = Ok o -> make_custom (Some ws') false = Ok o' ->
  transform_op E o (SStr s) = Ok (SLst (ETok w :: rest), a) ->
  transform_op E o' (SStr s) = Ok (SLst (ETok w' :: rest'), a') -> length w <= length w'.
Proof.
  intros IN HO HO' HT HT'.
  assert (X : forall ws o w rest a, make_custom (Some ws) false = Ok o ->
     transform_op E o (SStr s) = Ok (SLst (ETok w :: rest), a) ->
     exists t, holds t ws /\ w = match match_prefix t s false with Some v => v | None => slice s 0 1 end /\ s <> []).
  { clear. intros ws o w rest a HO HT. unfold make_custom in HO.
    destruct (make_trie (Some ws)) as [t|] eqn:T; [|discriminate]. cbn [bind] in HO. injection HO as <-. apply trie_holds in T.
    exists t. split; [exact T|]. unfold transform_op in HT. cbn [transform_str input_type output_type type_of seqtype_eqb guard bind] in HT.
    unfold tok_result in HT.
    destruct (custom_tokenize (length s) t false s 0) as [tokens|e] eqn:C; cbn [bind] in HT; [|discriminate].
    destruct (gen_replacement_group (ord_c E) s tokens) as [g|e]; cbn [bind] in HT; [|discriminate].
    destruct (gen_span_group _ _) as [sp|e]; cbn [bind fst] in HT; [|discriminate].
    cbn [seqtype_eqb guard bind] in HT. injection HT as HT _.
    destruct tokens as [|v tokens]; [discriminate|]. cbn [map] in HT. injection HT as -> _.
    destruct s as [|c s]; [discriminate|]. split; [|discriminate]. cbn [length custom_tokenize Nat.leb skipn] in C.
    destruct (match_prefix t (c :: s) false) as [v|]; destruct (custom_tokenize _ _ _ _ _); cbn [bind] in C; try discriminate; now injection C as <- _. }
  destruct (X _ _ _ _ _ HO HT) as (t & H & -> & NS). destruct (X _ _ _ _ _ HO' HT') as (t' & H' & -> & _). clear X.
  pose proof (match_prefix_best t ws s false H) as B. pose proof (match_prefix_best t' ws' s false H') as B'.
  destruct (match_prefix t s false) as [v|], (match_prefix t' s false) as [v'|]; cbn in B, B'.
  - destruct B as (I1 & N1 & P1 & _), B' as (_ & _ & _ & M). apply M; auto.
  - destruct B as (I1 & N1 & P1 & _). exfalso. apply (B' v); auto.
  - destruct B' as (_ & N & _). destruct s as [|c s]; [congruence|]. destruct v'; [congruence|]. unfold slice. cbn. lia.
  - lia.
Qed.

(** ** Lists of tokens *)

Lemma edits_agree (f g : elem -> res (option (list elem))) l : (forall x, In x l -> f x = g x) ->
  forall i acc, elem_edits f i l acc = elem_edits g i l acc.
Proof.
  induction l as [|x l IH]; intros H i acc; [reflexivity|]. cbn [elem_edits]. rewrite (H x) by now left.
  destruct (g x); cbn [bind]; [|reflexivity]. apply IH. intros y HI. apply H. now right.
Qed.
Lemma group_agree E f g l : (forall x, In x l -> f x = g x) -> elem_group E f l = elem_group E g l.
Proof. intros H. unfold elem_group. now rewrite (edits_agree f g l H). Qed.

Lemma memb_agree (w : str) v v' : (In w v <-> In w v') -> memb w v = memb w v'.
Proof. intros H. apply eq_true_iff_eq. now rewrite !memb_In. Qed.

Lemma slice_parts (t : str) start n : start + n <= length t -> t = firstn start t ++ slice t start (start + n) ++ skipn (start + n) t.
Proof.
  intros L. unfold slice. rewrite <- (firstn_skipn start t) at 1. f_equal.
  replace (start + n - start) with n by lia. rewrite <- (firstn_skipn n (skipn start t)) at 1. f_equal.
  clear. revert t. induction start as [|k IH]; intros [|c t]; cbn [skipn Nat.add]; rewrite ?skipn_nil; auto.
Qed.
Lemma slice_length (t : str) start n : start + n <= length t -> length (slice t start (start + n)) = n.
Proof. intros L. unfold slice. rewrite firstn_length, skipn_length. lia. Qed.

Lemma piece_agree t v v' start : agree_pieces t v v' -> forall n, start + n <= length t ->
  longest_piece v t start n = longest_piece v' t start n.
Proof.
  intros [A1 A2]. induction n as [|n IH]; intros L; [reflexivity|]. cbn [longest_piece].
  rewrite IH by lia.
  assert (Q : memb (if 0 <? start then HASHES ++ slice t start (start + S n) else slice t start (start + S n)) v =
              memb (if 0 <? start then HASHES ++ slice t start (start + S n) else slice t start (start + S n)) v').
  { apply memb_agree. pose proof (slice_parts t start (S n) L) as P. pose proof (slice_length t start (S n) L) as SL.
    assert (N : slice t start (start + S n) <> []) by (intros Q; rewrite Q in SL; discriminate).
    destruct (Nat.ltb_spec 0 start) as [Z0|Z0].
    - change HASHES with (txt "##"). eapply A2; [|exact N|exact P]. destruct start, t; cbn; try lia; try discriminate.
      cbn in L. lia.
    - assert (start = 0) by lia. subst start. cbn [firstn app] in P. eapply A1; [exact N|exact P]. }
  now rewrite Q.
Qed.
Lemma loop_agree t v v' : agree_pieces t v v' -> forall fuel start acc,
  subword_loop fuel v t start acc = subword_loop fuel v' t start acc.
Proof.
  intros A. induction fuel as [|fuel IH]; intros start acc; [reflexivity|]. cbn [subword_loop].
  destruct (Nat.leb_spec (length t) start); [reflexivity|].
  rewrite (piece_agree t v v' start A) by lia.
  destruct (longest_piece v' t start _) as [[p e]|]; [apply IH|reflexivity].
Qed.

Theorem pieces_that_occur E v v' unk m l : (forall t, In (ETok t) l -> agree_pieces t v v') ->
  same_transform E (SpanSubwords v unk m) (SpanSubwords v' unk m) (SLst l).
Proof.
  intros H. unfold same_transform, transform_op. cbn [transform_lst input_type output_type type_of].
  rewrite (group_agree E (subwords_newv v unk m) (subwords_newv v' unk m) l); [reflexivity|].
  intros [t|i] HI; [|reflexivity]. cbn [subwords_newv]. unfold span_subwords. now rewrite (loop_agree t v v' (H t HI)).
Qed.

(** a token of the vocabulary stays as it is *)
Theorem whole_tokens_stay E v unk m ts y a : ord_ok (ord_e E) ->
  (forall t, In t ts -> In t v /\ t <> [] /\ (Z.of_nat (length t) <= m)%Z) ->
  transform_op E (SpanSubwords v unk m) (SLst (map ETok ts)) = Ok (y, a) -> y = SLst (map ETok ts).
Proof.
  intros HO H. unfold transform_op. cbn [transform_lst input_type output_type type_of seqtype_eqb guard bind].
  unfold lst_result. destruct (elem_group E (subwords_newv v unk m) (map ETok ts)) as [g|] eqn:G; cbn [bind]; [|discriminate].
  destruct (elem_group_result E _ _ _ HO G) as [_ Q]. cbn [fst type_of seqtype_eqb guard bind]. intros HT. injection HT as <- _.
  f_equal. rewrite Q. clear G Q. induction ts as [|t ts IH]; [reflexivity|]. cbn [map flat_map].
  rewrite IH by (intros u HU; apply H; now right). destruct (H t) as (HI & N & L); [now left|].
  cbn [subwords_newv]. unfold span_subwords.
  replace (Z.of_nat (length t) >? m)%Z with false by (symmetry; rewrite Z.gtb_ltb; apply Z.ltb_ge; exact L).
  assert (Q : subword_loop (length t) v t 0 [] = Ok (Some [t])).
  { destruct t as [|c t]; [congruence|]. cbn [length subword_loop Nat.leb]. rewrite Nat.sub_0_r.
    cbn [longest_piece Nat.ltb Nat.leb]. unfold slice. cbn [skipn]. rewrite Nat.sub_0_r.
    change (0 + S (length t)) with (length (c :: t)). rewrite firstn_all.
    replace (memb (c :: t) v) with true by (symmetry; apply memb_In; exact HI).
    destruct (length t) eqn:LT; cbn [subword_loop length]; rewrite LT, Nat.leb_refl; reflexivity. }
  rewrite Q. cbn [bind map]. destruct (eqb_spec [ETok t] [ETok t]) as [_|?]; [reflexivity|congruence].
Qed.

(** ** Dicts *)

Lemma entry_get d d' k : NoDup (map fst d) -> NoDup (map fst d') -> same_entry d d' k -> dict_get d k = dict_get d' k.
Proof.
  intros N N' H. destruct (dict_get d k) as [i|] eqn:G.
  - apply dict_get_In in G. symmetry. apply dict_get_Some; [exact N'|]. now apply H.
  - symmetry. apply dict_get_None. apply dict_get_None in G. intros HI. apply in_map_iff in HI.
    destruct HI as ((k' & i) & Q & HI). cbn in Q. subst k'. apply G. apply H in HI. now apply (in_map fst) in HI.
Qed.

Theorem entries_that_occur E d d' unk l : NoDup (map fst d) -> NoDup (map fst d') ->
  (forall t, In (ETok t) l -> same_entry d d' t) -> same_entry d d' unk ->
  same_transform E (Token2Index d unk) (Token2Index d' unk) (SLst l).
Proof.
  intros N N' H U. unfold same_transform, transform_op. cbn [transform_lst input_type output_type type_of].
  rewrite (group_agree E (index_newv d unk) (index_newv d' unk) l); [reflexivity|].
  intros x HI. unfold index_newv. rewrite (entry_get d d' unk N N' U).
  destruct x as [t|i]; [|reflexivity]. now rewrite (entry_get d d' t N N' (H t HI)).
Qed.

Theorem entries_that_occur_hash E d d' l : NoDup (map fst d) -> NoDup (map fst d') ->
  (forall t, In (ETok t) l -> same_entry d d' t) ->
  length d = length d' \/ (forall t, In (ETok t) l -> In t (map fst d)) ->
  same_transform E (Token2IndexwithHash d) (Token2IndexwithHash d') (SLst l).
Proof.
  intros N N' H L. unfold same_transform, transform_op. cbn [transform_lst input_type output_type type_of].
  rewrite (group_agree E (hash_newv d) (hash_newv d') l); [reflexivity|].
  intros [t|i] HI; [|reflexivity]. cbn [hash_newv]. rewrite <- (entry_get d d' t N N' (H t HI)).
  destruct (dict_get d t) eqn:G; [reflexivity|]. destruct L as [-> |L]; [reflexivity|].
  apply dict_get_None in G. exfalso. exact (G (L t HI)).
Qed.

(** a dict with more entries: the tokens it had keep their index *)
Theorem known_tokens_keep E d d' unk l : NoDup (map fst d) -> NoDup (map fst d') -> incl d d' ->
  In unk (map fst d) -> (forall t, In (ETok t) l -> In t (map fst d') -> In t (map fst d)) ->
  same_transform E (Token2Index d unk) (Token2Index d' unk) (SLst l).
Proof.
  intros N N' IN HU H.
  assert (K : forall t, In t (map fst d) -> same_entry d d' t).
  { intros t HT i. unfold entry. split; [apply IN|]. intros HI. apply in_map_iff in HT.
    destruct HT as ((t' & j) & Q & HJ). cbn in Q. subst t'. pose proof (IN _ HJ) as HJ'.
    apply (dict_get_Some _ _ _ N') in HI. apply (dict_get_Some _ _ _ N') in HJ'. congruence. }
  apply entries_that_occur; auto. intros t HT i. unfold entry. split; [apply IN|]. intros HI.
  apply (K t); [|exact HI]. apply (H t HT). now apply (in_map fst) in HI.
Qed.

(** ** Pipes *)

Lemma run_alike E : forall os os' x y als c, run E os x = Ok (y, als, c) -> length os = length os' ->
  (forall k o o' z, nth_error os k = Some o -> nth_error os' k = Some o' -> nth_error c k = Some z ->
     same_transform E (o_op o) (o_op o') z) ->
  run E os' x = Ok (y, als, c).
Proof.
  induction os as [|o os IH]; intros [|o' os'] x y als c R L H; try discriminate; [exact R|].
  cbn [run] in R |- *. destruct (transform_op E (o_op o) x) as [[y1 a1]|] eqn:T; [|discriminate]. cbn [bind] in R.
  destruct (run E os y1) as [[[z als1] c1]|] eqn:R1; [|discriminate]. cbn [bind] in R. injection R as <- <- <-.
  pose proof (H 0 o o' x eq_refl eq_refl eq_refl) as HS. unfold same_transform in HS. rewrite <- HS, T. cbn [bind].
  rewrite (IH os' y1 z als1 c1 R1); [reflexivity|now injection L|].
  intros k. exact (H (S k)).
Qed.

Theorem pipes_alike E p p' x y als c : transform_sequence E p x = Ok (y, als, c) ->
  length (steps p) = length (steps p') ->
  (forall k o o' z, nth_error (steps p) k = Some o -> nth_error (steps p') k = Some o' -> nth_error c k = Some z ->
     same_transform E (o_op o) (o_op o') z) ->
  transform_sequence E p' x = Ok (y, als, c).
Proof. apply run_alike. Qed.

(** words that do not occur can be added or left out *)
Theorem foreign_words E make ws more sh o s : In make [make_custom; make_wordn] ->
  make (Some ws) sh = Ok o -> (forall w, In w more -> ~ occurs_in w s) ->
  match make (Some (ws ++ more)) sh with
  | Ok o' => same_transform E o o' (SStr s)
  | Err e => e = AttributeErr /\ ~ fresh_words (ws ++ more)
  end.
Proof.
  intros HM HO HF. destruct (make (Some (ws ++ more)) sh) as [o'|e] eqn:HO'.
  - apply (words_that_occur E make ws (ws ++ more) sh o o' s HM HO HO'). intros w N HW. rewrite in_app_iff.
    split; [tauto|]. intros [HI|HI]; [exact HI|]. exfalso. exact (HF w HI HW).
  - assert (X : make_trie (Some (ws ++ more)) = Err e /\ ws <> []).
    { destruct HM as [<-|[<-|[]]]; unfold make_custom, make_wordn in HO, HO';
        (split; [destruct (make_trie (Some (ws ++ more))); cbn [bind] in HO'; [discriminate|injection HO' as <-; reflexivity]|]);
        intros ->; discriminate. }
    destruct X as [X NE]. destruct (trie_made (ws ++ more)) as [[Q _]|[(_ & _ & t & Q & _)|(_ & F & Q)]].
    + destruct ws; [congruence|discriminate].
    + rewrite Q in X. discriminate.
    + rewrite Q in X. injection X as <-. auto.
Qed.
