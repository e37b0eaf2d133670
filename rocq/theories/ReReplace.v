(** The patterns of the repository, preferences of the search, and ReplaceAwithB. *)

From Coq Require Import String Ascii.
From Verif Require Import Py PyFacts SpecEdit SpecLabels SpecSeg SpecOps Edit SegProofs Regex RegexProofs SpecScan ScanProofs Ops OpLaws
  PyRe SpecRe ReProofs ReParse ReWritten ReTexts ReGroups.
From Coq Require Import List Lia PeanoNat Bool ZArith.

(** ** The patterns of the repository *)

Lemma upper_class E w x : set_has (classes_of E w) false [CRange 65 90] x = is_upper x.
Proof. unfold set_has, is_upper, Ops.in_range. cbn [existsb item_has]. rewrite orb_false_r. now destruct (_ && _)%bool. Qed.
Lemma space_class E w x : set_has (classes_of E w) false [CSpace false] x = is_space E x.
Proof. unfold set_has. cbn [existsb item_has classes_of c_space]. rewrite orb_false_r. now destruct (is_space E x). Qed.
Lemma digit_set E w x : set_has (classes_of E w) false [CDigit false; CRange 65296 65305] x = digit_class E x.
Proof.
  unfold set_has, digit_class, Ops.in_range. cbn [existsb item_has classes_of c_digit xorb]. rewrite orb_false_r.
  now destruct (is_digit E x), (_ && _)%bool.
Qed.
Lemma dotdigit_set E w x :
  set_has (classes_of E w) false [CRange 46 46; CDigit false; CRange 65296 65305] x = dotdigit_class E x.
Proof.
  unfold set_has, dotdigit_class, digit_class, Ops.in_range, DOT. cbn [existsb item_has classes_of c_digit xorb].
  rewrite orb_false_r.
  replace ((46 <=? x) && (x <=? 46))%Z with (x =? 46)%Z.
  - now destruct (is_digit E x), (x =? 46)%Z, (_ && _)%bool.
  - destruct (Z.eqb_spec x 46) as [->|NE]; [reflexivity|].
    symmetry. apply andb_false_iff. rewrite !Z.leb_gt. lia.
Qed.

Ltac by_same := eexists; split; [vm_compute; reflexivity|]; apply same_search.

Lemma lowercase_pattern E w : found_as E w pat_lowercase (search re_lowercase).
Proof. by_same. apply same_plus. apply upper_class. Qed.
Lemma merge_pattern E w : found_as E w pat_merge (search (re_merge E)).
Proof. by_same. apply same_plus. apply space_class. Qed.
Lemma strip_pattern E w : found_as E w pat_strip (search (re_strip E)).
Proof.
  by_same. apply same_alt; apply same_seq; auto using same_begin, same_end; apply same_plus; apply space_class.
Qed.
Lemma int_pattern E w : found_as E w pat_int (search (re_int E)).
Proof.
  by_same. apply same_seq; [apply same_behind; apply dotdigit_set|].
  apply same_seq; [apply same_plus; apply digit_set|apply same_ahead; apply dotdigit_set].
Qed.
Lemma float_pattern E w : found_as E w pat_float (search (re_float E)).
Proof.
  by_same. apply same_seq; [apply same_behind; apply dotdigit_set|].
  apply same_seq; [apply same_plus; apply digit_set|]. apply same_seq; [apply same_char|].
  apply same_seq; [apply same_plus; apply digit_set|apply same_ahead; apply dotdigit_set].
Qed.
Lemma purenum_pattern E w : found_as E w pat_purenum (search (re_purenum E)).
Proof. by_same. apply same_plus. apply digit_set. Qed.

Definition plainb (t : str) : bool := forallb (fun c => negb (existsb (Z.eqb c) (92%Z :: txt ".[{()*+?^$|"))) t.
Lemma plainb_ok t : plainb t = true -> plain t.
Proof.
  unfold plainb. rewrite forallb_forall. intros H c HI M. specialize (H c HI). apply negb_true_iff in H.
  assert (existsb (Z.eqb c) (92%Z :: txt ".[{()*+?^$|") = true); [|congruence].
  apply existsb_exists. exists c. split; [|apply Z.eqb_refl]. destruct M as [M| ->]; [now right|now left].
Qed.
Lemma stopwords_pattern E w : found_as E w pat_stopwords (search re_stopwords).
Proof.
  exists (xwords stopwords). split.
  - apply parse_group. apply Forall_forall. intros t HI. apply plainb_ok.
    assert (A : forallb plainb stopwords = true) by (vm_compute; reflexivity).
    rewrite forallb_forall in A. now apply A.
  - apply same_search. intros s i HI. rewrite same_words by exact HI.
    rewrite ends_words by discriminate. unfold re_stopwords.
    assert (NE : stopwords <> []) by discriminate. destruct stopwords as [|x l]; [congruence|].
    cbn [map]. rewrite ends_fold. cbn [flat_map]. f_equal. now rewrite !flat_map_concat_map, map_map.
Qed.

(** ** Preferences *)

Section Preferences.
Context (f : nat -> list nat) (HF : forall i e, In e (f i) -> e = S i).

Lemma times_one n : forall i e, In e (times n f i) -> e = i + n.
Proof.
  induction n as [|n IH]; cbn; intros i e H; [destruct H as [<-|[]]; lia|].
  apply in_flat_map in H. destruct H as (m & A & B). apply HF in A. apply IH in B. lia.
Qed.
Lemma more_ge n g : forall i e, In e (more n g f i) -> i <= e.
Proof.
  induction n as [|n IH]; intros i e H; [destruct H as [<-|[]]; lia|]. apply in_more in H.
  destruct H as [->|(x & A & B)]; [lia|]. apply HF in A. subst x.
  destruct (Nat.eqb_spec (S i) i); [lia|]. apply IH in B. lia.
Qed.
Lemma more_greedy n : forall i, exists e l, more n true f i = e :: l /\ forall x, In x l -> x <= e.
Proof.
  induction n as [|n IH]; intros i; [exists i, []; cbn; split; [reflexivity|tauto]|]. cbn [more].
  destruct (f i) as [|y l] eqn:EF; [exists i, []; cbn; split; [reflexivity|tauto]|].
  assert (ALL : forall x, In x (y :: l) -> x = S i) by (intros x; rewrite <- EF; apply HF).
  destruct (IH (S i)) as (e & r & ER & HE).
  assert (Y : y = S i) by (apply ALL; now left). subst y. cbn [flat_map].
  destruct (Nat.eqb_spec (S i) i); [lia|]. rewrite ER. cbn [app].
  eexists. eexists. split; [reflexivity|]. intros x HX. rewrite !in_app_iff in HX.
  assert (LE : S i <= e) by (apply (more_ge n true); rewrite ER; now left).
  destruct HX as [[HX|HX]|[<-|[]]]; [now apply HE| |lia].
  apply in_flat_map in HX. destruct HX as (z & A & B).
  assert (z = S i) by (apply ALL; now right). subst z. destruct (Nat.eqb_spec (S i) i); [lia|].
  rewrite ER in B. destruct B as [<-|B]; [lia|auto].
Qed.
End Preferences.

(** outside the text nothing is found; used to drop the bound on positions *)
Definition inside (s : str) (f : nat -> list nat) (i : nat) : list nat := if i <=? length s then f i else [].
Lemma times_inside k s a n : forall i, i <= length s -> good a ->
  times n (inside s (xends k s a)) i = times n (xends k s a) i.
Proof.
  induction n as [|n IH]; intros i HI G; [reflexivity|]. cbn. unfold inside at 2.
  destruct (Nat.leb_spec i (length s)); [|lia]. apply flat_map_ext_in. intros e He. apply IH; [|exact G].
  apply xends_iff in He; auto. apply xmatch_bounds in He; lia.
Qed.
Lemma more_inside k s a n g : forall i, i <= length s -> good a ->
  more n g (inside s (xends k s a)) i = more n g (xends k s a) i.
Proof.
  induction n as [|n IH]; intros i HI G; [reflexivity|]. cbn. unfold inside at 2 4.
  destruct (Nat.leb_spec i (length s)); [|lia].
  assert (Q : flat_map (fun e => if e =? i then [e] else more n g (inside s (xends k s a)) e) (xends k s a i) =
              flat_map (fun e => if e =? i then [e] else more n g (xends k s a) e) (xends k s a i)).
  { apply flat_map_ext_in. intros e He. destruct (e =? i); [reflexivity|]. apply IH; [|exact G].
    apply xends_iff in He; auto. apply xmatch_bounds in He; lia. }
  now rewrite Q.
Qed.

Lemma rep_inside k s a lo hi g i : good a -> i <= length s ->
  xends k s (XRep lo hi g a) i =
  flat_map (more (match hi with Some h => h - lo | None => S (length s) end) g (inside s (xends k s a)))
    (times lo (inside s (xends k s a)) i).
Proof.
  intros G HI. cbn [xends]. rewrite times_inside by auto. apply flat_map_ext_in. intros e He. symmetry. apply more_inside; [|exact G].
  eapply (times_iter (xends k s a) (xmatch k s a) (length s)) in He; auto.
  - eapply (iter_le (xmatch k s a) (length s)) in He; [lia| |exact HI]. intros x y. apply xmatch_bounds.
  - intros x y Hx. now apply xends_iff.
  - intros x y. apply xmatch_bounds.
Qed.

(** a greedy repeat of a one-character expression takes as much as possible, a lazy one as little *)
Lemma greedy_longest k s lo hi a i e p : good (XRep lo hi true a) -> (forall x y, xmatch k s a x y -> y = S x) ->
  p <= length s -> xsearch k (XRep lo hi true a) s p = Some (i, e) ->
  forall e', xmatch k s (XRep lo hi true a) i e' -> e' <= e.
Proof.
  intros G W HP HS e' M. apply xsearch_some in HS. destruct HS as (B & (l & L) & _).
  apply xends_iff in M; [|exact G|lia]. destruct G as (G & GL).
  rewrite rep_inside in L, M by (auto; lia).
  set (f := inside s (xends k s a)) in *.
  assert (HF : forall i e, In e (f i) -> e = S i).
  { intros x y. unfold f, inside. destruct (Nat.leb_spec x (length s)); [|intros []]. intros HX. apply W. now apply xends_iff. }
  pose proof (times_one f HF lo i) as T.
  destruct (times lo f i) as [|m ms] eqn:ET; [discriminate|].
  assert (HM : forall x, In x (m :: ms) -> x = m).
  { intros x HX. rewrite (T x HX), (T m); [reflexivity|now left]. }
  set (N := match hi with Some h => h - lo | None => S (length s) end) in *.
  destruct (more_greedy f HF N m) as (e0 & r & ER & HE).
  cbn [flat_map] in L. rewrite ER in L. cbn [app] in L. injection L as -> _.
  apply in_flat_map in M. destruct M as (x & A & C). rewrite (HM x A), ER in C.
  destruct C as [<-|C]; [lia|auto].
Qed.
Lemma lazy_shortest k s lo hi a i e p : good (XRep lo hi false a) -> (forall x y, xmatch k s a x y -> y = S x) ->
  p <= length s -> xsearch k (XRep lo hi false a) s p = Some (i, e) ->
  forall e', xmatch k s (XRep lo hi false a) i e' -> e <= e'.
Proof.
  intros G W HP HS e' M. apply xsearch_some in HS. destruct HS as (B & (l & L) & _).
  apply xends_iff in M; [|exact G|lia]. destruct G as (G & GL).
  rewrite rep_inside in L, M by (auto; lia).
  set (f := inside s (xends k s a)) in *.
  assert (HF : forall i e, In e (f i) -> e = S i).
  { intros x y. unfold f, inside. destruct (Nat.leb_spec x (length s)); [|intros []]. intros HX. apply W. now apply xends_iff. }
  pose proof (times_one f HF lo i) as T.
  destruct (times lo f i) as [|m ms] eqn:ET; [discriminate|].
  set (N := match hi with Some h => h - lo | None => S (length s) end) in *.
  assert (EM : e = m).
  { cbn [flat_map] in L. destruct N; cbn in L; congruence. }
  subst e. apply in_flat_map in M. destruct M as (x & A & C).
  rewrite (T m) by (now left). rewrite <- (T x A). eapply more_ge; eauto.
Qed.

Lemma xsearch_here k r s i e l : i <= length s -> xends k s r i = e :: l -> xsearch k r s i = Some (i, e).
Proof.
  intros HI H. unfold xsearch. destruct (Nat.ltb_spec (length s) i); [lia|].
  destruct (length s - i); cbn; now rewrite H.
Qed.

(** the first alternative that matches is taken *)
Lemma first_alternative k s a b p i e : good (XAlt a b) -> p <= length s ->
  xsearch k (XAlt a b) s p = Some (i, e) ->
  xsearch k a s i = Some (i, e) \/ (~ (exists e', xmatch k s a i e') /\ xsearch k b s i = Some (i, e)).
Proof.
  intros (GA & GB) HP HS. apply xsearch_some in HS. destruct HS as (B & (l & L) & _). cbn [xends] in L.
  destruct (xends k s a i) as [|x la] eqn:EA.
  - right. split; [|eapply xsearch_here; [lia|exact L]]. intros (e' & M). apply xends_iff in M; [|exact GA|lia].
    rewrite EA in M. destruct M.
  - left. cbn in L. injection L as -> _. eapply xsearch_here; [lia|exact EA].
Qed.

(** for patterns as texts *)
Lemma greedy_pattern k pat lo hi a s p i e : parse pat = Read (XRep lo hi true a) ->
  (forall x y, xmatch k s a x y -> y = S x) -> p <= length s ->
  xsearch k (XRep lo hi true a) s p = Some (i, e) ->
  forall e', xmatch k s (XRep lo hi true a) i e' -> e' <= e.
Proof. intros HP. apply greedy_longest. exact (parse_good _ _ HP). Qed.
Lemma lazy_pattern k pat lo hi a s p i e : parse pat = Read (XRep lo hi false a) ->
  (forall x y, xmatch k s a x y -> y = S x) -> p <= length s ->
  xsearch k (XRep lo hi false a) s p = Some (i, e) ->
  forall e', xmatch k s (XRep lo hi false a) i e' -> e <= e'.
Proof. intros HP. apply lazy_shortest. exact (parse_good _ _ HP). Qed.
Lemma alternative_pattern k pat a b s p i e : parse pat = Read (XAlt a b) -> p <= length s ->
  xsearch k (XAlt a b) s p = Some (i, e) ->
  xsearch k a s i = Some (i, e) \/ (~ (exists e', xmatch k s a i e') /\ xsearch k b s i = Some (i, e)).
Proof. intros HP. apply first_alternative. exact (parse_good _ _ HP). Qed.

Lemma search_pattern k pat r s p : parse pat = Read r -> p <= length s ->
  match xsearch k r s p with
  | Some (i, e) => p <= i /\ i <= e /\ e <= length s /\ xmatch k s r i e /\
                   forall j e', p <= j < i -> ~ xmatch k s r j e'
  | None => forall j e', p <= j <= length s -> ~ xmatch k s r j e'
  end.
Proof. intros HP. apply xsearch_leftmost. exact (parse_good _ _ HP). Qed.
Lemma widths_pattern k pat r s i j : parse pat = Read r -> xmatch k s r i j ->
  i + minw r <= j /\ forall w, maxw r = Some w -> j <= i + w.
Proof.
  intros HP M. pose proof (parse_good _ _ HP) as G. split; [exact (minw_le k s r i j M G)|].
  intros w HW. exact (maxw_ge k s r i j w M G HW).
Qed.

(** the same searches *)
Lemma search_eq k r q : (forall s i, xends k s r i = xends k s q i) -> forall s p, xsearch k r s p = xsearch k q s p.
Proof.
  intros H s p. unfold xsearch. destruct (length s <? p); [reflexivity|]. generalize (length s - p) as n.
  intros n. revert p. induction n as [|n IH]; intros p; cbn; rewrite H; [reflexivity|].
  destruct (xends k s q p); [apply IH|reflexivity].
Qed.
Lemma flat_map_flat_map {A B C} (f : A -> list B) (g : B -> list C) l :
  flat_map g (flat_map f l) = flat_map (fun x => flat_map g (f x)) l.
Proof. induction l as [|a l IH]; cbn; [reflexivity|]. rewrite flat_map_app. now rewrite IH. Qed.

Lemma plus_is k s p g a : xsearch k (XRep 1 None g a) s p = xsearch k (XSeq a (XRep 0 None g a)) s p.
Proof.
  apply search_eq. clear. intros s i. cbn [xends]. cbn [times]. rewrite flat_map_flat_map.
  apply flat_map_ext_in. intros e _. reflexivity.
Qed.
Lemma optional_is k s p a : xsearch k (XRep 0 (Some 1) true a) s p = xsearch k (XAlt a XEmpty) s p.
Proof.
  apply search_eq. clear. intros s i. cbn [xends times more Nat.sub flat_map]. rewrite app_nil_r. f_equal.
  induction (xends k s a i) as [|e l IH]; cbn; [reflexivity|]. rewrite IH. now destruct (e =? i).
Qed.
Lemma optional_lazy_is k s p a : xsearch k (XRep 0 (Some 1) false a) s p = xsearch k (XAlt XEmpty a) s p.
Proof.
  apply search_eq. clear. intros s i. cbn [xends times more Nat.sub flat_map app]. rewrite app_nil_r. f_equal.
  induction (xends k s a i) as [|e l IH]; cbn; [reflexivity|]. rewrite IH. now destruct (e =? i).
Qed.
Lemma once_more_is k s p n hi g a :
  xsearch k (XRep (S n) (option_map S hi) g a) s p = xsearch k (XSeq a (XRep n hi g a)) s p.
Proof.
  apply search_eq. clear. intros s i. cbn [xends]. cbn [times]. rewrite flat_map_flat_map.
  apply flat_map_ext_in. intros e _. destruct hi; reflexivity.
Qed.

Lemma alternatives_read k p q r1 r2 : parse p = Read r1 -> parse q = Read r2 ->
  exists x, parse (p ++ txt "|" ++ q) = Read x /\ forall s i, xsearch k x s i = xsearch k (XAlt r1 r2) s i.
Proof.
  intros HP HQ. destruct (parse_alternatives k p q r1 r2 HP HQ) as (x & X1 & X2). exists x. split; [exact X1|].
  now apply search_eq.
Qed.

(** ** ReplaceAwithB *)

Lemma read_compiles E w p r : python_re E w p -> parse p = Read r ->
  exists find, re_compile E p = Some find /\ in_bounds find /\
    (forall s q, q <= length s -> find s q = xsearch (classes_of E w) r s q).
Proof.
  unfold python_re. intros H HP. rewrite HP in H. destruct H as (find & HC & HS). exists find. split; [exact HC|].
  split; [|exact HS]. intros s q i e HQ HF. rewrite HS in HF by exact HQ.
  pose proof (xsearch_leftmost (classes_of E w) r s q (parse_good p r HP) HQ) as L. rewrite HF in L. tauto.
Qed.

Lemma construct_checks E w a b : python_re E w a ->
  match parse a with
  | Read _ => make_replace E a b = Ok (ReplaceAwithB a b)
  | Bad => make_replace E a b = Err ReErr
  | _ => True
  end.
Proof.
  unfold python_re, make_replace. destruct (parse a); auto; [intros (find & -> & _); reflexivity|now intros ->].
Qed.

Lemma replaced_leftmost E w r (find : finder) b s : good r ->
  in_bounds find -> (forall q, q <= length s -> find s q = xsearch (classes_of E w) r s q) ->
  forall p sg, p <= length s -> replaced find (fun _ => b) s p sg -> leftmost (xmatch (classes_of E w) s r) b s p sg.
Proof.
  intros G HB HS p sg LP H. induction H as [p H|p i e sg LT F H IH].
  - apply lm_end; [exact LP|]. intros i e HI HP. destruct H as [->|F]; [lia|]. rewrite HS in F by exact LP.
    pose proof (xsearch_leftmost (classes_of E w) r s p G LP) as L. rewrite F in L. apply L. lia.
  - pose proof (replaced_advances find (fun _ => b) HB s p i e sg LT F H) as A.
    rewrite HS in F by exact LP.
    pose proof (xsearch_leftmost (classes_of E w) r s p G LP) as L. rewrite F in L. destruct L as (L1 & L2 & L3 & L4 & L5).
    apply lm_match; auto.
Qed.

Lemma replaced_ext (f g : finder) newv s : in_bounds f -> (forall q, q <= length s -> f s q = g s q) ->
  forall p sg, p <= length s -> replaced f newv s p sg -> replaced g newv s p sg.
Proof.
  intros HB HE p sg LP R. induction R as [p H|p i e sg LT F R IH].
  - apply rep_end. destruct H; [auto|]. right. now rewrite <- HE.
  - pose proof (HB s p i e LP F). apply rep_match; [exact LT|now rewrite <- HE|apply IH; lia].
Qed.

Lemma replace_reads E w p r b s y a : ord_ok (ord_c E) -> python_re E w p -> parse p = Read r ->
  transform_op E (ReplaceAwithB p b) (SStr s) = Ok (y, a) ->
  exists sg, leftmost (xmatch (classes_of E w) s r) b s 0 sg /\
    replaced (xsearch (classes_of E w) r) (fun _ => b) s 0 sg /\ olds sg = s /\ y = SStr (news sg).
Proof.
  intros O H HP T. destruct (read_compiles E w p r H HP) as (find & HC & HB & HS).
  destruct (replace_pieces E p b find s y a O HC HB T) as (sg & R & Q). exists sg. split; [|split; [|exact Q]].
  - eapply replaced_leftmost; eauto; [exact (parse_good p r HP)|lia].
  - eapply replaced_ext; [exact HB|intros q HQ; apply HS; exact HQ|lia|exact R].
Qed.

Lemma replace_ends E w p r b s : ord_ok (ord_c E) -> python_re E w p -> parse p = Read r ->
  (forall i, i < length s -> ~ xmatch (classes_of E w) s r i i) ->
  exists y a, transform_op E (ReplaceAwithB p b) (SStr s) = Ok (y, a).
Proof.
  intros O H HP HN. destruct (read_compiles E w p r H HP) as (find & HC & HB & HS).
  (* only searches inside the text matter *)
  destruct (replaced_or_stuck find (fun _ => b) HB s 0 ltac:(lia)) as [(sg & HR)|ST].
  - pose proof (scan_group_replaced E find _ s sg O HB HR) as HG.
    unfold transform_op. cbn [type_of input_type seqtype_eqb guard bind transform_str].
    rewrite HC. unfold str_result. rewrite HG.
    cbn [bind fst type_of output_type seqtype_eqb guard]. eauto.
  - exfalso.
    assert (Q : forall p, p <= length s -> stuck find s p -> False).
    { intros q LQ S. revert LQ. induction S as [q LT F|q i e LT F S IH]; intros LQ.
      - rewrite HS in F by exact LQ. pose proof (xsearch_leftmost (classes_of E w) r s q (parse_good p r HP) LQ) as L.
        rewrite F in L. now apply (HN q LT).
      - apply IH. apply HB in F; lia. }
    exact (Q 0 ltac:(lia) ST).
Qed.
Lemma wide_no_empty k s r : good r -> 0 < minw r -> forall i, ~ xmatch k s r i i.
Proof. intros G W i M. apply minw_le in M; [lia|exact G]. Qed.

(** the other operators are ReplaceAwithB with their pattern and token, as far as texts go *)
Lemma scan_ext (f g : finder) newv s : in_bounds f -> (forall q, q <= length s -> f s q = g s q) ->
  forall fuel p acc, p <= length s -> scan fuel f newv s p acc = scan fuel g newv s p acc.
Proof.
  intros HB HE. induction fuel as [|fuel IH]; intros p acc HP; cbn; [reflexivity|].
  destruct (length s <=? p); [reflexivity|]. rewrite <- HE by exact HP.
  destruct (f s p) as [[i e]|] eqn:EF; [|reflexivity]. apply IH. apply HB in EF; lia.
Qed.

Lemma acts_like E w pat o b (q : re) fwd bwd : python_re E w pat -> found_as E w pat (search q) ->
  input_type o = TStr -> output_type o = TStr ->
  (forall s, transform_str E o s = str_result s (scan_group E (search q) (fun _ => b) s) fwd bwd) ->
  forall s y, (exists a, transform_op E o (SStr s) = Ok (y, a)) <->
              (exists a, transform_op E (ReplaceAwithB pat b) (SStr s) = Ok (y, a)).
Proof.
  intros H (r & HP & HS) TI TO HT s y.
  destruct (read_compiles E w pat r H HP) as (find & HC & HB & HF).
  assert (SG : scan_group E find (fun _ => b) s = scan_group E (search q) (fun _ => b) s).
  { unfold scan_group. rewrite (scan_ext find (search q) (fun _ => b) s HB); [reflexivity| |lia].
    intros p Hp. now rewrite HF, HS. }
  unfold transform_op. cbn [type_of]. rewrite TI, TO. cbn [input_type output_type seqtype_eqb guard bind transform_str].
  rewrite HT, HC. unfold str_result. rewrite SG.
  destruct (scan_group E (search q) (fun _ => b) s) as [g|]; cbn [bind fst type_of seqtype_eqb guard];
    (split; intros (a & A); [|]); try discriminate; injection A as <- _; eauto.
Qed.
Lemma replaces_as E w o pat b : replaces_pattern o pat b -> python_re E w pat ->
  forall s y, (exists a, transform_op E o (SStr s) = Ok (y, a)) <->
              (exists a, transform_op E (ReplaceAwithB pat b) (SStr s) = Ok (y, a)).
Proof.
  intros [] H; (eapply acts_like; [exact H| |reflexivity|reflexivity|intros; reflexivity]);
    auto using merge_pattern, strip_pattern, int_pattern, float_pattern, stopwords_pattern.
Qed.
(** and the three others search with their patterns *)
Lemma source_patterns E w :
  found_as E w pat_lowercase (search re_lowercase) /\ found_as E w pat_merge (search (re_merge E)) /\
  found_as E w pat_strip (search (re_strip E)) /\ found_as E w pat_int (search (re_int E)) /\
  found_as E w pat_float (search (re_float E)) /\ found_as E w pat_purenum (search (re_purenum E)) /\
  found_as E w pat_stopwords (search re_stopwords).
Proof.
  auto 10 using lowercase_pattern, merge_pattern, strip_pattern, int_pattern, float_pattern, purenum_pattern, stopwords_pattern.
Qed.

(** ** Plain texts *)

Lemma occurs_skip (s t u v : str) p : skipn p s = u ++ t ++ v -> p <= length s -> rmatch s (RLit t) (p + length u) (p + length u + length t).
Proof.
  intros H HP. apply (m_lit s t (p + length u) (firstn p s ++ u) v).
  - rewrite <- (firstn_skipn p s) at 1. rewrite H. now rewrite <- app_assoc.
  - rewrite app_length, firstn_length. lia.
Qed.

Lemma replaced_str t b s (find : finder) : t <> [] ->
  in_bounds find -> (forall q, q <= length s -> find s q = search (RLit t) s q) ->
  forall p sg, p <= length s -> replaced find (fun _ => b) s p sg ->
  str_replace t b (skipn p s) (news sg) /\ (forall x v, In (x, Some v) sg -> x = t /\ v = b).
Proof.
  intros NE HB HS p sg LP H. induction H as [p H|p i e sg LT F H IH].
  - split; [|intros x v [HI|[]]; discriminate]. unfold news. cbn. rewrite app_nil_r. apply sr_none. intros u v EQ.
    pose proof (occurs_skip s t u v p EQ LP) as M.
    destruct H as [->|F].
    + rewrite skipn_all in EQ. destruct u; [destruct t; [congruence|discriminate]|discriminate].
    + rewrite HS in F by exact LP. pose proof (search_leftmost (RLit t) s p LP) as L. rewrite F in L.
      apply (L (p + length u) (p + length u + length t)); [|exact M].
      apply (f_equal (@length Z)) in EQ. rewrite skipn_length, !app_length in EQ. lia.
  - pose proof (HB s p i e LP F) as (B1 & B2 & B3).
    rewrite HS in F by exact LP. pose proof (search_leftmost (RLit t) s p LP) as L. rewrite F in L.
    destruct L as (_ & _ & _ & M & ML). destruct (IH B3) as (IS & IP).
    inversion M as [l i' pre post ES EI| | | | | | | | |]; subst.
    set (u := skipn p pre).
    assert (SP : skipn p (pre ++ t ++ post) = u ++ t ++ post).
    { unfold u. rewrite skipn_app. replace (p - length pre) with 0 by lia. reflexivity. }
    assert (E1 : firstn (length pre - p) (skipn p (pre ++ t ++ post)) = u).
    { rewrite SP. replace (length pre - p) with (length u) by (unfold u; rewrite skipn_length; lia).
      rewrite firstn_app, Nat.sub_diag, firstn_all. apply app_nil_r. }
    assert (E2 : skipn (length pre) (pre ++ t ++ post) = t ++ post).
    { rewrite skipn_app, Nat.sub_diag, skipn_all2 by lia. reflexivity. }
    assert (E3 : firstn (length pre + length t - length pre) (t ++ post) = t).
    { replace (length pre + length t - length pre) with (length t) by lia.
      rewrite firstn_app, Nat.sub_diag, firstn_all. apply app_nil_r. }
    assert (E4 : skipn (length pre + length t) (pre ++ t ++ post) = post).
    { rewrite app_assoc, skipn_app, app_length. rewrite skipn_all2 by (rewrite app_length; lia).
      replace (length pre + length t - (length pre + length t)) with 0 by lia. reflexivity. }
    rewrite E1, E2, E3. rewrite E4 in IS. split.
    + rewrite SP. unfold news. cbn [map concat new_of snd fst]. apply sr_some; [|exact IS].
      intros u' v' EQ. rewrite <- SP in EQ. pose proof (occurs_skip _ t u' v' p EQ LP) as M'.
      destruct (Nat.le_gt_cases (length u) (length u')) as [|GT]; [assumption|exfalso].
      assert (LU : length u = length pre - p) by (unfold u; apply skipn_length).
      apply (ML (p + length u') (p + length u' + length t)); [lia|exact M'].
    + intros x v [HI|[HI|HI]]; [discriminate|injection HI as <- <-; auto|eauto].
Qed.

Lemma text_parses t p : text_pattern t p -> parse p = Read (xword t).
Proof. intros [(P & ->)| ->]; [now apply parse_plain|apply parse_escaped]. Qed.

Lemma replace_text E w t p b s : ord_ok (ord_c E) -> python_re E w p -> text_pattern t p -> t <> [] ->
  exists sg, replaced (search (RLit t)) (fun _ => b) s 0 sg /\
    exists a, transform_op E (ReplaceAwithB p b) (SStr s) = Ok (SStr (news sg), a) /\
    olds sg = s /\ str_replace t b s (news sg) /\ (forall x v, In (x, Some v) sg -> x = t /\ v = b) /\
    (~ deleted_twice sg -> rewrites E (ReplaceAwithB p b) s sg by_entity_mode by_entity_mode).
Proof.
  intros O H TP NE. pose proof (text_parses t p TP) as HP.
  destruct (read_compiles E w p _ H HP) as (find & HC & HB & HS).
  assert (FS : forall s q, q <= length s -> find s q = search (RLit t) s q).
  { intros s' q HQ. rewrite HS by exact HQ. apply same_search. apply same_word. }
  destruct (replaced_or_stuck find (fun _ => b) HB s 0 ltac:(lia)) as [(sg & HR)|ST].
  2:{ exfalso. assert (Q : forall p, p <= length s -> stuck find s p -> False); [|exact (Q 0 ltac:(lia) ST)].
      intros q LQ S. revert LQ. induction S as [q LT F|q i e LT F S IH]; intros LQ; [|apply IH; apply HB in F; lia].
      rewrite FS in F by exact LQ. pose proof (search_leftmost (RLit t) s q LQ) as L. rewrite F in L.
      destruct L as (_ & _ & _ & M & _). inversion M; subst. destruct t; [congruence|cbn in *; lia]. }
  destruct (replaced_str t b s find NE HB (FS s) 0 sg ltac:(lia) HR) as (SR & PR).
  pose proof (scan_group_replaced E find _ s sg O HB HR) as HG.
  assert (ES : olds sg = s) by exact (replaced_ge find (fun _ => b) HB s 0 sg ltac:(lia) HR).
  exists sg. split.
  { clear -HR FS HB. assert (Q : forall p sg, p <= length s -> replaced find (fun _ => b) s p sg -> replaced (search (RLit t)) (fun _ => b) s p sg).
    { intros p sg' LP R. revert LP. induction R as [p H|p i e sg' LT F R IH]; intros LP.
      - apply rep_end. destruct H; [auto|]. right. now rewrite <- FS.
      - pose proof (HB s p i e LP F). apply rep_match; [exact LT|now rewrite <- FS|apply IH; lia]. }
    apply Q; [lia|exact HR]. }
  exists (AStr s (grp 0 sg) (length (news sg)) except_ne except_ne). split.
  - unfold transform_op. cbn [type_of input_type seqtype_eqb guard bind transform_str].
    rewrite HC. unfold str_result. rewrite HG. cbn [bind].
    assert (AP : apply s (grp 0 sg) = news sg) by (rewrite <- ES at 1; apply apply_grp).
    rewrite AP. reflexivity.
  - split; [exact ES|]. split; [exact SR|]. split; [exact PR|].
    intros HT. eapply replace_rewrites; eauto.
Qed.

Lemma app_same_length {A} (a b c d : list A) : a ++ b = c ++ d -> length a = length c -> a = c /\ b = d.
Proof.
  revert c. induction a as [|x a IH]; intros [|y c]; cbn; try discriminate; [auto|].
  intros [= -> H] [= L]. destruct (IH c H L) as (-> & ->). auto.
Qed.
Lemma str_replace_unique t b s o1 : str_replace t b s o1 -> forall o2, str_replace t b s o2 -> o1 = o2.
Proof.
  intros H. induction H as [s N|u v out M H IH]; intros o2 K.
  - inversion K as [|u v out M H]; subst; [reflexivity|]. now destruct (N u v).
  - inversion K as [s N EQ|u' v' out' M' H' EQ]; subst.
    + now destruct (N u v).
    + pose proof (M u' v' (eq_sym EQ)). pose proof (M' u v EQ).
      destruct (app_same_length u' (t ++ v') u (t ++ v) EQ ltac:(lia)) as (-> & E2).
      apply app_inv_head in E2. subst v'. now rewrite (IH out' H').
Qed.

(** a single character *)
Lemma str_replace_char c b s : str_replace [c] b s (flat_map (fun x => if (x =? c)%Z then b else [x]) s).
Proof.
  set (f := fun x => if (x =? c)%Z then b else [x]).
  assert (KEEP : forall s, (forall x, In x s -> x <> c) -> flat_map f s = s).
  { induction s0 as [|x s0 IH]; cbn; intros H; [reflexivity|]. unfold f at 1.
    destruct (Z.eqb_spec x c) as [->|_]; [now destruct (H c (or_introl eq_refl))|]. cbn. f_equal. apply IH. auto. }
  assert (Q : forall n s, length s <= n -> str_replace [c] b s (flat_map f s)); [|exact (Q (length s) s (Nat.le_refl _))].
  induction n as [|n IH]; intros s' HN.
  - destruct s'; [|cbn in HN; lia]. apply sr_none. intros [|? ?] v; discriminate.
  - destruct (in_dec Z.eq_dec c s') as [HI|NI].
    + apply in_split in HI.
      assert (FI : exists u v, s' = u ++ c :: v /\ ~ In c u).
      { clear -HI. destruct HI as (u & v & ->). induction u as [|x u IHu]; [exists [], v; cbn; auto|].
        destruct (Z.eq_dec x c) as [->|NE].
        - exists [], (u ++ c :: v). cbn. auto.
        - destruct IHu as (u' & v' & E & N). exists (x :: u'), v'. cbn. split; [now rewrite E|]. intros [|]; auto. }
      destruct FI as (u & v & -> & NU).
      rewrite flat_map_app. cbn [flat_map]. rewrite KEEP by (intros x HX ->; auto). unfold f at 1. rewrite Z.eqb_refl.
      change (u ++ c :: v) with (u ++ [c] ++ v). apply sr_some.
      * intros u' v' EQ. destruct (Nat.le_gt_cases (length u) (length u')) as [|GT]; [assumption|exfalso].
        assert (NC : nth_error (u ++ [c] ++ v) (length u') = Some c).
        { rewrite EQ, nth_error_app2, Nat.sub_diag by lia. reflexivity. }
        rewrite nth_error_app1 in NC by exact GT. apply nth_error_In in NC. auto.
      * apply IH. rewrite app_length in HN. cbn in HN. lia.
    + rewrite KEEP by (intros x HX ->; auto). apply sr_none. intros u v ->. apply NI.
      rewrite in_app_iff. right. now left.
Qed.

(** ** Several words *)

Lemma rwords_match ws s i e : ws <> [] -> i <= length s ->
  (rmatch s (rwords ws) i e <-> exists w, In w ws /\ rmatch s (RLit w) i e).
Proof.
  intros NE HI. rewrite <- ends_rmatch by exact HI. rewrite ends_words by exact NE. rewrite in_flat_map.
  split; intros (w & A & B); exists w; (split; [exact A|]); now apply ends_rmatch.
Qed.
Lemma lit_occurs s w i e : rmatch s (RLit w) i e <-> occurs_at w s i /\ e = i + length w.
Proof.
  split.
  - intros M. inversion M; subst. split; [|reflexivity]. red. eauto.
  - intros ((u & v & -> & <-) & ->). now apply (m_lit _ w _ u v).
Qed.
Lemma first_word ws s i e l : ws <> [] -> i <= length s -> ends (rwords ws) s i = e :: l ->
  exists before w after, ws = before ++ w :: after /\ occurs_at w s i /\ e = i + length w /\
    forall w', In w' before -> ~ occurs_at w' s i.
Proof.
  intros NE HI. rewrite ends_words by exact NE. clear NE. revert e l. induction ws as [|w ws IH]; intros e l H; [discriminate|].
  cbn [flat_map] in H.
  destruct (ends (RLit w) s i) as [|x r] eqn:EW.
  - destruct (IH e l H) as (bf & w0 & af & -> & O & L & N). exists (w :: bf), w0, af.
    split; [reflexivity|]. split; [exact O|]. split; [exact L|].
    intros w' [<-|HI']; [|auto]. intros OC. assert (M : rmatch s (RLit w) i (i + length w)) by (apply lit_occurs; auto).
    apply ends_rmatch in M; [|exact HI]. rewrite EW in M. destruct M.
  - injection H as -> _. assert (M : rmatch s (RLit w) i e) by (apply ends_rmatch; [exact HI|rewrite EW; now left]).
    apply lit_occurs in M. exists [], w, ws. cbn. split; [reflexivity|]. split; [tauto|]. split; [tauto|tauto].
Qed.

Lemma occurs_skipn w s p i : p <= length s -> (occurs_at w (skipn p s) i <-> occurs_at w s (p + i)).
Proof.
  intros HP. split.
  - intros (u & v & E & <-). exists (firstn p s ++ u), v. split.
    + rewrite <- (firstn_skipn p s) at 1. rewrite E. now rewrite <- app_assoc.
    + rewrite app_length, firstn_length. lia.
  - intros (u & v & E & L). exists (skipn p u), v. split; [|rewrite skipn_length; lia].
    rewrite E, skipn_app. replace (p - length u) with 0 by lia. reflexivity.
Qed.

Lemma replaced_words ws b s (find : finder) : ws <> [] -> (forall w, In w ws -> w <> []) ->
  in_bounds find -> (forall q, q <= length s -> find s q = search (rwords ws) s q) ->
  forall p sg, p <= length s -> replaced find (fun _ => b) s p sg ->
  words_replace ws b (skipn p s) (news sg) /\ (forall x v, In (x, Some v) sg -> In x ws /\ v = b).
Proof.
  intros NE NW HB HS p sg LP H. induction H as [p H|p i e sg LT F H IH].
  - split; [|intros x v [HI|[]]; discriminate]. unfold news. cbn. rewrite app_nil_r. apply wr_none. intros w i HI OC.
    destruct H as [->|F].
    + rewrite skipn_all in OC. destruct OC as (u & v & E & _). specialize (NW w HI).
      destruct u; [destruct w; [congruence|discriminate]|discriminate].
    + rewrite HS in F by exact LP. pose proof (search_leftmost (rwords ws) s p LP) as L. rewrite F in L.
      apply occurs_skipn in OC; [|exact LP].
      assert (LE : p + i <= length s) by (destruct OC as (u & v & -> & <-); rewrite !app_length; lia).
      apply (L (p + i) (p + i + length w)); [lia|]. apply rwords_match; [exact NE|exact LE|].
      exists w. split; [exact HI|]. now apply lit_occurs.
  - pose proof (HB s p i e LP F) as (B1 & B2 & B3).
    rewrite HS in F by exact LP. pose proof (search_leftmost (rwords ws) s p LP) as L. rewrite F in L.
    destruct L as (_ & _ & _ & M & ML). destruct (IH B3) as (IS & IP).
    apply search_some in F. destruct F as (_ & _ & HD & _).
    destruct (ends (rwords ws) s i) as [|e0 l] eqn:EE; [discriminate|]. injection HD as ->.
    destruct (first_word ws s i e l NE ltac:(lia) EE) as (bf & w & af & EW & OC & -> & NB).
    destruct OC as (pre & post & ES & LI).
    set (u := skipn p pre).
    assert (SP : skipn p s = u ++ w ++ post).
    { unfold u. rewrite ES, skipn_app. replace (p - length pre) with 0 by lia. reflexivity. }
    assert (LU : length u = i - p) by (unfold u; rewrite skipn_length; lia).
    assert (E1 : firstn (i - p) (skipn p s) = u).
    { rewrite SP, <- LU, firstn_app, Nat.sub_diag, firstn_all. apply app_nil_r. }
    assert (E2 : skipn i s = w ++ post).
    { rewrite ES, <- LI, skipn_app, Nat.sub_diag, skipn_all2 by lia. reflexivity. }
    assert (E3 : firstn (i + length w - i) (w ++ post) = w).
    { replace (i + length w - i) with (length w) by lia. rewrite firstn_app, Nat.sub_diag, firstn_all. apply app_nil_r. }
    assert (E4 : skipn (i + length w) s = post).
    { rewrite <- skipn_skipn_add, E2, skipn_app, Nat.sub_diag, skipn_all2 by lia. reflexivity. }
    rewrite E1, E2, E3. rewrite E4 in IS. split.
    + rewrite SP. unfold news. cbn [map concat new_of snd fst]. apply (wr_some ws b u w post _ bf af EW); [| |exact IS].
      * intros w' j HI OC'. rewrite <- SP in OC'. apply occurs_skipn in OC'; [|exact LP].
        destruct (Nat.le_gt_cases (length u) j) as [|GT]; [assumption|exfalso].
        apply (ML (p + j) (p + j + length w')); [lia|]. apply rwords_match; [exact NE|lia|].
        exists w'. split; [exact HI|]. now apply lit_occurs.
      * intros w' HI OC'. rewrite <- SP in OC'. apply occurs_skipn in OC'; [|exact LP].
        apply (NB w' HI). now replace i with (p + length u) by lia.
    + intros x v [HI|[HI|HI]]; [discriminate|injection HI as <- <-|eauto]. split; [|reflexivity].
      rewrite EW. apply in_or_app. right. now left.
Qed.

Lemma words_parse ws p : Forall plain ws -> words_pattern ws p -> parse p = Read (xwords ws).
Proof. intros P [->| ->]; [now apply parse_bars|now apply parse_group]. Qed.

Lemma replace_words E w ws p b s : ord_ok (ord_c E) -> python_re E w p -> words_pattern ws p ->
  ws <> [] -> Forall plain ws -> (forall t, In t ws -> t <> []) ->
  exists sg a, transform_op E (ReplaceAwithB p b) (SStr s) = Ok (SStr (news sg), a) /\
    olds sg = s /\ words_replace ws b s (news sg) /\ (forall x v, In (x, Some v) sg -> In x ws /\ v = b) /\
    (~ deleted_twice sg -> rewrites E (ReplaceAwithB p b) s sg by_entity_mode by_entity_mode).
Proof.
  intros O H WP NE PL NW. pose proof (words_parse ws p PL WP) as HP.
  destruct (read_compiles E w p _ H HP) as (find & HC & HB & HS).
  assert (FS : forall s q, q <= length s -> find s q = search (rwords ws) s q).
  { intros s' q HQ. rewrite HS by exact HQ. apply same_search. apply same_words. }
  destruct (replaced_or_stuck find (fun _ => b) HB s 0 ltac:(lia)) as [(sg & HR)|ST].
  2:{ exfalso. assert (Q : forall p, p <= length s -> stuck find s p -> False); [|exact (Q 0 ltac:(lia) ST)].
      intros q LQ S. revert LQ. induction S as [q LT F|q i e LT F S IH]; intros LQ; [|apply IH; apply HB in F; lia].
      rewrite FS in F by exact LQ. pose proof (search_leftmost (rwords ws) s q LQ) as L. rewrite F in L.
      destruct L as (_ & _ & _ & M & _). apply rwords_match in M; [|exact NE|exact LQ].
      destruct M as (x & HI & M). apply lit_occurs in M. specialize (NW x HI). destruct x; [congruence|cbn in *; lia]. }
  destruct (replaced_words ws b s find NE NW HB (FS s) 0 sg ltac:(lia) HR) as (SR & PR).
  pose proof (scan_group_replaced E find _ s sg O HB HR) as HG.
  assert (ES : olds sg = s) by exact (replaced_ge find (fun _ => b) HB s 0 sg ltac:(lia) HR).
  exists sg, (AStr s (grp 0 sg) (length (news sg)) except_ne except_ne). split.
  - unfold transform_op. cbn [type_of input_type seqtype_eqb guard bind transform_str].
    rewrite HC. unfold str_result. rewrite HG. cbn [bind].
    assert (AP : apply s (grp 0 sg) = news sg) by (rewrite <- ES at 1; apply apply_grp).
    rewrite AP. reflexivity.
  - split; [exact ES|]. split; [exact SR|]. split; [exact PR|].
    intros HT. eapply replace_rewrites; eauto.
Qed.

(** the empty pattern never ends *)
Lemma empty_pattern E w b s : python_re E w [] -> s <> [] ->
  make_replace E [] b = Ok (ReplaceAwithB [] b) /\
  (exists find, re_compile E [] = Some find /\ forall fuel, scan fuel find (fun _ => b) s 0 [] = Err OutOfFuel) /\
  transform_op E (ReplaceAwithB [] b) (SStr s) = Err OutOfFuel.
Proof.
  intros H NE. assert (HP : parse [] = Read XEmpty) by reflexivity.
  destruct (read_compiles E w [] _ H HP) as (find & HC & HB & HS).
  assert (ST : stuck find s 0).
  { apply stuck_here; [destruct s; [congruence|cbn; lia]|]. rewrite HS by lia. unfold xsearch. cbn.
    destruct (length s - 0); reflexivity. }
  destruct (replace_diverges E [] b find s HC HB ST) as (D1 & D2).
  split; [unfold make_replace; now rewrite HC|]. split; [eauto|exact D2].
Qed.

Lemma words_replace_unique ws b s o1 :
  words_replace ws b s o1 -> forall o2, words_replace ws b s o2 -> o1 = o2.
Proof.
  intros H. induction H as [s N|u w v out bf af EW M F H IH]; intros o2 K.
  - inversion K as [|u w v out bf af EW M F H]; subst; [reflexivity|]. exfalso.
    apply (N w (length u)); [apply in_or_app; right; now left|]. red. eauto.
  - inversion K as [s N EQ|u' w' v' out' bf' af' EW' M' F' H' EQ]; subst.
    + exfalso. apply (N w (length u)); [apply in_or_app; right; now left|]. red. eauto.
    + assert (O1 : occurs_at w (u ++ w ++ v) (length u)) by (red; eauto).
      assert (O2 : occurs_at w' (u ++ w ++ v) (length u')) by (red; rewrite <- EQ; eauto).
      assert (I1 : In w (bf ++ w :: af)) by (apply in_or_app; right; now left).
      assert (I2 : In w' (bf ++ w :: af)) by (rewrite EW'; apply in_or_app; right; now left).
      rewrite EQ in M', F'.
      pose proof (M w' (length u') I2 O2). pose proof (M' w (length u) I1 O1).
      destruct (app_same_length u' (w' ++ v') u (w ++ v) EQ ltac:(lia)) as (-> & E2).
      assert (EB : bf' = bf /\ w' = w).
      { clear -EW' F F' O1 O2. revert bf' EW' F'. induction bf as [|x bf IHb]; intros [|y bf'] E F'; cbn in E.
        - injection E as <- _. auto.
        - injection E as <- _. exfalso. apply (F' w); [now left|exact O1].
        - injection E as -> _. exfalso. apply (F w'); [now left|exact O2].
        - injection E as -> E. destruct (IHb (fun z h => F z (or_intror h)) bf' E (fun z h => F' z (or_intror h))) as (-> & ->). auto. }
      destruct EB as (_ & ->). apply app_inv_head in E2. subst v'. now rewrite (IH out' H').
Qed.

(** ** As texts *)

Lemma text_replaced E w t p b s : ord_ok (ord_c E) -> python_re E w p -> text_pattern t p -> t <> [] ->
  exists sg a, transform_op E (ReplaceAwithB p b) (SStr s) = Ok (SStr (news sg), a) /\
    olds sg = s /\ str_replace t b s (news sg) /\ (forall x v, In (x, Some v) sg -> x = t /\ v = b) /\
    (~ deleted_twice sg -> rewrites E (ReplaceAwithB p b) s sg by_entity_mode by_entity_mode).
Proof.
  intros O H TP NE. destruct (replace_text E w t p b s O H TP NE) as (sg & _ & a & Q). eauto.
Qed.

Lemma char_replaced E w c p b s : ord_ok (ord_c E) -> python_re E w p -> text_pattern [c] p ->
  exists a, transform_op E (ReplaceAwithB p b) (SStr s) =
    Ok (SStr (flat_map (fun x => if (x =? c)%Z then b else [x]) s), a).
Proof.
  intros O H TP. destruct (text_replaced E w [c] p b s O H TP ltac:(discriminate)) as (sg & a & T & _ & SR & _).
  exists a. rewrite T. do 3 f_equal. exact (str_replace_unique _ _ _ _ SR _ (str_replace_char c b s)).
Qed.

(** one character for another and back *)
Lemma char_back E w c d p q s y a : ord_ok (ord_c E) -> python_re E w p -> python_re E w q ->
  text_pattern [c] p -> text_pattern [d] q -> ~ In d s ->
  transform_op E (ReplaceAwithB p [d]) (SStr s) = Ok (y, a) ->
  exists a', transform_op E (ReplaceAwithB q [c]) y = Ok (SStr s, a').
Proof.
  intros O HP HQ TP TQ NI T. destruct (char_replaced E w c p [d] s O HP TP) as (a0 & T0). rewrite T0 in T. injection T as <- _.
  destruct (char_replaced E w d q [c] (flat_map (fun x => if (x =? c)%Z then [d] else [x]) s) O HQ TQ) as (a1 & T1).
  exists a1. rewrite T1. do 3 f_equal. clear -NI. induction s as [|x s IH]; [reflexivity|]. cbn.
  assert (NX : x <> d) by (intros ->; apply NI; now left).
  destruct (Z.eqb_spec x c) as [->|NE]; cbn.
  - rewrite Z.eqb_refl. cbn. f_equal. apply IH. intros h. apply NI. now right.
  - destruct (Z.eqb_spec x d); [congruence|]. cbn. f_equal. apply IH. intros h. apply NI. now right.
Qed.

(** the stop words, in the order of the file *)
Lemma stopwords_replaced E s : ord_ok (ord_c E) ->
  exists out a, transform_op E StopwordsToWhitespace (SStr s) = Ok (SStr out, a) /\ words_replace stopwords (txt " ") s out.
Proof.
  intros O. set (k := classes_of E (fun _ => false)).
  set (E' := mkEnv (ord_c E) (ord_e E) (is_space E) (is_digit E) (is_pcat E) (is_mn E) (nfd E) (compile k)).
  assert (P : python_re E' (fun _ => false) pat_stopwords).
  { unfold python_re. assert (HP : parse pat_stopwords = Read (xwords stopwords)).
    { apply parse_group. apply Forall_forall. intros t HI. apply plainb_ok.
      assert (A : forallb plainb stopwords = true) by (vm_compute; reflexivity). rewrite forallb_forall in A. now apply A. }
    rewrite HP. exists (xsearch k (xwords stopwords)). split; [|reflexivity]. cbn [re_compile E']. unfold compile. now rewrite HP. }
  destruct (replace_words E' (fun _ => false) stopwords pat_stopwords (txt " ") s O P ltac:(now right)) as (sg & a & T & _ & W & _).
  - discriminate.
  - apply Forall_forall. intros t HI. apply plainb_ok.
    assert (A : forallb plainb stopwords = true) by (vm_compute; reflexivity). rewrite forallb_forall in A. now apply A.
  - intros t HI ->. assert (A : forallb (fun w => negb (nilb w)) stopwords = true) by (vm_compute; reflexivity).
    rewrite forallb_forall in A. now specialize (A [] HI).
  - exists (news sg).
    destruct (proj2 (replaces_as E' (fun _ => false) _ _ _ rp_stopwords P s (SStr (news sg)))) as (a' & T'); [eauto|].
    exists a'. split; [exact T'|exact W].
Qed.
