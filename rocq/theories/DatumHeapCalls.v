(** Histories of calls on datums as objects (C81, C82): proofs. *)

From Verif Require Import Py PyFacts Json JsonAscii Elements Ops Pipe DatumHeap SpecElements SpecDatumHeap DatumProofs
  DatumHeapProofs.
From Coq Require Import List.

Lemma after_snoc h c : after_steps (h ++ [c]) = fst (do c (after_steps h)).
Proof. unfold after_steps. now rewrite fold_left_app. Qed.

(** ** The calls *)

Lemma one_spec {B} s p (r : res B) Q : spec_at s p r Q -> forall s' x, one p s = (s', x) ->
  grows s s' /\ (wf s' /\ (valid s -> valid s')) /\
  match r with Ok d => exists n, x = Ok (One n) /\ Q s' n d | Err e => x = Err e end.
Proof.
  intros (G & W & H) s' x E. unfold one, seq_prog, give in E. destruct (p s) as [s1 y]. cbn [fst snd] in *.
  destruct r as [b|e].
  - destruct H as (n & -> & H). injection E as <- <-. split; [exact G|]. split; [exact W|]. now exists n.
  - subst y. injection E as <- <-. auto.
Qed.
Lemma many_spec {B} s p (r : res B) Q : spec_at s p r Q -> forall s' x, many p s = (s', x) ->
  grows s s' /\ (wf s' /\ (valid s -> valid s')) /\
  match r with Ok d => exists n, x = Ok (Many n) /\ Q s' n d | Err e => x = Err e end.
Proof.
  intros (G & W & H) s' x E. unfold many, seq_prog, give in E. destruct (p s) as [s1 y]. cbn [fst snd] in *.
  destruct r as [b|e].
  - destruct H as (n & -> & H). injection E as <- <-. split; [exact G|]. split; [exact W|]. now exists n.
  - subst y. injection E as <- <-. auto.
Qed.

Lemma known_ok {A} (l : list A) i : known l i = true <-> i < length l.
Proof. unfold known. apply Nat.ltb_lt. Qed.
Lemma all_known_ok {A} (l : list A) o : all_known l o = true <-> Forall (fun i => i < length l) (listed o).
Proof.
  destruct o as [is|]; cbn; [|split; constructor].
  rewrite forallb_forall, Forall_forall. split; intros H i I; specialize (H i I); now apply known_ok.
Qed.

Lemma new_datum_listed u ints ents s :
  new_datum u ints ents s = new_datum u (Some (listed ints)) (Some (listed ents)) s.
Proof. now destruct ints, ents. Qed.

Lemma replace_length {A} (l : list A) i x : length (replace l i x) = length l.
Proof. revert i; induction l as [|y l IH]; intros [|i]; cbn; auto. Qed.
Lemma replace_same {A} (l : list A) i x : i < length l -> nth_error (replace l i x) i = Some x.
Proof. revert i; induction l as [|y l IH]; intros [|i] L; cbn in *; try lia; [reflexivity|]. apply IH. lia. Qed.
Lemma replace_other {A} (l : list A) i j x : i <> j -> nth_error (replace l i x) j = nth_error l j.
Proof. revert i j; induction l as [|y l IH]; intros [|i] [|j] N; cbn; try reflexivity; [lia|]. apply IH. lia. Qed.
Lemma replace_Forall {A} (P : A -> Prop) l i x : Forall P l -> P x -> Forall P (replace l i x).
Proof.
  revert i; induction l as [|y l IH]; intros [|i] F H; cbn; auto; inversion F; subst; constructor; auto.
Qed.

(** what every call keeps *)
Definition kept (c : step) (s s' : store) : Prop :=
  (forall i v, ~ assigns c (AnIntent i) -> nth_error (s_intents s) i = Some v -> nth_error (s_intents s') i = Some v) /\
  (forall i v, ~ assigns c (AnEntity i) -> nth_error (s_entities s) i = Some v -> nth_error (s_entities s') i = Some v) /\
  (forall k o, ~ assigns c (ADatum k) -> nth_error (s_datums s) k = Some o -> nth_error (s_datums s') k = Some o) /\
  (forall i d, (forall d', c <> SetDict i d') -> nth_error (s_dicts s) i = Some d -> nth_error (s_dicts s') i = Some d) /\
  (forall i o, nth_error (s_ordinals s) i = Some o -> nth_error (s_ordinals s') i = Some o).

Lemma app_keeps {A} (l m : list A) i x : nth_error l i = Some x -> nth_error (l ++ m) i = Some x.
Proof. intros H. rewrite nth_error_app1; [exact H|]. apply nth_error_Some. congruence. Qed.

Lemma grows_kept c s s' : grows s s' -> kept c s s'.
Proof.
  intros (x & i & e & d & o & ->). repeat split; cbn; intros; now apply app_keeps.
Qed.
Lemma kept_refl c s : kept c s s.
Proof. apply grows_kept, grows_refl. Qed.

Definition dobj_same s s' : Prop := length (s_intents s') = length (s_intents s) /\ length (s_entities s') = length (s_entities s).
Lemma dobj_ok_same s s' o : dobj_same s s' -> dobj_ok s o -> dobj_ok s' o.
Proof. intros (A & B). unfold dobj_ok. now rewrite A, B. Qed.

Definition valid_after (c : step) (s s' : store) : Prop :=
  ((forall x, ~ assigns c x) -> valid s -> valid s').

Lemma do_kept c s : wf s -> (wf (fst (do c s)) /\ valid_after c s (fst (do c s))) /\ kept c s (fst (do c s)).
Proof.
  intros W.
  assert (REFL : (wf s /\ valid_after c s s) /\ kept c s s) by (split; [split; [exact W|intros _; auto]|apply kept_refl]).
  assert (ONE : forall B p (r : res B) Q, spec_at s p r Q -> (wf (fst (one p s)) /\ valid_after c s (fst (one p s))) /\ kept c s (fst (one p s))).
  { intros B p r Q H. destruct (one p s) as [s' x] eqn:E. destruct (one_spec _ _ _ _ H _ _ E) as (G & (W' & V') & _).
    split; [split; [exact W'|intros _; exact V']|now apply grows_kept]. }
  assert (MANY : forall B p (r : res B) Q, spec_at s p r Q -> (wf (fst (many p s)) /\ valid_after c s (fst (many p s))) /\ kept c s (fst (many p s))).
  { intros B p r Q H. destruct (many p s) as [s' x] eqn:E. destruct (many_spec _ _ _ _ H _ _ E) as (G & (W' & V') & _).
    split; [split; [exact W'|intros _; exact V']|now apply grows_kept]. }
  destruct c as [d|i d|l|i l|l v a b r|d u|i l v a b r|u is es|k u is es|k|k f orig|k|u is l|E p k|k q|fl k q rate|a b ne|ord o k|o raw|o];
    cbn [do].
  - (* MakeDict *)
    assert (E : set_dicts s (s_dicts s ++ [d]) = mkS (s_dicts s ++ [d]) (s_intents s ++ []) (s_entities s ++ []) (s_datums s ++ []) (s_ordinals s ++ []))
      by (unfold set_dicts; now rewrite !app_nil_r).
    cbn [fst]. rewrite E. rewrite <- E at 2. split; [split; [apply wf_grown; [exact W|constructor|constructor]|intros _ V; exact V]|].
    apply grows_kept. now exists [d], [], [], [], [].
  - (* SetDict *)
    destruct (known _ _) eqn:K; [|exact REFL]. cbn [fst]. split.
    + split; [|intros _ V; exact V]. destruct W as (WD & WO). split; [exact WD|]. cbn. now rewrite replace_length.
    + repeat split; cbn; auto. intros j d' N H. rewrite replace_other; [exact H|]. intros <-. now apply (N d).
  - eapply ONE. now apply new_intent_spec.
  - (* SetIntent *)
    destruct (known _ _) eqn:K; [|exact REFL]. destruct (make_intent l) as [v|e]; [|exact REFL]. cbn [fst]. split.
    + split; [|intros N; exfalso; eapply N; constructor].
      destruct W as (WD & WO). split; [|exact WO]. cbn. eapply Forall_impl; [|exact WD].
      intros o. apply dobj_ok_same. split; cbn; [apply replace_length|reflexivity].
    + repeat split; cbn; auto. intros j v' N H. rewrite replace_other; [exact H|]. intros <-. apply N. constructor.
  - eapply ONE. now apply new_entity_spec.
  - eapply ONE. now apply from_dict_spec.
  - (* SetEntity *)
    destruct (known _ _) eqn:K; [|exact REFL]. destruct (make_entity l v a b (Some r)) as [w|e]; [|exact REFL]. cbn [fst]. split.
    + split; [|intros N; exfalso; eapply N; constructor].
      destruct W as (WD & WO). split; [|exact WO]. cbn. eapply Forall_impl; [|exact WD].
      intros o. apply dobj_ok_same. split; cbn; [reflexivity|apply replace_length].
    + repeat split; cbn; auto. intros j v' N H. rewrite replace_other; [exact H|]. intros <-. apply N. constructor.
  - (* MakeDatum *)
    destruct (all_known _ is && _) eqn:K; [|exact REFL]. apply andb_prop in K as (K1 & K2).
    apply all_known_ok in K1, K2. unfold one, seq_prog. rewrite new_datum_listed.
    eapply ONE. now apply new_datum_spec.
  - (* SetDatum *)
    destruct (known _ _ && _ && _) eqn:K; [|exact REFL]. apply andb_prop in K as (K & K2). apply andb_prop in K as (K & K1).
    apply all_known_ok in K1, K2. cbn [fst listed] in *. split.
    + split; [|intros N; exfalso; eapply N; constructor].
      destruct W as (WD & WO). split; [|exact WO]. cbn. apply replace_Forall; [exact WD|]. now split.
    + repeat split; cbn; auto. intros j v' N H. rewrite replace_other; [exact H|]. intros <-. apply N. constructor.
  - destruct (datum_at s k) as [d|]; [|exact REFL]. eapply MANY. apply intents_spec; [|exact W]. intros. now apply new_intent_spec.
  - destruct (datum_at s k) as [d|]; [|exact REFL]. cbn [on].
    destruct (has_entities d) eqn:HE; [eapply MANY; now apply expand_spec|]. unfold hexpand. rewrite HE. exact REFL.
  - destruct (datum_at s k) as [d|]; exact REFL.
  - eapply ONE. now apply pack_spec.
  - destruct (datum_at s k) as [d|]; exact REFL.
  - destruct (datum_at s k) as [d|]; [|exact REFL]. destruct (datum_at s q); exact REFL.
  - destruct (datum_at s k) as [d|]; [|exact REFL]. destruct (datum_at s q); exact REFL.
  - (* MakeOrdinal *)
    destruct (known _ a && _) eqn:K; [|exact REFL]. destruct (make_ordinal _ _ _); [|exact REFL].
    apply andb_prop in K as (K1 & K2). apply known_ok in K1, K2. cbn [fst].
    assert (E : set_ordinals s (s_ordinals s ++ [(a, b, ne)]) = mkS (s_dicts s ++ []) (s_intents s ++ []) (s_entities s ++ []) (s_datums s ++ []) (s_ordinals s ++ [(a, b, ne)]))
      by (unfold set_ordinals; now rewrite !app_nil_r).
    rewrite E. rewrite <- E at 2. split.
    + split; [|intros _ V; exact V]. apply wf_grown; [exact W|constructor|]. constructor; [|constructor]. cbn. rewrite app_nil_r. auto.
    + apply grows_kept. now exists [], [], [], [], [(a, b, ne)].
  - destruct (ordinal_at s o) as [x|]; [|exact REFL]. destruct (datum_at s k); exact REFL.
  - destruct (ordinal_at s o) as [x|]; [|exact REFL]. eapply ONE. now apply machanize_spec.
  - destruct (ordinal_at s o) as [x|]; exact REFL.
Qed.

Lemma wf_empty : wf empty_store.
Proof. split; constructor. Qed.
Lemma wf_after h : wf (after_steps h).
Proof.
  induction h as [|c h IH] using rev_ind; [apply wf_empty|]. rewrite after_snoc. now apply (do_kept c).
Qed.
Lemma kept_snoc h c : kept c (after_steps h) (after_steps (h ++ [c])).
Proof. rewrite after_snoc. apply do_kept, wf_after. Qed.

(** ** Objects *)

Theorem objects_keep h h2 :
  (forall i v, has_intent h i v -> (forall c, In c h2 -> ~ assigns c (AnIntent i)) -> has_intent (h ++ h2) i v) /\
  (forall i e, has_entity h i e -> (forall c, In c h2 -> ~ assigns c (AnEntity i)) -> has_entity (h ++ h2) i e) /\
  (forall k u is es, holds h k u is es -> (forall c, In c h2 -> ~ assigns c (ADatum k)) -> holds (h ++ h2) k u is es).
Proof.
  induction h2 as [|c h2 IH] using rev_ind; [rewrite app_nil_r; auto|]. rewrite app_assoc.
  destruct IH as (I1 & I2 & I3). destruct (kept_snoc (h ++ h2) c) as (K1 & K2 & K3 & _).
  assert (HC : forall x, (forall d, In d (h2 ++ [c]) -> ~ assigns d x) -> (forall d, In d h2 -> ~ assigns d x) /\ ~ assigns c x).
  { intros x H. split; [intros d Hd; apply H, in_app_iff; auto|apply H, in_app_iff; right; now left]. }
  split; [|split].
  - intros i v H N. apply HC in N as (N & N'). apply K1; [exact N'|]. now apply I1.
  - intros i v H N. apply HC in N as (N & N'). apply K2; [exact N'|]. now apply I2.
  - intros k u is es H N. apply HC in N as (N & N'). apply K3; [exact N'|]. now apply I3.
Qed.

Lemma read_values s is es : Forall (fun i => i < length (s_intents s)) is -> Forall (fun i => i < length (s_entities s)) es ->
  Forall2 (fun i v => nth_error (s_intents s) i = Some v) is (map (intent_of s) is) /\
  Forall2 (fun i v => nth_error (s_entities s) i = Some v) es (map (entity_of s) es).
Proof.
  intros FI FE. split.
  - induction FI as [|i js L F IH]; [constructor|]. constructor; [now apply nth_error_nth'|exact IH].
  - induction FE as [|i js L F IH]; [constructor|]. constructor; [now apply nth_error_nth'|exact IH].
Qed.

Lemma values_map {A} (l : list A) (d : A) is vs : Forall2 (fun i v => nth_error l i = Some v) is vs ->
  map (fun i => nth i l d) is = vs /\ Forall (fun i => i < length l) is.
Proof.
  induction 1 as [|i v is vs H F (IH1 & IH2)]; [now split|]. split.
  - cbn. f_equal; [now apply nth_error_nth|exact IH1].
  - constructor; [|exact IH2]. apply nth_error_Some. congruence.
Qed.

Theorem contents_now h k d : has_datum h k d <->
  exists u is es vi ve, holds h k u is es /\ Forall2 (has_intent h) is vi /\ Forall2 (has_entity h) es ve /\ d = mkDatum u vi ve.
Proof.
  unfold has_datum, datum_at, holds. split.
  - destruct (nth_error _ k) as [[u is es]|] eqn:E; [|discriminate]. cbn. intros [= <-].
    exists u, is, es. destruct (wf_at _ _ _ (wf_after h) E) as (FI & FE). cbn in FI, FE.
    destruct (read_values _ _ _ FI FE) as (R1 & R2). do 2 eexists. split; [reflexivity|].
    split; [exact R1|]. split; [exact R2|]. reflexivity.
  - intros (u & is & es & vi & ve & -> & R1 & R2 & ->). cbn. f_equal. unfold read_datum. cbn. f_equal.
    + now apply (values_map _ 0%Z).
    + now apply (values_map _ no_entity).
Qed.

Lemma Forall2_keep {A B} (P Q : A -> B -> Prop) l m : (forall a b, In a l -> P a b -> Q a b) -> Forall2 P l m -> Forall2 Q l m.
Proof.
  intros H F. induction F as [|a b l m H1 F IH]; [constructor|]. constructor; [apply H; [now left|exact H1]|].
  apply IH. intros. apply H; [now right|assumption].
Qed.

Theorem datum_keeps h h2 k d : has_datum h k d ->
  (forall c x, In c h2 -> part_of h k x -> ~ assigns c x) -> has_datum (h ++ h2) k d.
Proof.
  intros H N. apply contents_now in H as (u & is & es & vi & ve & HO & R1 & R2 & ->).
  destruct (objects_keep h h2) as (K1 & K2 & K3). apply contents_now. exists u, is, es, vi, ve.
  split; [apply K3; [exact HO|]; intros c Hc; apply (N c _ Hc); constructor|].
  split; [|split; [|reflexivity]].
  - eapply Forall2_keep; [|exact R1]. intros i v Hi Hv. apply K1; [exact Hv|]. intros c Hc. apply (N c _ Hc).
    econstructor; eassumption.
  - eapply Forall2_keep; [|exact R2]. intros i v Hi Hv. apply K2; [exact Hv|]. intros c Hc. apply (N c _ Hc).
    econstructor; eassumption.
Qed.

Lemma no_assign_keeps h c : (forall x, ~ assigns c x) -> keeps_all h c.
Proof.
  intros N. destruct (objects_keep h [c]) as (K1 & K2 & K3).
  assert (N' : forall x d, In d [c] -> ~ assigns d x) by (intros x d [<-|[]]; apply N).
  split; [intros; apply K1; auto|]. split; [intros; apply K2; auto|]. split; [intros; apply K3; auto|].
  intros k d H. apply datum_keeps; [exact H|]. intros e x Hin _. now apply N'.
Qed.

(** ** Assignments *)

Theorem assign_intent h i l v0 : has_intent h i v0 ->
  match make_intent l with
  | Ok v => answers h (SetIntent i l) = Ok Void /\ has_intent (h ++ [SetIntent i l]) i v
  | Err e => answers h (SetIntent i l) = Err e /\ after_steps (h ++ [SetIntent i l]) = after_steps h
  end.
Proof.
  intros H. assert (L : i < length (s_intents (after_steps h))) by (apply nth_error_Some; unfold has_intent in H; congruence).
  apply known_ok in L. unfold answers, has_intent. rewrite after_snoc. cbn [do]. rewrite L.
  destruct (make_intent l) as [v|e]; [|auto]. split; [reflexivity|]. cbn. apply replace_same. now apply known_ok.
Qed.
Theorem assign_entity h i l v a b r e0 : has_entity h i e0 ->
  match make_entity l v a b (Some r) with
  | Ok e => answers h (SetEntity i l v a b r) = Ok Void /\ has_entity (h ++ [SetEntity i l v a b r]) i e
  | Err e => answers h (SetEntity i l v a b r) = Err e /\ after_steps (h ++ [SetEntity i l v a b r]) = after_steps h
  end.
Proof.
  intros H. assert (L : i < length (s_entities (after_steps h))) by (apply nth_error_Some; unfold has_entity in H; congruence).
  apply known_ok in L. unfold answers, has_entity. rewrite after_snoc. cbn [do]. rewrite L.
  destruct (make_entity l v a b (Some r)) as [w|e]; [|auto]. split; [reflexivity|]. cbn. apply replace_same. now apply known_ok.
Qed.
Theorem assign_datum h k u is es u0 is0 es0 vi ve : holds h k u0 is0 es0 ->
  Forall2 (has_intent h) is vi -> Forall2 (has_entity h) es ve ->
  answers h (SetDatum k u is es) = Ok Void /\ holds (h ++ [SetDatum k u is es]) k u is es /\
  has_datum (h ++ [SetDatum k u is es]) k (mkDatum u vi ve).
Proof.
  intros H R1 R2. assert (L : k < length (s_datums (after_steps h))) by (apply nth_error_Some; unfold holds in H; congruence).
  apply known_ok in L.
  assert (K1 : all_known (s_intents (after_steps h)) (Some is) = true) by (apply all_known_ok; now apply (values_map _ 0%Z) in R1).
  assert (K2 : all_known (s_entities (after_steps h)) (Some es) = true) by (apply all_known_ok; now apply (values_map _ no_entity) in R2).
  assert (HO : holds (h ++ [SetDatum k u is es]) k u is es).
  { unfold holds. rewrite after_snoc. cbn [do]. rewrite L, K1, K2. cbn. apply replace_same. now apply known_ok. }
  split; [unfold answers; cbn [do]; now rewrite L, K1, K2|]. split; [exact HO|].
  apply contents_now. exists u, is, es, vi, ve. split; [exact HO|].
  destruct (objects_keep h [SetDatum k u is es]) as (O1 & O2 & _).
  split; [|split; [|reflexivity]].
  - eapply Forall2_keep; [|exact R1]. intros i v _ Hv. apply O1; [exact Hv|]. intros c [<-|[]] A. inversion A.
  - eapply Forall2_keep; [|exact R2]. intros i v _ Hv. apply O2; [exact Hv|]. intros c [<-|[]] A. inversion A.
Qed.

(** ** Constructors *)

Theorem make_datum_shares h u ints ents vi ve :
  Forall2 (has_intent h) (listed ints) vi -> Forall2 (has_entity h) (listed ents) ve ->
  match make_datum u (Some vi) (Some ve) with
  | Ok d => exists n is es, answers h (MakeDatum u ints ents) = Ok (One n) /\ ~ there h (ADatum n) /\
      holds (h ++ [MakeDatum u ints ents]) n u is es /\ Permutation (listed ints) is /\ Permutation (listed ents) es /\
      has_datum (h ++ [MakeDatum u ints ents]) n d
  | Err e => answers h (MakeDatum u ints ents) = Err e
  end.
Proof.
  intros R1 R2. apply (values_map _ 0%Z) in R1 as (<- & F1). apply (values_map _ no_entity) in R2 as (<- & F2).
  assert (K1 : all_known (s_intents (after_steps h)) ints = true) by now apply all_known_ok.
  assert (K2 : all_known (s_entities (after_steps h)) ents = true) by now apply all_known_ok.
  unfold answers, holds, has_datum. rewrite after_snoc. cbn [do]. rewrite K1, K2. cbn [andb].
  unfold one at 1 2 3 4, seq_prog. rewrite new_datum_listed.
  set (s := after_steps h) in *.
  pose proof (new_datum_spec s u (listed ints) (listed ents) (wf_after h) F1 F2) as (G & W & S).
  change (fun i => nth i (s_intents s) 0%Z) with (intent_of s). change (fun i => nth i (s_entities s) no_entity) with (entity_of s).
  destruct (new_datum u (Some (listed ints)) (Some (listed ents)) s) as [s' x]. cbn [fst snd] in *.
  destruct (make_datum u _ _) as [d|e]; [|now subst x].
  destruct S as (n & -> & -> & _ & _ & _ & is & es & E & (P1 & _) & (P2 & _) & V). cbn [fst snd].
  exists (length (s_datums s)), is, es. split; [reflexivity|]. split.
  { intros T. inversion T as [| |k u' is' es' HO]; subst. unfold holds in HO.
    assert (L : length (s_datums s) < length (s_datums s)) by (apply nth_error_Some; subst s; congruence). lia. }
  split; [exact E|]. split; [exact P1|]. split; [exact P2|].
  change (datum_at s' (length (s_datums s)) = Some d). unfold datum_at. rewrite E. cbn. now f_equal.
Qed.

(** results made of new objects only *)
Lemma new_dat_all_new h c n d : new_dat (after_steps h) (after_steps (h ++ [c])) n d -> all_new h c n d.
Proof.
  intros (R & u & is & es & E & V & FI & FE). split.
  - unfold has_datum, datum_at. rewrite E. cbn. now f_equal.
  - intros x P T. destruct P as [|u' is' es' i HO I|u' is' es' i HO I].
    + inversion T as [| |k u' is' es' HO]; subst. unfold holds in HO.
      assert (n < length (s_datums (after_steps h))) by (apply nth_error_Some; congruence). lia.
    + unfold holds in HO. assert (is' = is) as -> by congruence. inversion T as [j v HI| |]; subst.
      unfold has_intent in HI. assert (i < length (s_intents (after_steps h))) by (apply nth_error_Some; congruence).
      rewrite Forall_forall in FI. specialize (FI i I). unfold int_in in FI. lia.
    + unfold holds in HO. assert (es' = es) as -> by congruence. inversion T as [|j v HI|]; subst.
      unfold has_entity in HI. assert (i < length (s_entities (after_steps h))) by (apply nth_error_Some; congruence).
      rewrite Forall_forall in FE. specialize (FE i I). unfold ent_in in FE. lia.
Qed.

Theorem pack_new h u is l :
  match pack_to_datum u is l with
  | Ok d => exists n, answers h (Pack u is l) = Ok (One n) /\ all_new h (Pack u is l) n d
  | Err e => answers h (Pack u is l) = Err e
  end /\ keeps_all h (Pack u is l).
Proof.
  split; [|apply no_assign_keeps; intros x A; inversion A].
  pose proof (pack_spec u is l (after_steps h) (wf_after h)) as S.
  destruct (one (hpack u is l) (after_steps h)) as [s' x] eqn:E.
  destruct (one_spec _ _ _ _ S _ _ E) as (G & W & H).
  assert (ES : after_steps (h ++ [Pack u is l]) = s') by (rewrite after_snoc; cbn [do]; now rewrite E).
  unfold answers. cbn [do]. rewrite E. cbn [snd].
  destruct (pack_to_datum u is l) as [d|e]; [|exact H]. destruct H as (n & -> & H). exists n. split; [reflexivity|].
  apply new_dat_all_new. now rewrite ES.
Qed.

Theorem machanize_new h i o raw : has_ordinal h i o ->
  match machanize o raw with
  | Ok d => exists n, answers h (Machanize i raw) = Ok (One n) /\ all_new h (Machanize i raw) n d
  | Err e => answers h (Machanize i raw) = Err e
  end /\ keeps_all h (Machanize i raw).
Proof.
  intros HO. split; [|apply no_assign_keeps; intros x A; inversion A].
  pose proof (machanize_spec o raw (after_steps h) (wf_after h)) as S.
  destruct (one (hmachanize o raw) (after_steps h)) as [s' x] eqn:E.
  destruct (one_spec _ _ _ _ S _ _ E) as (G & W & H).
  assert (ES : after_steps (h ++ [Machanize i raw]) = s').
  { rewrite after_snoc. cbn [do]. unfold has_ordinal in HO. rewrite HO. cbn [on]. now rewrite E. }
  unfold answers. cbn [do]. unfold has_ordinal in HO. rewrite HO. cbn [on]. rewrite E. cbn [snd].
  destruct (machanize o raw) as [d|e]; [|exact H]. destruct H as (n & -> & H). exists n. split; [reflexivity|].
  apply new_dat_all_new. now rewrite ES.
Qed.

Lemma chain_dats s s' ns ds : chain new_dat s s' ns ds ->
  NoDup ns /\
  (forall n m, In n ns -> In m ns -> forall u is es u' is' es' , nth_error (s_datums s') n = Some (mkDO u is es) ->
     nth_error (s_datums s') m = Some (mkDO u' is' es') ->
     (forall i, In i is -> In i is' -> n = m) /\ (forall i, In i es -> In i es' -> n = m)).
Proof.
  induction 1 as [s s' G|s m s' a b la lb G1 G2 N1 H (IH1 & IH2)]; [split; [constructor|contradiction]|].
  assert (LATE : forall x, In x la -> length (s_datums m) <= x /\
            forall u is es, nth_error (s_datums s') x = Some (mkDO u is es) -> Forall (int_in m s') is /\ Forall (ent_in m s') es).
  { intros x Hx. pose proof (chain_all new_dat new_dat_later _ _ _ _ H) as F.
    assert (exists d, new_dat m s' x d) as (d & R & u & is & es & E & _ & FI & FE).
    { clear - F Hx. induction F as [|p q la lb P F IH]; [contradiction|]. destruct Hx as [->|Hx]; [now exists q|now apply IH]. }
    split; [lia|]. intros u' is' es' E'. assert (is' = is) as -> by congruence. assert (es' = es) as -> by congruence. auto. }
  destruct N1 as (R & u & is & es & E & _ & FI & FE). pose proof (grows_at _ _ _ _ G2 E) as E'.
  assert (SEP : forall x u1 is1 es1, In x la -> nth_error (s_datums s') x = Some (mkDO u1 is1 es1) ->
            (forall i, In i is -> In i is1 -> False) /\ (forall i, In i es -> In i es1 -> False)).
  { intros x u1 is1 es1 Hx Ex. destruct (LATE x Hx) as (_ & L). destruct (L _ _ _ Ex) as (LI & LE).
    rewrite Forall_forall in FI, FE, LI, LE. split; intros i I I'.
    - specialize (FI i I). specialize (LI i I'). unfold int_in in *. lia.
    - specialize (FE i I). specialize (LE i I'). unfold ent_in in *. lia. }
  split.
  - constructor; [|exact IH1]. intros I. destruct (LATE a I). lia.
  - intros n n' [<-|Hn] [<-|Hn'] u1 is1 es1 u2 is2 es2 En En'.
    + split; auto.
    + assert (is1 = is) as -> by congruence. assert (es1 = es) as -> by congruence.
      destruct (SEP _ _ _ _ Hn' En') as (S1 & S2). split; intros i I I'; exfalso; eauto.
    + assert (is2 = is) as -> by congruence. assert (es2 = es) as -> by congruence.
      destruct (SEP _ _ _ _ Hn En) as (S1 & S2). split; intros i I I'; exfalso; eauto.
    + eapply IH2; eassumption.
Qed.

Theorem expand_new h k d f orig : has_datum h k d -> d_entities d <> [] ->
  match expand_by_entities d f orig with
  | Ok ds => exists ns, answers h (Expand k f orig) = Ok (Many ns) /\ Forall2 (all_new h (Expand k f orig)) ns ds /\
      NoDup ns /\
      (forall n m x, In n ns -> In m ns -> part_of (h ++ [Expand k f orig]) n x -> part_of (h ++ [Expand k f orig]) m x -> n = m)
  | Err e => answers h (Expand k f orig) = Err e
  end /\ keeps_all h (Expand k f orig).
Proof.
  intros HD NE. split; [|apply no_assign_keeps; intros x A; inversion A].
  assert (HE : has_entities d = true) by (unfold has_entities; destruct (d_entities d); [contradiction|reflexivity]).
  pose proof (expand_spec k d f orig (after_steps h) (wf_after h) HE) as S.
  destruct (many (hexpand k d f orig) (after_steps h)) as [s' x] eqn:E.
  destruct (many_spec _ _ _ _ S _ _ E) as (G & W & H).
  assert (ES : after_steps (h ++ [Expand k f orig]) = s').
  { rewrite after_snoc. cbn [do]. unfold has_datum in HD. rewrite HD. cbn [on]. now rewrite E. }
  unfold answers. cbn [do]. unfold has_datum in HD. rewrite HD. cbn [on]. rewrite E. cbn [snd].
  destruct (expand_by_entities d f orig) as [ds|e]; [|exact H]. destruct H as (ns & -> & H). exists ns. split; [reflexivity|].
  rewrite <- ES in H.
  destruct (chain_dats _ _ _ _ H) as (ND & SEP).
  split.
  { eapply Forall2_impl; [|apply (chain_all new_dat new_dat_later _ _ _ _ H)]. intros n q. apply new_dat_all_new. }
  split; [exact ND|]. intros n m y Hn Hm P P'.
  destruct P as [|u1 is1 es1 i HO1 I1|u1 is1 es1 i HO1 I1]; inversion P' as [|u2 is2 es2 j HO2 I2|u2 is2 es2 j HO2 I2]; subst.
  - reflexivity.
  - destruct (SEP n m Hn Hm _ _ _ _ _ _ HO1 HO2) as (A & _). eauto.
  - destruct (SEP n m Hn Hm _ _ _ _ _ _ HO1 HO2) as (_ & A). eauto.
Qed.

Theorem expand_itself h k d f orig : has_datum h k d -> d_entities d = [] ->
  answers h (Expand k f orig) = Ok (Many [k]) /\ after_steps (h ++ [Expand k f orig]) = after_steps h.
Proof.
  intros HD HE. unfold answers. rewrite after_snoc. cbn [do]. unfold has_datum in HD. rewrite HD. cbn [on].
  unfold hexpand, has_entities. rewrite HE. auto.
Qed.

Theorem copy_intents_new h k d : has_datum h k d ->
  match copy_intents d with
  | Ok vs => exists is, answers h (CopyIntents k) = Ok (Many is) /\
      Forall2 (has_intent (h ++ [CopyIntents k])) is vs /\ (forall i, In i is -> ~ there h (AnIntent i))
  | Err e => answers h (CopyIntents k) = Err e
  end /\ keeps_all h (CopyIntents k).
Proof.
  intros HD. split; [|apply no_assign_keeps; intros x A; inversion A].
  pose proof (intents_spec new_intent make_intent (d_intents d) (after_steps h) (fun s x W => new_intent_spec s x W) (wf_after h)) as S.
  destruct (many (hcopy_intents d) (after_steps h)) as [s' x] eqn:E.
  destruct (many_spec _ _ _ _ S _ _ E) as (G & W & H).
  assert (ES : after_steps (h ++ [CopyIntents k]) = s').
  { rewrite after_snoc. cbn [do]. unfold has_datum in HD. rewrite HD. cbn [on]. now rewrite E. }
  unfold answers. cbn [do]. unfold has_datum in HD. rewrite HD. cbn [on]. rewrite E. cbn [snd].
  unfold copy_intents. destruct (mapM make_intent (d_intents d)) as [vs|e]; [|exact H].
  destruct H as (is & -> & H). exists is. split; [reflexivity|]. split.
  - eapply Forall2_impl; [|exact H]. intros i v (R & V). unfold has_intent. rewrite ES. rewrite <- V.
    apply nth_error_nth'. apply R.
  - intros i I T. inversion T as [j v HI| |]; subst j. unfold has_intent in HI.
    assert (i < length (s_intents (after_steps h))) by (apply nth_error_Some; congruence).
    apply new_ints_map in H as (_ & F). rewrite Forall_forall in F. specialize (F i I). unfold int_in in F. lia.
Qed.

Theorem make_objects h :
  (forall l, match make_intent l with
   | Ok v => exists i, answers h (MakeIntent l) = Ok (One i) /\ has_intent (h ++ [MakeIntent l]) i v /\ ~ there h (AnIntent i)
   | Err e => answers h (MakeIntent l) = Err e
   end) /\
  (forall l v a b r, match make_entity l v a b r with
   | Ok e => exists i, answers h (MakeEntity l v a b r) = Ok (One i) /\ has_entity (h ++ [MakeEntity l v a b r]) i e /\ ~ there h (AnEntity i)
   | Err e => answers h (MakeEntity l v a b r) = Err e
   end) /\
  (forall d u, match entity_from_dict d u with
   | Ok e => exists i, answers h (EntityFromDict d u) = Ok (One i) /\ has_entity (h ++ [EntityFromDict d u]) i e /\ ~ there h (AnEntity i)
   | Err e => answers h (EntityFromDict d u) = Err e
   end).
Proof.
  assert (ENT : forall c p r, spec_at (after_steps h) p r (fun s' a b => new_ent (after_steps h) s' a b) ->
            do c (after_steps h) = one p (after_steps h) ->
            match r with
            | Ok e => exists i, answers h c = Ok (One i) /\ has_entity (h ++ [c]) i e /\ ~ there h (AnEntity i)
            | Err e => answers h c = Err e
            end).
  { intros c p r S D. destruct (one p (after_steps h)) as [s' x] eqn:E. destruct (one_spec _ _ _ _ S _ _ E) as (G & W & H).
    unfold answers, has_entity. rewrite after_snoc, D. cbn [fst snd]. destruct r as [e|e]; [|exact H].
    destruct H as (i & -> & (R & V)). exists i. split; [reflexivity|]. split; [rewrite <- V; apply nth_error_nth'; apply R|].
    intros T. inversion T as [|j w HI|]; subst j. unfold has_entity in HI.
    assert (i < length (s_entities (after_steps h))) by (apply nth_error_Some; congruence). unfold ent_in in R. lia. }
  split; [|split].
  - intros l. pose proof (new_intent_spec (after_steps h) l (wf_after h)) as S.
    destruct (one (new_intent l) (after_steps h)) as [s' x] eqn:E. destruct (one_spec _ _ _ _ S _ _ E) as (G & W & H).
    unfold answers, has_intent. rewrite after_snoc. cbn [do]. rewrite E. cbn [fst snd].
    destruct (make_intent l) as [v|e]; [|exact H].
    destruct H as (i & -> & (R & V)). exists i. split; [reflexivity|]. split; [rewrite <- V; apply nth_error_nth'; apply R|].
    intros T. inversion T as [j w HI| |]; subst j. unfold has_intent in HI.
    assert (i < length (s_intents (after_steps h))) by (apply nth_error_Some; congruence). unfold int_in in R. lia.
  - intros l v a b r. apply (ENT _ (new_entity l v a b r)); [|reflexivity]. apply new_entity_spec, wf_after.
  - intros d u. apply (ENT _ (hentity_from_dict d u)); [|reflexivity]. apply from_dict_spec, wf_after.
Qed.

(** ** Questions *)

Theorem questions h k q d e : has_datum h k d -> has_datum h q e ->
  answers h (Unpack k) = ('(u, is, l) <- unpack_datum d ;; Ok (Unpacked u is l)) /\
  (forall E p, answers h (Transform E p k) = ('(y, is, l, als, coll) <- transform E p d ;; Ok (Transformed y is l als coll))) /\
  answers h (Equal k q) = Ok (Truth (datum_eqb d e)) /\
  (forall fl rate, answers h (Ratio fl k q rate) = (r <- entity_overlapping_ratio fl d e rate ;; Ok (Number r))) /\
  (forall ord i o, has_ordinal h i o -> answers h (Humanize ord i k) = (v <- humanize ord o d ;; Ok (Raw v))).
Proof.
  intros HD HE. unfold has_datum, has_ordinal in *. unfold answers. cbn [do]. rewrite HD, HE. cbn [on].
  split; [reflexivity|]. split; [reflexivity|]. split; [reflexivity|]. split; [reflexivity|].
  intros ord i o HO. now rewrite HO.
Qed.

Theorem questions_change_nothing h c : question c -> after_steps (h ++ [c]) = after_steps h.
Proof.
  intros Q. rewrite after_snoc. destruct c; try contradiction; cbn [do]; set (s := after_steps h);
    repeat match goal with |- context [on ?x _ _] => destruct x; cbn [on] end; reflexivity.
Qed.

(** ** What the constructor checks stays true without assignments *)

Theorem valid_without_assignments h k d : (forall c x, In c h -> ~ assigns c x) -> has_datum h k d -> is_datum d.
Proof.
  intros N.
  assert (V : valid (after_steps h)).
  { induction h as [|c h IH] using rev_ind; [repeat split; constructor|]. rewrite after_snoc.
    apply (do_kept c (after_steps h) (wf_after h)).
    - intros x. apply N. apply in_app_iff. right. now left.
    - apply IH. intros e x I. apply N. apply in_app_iff. now left. }
  unfold has_datum, datum_at. destruct (nth_error _ k) as [o|] eqn:E; [|discriminate]. cbn. intros [= <-].
  destruct V as (_ & _ & V). rewrite Forall_forall in V. apply V. eapply nth_error_In; exact E.
Qed.

(** ** OrdinalLabel objects *)

Theorem dicts_keep h h2 i d : has_dict h i d -> (forall d', ~ In (SetDict i d') h2) -> has_dict (h ++ h2) i d.
Proof.
  intros H. induction h2 as [|c h2 IH] using rev_ind; [now rewrite app_nil_r|]. intros N. rewrite app_assoc.
  destruct (kept_snoc (h ++ h2) c) as (_ & _ & _ & K & _). apply K.
  - intros d' ->. apply (N d'). apply in_app_iff. right. now left.
  - apply IH. intros d' I. apply (N d'). apply in_app_iff. now left.
Qed.

Theorem dict_assigned h i d d' : has_dict h i d ->
  answers h (SetDict i d') = Ok Void /\ has_dict (h ++ [SetDict i d']) i d'.
Proof.
  intros H. assert (L : i < length (s_dicts (after_steps h))) by (apply nth_error_Some; unfold has_dict in H; congruence).
  apply known_ok in L. unfold answers, has_dict. rewrite after_snoc. cbn [do]. rewrite L. split; [reflexivity|]. cbn.
  apply replace_same. now apply known_ok.
Qed.

Lemma has_dict_of h i d : has_dict h i d -> dict_of (after_steps h) i = d /\ known (s_dicts (after_steps h)) i = true.
Proof.
  intros H. split; [now apply nth_error_nth|]. apply known_ok, nth_error_Some. unfold has_dict in H. congruence.
Qed.

Theorem ordinal_made h a b ne da db : has_dict h a da -> has_dict h b db ->
  match make_ordinal da db ne with
  | Ok o => exists i, answers h (MakeOrdinal a b ne) = Ok (One i) /\ (forall o', ~ has_ordinal h i o') /\
      has_ordinal (h ++ [MakeOrdinal a b ne]) i o
  | Err e => answers h (MakeOrdinal a b ne) = Err e
  end.
Proof.
  intros HA HB. apply has_dict_of in HA as (<- & KA), HB as (<- & KB).
  unfold answers, has_ordinal. rewrite after_snoc. cbn [do]. rewrite KA, KB. cbn [andb].
  destruct (make_ordinal _ _ ne) as [o|e] eqn:M; [|reflexivity]. cbn [fst snd].
  exists (length (s_ordinals (after_steps h))). split; [reflexivity|]. split.
  - intros o'. unfold ordinal_at. replace (nth_error _ _) with (@None (nat * nat * Z)); [discriminate|].
    symmetry. apply nth_error_None. lia.
  - unfold ordinal_at. cbn. rewrite nth_error_app2, Nat.sub_diag by lia. cbn.
    unfold make_ordinal in M. destruct (guard _ _) as [[]|]; [|discriminate]. cbn in M.
    destruct (guard _ _) as [[]|]; [|discriminate]. cbn in M. now injection M as <-.
Qed.

(** the object shows the dicts as they are *)
Theorem ordinal_follows h a b ne i h2 da db : answers h (MakeOrdinal a b ne) = Ok (One i) ->
  has_dict (h ++ MakeOrdinal a b ne :: h2) a da -> has_dict (h ++ MakeOrdinal a b ne :: h2) b db ->
  has_ordinal (h ++ MakeOrdinal a b ne :: h2) i (mkOrdinal da db ne).
Proof.
  intros H.
  assert (R : nth_error (s_ordinals (after_steps (h ++ [MakeOrdinal a b ne]))) i = Some (a, b, ne)).
  { unfold answers in H. rewrite after_snoc. cbn [do] in *. destruct (_ && _); [|discriminate].
    destruct (make_ordinal _ _ _); [|discriminate]. cbn [fst snd] in *. injection H as <-. cbn.
    now rewrite nth_error_app2, Nat.sub_diag by lia. }
  change (MakeOrdinal a b ne :: h2) with ([MakeOrdinal a b ne] ++ h2). rewrite app_assoc.
  set (h1 := h ++ [MakeOrdinal a b ne]) in *. clearbody h1.
  assert (R2 : nth_error (s_ordinals (after_steps (h1 ++ h2))) i = Some (a, b, ne)).
  { induction h2 as [|c h2 IH] using rev_ind; [now rewrite app_nil_r|]. rewrite app_assoc.
    destruct (kept_snoc (h1 ++ h2) c) as (_ & _ & _ & _ & K). now apply K. }
  intros HA HB. apply has_dict_of in HA as (<- & _), HB as (<- & _).
  unfold has_ordinal, ordinal_at. now rewrite R2.
Qed.

Theorem ordinal_answers h i o : has_ordinal h i o ->
  answers h (Serialize i) = Ok (Text (ordinal_serialize o)) /\
  (forall ord k d, has_datum h k d -> answers h (Humanize ord i k) = (v <- humanize ord o d ;; Ok (Raw v))).
Proof.
  intros H. unfold answers, has_ordinal, has_datum in *. cbn [do]. rewrite H. cbn [on]. split; [reflexivity|].
  intros ord k d ->. reflexivity.
Qed.
