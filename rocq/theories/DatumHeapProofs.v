(** Proofs about datums as objects (C81, C82). *)

From Verif Require Import Py PyFacts Json JsonAscii Elements Ops Pipe DatumHeap SpecElements SpecDatumHeap DatumProofs.
From Coq Require Import List.

(** ** Memory that grows *)

Definition grows (s s' : store) : Prop :=
  exists x i e d o,
    s' = mkS (s_dicts s ++ x) (s_intents s ++ i) (s_entities s ++ e) (s_datums s ++ d) (s_ordinals s ++ o).

Lemma grows_refl s : grows s s.
Proof. exists [], [], [], [], []. destruct s. cbn. now rewrite !app_nil_r. Qed.

Lemma grows_trans a b c : grows a b -> grows b c -> grows a c.
Proof.
  intros (x & i & e & d & o & ->) (x' & i' & e' & d' & o' & ->).
  exists (x ++ x'), (i ++ i'), (e ++ e'), (d ++ d'), (o ++ o'). cbn.
  now rewrite <- !app_assoc.
Qed.

(** the references in the memory exist *)
Definition dobj_ok (s : store) (o : dobj) : Prop :=
  Forall (fun i => i < length (s_intents s)) (o_intents o) /\ Forall (fun i => i < length (s_entities s)) (o_entities o).
Definition wf (s : store) : Prop :=
  Forall (dobj_ok s) (s_datums s) /\
  Forall (fun r => fst (fst r) < length (s_dicts s) /\ snd (fst r) < length (s_dicts s)) (s_ordinals s).

Lemma grows_lengths s s' : grows s s' ->
  length (s_intents s) <= length (s_intents s') /\ length (s_entities s) <= length (s_entities s') /\
  length (s_datums s) <= length (s_datums s').
Proof. intros (x & i & e & d & o & ->). cbn. rewrite !app_length. lia. Qed.

Lemma grows_intent s s' i : grows s s' -> i < length (s_intents s) -> intent_of s' i = intent_of s i.
Proof. intros (x & a & e & d & r & ->) L. unfold intent_of. cbn. now apply app_nth1. Qed.
Lemma grows_entity s s' i : grows s s' -> i < length (s_entities s) -> entity_of s' i = entity_of s i.
Proof. intros (x & a & e & d & r & ->) L. unfold entity_of. cbn. now apply app_nth1. Qed.
Lemma grows_dobj s s' o : grows s s' -> dobj_ok s o -> dobj_ok s' o.
Proof.
  intros G (A & B). apply grows_lengths in G. split; (eapply Forall_impl; [|eassumption]); cbn; intros; lia.
Qed.
Lemma grows_read s s' o : grows s s' -> dobj_ok s o -> read_datum s' o = read_datum s o.
Proof.
  intros G (A & B). unfold read_datum. f_equal; apply map_ext_Forall.
  - eapply Forall_impl; [|exact A]. intros i L. now apply grows_intent.
  - eapply Forall_impl; [|exact B]. intros i L. now apply grows_entity.
Qed.
Lemma grows_at s s' k o : grows s s' -> nth_error (s_datums s) k = Some o -> nth_error (s_datums s') k = Some o.
Proof. intros (x & a & e & d & r & ->) L. cbn. rewrite nth_error_app1; [exact L|]. now apply nth_error_Some; rewrite L. Qed.

Lemma wf_at s k o : wf s -> nth_error (s_datums s) k = Some o -> dobj_ok s o.
Proof. intros (W & _) H. rewrite Forall_forall in W. apply W. eapply nth_error_In; eassumption. Qed.

Lemma grows_datum s s' k d : grows s s' -> wf s -> datum_at s k = Some d -> datum_at s' k = Some d.
Proof.
  intros G W. unfold datum_at. destruct (nth_error (s_datums s) k) as [o|] eqn:E; [|discriminate]. cbn.
  intros [= <-]. rewrite (grows_at _ _ _ _ G E). cbn. f_equal. apply grows_read; [exact G|]. now apply (wf_at _ k).
Qed.

(** what the constructors check *)
Definition valid (s : store) : Prop :=
  Forall is_intent (s_intents s) /\ Forall is_entity (s_entities s) /\
  Forall (fun o => is_datum (read_datum s o)) (s_datums s).

Lemma valid_datums s s' : grows s s' -> wf s ->
  Forall (fun o => is_datum (read_datum s o)) (s_datums s) -> Forall (fun o => is_datum (read_datum s' o)) (s_datums s).
Proof.
  intros G (W & _). rewrite !Forall_forall in *. intros F o I. rewrite (grows_read _ _ _ G (W o I)). now apply F.
Qed.

(** ** Code that makes objects: what it returns compared with the code on values *)

Definition spec_at {A B} (s : store) (p : prog A) (r : res B) (Q : store -> A -> B -> Prop) : Prop :=
  grows s (fst (p s)) /\ (wf (fst (p s)) /\ (valid s -> valid (fst (p s)))) /\
  match r with
  | Ok b => exists a, snd (p s) = Ok a /\ Q (fst (p s)) a b
  | Err e => snd (p s) = Err e
  end.

Lemma spec_give {A} s (r : res A) (Q : store -> A -> A -> Prop) :
  wf s -> (forall b, r = Ok b -> Q s b b) -> spec_at s (give r) r Q.
Proof.
  intros W H. split; [apply grows_refl|]. split; [auto|]. destruct r as [b|e]; [|reflexivity].
  exists b. split; [reflexivity|]. now apply H.
Qed.

Lemma spec_ret {A B} s (a : A) (b : B) (Q : store -> A -> B -> Prop) :
  wf s -> Q s a b -> spec_at s (give (Ok a)) (Ok b) Q.
Proof. intros W H. split; [apply grows_refl|]. split; [auto|]. now exists a. Qed.

Lemma spec_seq {A B C D} s (p : prog A) (r : res B) (Q : store -> A -> B -> Prop)
  (f : A -> prog C) (g : B -> res D) (Q' : store -> C -> D -> Prop) :
  spec_at s p r Q ->
  (forall s1 a b, grows s s1 -> wf s1 -> r = Ok b -> Q s1 a b -> spec_at s1 (f a) (g b) Q') ->
  spec_at s (seq_prog p f) (bind r g) Q'.
Proof.
  intros (G & (W & V) & H) K. unfold spec_at, seq_prog. destruct (p s) as [s1 x]. cbn [fst snd] in *.
  destruct r as [b|e]; cbn [bind].
  - destruct H as (a & -> & H). destruct (K s1 a b G W eq_refl H) as (G' & (W' & V') & H').
    split; [eapply grows_trans; eassumption|]. split; [split; auto|assumption].
  - subst x. cbn. auto.
Qed.

Lemma spec_weaken {A B} s (p : prog A) (r : res B) (Q Q' : store -> A -> B -> Prop) :
  spec_at s p r Q -> (forall s1 a b, grows s s1 -> wf s1 -> Q s1 a b -> Q' s1 a b) -> spec_at s p r Q'.
Proof.
  intros (G & W & H) K. split; [exact G|]. split; [exact W|]. destruct r as [b|e]; [|exact H].
  destruct H as (a & E & H). exists a. destruct W. auto.
Qed.

Lemma spec_give_seq {A C D} s (r : res A) (f : A -> prog C) (g : A -> res D) Q' :
  wf s -> (forall b, r = Ok b -> spec_at s (f b) (g b) Q') -> spec_at s (seq_prog (give r) f) (bind r g) Q'.
Proof.
  intros W K. unfold spec_at, seq_prog, give. destruct r as [b|e]; cbn [bind fst snd].
  - now apply K.
  - split; [apply grows_refl|]. auto.
Qed.

(** what is made in [s .. s'] *)
Definition int_in (s s' : store) (i : nat) : Prop := length (s_intents s) <= i < length (s_intents s').
Definition ent_in (s s' : store) (i : nat) : Prop := length (s_entities s) <= i < length (s_entities s').

Definition new_int (s s' : store) (i : nat) (v : Z) : Prop := int_in s s' i /\ intent_of s' i = v.
Definition new_ent (s s' : store) (i : nat) (v : entity) : Prop := ent_in s s' i /\ entity_of s' i = v.

Lemma new_int_later s0 s s1 s' i v : grows s0 s -> grows s1 s' -> new_int s s1 i v -> new_int s0 s' i v.
Proof.
  intros G0 G (R & E). pose proof (grows_intent _ _ i G (proj2 R)) as E'.
  apply grows_lengths in G0, G. unfold new_int, int_in in *. split; [lia|]. now rewrite E'.
Qed.
Lemma new_ent_later s0 s s1 s' i v : grows s0 s -> grows s1 s' -> new_ent s s1 i v -> new_ent s0 s' i v.
Proof.
  intros G0 G (R & E). pose proof (grows_entity _ _ i G (proj2 R)) as E'.
  apply grows_lengths in G0, G. unfold new_ent, ent_in in *. split; [lia|]. now rewrite E'.
Qed.

Lemma wf_grown s x i e d r :
  let s' := mkS (s_dicts s ++ x) (s_intents s ++ i) (s_entities s ++ e) (s_datums s ++ d) (s_ordinals s ++ r) in
  wf s -> Forall (dobj_ok s') d ->
  Forall (fun r => fst (fst r) < length (s_dicts s ++ x) /\ snd (fst r) < length (s_dicts s ++ x)) r -> wf s'.
Proof.
  intros s' (W & O) D R. split.
  - cbn [s_datums s']. apply Forall_app. split; [|exact D].
    eapply Forall_impl; [|exact W]. intros o. apply grows_dobj. now exists x, i, e, d, r.
  - cbn [s_ordinals s_dicts s']. apply Forall_app. split; [|exact R].
    eapply Forall_impl; [|exact O]. cbn. intros o. rewrite app_length. lia.
Qed.

Lemma make_intent_ok l v : make_intent l = Ok v -> is_intent v.
Proof. unfold is_intent, make_intent, to_i32. destruct (i32b l) eqn:E; [|discriminate]. intros [= <-]. now rewrite E. Qed.

Lemma new_intent_spec s l : wf s -> spec_at s (new_intent l) (make_intent l) (fun s' a b => new_int s s' a b).
Proof.
  intros W. unfold spec_at, new_intent. destruct (make_intent l) as [v|e] eqn:M; cbn [fst snd].
  - assert (E : set_intents s (s_intents s ++ [v]) = mkS (s_dicts s ++ []) (s_intents s ++ [v]) (s_entities s ++ []) (s_datums s ++ []) (s_ordinals s ++ []))
      by (unfold set_intents; now rewrite !app_nil_r).
    rewrite E. assert (G : grows s (mkS (s_dicts s ++ []) (s_intents s ++ [v]) (s_entities s ++ []) (s_datums s ++ []) (s_ordinals s ++ [])))
      by now exists [], [v], [], [], []. split; [exact G|].
    split.
    { split; [apply wf_grown; [exact W|constructor|constructor]|]. intros (V1 & V2 & V3). split; [|split]; cbn.
      - apply Forall_app. split; [exact V1|]. constructor; [|constructor]. now apply make_intent_ok in M.
      - now rewrite app_nil_r.
      - apply Forall_app. split; [|constructor]. eapply valid_datums; eassumption. }
    exists (length (s_intents s)). split; [reflexivity|]. split.
    + unfold int_in. cbn. rewrite app_length. cbn. lia.
    + unfold intent_of. cbn. now rewrite app_nth2, Nat.sub_diag by lia.
  - split; [apply grows_refl|]. auto.
Qed.

Lemma new_entity_spec s l v a b r : wf s ->
  spec_at s (new_entity l v a b r) (make_entity l v a b r) (fun s' x y => new_ent s s' x y).
Proof.
  intros W. unfold spec_at, new_entity. destruct (make_entity l v a b r) as [x|e] eqn:M; cbn [fst snd].
  - assert (E : set_entities s (s_entities s ++ [x]) = mkS (s_dicts s ++ []) (s_intents s ++ []) (s_entities s ++ [x]) (s_datums s ++ []) (s_ordinals s ++ []))
      by (unfold set_entities; now rewrite !app_nil_r).
    rewrite E. assert (G : grows s (mkS (s_dicts s ++ []) (s_intents s ++ []) (s_entities s ++ [x]) (s_datums s ++ []) (s_ordinals s ++ [])))
      by now exists [], [], [x], [], []. split; [exact G|].
    split.
    { split; [apply wf_grown; [exact W|constructor|constructor]|]. intros (V1 & V2 & V3). split; [|split]; cbn.
      - now rewrite app_nil_r.
      - apply Forall_app. split; [exact V2|]. constructor; [|constructor]. now exists l, v, a, b, r.
      - apply Forall_app. split; [|constructor]. eapply valid_datums; eassumption. }
    exists (length (s_entities s)). split; [reflexivity|]. split.
    + unfold ent_in. cbn. rewrite app_length. cbn. lia.
    + unfold entity_of. cbn. now rewrite app_nth2, Nat.sub_diag by lia.
  - split; [apply grows_refl|]. auto.
Qed.

Lemma map_sort {A B} (f : A -> B) (k : B -> Z) l : map f (sort_by (fun x => k (f x)) l) = sort_by k (map f l).
Proof.
  induction l as [|x l IH]; [reflexivity|].
  change (sort_by (fun x => k (f x)) (x :: l)) with (insert_by (fun x => k (f x)) x (sort_by (fun x => k (f x)) l)).
  cbn [map]. change (sort_by k (f x :: map f l)) with (insert_by k (f x) (sort_by k (map f l))). rewrite <- IH.
  generalize (sort_by (fun x => k (f x)) l). intros m. induction m as [|y m IHm]; [reflexivity|]. cbn [insert_by map].
  destruct (_ <=? _)%Z; [reflexivity|]. cbn [map]. now rewrite IHm.
Qed.

(** the datum made: its lists hold the given objects *)
Lemma new_datum_spec s u ints ents : wf s ->
  Forall (fun i => i < length (s_intents s)) ints -> Forall (fun i => i < length (s_entities s)) ents ->
  spec_at s (new_datum u (Some ints) (Some ents))
    (make_datum u (Some (map (intent_of s) ints)) (Some (map (entity_of s) ents)))
    (fun s' n d => n = length (s_datums s) /\ length (s_datums s') = S n /\
       s_intents s' = s_intents s /\ s_entities s' = s_entities s /\
       exists is es, nth_error (s_datums s') n = Some (mkDO u is es) /\
         stably_sorted (fun i => intent_hash (intent_of s i)) ints is /\
         stably_sorted (fun i => e_start (entity_of s i)) ents es /\
         read_datum s' (mkDO u is es) = d).
Proof.
  intros W FI FE. unfold spec_at, new_datum, make_datum.
  rewrite <- !map_sort.
  set (is := sort_by _ ints). set (es := sort_by _ ents).
  destruct (guard _ _) as [[]|e1] eqn:GU; cbn [bind]; [|cbn; split; [apply grows_refl|]; auto].
  destruct (check_overlaps _) as [[]|e2] eqn:CO; cbn [bind]; [|cbn; split; [apply grows_refl|]; auto].
  cbn [fst snd].
  assert (E : set_datums s (s_datums s ++ [mkDO u is es]) = mkS (s_dicts s ++ []) (s_intents s ++ []) (s_entities s ++ []) (s_datums s ++ [mkDO u is es]) (s_ordinals s ++ []))
    by (unfold set_datums; now rewrite !app_nil_r).
  assert (PI : Permutation ints is) by (symmetry; apply sort_by_perm).
  assert (PE : Permutation ents es) by (symmetry; apply sort_by_perm).
  assert (G : grows s (set_datums s (s_datums s ++ [mkDO u is es]))) by (rewrite E; now exists [], [], [], [mkDO u is es], []).
  split; [exact G|]. split.
  { split.
    2:{ intros (V1 & V2 & V3). split; [exact V1|]. split; [exact V2|]. cbn [s_datums set_datums]. apply Forall_app.
        split; [eapply valid_datums; eassumption|]. constructor; [|constructor].
        change (read_datum (set_datums s (s_datums s ++ [mkDO u is es])) (mkDO u is es)) with (mkDatum u (map (intent_of s) is) (map (entity_of s) es)).
        exists u, (map (intent_of s) ints), (map (entity_of s) ents). split; [|split].
        - unfold make_datum. rewrite <- !map_sort. fold is es. now rewrite GU, CO.
        - rewrite Forall_map, Forall_forall in *. intros i I. apply V1. apply nth_In. now apply FI.
        - rewrite Forall_map, Forall_forall in *. intros i I. apply V2. apply nth_In. now apply FE. }
    rewrite E. apply wf_grown; [exact W| |constructor]. constructor; [|constructor]. unfold dobj_ok. cbn.
    rewrite !app_nil_r. split; [now rewrite <- PI|now rewrite <- PE]. }
  exists (length (s_datums s)). split; [reflexivity|]. split; [reflexivity|]. split.
  { unfold set_datums. cbn. rewrite app_length. cbn. lia. }
  split; [reflexivity|]. split; [reflexivity|]. exists is, es. split.
  { unfold set_datums. cbn. now rewrite nth_error_app2, Nat.sub_diag by lia. }
  split; [apply sort_by_stable|]. split; [apply sort_by_stable|]. reflexivity.
Qed.

(** ** Lists of new objects *)

Lemma Forall2_impl {A B} (P Q : A -> B -> Prop) l m : (forall a b, P a b -> Q a b) -> Forall2 P l m -> Forall2 Q l m.
Proof. intros H. induction 1; constructor; auto. Qed.

Inductive chain {C D} (N : store -> store -> C -> D -> Prop) : store -> store -> list C -> list D -> Prop :=
| chain_nil s s' : grows s s' -> chain N s s' [] []
| chain_cons s m s' a b la lb : grows s m -> grows m s' -> N s m a b -> chain N m s' la lb -> chain N s s' (a :: la) (b :: lb).

Lemma map_spec {A C D} (f : A -> prog C) (g : A -> res D) (N : store -> store -> C -> D -> Prop) :
  (forall s x, wf s -> spec_at s (f x) (g x) (fun s' a b => N s s' a b)) ->
  forall l s, wf s -> spec_at s (map_prog f l) (mapM g l) (fun s' la lb => chain N s s' la lb).
Proof.
  intros H. induction l as [|x l IH]; intros s W; cbn [map_prog mapM].
  - apply spec_ret; [exact W|]. constructor. apply grows_refl.
  - eapply spec_seq; [now apply H|]. intros s1 a b G1 W1 _ N1.
    eapply spec_seq; [now apply IH|]. intros s2 la lb G2 W2 _ N2.
    apply spec_ret; [exact W2|]. eapply chain_cons; eassumption.
Qed.

Lemma chain_grows {C D} (N : store -> store -> C -> D -> Prop) s s' la lb : chain N s s' la lb -> grows s s'.
Proof. induction 1; [assumption|]. eapply grows_trans; eassumption. Qed.

Lemma chain_all {C D} (N : store -> store -> C -> D -> Prop) :
  (forall s0 s s1 s' a b, grows s0 s -> grows s1 s' -> N s s1 a b -> N s0 s' a b) ->
  forall s s' la lb, chain N s s' la lb -> Forall2 (N s s') la lb.
Proof.
  intros M s s' la lb H. induction H as [|s m s' a b la lb G1 G2 N1 H IH]; [constructor|].
  constructor; [eapply M; [apply grows_refl|exact G2|exact N1]|].
  eapply Forall2_impl; [|exact IH]. intros x y. apply M; [exact G1|apply grows_refl].
Qed.

Lemma new_ints_map s s' l vs : Forall2 (new_int s s') l vs -> map (intent_of s') l = vs /\ Forall (int_in s s') l.
Proof. induction 1 as [|a b l vs (R & E) H (IH1 & IH2)]; [now split|]. split; [cbn; congruence|now constructor]. Qed.
Lemma new_ents_map s s' l vs : Forall2 (new_ent s s') l vs -> map (entity_of s') l = vs /\ Forall (ent_in s s') l.
Proof. induction 1 as [|a b l vs (R & E) H (IH1 & IH2)]; [now split|]. split; [cbn; congruence|now constructor]. Qed.

Lemma intents_spec {A} (f : A -> prog nat) g l s :
  (forall s x, wf s -> spec_at s (f x) (g x) (fun s' a b => new_int s s' a b)) -> wf s ->
  spec_at s (map_prog f l) (mapM g l) (fun s' la lb => Forall2 (new_int s s') la lb).
Proof.
  intros H W. eapply spec_weaken; [now apply (map_spec f g new_int)|]. intros s1 la lb _ _.
  apply chain_all. intros. eapply new_int_later; eassumption.
Qed.
Lemma entities_spec {A} (f : A -> prog nat) g l s :
  (forall s x, wf s -> spec_at s (f x) (g x) (fun s' a b => new_ent s s' a b)) -> wf s ->
  spec_at s (map_prog f l) (mapM g l) (fun s' la lb => Forall2 (new_ent s s') la lb).
Proof.
  intros H W. eapply spec_weaken; [now apply (map_spec f g new_ent)|]. intros s1 la lb _ _.
  apply chain_all. intros. eapply new_ent_later; eassumption.
Qed.

(** ** New datums with new parts *)

Definition new_dat (s s' : store) (n : nat) (d : datum) : Prop :=
  length (s_datums s) <= n < length (s_datums s') /\
  exists u is es, nth_error (s_datums s') n = Some (mkDO u is es) /\ read_datum s' (mkDO u is es) = d /\
    Forall (int_in s s') is /\ Forall (ent_in s s') es.

Lemma new_dat_later s0 s s1 s' n d : grows s0 s -> grows s1 s' -> new_dat s s1 n d -> new_dat s0 s' n d.
Proof.
  intros G0 G (R & u & is & es & E & V & FI & FE).
  pose proof (grows_at _ _ _ _ G E) as E'.
  assert (OK : dobj_ok s1 (mkDO u is es)).
  { split; cbn; (eapply Forall_impl; [|eassumption]); intros i H; apply H. }
  pose proof (grows_read _ _ _ G OK) as RD.
  apply grows_lengths in G0, G. split; [lia|]. exists u, is, es. split; [exact E'|]. split; [congruence|].
  split; (eapply Forall_impl; [|eassumption]); unfold int_in, ent_in; intros; lia.
Qed.

(** all the intents and entities were made since [s0] *)
Lemma datum_of_new s0 s u li le vi ve : grows s0 s -> wf s ->
  Forall2 (new_int s0 s) li vi -> Forall2 (new_ent s0 s) le ve ->
  spec_at s (new_datum u (Some li) (Some le)) (make_datum u (Some vi) (Some ve)) (fun s' n d => new_dat s0 s' n d).
Proof.
  intros G W HI HE. apply new_ints_map in HI as (<- & FI). apply new_ents_map in HE as (<- & FE).
  eapply spec_weaken.
  - apply new_datum_spec; [exact W| |]; (eapply Forall_impl; [|eassumption]); intros i H; apply H.
  - intros s1 n d G1 W1 (-> & L & EI & EE & is & es & E & (PI & _) & (PE & _) & V).
    pose proof (grows_lengths _ _ G). pose proof (grows_lengths _ _ G1).
    split; [lia|]. exists u, is, es. split; [exact E|]. split; [exact V|].
    rewrite PI in FI. rewrite PE in FE.
    split; (eapply Forall_impl; [|eassumption]); unfold int_in, ent_in; intros; lia.
Qed.

Lemma aggregate_spec segments : forall labels pointer s, wf s ->
  spec_at s (haggregate pointer segments labels) (aggregate_entities pointer segments labels)
    (fun s' la lb => Forall2 (new_ent s s') la lb).
Proof.
  induction segments as [|seg segments IH]; intros [|label labels] pointer s W; cbn [haggregate aggregate_entities];
    try (apply spec_ret; [exact W|constructor]).
  eapply (spec_seq s _ _ (fun s' a b => match a, b with Some a, Some b => new_ent s s' a b | None, None => True | _, _ => False end)).
  - destruct label as [label|]; [|now apply spec_ret].
    eapply spec_seq; [now apply new_entity_spec|]. intros s1 a b G W1 _ H. now apply spec_ret.
  - intros s1 a b G1 W1 _ H1. apply spec_give_seq; [exact W1|]. intros pointer' _.
    eapply spec_seq; [now apply IH|]. intros s2 la lb G2 W2 _ H2.
    apply spec_ret; [exact W2|].
    assert (H2' : Forall2 (new_ent s s2) la lb).
    { eapply Forall2_impl; [|exact H2]. intros x y. apply new_ent_later; [exact G1|apply grows_refl]. }
    destruct a as [a|], b as [b|]; try contradiction; [|exact H2'].
    constructor; [|exact H2']. eapply new_ent_later; [apply grows_refl|exact G2|exact H1].
Qed.

Lemma expand_one_spec d parts labels idx s : wf s ->
  spec_at s (hexpand_one d parts labels idx) (expand_one d parts labels idx) (fun s' n d' => new_dat s s' n d').
Proof.
  intros W. unfold hexpand_one, expand_one. apply spec_give_seq; [exact W|]. intros segments _.
  eapply spec_seq; [now apply aggregate_spec|]. intros s1 le ve G1 W1 _ H1.
  eapply spec_seq; [apply intents_spec; [intros; now apply new_intent_spec|exact W1]|].
  intros s2 li vi G2 W2 _ H2. apply datum_of_new.
  - eapply grows_trans; eassumption.
  - exact W2.
  - eapply Forall2_impl; [|exact H2]. intros x y. apply new_int_later; [exact G1|apply grows_refl].
  - eapply Forall2_impl; [|exact H1]. intros x y. apply new_ent_later; [apply grows_refl|exact G2].
Qed.

Lemma expand_spec k d f orig s : wf s -> has_entities d = true ->
  spec_at s (hexpand k d f orig) (expand_by_entities d f orig) (fun s' ns ds => chain new_dat s s' ns ds).
Proof.
  intros W HE. unfold hexpand, expand_by_entities. rewrite HE. cbn [negb].
  destruct (partition_by_entities d orig) as [parts labels].
  apply map_spec; [|exact W]. intros. now apply expand_one_spec.
Qed.

Lemma pack_spec u is l s : wf s ->
  spec_at s (hpack u is l) (pack_to_datum u is l) (fun s' n d => new_dat s s' n d).
Proof.
  intros W. unfold hpack, pack_to_datum. apply spec_give_seq; [exact W|]. intros _ _.
  eapply spec_seq; [apply intents_spec; [intros; now apply new_intent_spec|exact W]|].
  intros s1 li vi G1 W1 _ H1.
  apply spec_give_seq; [exact W1|]. intros si _. apply spec_give_seq; [exact W1|]. intros ei _.
  eapply spec_seq.
  { apply entities_spec; [|exact W1]. intros s2 [a b] W2. unfold hpack_entity, pack_entity.
    apply spec_give_seq; [exact W2|]. intros lab _. now apply new_entity_spec. }
  intros s2 le ve G2 W2 _ H2. apply datum_of_new.
  - eapply grows_trans; eassumption.
  - exact W2.
  - eapply Forall2_impl; [|exact H1]. intros x y. apply new_int_later; [apply grows_refl|exact G2].
  - eapply Forall2_impl; [|exact H2]. intros x y. apply new_ent_later; [exact G1|apply grows_refl].
Qed.

Lemma machanize_spec o raw s : wf s ->
  spec_at s (hmachanize o raw) (machanize o raw) (fun s' n d => new_dat s s' n d).
Proof.
  intros W. unfold hmachanize, machanize. do 4 (apply spec_give_seq; [exact W|]; intros ? _).
  eapply spec_seq.
  { apply intents_spec; [|exact W]. intros s1 x W1. apply spec_give_seq; [exact W1|]. intros i _. now apply new_intent_spec. }
  intros s1 li vi G1 W1 _ H1.
  eapply (spec_seq _ _ _ (fun s' la lb => Forall2 (new_ent s1 s') la lb)).
  { destruct (key raw K_entities) as [v|e]; [|apply spec_ret; [exact W1|constructor]].
    apply spec_give_seq; [exact W1|]. intros l _. apply entities_spec; [|exact W1].
    intros s2 x W2. unfold hmachanize_entity, machanize_entity.
    do 9 (apply spec_give_seq; [exact W2|]; intros ? _). now apply new_entity_spec. }
  intros s2 le ve G2 W2 _ H2. apply spec_give_seq; [exact W2|]. intros u _. apply datum_of_new.
  - eapply grows_trans; eassumption.
  - exact W2.
  - eapply Forall2_impl; [|exact H1]. intros x y. apply new_int_later; [apply grows_refl|exact G2].
  - eapply Forall2_impl; [|exact H2]. intros x y. apply new_ent_later; [exact G1|apply grows_refl].
Qed.

Lemma from_dict_spec d u s : wf s ->
  spec_at s (hentity_from_dict d u) (entity_from_dict d u) (fun s' a b => new_ent s s' a b).
Proof.
  intros W. unfold hentity_from_dict, entity_from_dict.
  do 8 (apply spec_give_seq; [exact W|]; intros ? _). now apply new_entity_spec.
Qed.
