(** Proofs about pipes of operators written by users. *)

From Coq Require Import Lia.
From Verif Require Import Py PyFacts Ops SpecOps Elements Pipe SpecPipe PipeProofs UserPipe SpecUserPipe.

Lemma guard_ok b e : guard b e = Ok tt -> b = true.
Proof. destruct b; [auto|discriminate]. Qed.

(** ** Aligners *)

Lemma ualign_ok a l l' : ualign a l = Ok l' <-> length l = ua_in a /\ ua_fwd a l = Ok l' /\ length l' = ua_out a.
Proof.
  unfold ualign. destruct (Nat.eqb_spec (length l) (ua_in a)) as [E|N]; cbn [guard bind].
  - destruct (ua_fwd a l) as [m|e]; cbn [bind]; [|split; [discriminate|intros (_ & ? & _); discriminate]].
    destruct (Nat.eqb_spec (length m) (ua_out a)) as [E'|N']; cbn [guard bind]; split.
    + intros [= <-]. auto.
    + now intros (_ & -> & _).
    + discriminate.
    + intros (_ & [= ->] & L). contradiction.
  - split; [discriminate|]. intros (? & _). contradiction.
Qed.
Lemma ualign_error a l e : ualign a l = Err e ->
  (length l <> ua_in a /\ e = ValueErr) \/ (length l = ua_in a /\ ua_fwd a l = Err e) \/
  (length l = ua_in a /\ exists l', ua_fwd a l = Ok l' /\ length l' <> ua_out a /\ e = ValueErr).
Proof.
  unfold ualign. destruct (Nat.eqb_spec (length l) (ua_in a)) as [E|N]; cbn [guard bind].
  - destruct (ua_fwd a l) as [m|e'] eqn:F; cbn [bind].
    + destruct (Nat.eqb_spec (length m) (ua_out a)); cbn [guard bind]; [discriminate|]. intros [= <-].
      right. right. split; [exact E|]. exists m. auto.
    + intros [= ->]. right. left. auto.
  - intros [= <-]. auto.
Qed.

Definition swap (a : ualigner) : ualigner := mkUA (ua_out a) (ua_in a) (ua_bwd a) (ua_fwd a).
Lemma ualign_swap a l : ualign_inverse a l = ualign (swap a) l.
Proof. reflexivity. Qed.
Lemma ualign_all_swap als l : ualign_inverse_all als l = ualign_all (map swap (rev als)) l.
Proof.
  unfold ualign_inverse_all, ualign_all. revert l. induction (rev als) as [|a m IH]; intros l; [reflexivity|].
  cbn [map foldM]. rewrite ualign_swap. destruct (ualign (swap a) l); cbn [bind]; auto.
Qed.

Lemma fitting_cons a als : fitting (a :: als) <->
  fitting als /\ forall b, nth_error als 0 = Some b -> ua_out a = ua_in b.
Proof.
  split.
  - intros F. split; [intros k|]; [exact (F (S k))|]. intros b. exact (F 0 a b eq_refl).
  - intros [F H] [|k] x y Hx Hy; cbn in *; [injection Hx as <-; auto|exact (F k x y Hx Hy)].
Qed.

Lemma ualign_all_lengths als : forall l l', ualign_all als l = Ok l' ->
  fitting als /\ (forall a, nth_error als 0 = Some a -> length l = ua_in a) /\
  (forall a, last_opt als = Some a -> length l' = ua_out a) /\ (als = [] -> l' = l).
Proof.
  unfold ualign_all. induction als as [|a als IH]; intros l l'; cbn [foldM].
  - intros [= <-]. split; [intros [|k]; discriminate|]. repeat split; cbn; discriminate.
  - destruct (ualign a l) as [m|e] eqn:A; cbn [bind]; [|discriminate]. apply ualign_ok in A. destruct A as (L1 & _ & L2).
    intros R. apply IH in R. destruct R as (F & H0 & HL & HN). split; [|split; [|split]].
    + apply fitting_cons. split; [exact F|]. intros b Hb. now rewrite <- (H0 b Hb).
    + intros b [= <-]. exact L1.
    + intros b Hb. destruct als as [|c als].
      * cbn in Hb. injection Hb as <-. now rewrite (HN eq_refl).
      * apply HL. rewrite <- Hb, !last_opt_nth. cbn [length]. replace (S (S (length als)) - 1) with (S (S (length als) - 1)) by lia.
        reflexivity.
    + discriminate.
Qed.

Lemma ualign_all_total als : forall l, fitting als -> Forall total_forward als ->
  (forall a, nth_error als 0 = Some a -> length l = ua_in a) -> exists l', ualign_all als l = Ok l'.
Proof.
  unfold ualign_all. induction als as [|a als IH]; intros l F T H0; cbn [foldM]; [eauto|].
  inversion T as [|? ? Ta Tr]; subst. destruct (Ta l (H0 a eq_refl)) as (m & Hm & Lm).
  replace (ualign a l) with (Ok m) by (symmetry; apply ualign_ok; auto). cbn [bind].
  apply fitting_cons in F. destruct F as [F HF]. apply IH; auto. intros b Hb. now rewrite <- (HF b Hb).
Qed.

Lemma ualign_all_wrong_length als a l : nth_error als 0 = Some a -> length l <> ua_in a ->
  ualign_all als l = Err ValueErr.
Proof.
  destruct als as [|x als]; [discriminate|]. intros [= ->] N. unfold ualign_all. cbn [foldM]. unfold ualign.
  destruct (Nat.eqb_spec (length l) (ua_in a)); [contradiction|reflexivity].
Qed.

Lemma ualign_inverse_cons a als l :
  ualign_inverse_all (a :: als) l = (m <- ualign_inverse_all als l ;; ualign_inverse a m).
Proof.
  unfold ualign_inverse_all. cbn [rev]. rewrite foldM_app.
  destruct (foldM _ (rev als) l) as [m|e]; cbn [bind foldM]; [|reflexivity]. destruct (ualign_inverse a m); reflexivity.
Qed.

Theorem undone_all als : Forall undoes als -> forall l l', ualign_all als l = Ok l' -> ualign_inverse_all als l' = Ok l.
Proof.
  induction als as [|a als IH]; intros U l l'.
  - unfold ualign_all. cbn [foldM]. intros [= <-]. reflexivity.
  - inversion U; subst. unfold ualign_all. cbn [foldM]. destruct (ualign a l) as [m|e] eqn:A; cbn [bind]; [|discriminate].
    intros R. rewrite ualign_inverse_cons, (IH H2 m l' R). cbn [bind]. apply ualign_ok in A. destruct A as (L1 & F & L2).
    rewrite ualign_swap. apply ualign_ok. cbn [swap ua_in ua_out ua_fwd]. split; [exact L2|]. split; [auto|exact L1].
Qed.

Section proofs.
  Context {V T : Type} {ET : Eqb T} (isinstance : V -> T -> bool).
  Notation run := (urun isinstance).

  Lemma utransform_ok o x y a : utransform isinstance o x = Ok (y, a) <->
    isinstance x (u_in o) = true /\ u_run o x = Ok (y, a) /\ isinstance y (u_out o) = true.
  Proof.
    unfold utransform. destruct (isinstance x (u_in o)); cbn [guard bind]; [|split; [discriminate|intros (? & _); discriminate]].
    destruct (u_run o x) as [[z b]|e]; cbn [bind fst]; [|split; [discriminate|intros (_ & ? & _); discriminate]].
    destruct (isinstance z (u_out o)) eqn:Z; cbn [guard bind]; split.
    - intros [= <- <-]. auto.
    - now intros (_ & [= <- <-] & _).
    - discriminate.
    - intros (_ & [= -> ->] & ?). congruence.
  Qed.
  Lemma utransform_error o x e : utransform isinstance o x = Err e <->
    (isinstance x (u_in o) = false /\ e = TypeErr) \/ (isinstance x (u_in o) = true /\ u_run o x = Err e) \/
    (isinstance x (u_in o) = true /\ exists y a, u_run o x = Ok (y, a) /\ isinstance y (u_out o) = false /\ e = TypeErr).
  Proof.
    unfold utransform. destruct (isinstance x (u_in o)); cbn [guard bind].
    - destruct (u_run o x) as [[z b]|e'] eqn:R; cbn [bind fst].
      + destruct (isinstance z (u_out o)) eqn:Z; cbn [guard bind]; split.
        * discriminate.
        * intros [[? _]|[[_ ?]|(_ & y & a & [= <- <-] & ? & _)]]; congruence.
        * intros [= <-]. right. right. split; [reflexivity|]. exists z, b. auto.
        * intros [[? _]|[[_ ?]|(_ & y & a & [= <- <-] & _ & ->)]]; congruence.
      + split.
        * intros [= ->]. auto.
        * intros [[? _]|[[_ ?]|(_ & y & a & ? & _)]]; congruence.
    - split.
      + intros [= <-]. auto.
      + intros [[_ ->]|[[? _]|(? & _)]]; congruence.
  Qed.

  Theorem user_runs ops : forall x y als coll, run ops x = Ok (y, als, coll) <-> user_stepwise isinstance ops x y als coll.
  Proof.
    induction ops as [|o ops IH]; intros x y als coll; cbn [urun].
    - split.
      + intros [= <- <- <-]. repeat split. intros [|k] o; discriminate.
      + intros (HA & HC & H0 & HY & _). destruct als; [|discriminate].
        destruct coll as [|c [|]]; try discriminate. cbn in H0, HY. congruence.
    - split.
      + destruct (utransform isinstance o x) as [[v a]|e] eqn:HT; cbn [bind]; [|discriminate].
        destruct (run ops v) as [[[z al] co]|e] eqn:HR; cbn [bind]; [|discriminate].
        intros [= <- <- <-]. apply IH in HR. destruct HR as (HA & HC & H0 & HY & HS). apply utransform_ok in HT.
        repeat split; cbn [length]; auto.
        intros [|k] o' Ho; cbn [nth_error] in *.
        * injection Ho as <-. exists x, v, a. tauto.
        * exact (HS k o' Ho).
      + intros (HA & HC & H0 & HY & HS). destruct als as [|a als]; [discriminate|].
        destruct coll as [|c coll]; [discriminate|]. cbn in H0. injection H0 as ->.
        destruct (HS 0 o eq_refl) as (u & v & a' & Hu & Hv & Ha & HT & T1 & T2). cbn in Hu, Hv, Ha.
        injection Hu as <-. injection Ha as <-.
        replace (utransform isinstance o x) with (Ok (v, a)) by (symmetry; apply utransform_ok; auto). cbn [bind].
        assert (run ops v = Ok (y, als, coll)) as ->; [|reflexivity].
        apply IH. cbn in HA, HC, HY. repeat split; try lia; auto.
        intros k o' Ho. exact (HS (S k) o' Ho).
  Qed.

  Lemma urun_app ops ops' : forall x, run (ops ++ ops') x =
    ('(y, al, co) <- run ops x ;; '(z, al', co') <- run ops' y ;; Ok (z, al ++ al', co ++ tl co')).
  Proof.
    induction ops as [|o ops IH]; intros x; cbn [app urun bind].
    - destruct ops' as [|o' ops']; [reflexivity|]. cbn [urun].
      destruct (utransform isinstance o' x) as [[v a]|e]; cbn [bind]; [|reflexivity].
      destruct (run ops' v) as [[[z al] co]|e]; reflexivity.
    - destruct (utransform isinstance o x) as [[v a]|e]; cbn [bind]; [|reflexivity]. rewrite IH.
      destruct (run ops v) as [[[y al] co]|e]; cbn [bind]; [|reflexivity].
      destruct (run ops' y) as [[[z al'] co']|e]; reflexivity.
  Qed.

  (** only the first operator can object to its input *)
  Theorem user_first_failure ops x e : user_chained ops -> run ops x = Err e ->
    exists k o u, nth_error ops k = Some o /\ (exists al co, run (firstn k ops) x = Ok (u, al, co)) /\
      ((k = 0 /\ isinstance x (u_in o) = false /\ e = TypeErr) \/
       (isinstance u (u_in o) = true /\ u_run o u = Err e) \/
       (isinstance u (u_in o) = true /\
        exists y a, u_run o u = Ok (y, a) /\ isinstance y (u_out o) = false /\ e = TypeErr)).
  Proof.
    revert x. induction ops as [|o ops IH]; intros x C; cbn [urun]; [discriminate|].
    destruct (utransform isinstance o x) as [[v a]|e'] eqn:HT; cbn [bind].
    - destruct (run ops v) as [[[z al] co]|e''] eqn:HR; cbn [bind]; [discriminate|]. intros [= ->].
      destruct (IH v (fun k => C (S k)) HR) as (k & o' & u & Ho & (al & co & HP) & HC).
      exists (S k), o', u. cbn [nth_error firstn urun]. split; [exact Ho|]. split.
      + rewrite HT. cbn [bind]. rewrite HP. cbn [bind]. eauto.
      + right. destruct HC as [(-> & HF & _)|HC]; [|exact HC]. exfalso.
        apply utransform_ok in HT. destruct HT as (_ & _ & HT). specialize (C 0 o o' eq_refl).
        cbn in C, Ho. rewrite C in HT by exact Ho. congruence.
    - intros [= ->]. exists 0, o, x. split; [reflexivity|]. split; [exists [], [x]; reflexivity|].
      apply utransform_error in HT. destruct HT as [[? ?]|HT]; [left; auto|right; exact HT].
  Qed.

  Theorem user_no_type_error ops x : user_chained ops ->
    (forall o, nth_error ops 0 = Some o -> isinstance x (u_in o) = true) ->
    (forall o u y a, In o ops -> isinstance u (u_in o) = true -> u_run o u = Ok (y, a) -> isinstance y (u_out o) = true) ->
    (forall o u e, In o ops -> u_run o u = Err e -> e <> TypeErr) ->
    run ops x <> Err TypeErr.
  Proof.
    intros C H0 HT HE R. destruct (user_first_failure ops x TypeErr C R) as (k & o & u & Ho & _ & H).
    pose proof (nth_error_In _ _ Ho) as HI. destruct H as [(-> & F & _)|[(_ & F)|(F & y & a & HR & F' & _)]].
    - rewrite (H0 o Ho) in F. discriminate.
    - now apply (HE o u _ HI F).
    - rewrite (HT o u y a HI F HR) in F'. discriminate.
  Qed.

  (** ** Building pipes *)

  Lemma chained_snoc (ops : list (uop V T)) o : user_chained ops -> (forall l, last_opt ops = Some l -> u_out l = u_in o) ->
    user_chained (ops ++ [o]).
  Proof.
    intros C H k a b Ha Hb.
    assert (LB : S k < length (ops ++ [o])) by (apply nth_error_Some; congruence). rewrite app_length in LB. cbn in LB.
    rewrite nth_error_app1 in Ha by lia. destruct (Nat.eq_dec (S k) (length ops)) as [E|N].
    - rewrite E, nth_error_app2, Nat.sub_diag in Hb by lia. injection Hb as <-. apply H.
      destruct ops as [|x ops] using rev_ind; [cbn in E; lia|]. rewrite app_length in E. cbn in E.
      assert (k = length ops) by lia. subst k. rewrite nth_error_app2, Nat.sub_diag in Ha by lia. injection Ha as <-.
      rewrite last_opt_nth, app_length, nth_error_app2 by (cbn; lia). cbn [length].
      replace (length ops + 1 - 1 - length ops) with 0 by lia. reflexivity.
    - rewrite nth_error_app1 in Hb by lia. exact (C k a b Ha Hb).
  Qed.

  Lemma uadd_op_cases (p : upipe V T) o ck : let q := fst (uadd_op p o ck) in
    (q = p /\ snd (uadd_op p o ck) = Some TypeErr) \/
    ((forall l, last_opt (u_steps p) = Some l -> u_out l = u_in o) /\ u_steps q = u_steps p ++ [o] /\
     ((snd (uadd_op p o ck) = None /\
       u_checkpoints q = match ck with
                         | Some n => dict_set (u_checkpoints p) n (Z.of_nat (length (u_steps p) + 1))
                         | None => u_checkpoints p end /\
       (forall n, ck = Some n -> ~ In n (map fst (u_checkpoints p)))) \/
      (snd (uadd_op p o ck) = Some KeyErr /\ u_checkpoints q = u_checkpoints p))).
  Proof.
    unfold uadd_op. destruct (last_opt (u_steps p)) as [l|].
    - destruct (eqb_spec (u_in o) (u_out l)) as [E|N]; cbn [negb]; [|now left].
      right. split; [intros ? [= <-]; now symmetry|]. destruct ck as [n|].
      + destruct (dict_mem (u_checkpoints p) n) eqn:M; cbn [fst snd u_steps u_checkpoints]; [auto|].
        split; [reflexivity|]. left. rewrite app_length. cbn [length]. repeat split. intros m [= <-].
        rewrite <- dict_mem_spec. congruence.
      + cbn [fst snd u_steps u_checkpoints]. split; [reflexivity|]. left. repeat split. discriminate.
    - right. split; [discriminate|]. destruct ck as [n|].
      + destruct (dict_mem (u_checkpoints p) n) eqn:M; cbn [fst snd u_steps u_checkpoints]; [auto|].
        split; [reflexivity|]. left. rewrite app_length. cbn [length]. repeat split. intros m [= <-].
        rewrite <- dict_mem_spec. congruence.
      + cbn [fst snd u_steps u_checkpoints]. split; [reflexivity|]. left. repeat split. discriminate.
  Qed.

  Lemma add_chained (p : upipe V T) o ck : user_chained (u_steps p) -> user_chained (u_steps (fst (uadd_op p o ck))).
  Proof.
    intros C. destruct (uadd_op_cases p o ck) as [[-> _]|(H & -> & _)]; [exact C|]. now apply chained_snoc.
  Qed.
  Lemma after_adds_chained h : forall p : upipe V T, user_chained (u_steps p) -> user_chained (u_steps (after_adds p h)).
  Proof. induction h as [|c h IH]; intros p C; [exact C|]. apply IH. now apply add_chained. Qed.

  Theorem adds_chained h : user_chained (u_steps (after_adds (upipe_new (V:=V) (T:=T)) h)).
  Proof. apply after_adds_chained. intros [|k] a b; discriminate. Qed.

  (** ** Checkpoints *)

  Lemma adds_steps h : forall p : upipe V T, adds_succeed p h -> u_steps (after_adds p h) = u_steps p ++ map fst h.
  Proof.
    induction h as [|[o ck] h IH]; intros p S; [cbn; now rewrite app_nil_r|]. destruct S as [S1 S2]. cbn [fst snd] in *.
    unfold after_adds in *. cbn [fold_left fst snd]. rewrite (IH _ S2).
    destruct (uadd_op_cases p o ck) as [[_ E]|(_ & -> & _)]; [congruence|]. now rewrite <- app_assoc.
  Qed.
  Lemma adds_keep h : forall (p : upipe V T) n i, dict_get (u_checkpoints p) n = Some i ->
    dict_get (u_checkpoints (after_adds p h)) n = Some i.
  Proof.
    induction h as [|[o ck] h IH]; intros p n i G; [exact G|]. unfold after_adds in *. cbn [fold_left fst snd].
    apply IH. destruct (uadd_op_cases p o ck) as [[-> _]|(_ & _ & [(_ & -> & N)|(_ & ->)])]; auto.
    destruct ck as [m|]; [|exact G]. specialize (N m eq_refl).
    assert (Q : forall d, ~ In m (map fst d) -> dict_get d n = Some i -> dict_get (dict_set d m (Z.of_nat (length (u_steps p) + 1))) n = Some i).
    { clear. induction d as [|[k v] d IH]; cbn [dict_get dict_set map fst]; intros N G; [discriminate|].
      destruct (eqb_spec m k) as [->|NE]; [exfalso; apply N; now left|]. cbn [dict_get].
      destruct (eqb n k); [exact G|]. apply IH; auto. intros HI. apply N. now right. }
    now apply Q.
  Qed.

  Lemma urun_collection ops x y als coll k v : run ops x = Ok (y, als, coll) -> nth_error coll k = Some v ->
    k <= length ops /\ run (firstn k ops) x = Ok (v, firstn k als, firstn (S k) coll).
  Proof.
    intros R. apply user_runs in R. destruct R as (HA & HC & H0 & HY & HS). intros Hk.
    assert (K : k <= length ops) by (assert (k < length coll) by (apply nth_error_Some; congruence); lia).
    split; [exact K|]. apply user_runs.
    assert (L : length (firstn k ops) = k) by (rewrite firstn_length; lia).
    repeat split.
    - rewrite !firstn_length. lia.
    - rewrite !firstn_length. lia.
    - destruct coll; [discriminate|exact H0].
    - rewrite L. pose proof (nth_error_sub coll 0 (S k) k) as Q. cbn [skipn] in Q. rewrite Q.
      destruct (Nat.ltb_spec k (S k)); [exact Hk|lia].
    - intros j o Ho. assert (J : j < k) by (assert (j < length (firstn k ops)) by (apply nth_error_Some; congruence); lia).
      pose proof (nth_error_sub ops 0 k j) as Q. cbn [skipn] in Q. rewrite Q in Ho. clear Q.
      destruct (Nat.ltb_spec j k); [|lia]. destruct (HS j o Ho) as (u & w & a & Hu & Hw & Ha & R).
      exists u, w, a.
      pose proof (nth_error_sub coll 0 (S k) j) as Q1. pose proof (nth_error_sub coll 0 (S k) (S j)) as Q2.
      pose proof (nth_error_sub als 0 k j) as Q3. cbn [skipn] in Q1, Q2, Q3. rewrite Q1, Q2, Q3.
      destruct (Nat.ltb_spec j (S k)); [|lia]. destruct (Nat.ltb_spec (S j) (S k)); [|lia].
      destruct (Nat.ltb_spec j k); [|lia]. auto.
  Qed.

  Theorem user_checkpoint h k o name x y als coll :
    adds_succeed (upipe_new (V:=V) (T:=T)) h -> nth_error h k = Some (o, Some name) ->
    run (u_steps (after_adds upipe_new h)) x = Ok (y, als, coll) ->
    exists v, run (map fst (firstn (S k) h)) x = Ok (v, firstn (S k) als, firstn (S (S k)) coll) /\
      uget (u_checkpoints (after_adds upipe_new h)) coll name = Ok v.
  Proof.
    intros S Hk R.
    assert (G : dict_get (u_checkpoints (after_adds (upipe_new (V:=V) (T:=T)) h)) name = Some (Z.of_nat (k + 1))).
    { apply nth_error_split in Hk. destruct Hk as (h1 & h2 & -> & L).
      assert (SP : forall h1 h2 (p : upipe V T), adds_succeed p (h1 ++ h2) ->
        adds_succeed p h1 /\ adds_succeed (after_adds p h1) h2 /\ after_adds p (h1 ++ h2) = after_adds (after_adds p h1) h2).
      { clear. induction h1 as [|c h1 IH]; intros h2 p S; [cbn; auto|]. destruct S as [S1 S2].
        destruct (IH _ _ S2) as (A & B & C). cbn. auto. }
      destruct (SP h1 ((o, Some name) :: h2) upipe_new S) as (S1 & S2 & ->).
      unfold after_adds at 1. cbn [fold_left fst snd]. apply adds_keep. destruct S2 as [S2 _]. cbn [fst snd] in S2.
      destruct (uadd_op_cases (after_adds upipe_new h1) o (Some name)) as [[_ E]|(_ & _ & [(_ & -> & N)|(E & _)])]; try congruence.
      rewrite (adds_steps h1 upipe_new S1). cbn [upipe_new u_steps app]. rewrite map_length, L.
      specialize (N name eq_refl). clear -N. induction (u_checkpoints _) as [|[m v] d IH]; cbn [dict_set dict_get].
      - destruct (eqb_spec name name); congruence.
      - destruct (eqb_spec name m) as [->|NE]; [exfalso; apply N; now left|]. cbn [dict_get].
        destruct (eqb_spec name m); [contradiction|]. apply IH. intros HI. apply N. now right. }
    rewrite (adds_steps h _ S) in R. cbn [upipe_new u_steps app] in R.
    pose proof R as R'. apply user_runs in R'. destruct R' as (HA & HC & _).
    assert (K : k < length h) by (apply nth_error_Some; congruence). rewrite map_length in HC.
    destruct (nth_error coll (k + 1)) as [v|] eqn:Hv; [|apply nth_error_None in Hv; lia].
    destruct (urun_collection _ _ _ _ _ _ _ R Hv) as (_ & P). rewrite Nat.add_1_r in P. rewrite firstn_map in P.
    exists v. split; [exact P|]. unfold uget. rewrite G. now apply get_item_nth.
  Qed.

  Theorem user_unknown_checkpoint h (coll : list V) name : (forall o, ~ In (o, Some name) h) ->
    uget (u_checkpoints (after_adds (upipe_new (V:=V) (T:=T)) h)) coll name = Err KeyErr.
  Proof.
    intros H. assert (G : forall p : upipe V T, dict_get (u_checkpoints p) name = None -> dict_get (u_checkpoints (after_adds p h)) name = None).
    { induction h as [|[o ck] h IH]; intros p HP; [exact HP|]. unfold after_adds. cbn [fold_left fst snd]. apply IH.
      - intros o' HI. apply (H o'). now right.
      - unfold uadd_op. destruct (match last_opt (u_steps p) with Some _ => _ | None => _ end); [exact HP|].
        destruct ck as [n|]; [|exact HP]. destruct (dict_mem (u_checkpoints p) n); [exact HP|]. cbn [fst u_checkpoints].
        rewrite dict_get_set_other; [exact HP|]. intros ->. apply (H o). now left. }
    unfold uget. now rewrite G.
  Qed.

  (** ** Concatenation *)

  Theorem user_concat (p q : upipe V T) : snd (uiadd p q) = None ->
    u_steps p <> [] /\ u_steps q <> [] /\
    u_steps (fst (uiadd p q)) = u_steps p ++ u_steps q /\
    (user_chained (u_steps p) -> user_chained (u_steps q) -> user_chained (u_steps p ++ u_steps q)) /\
    forall x, run (u_steps (fst (uiadd p q))) x =
      ('(y, al, co) <- run (u_steps p) x ;; '(z, al', co') <- run (u_steps q) y ;; Ok (z, al ++ al', co ++ tl co')).
  Proof.
    unfold uiadd. destruct (last_opt (u_steps p)) as [a|] eqn:La; [|discriminate].
    destruct (u_steps q) as [|b qs]; [discriminate|]. destruct (eqb_spec (u_out a) (u_in b)) as [E|N]; [|discriminate]. cbn [negb].
    destruct (existsb _ _); [discriminate|]. intros _. cbn [fst u_steps].
    split; [intros Z0; rewrite Z0 in La; discriminate|]. split; [discriminate|]. split; [reflexivity|]. split; [|intros x; apply urun_app].
    intros C1 C2 k c d Hc Hd. rewrite last_opt_nth in La.
    destruct (Nat.lt_trichotomy (S k) (length (u_steps p))) as [L|[L|L]].
    - rewrite nth_error_app1 in Hc, Hd by lia. exact (C1 k c d Hc Hd).
    - rewrite nth_error_app1 in Hc by lia. rewrite nth_error_app2 in Hd by lia.
      rewrite L, Nat.sub_diag in Hd. injection Hd as <-. replace (length (u_steps p) - 1) with k in La by lia. congruence.
    - rewrite nth_error_app2 in Hc, Hd by lia. replace (S k - length (u_steps p)) with (S (k - length (u_steps p))) in Hd by lia.
      exact (C2 _ c d Hc Hd).
  Qed.
  Theorem user_concat_error (p q : upipe V T) e : snd (uiadd p q) = Some e ->
    fst (uiadd p q) = p /\
    ((e = IndexErr /\ (u_steps p = [] \/ u_steps q = [])) \/
     (e = TypeErr /\ exists a b, last_opt (u_steps p) = Some a /\ nth_error (u_steps q) 0 = Some b /\ u_out a <> u_in b) \/
     (e = KeyErr /\ exists n, In n (map fst (u_checkpoints p)) /\ In n (map fst (u_checkpoints q)))).
  Proof.
    unfold uiadd. destruct (last_opt (u_steps p)) as [a|] eqn:La.
    - destruct (u_steps q) as [|b qs]; [intros [= <-]; auto|].
      destruct (eqb_spec (u_out a) (u_in b)) as [E|N]; cbn [negb].
      + destruct (existsb _ _) eqn:X; [|discriminate]. intros [= <-]. split; [reflexivity|]. right. right. split; [reflexivity|].
        apply existsb_exists in X. destruct X as ([n i] & HI & HM). exists n. split.
        * apply in_map_iff. now exists (n, i).
        * now apply dict_mem_spec.
      + intros [= <-]. split; [reflexivity|]. right. left. split; [reflexivity|]. exists a, b. auto.
    - intros [= <-]. split; [reflexivity|]. left. split; [reflexivity|]. left. destruct (u_steps p); [reflexivity|discriminate].
  Qed.

  (** ** Labels *)

  Context (len : V -> nat).

  Lemma honest_fitting ops : Forall (honest len) ops -> forall x y als coll, run ops x = Ok (y, als, coll) ->
    fitting als /\ (forall a, nth_error als 0 = Some a -> ua_in a = len x) /\
    (forall a, last_opt als = Some a -> ua_out a = len y).
  Proof.
    intros HH x y als coll R. apply user_runs in R. destruct R as (HA & HC & H0 & HY & HS).
    assert (Q : forall k a, nth_error als k = Some a -> exists u v, nth_error coll k = Some u /\ nth_error coll (S k) = Some v /\
              ua_in a = len u /\ ua_out a = len v).
    { intros k a Ha. destruct (nth_error ops k) as [o|] eqn:Ho.
      - destruct (HS k o Ho) as (u & v & a' & Hu & Hv & Ha' & R & _). exists u, v. split; [exact Hu|]. split; [exact Hv|].
        rewrite Ha in Ha'. injection Ha' as <-. rewrite Forall_forall in HH. exact (HH o (nth_error_In _ _ Ho) u v a R).
      - apply nth_error_None in Ho. assert (k < length als) by (apply nth_error_Some; congruence). lia. }
    split; [|split].
    - intros k a b Ha Hb. destruct (Q k a Ha) as (u & v & _ & Hv & _ & ->). destruct (Q (S k) b Hb) as (u' & v' & Hu & _ & -> & _).
      congruence.
    - intros a Ha. destruct (Q 0 a Ha) as (u & v & Hu & _ & -> & _). congruence.
    - intros a Ha. rewrite last_opt_nth in Ha. destruct (Q _ a Ha) as (u & v & _ & Hv & _ & ->).
      assert (length als - 1 < length als) by (apply nth_error_Some; congruence).
      replace (S (length als - 1)) with (length ops) in Hv by lia. congruence.
  Qed.

  Lemma empty_run ops x y coll : run ops x = Ok (y, [], coll) -> ops = [].
  Proof. intros R. apply user_runs in R. destruct R as (HA & _). now destruct ops. Qed.

  Theorem user_labels_lengths ops x y als coll l l' : Forall (honest len) ops -> ops <> [] -> run ops x = Ok (y, als, coll) ->
    (ualign_all als l = Ok l' -> length l = len x /\ length l' = len y) /\
    (ualign_inverse_all als l = Ok l' -> length l = len y /\ length l' = len x).
  Proof.
    intros HH NE R. destruct (honest_fitting ops HH x y als coll R) as (F & H0 & HL).
    assert (NA : als <> []) by (intros ->; apply NE; eapply empty_run; exact R).
    split; intros A.
    - apply ualign_all_lengths in A. destruct A as (_ & A0 & AL & _).
      destruct als as [|a als]; [congruence|]. rewrite (A0 a eq_refl), (H0 a eq_refl). split; [reflexivity|].
      rewrite (AL (last als a) eq_refl). now apply HL.
    - rewrite ualign_all_swap in A. apply ualign_all_lengths in A. destruct A as (_ & A0 & AL & _).
      destruct als as [|b als] using rev_ind; [congruence|]. clear IHals. split.
      + rewrite (A0 (swap b)) by (now rewrite rev_unit). cbn [swap ua_in]. apply HL.
        rewrite last_opt_nth, app_length, nth_error_app2 by (cbn; lia). cbn [length].
        replace (length als + 1 - 1 - length als) with 0 by lia. reflexivity.
      + destruct (nth_error (als ++ [b]) 0) as [a|] eqn:Ha; [|destruct als; discriminate].
        rewrite (AL (swap a)); [cbn [swap ua_out]; now apply H0|].
        rewrite last_opt_nth, map_length, rev_length. rewrite nth_error_map.
        destruct (als ++ [b]) as [|c m]; [discriminate|]. cbn in Ha. injection Ha as ->. cbn [rev length].
        rewrite nth_error_app2 by (rewrite rev_length; lia). rewrite rev_length.
        replace (S (length m) - 1 - length m) with 0 by lia. reflexivity.
  Qed.

  Lemma fitting_rev als : fitting als -> fitting (map swap (rev als)).
  Proof.
    induction als as [|a als IH]; intros F; [intros [|k]; discriminate|]. apply fitting_cons in F. destruct F as [F H].
    specialize (IH F). cbn [rev]. rewrite map_app. cbn [map]. intros k c d Hc Hd.
    assert (LB : S k < length (map swap (rev als) ++ [swap a])) by (apply nth_error_Some; congruence).
    rewrite app_length in LB. cbn [length] in LB. rewrite nth_error_app1 in Hc by lia.
    destruct (Nat.eq_dec (S k) (length (map swap (rev als)))) as [E|N].
    - rewrite E, nth_error_app2, Nat.sub_diag in Hd by lia. injection Hd as <-. rewrite map_length, rev_length in E.
      destruct als as [|b als]; [discriminate|]. cbn [rev length] in *. rewrite nth_error_map, nth_error_app2 in Hc by (rewrite rev_length; lia).
      rewrite rev_length in Hc. replace (k - length als) with 0 in Hc by lia. injection Hc as <-. cbn. symmetry. now apply H.
    - rewrite nth_error_app1 in Hd by lia. exact (IH k c d Hc Hd).
  Qed.

  Theorem user_labels_total ops x y als coll : Forall (honest len) ops -> ops <> [] -> run ops x = Ok (y, als, coll) ->
    (Forall total_forward als -> forall l, length l = len x -> exists l', ualign_all als l = Ok l') /\
    (Forall total_backward als -> forall l, length l = len y -> exists l', ualign_inverse_all als l = Ok l').
  Proof.
    intros HH NE R. destruct (honest_fitting ops HH x y als coll R) as (F & H0 & HL). split.
    - intros TF l L. apply ualign_all_total; auto. intros a Ha. now rewrite (H0 a Ha).
    - intros TB l L. rewrite ualign_all_swap. apply ualign_all_total.
      + now apply fitting_rev.
      + rewrite Forall_forall in *. intros a Ha. apply in_map_iff in Ha. destruct Ha as (b & <- & Hb).
        apply in_rev in Hb. exact (TB b Hb).
      + intros a Ha. destruct als as [|b als _] using rev_ind; [discriminate|]. rewrite rev_unit in Ha. injection Ha as <-.
        cbn [swap ua_in]. rewrite L. symmetry. apply HL.
        rewrite last_opt_nth, app_length, nth_error_app2 by (cbn; lia). cbn [length].
        replace (length als + 1 - 1 - length als) with 0 by lia. reflexivity.
  Qed.

  Theorem user_labels_refused ops x y als coll l : Forall (honest len) ops -> ops <> [] -> run ops x = Ok (y, als, coll) ->
    (length l <> len x -> ualign_all als l = Err ValueErr) /\
    (length l <> len y -> ualign_inverse_all als l = Err ValueErr).
  Proof.
    intros HH NE R. destruct (honest_fitting ops HH x y als coll R) as (F & H0 & HL).
    assert (NA : als <> []) by (intros ->; apply NE; eapply empty_run; exact R). split; intros N.
    - destruct als as [|a als]; [congruence|]. apply (ualign_all_wrong_length _ a); [reflexivity|]. now rewrite (H0 a eq_refl).
    - rewrite ualign_all_swap. destruct als as [|b als _] using rev_ind; [congruence|].
      apply (ualign_all_wrong_length _ (swap b)); [now rewrite rev_unit|]. cbn [swap ua_in]. rewrite (HL b); [exact N|].
      rewrite last_opt_nth, app_length, nth_error_app2 by (cbn; lia). cbn [length].
      replace (length als + 1 - 1 - length als) with 0 by lia. reflexivity.
  Qed.
End proofs.

(** ** A single aligner *)

Theorem null_aligner n m l l' :
  (ualign (unull n m) l = Ok l' <-> l' = l /\ length l = n /\ length l = m) /\
  (ualign_inverse (unull n m) l = Ok l' <-> l' = l /\ length l = n /\ length l = m).
Proof.
  rewrite ualign_swap, !ualign_ok. cbn.
  split; (split; [intros (? & [= <-] & ?)|intros (-> & ? & ?)]; auto).
Qed.
Theorem inverse_error a l e : ualign_inverse a l = Err e ->
  (length l <> ua_out a /\ e = ValueErr) \/ (length l = ua_out a /\ ua_bwd a l = Err e) \/
  (length l = ua_out a /\ exists l', ua_bwd a l = Ok l' /\ length l' <> ua_in a /\ e = ValueErr).
Proof. rewrite ualign_swap. apply ualign_error. Qed.

(** ** The library is an instance *)

Theorem library_run E ops : forall x,
  urun has_type (map (view_op E) ops) x =
  match run E ops x with Ok (y, als, coll) => Ok (y, map (view_aligner E) als, coll) | Err e => Err e end.
Proof.
  induction ops as [|o ops IH]; intros x; [reflexivity|]. cbn [map urun run].
  assert (HT : utransform has_type (view_op E o) x =
    match transform_op E (o_op o) x with Ok (y, a) => Ok (y, view_aligner E a) | Err e => Err e end).
  { unfold utransform, transform_op, has_type, view_op, in_type, out_type. cbn [u_in u_out u_run].
    destruct (seqtype_eqb (type_of x) (input_type (o_op o))); cbn [guard bind]; [|reflexivity].
    destruct x as [s|l]; cbn [bind].
    - destruct (transform_str E (o_op o) s) as [[y a]|e]; cbn [bind fst]; [|reflexivity].
      destruct (seqtype_eqb (type_of y) (output_type (o_op o))); reflexivity.
    - destruct (transform_lst E (o_op o) l) as [[y a]|e]; cbn [bind fst]; [|reflexivity].
      destruct (seqtype_eqb (type_of y) (output_type (o_op o))); reflexivity. }
  rewrite HT. destruct (transform_op E (o_op o) x) as [[y a]|e]; cbn [bind]; [|reflexivity].
  rewrite IH. destruct (run E ops y) as [[[z al] co]|e]; reflexivity.
Qed.
Theorem library_labels E als : forall l,
  ualign_all (map (view_aligner E) als) l = align_all als l /\
  ualign_inverse_all (map (view_aligner E) als) l = align_inverse_all E als l.
Proof.
  intros l. unfold ualign_all, align_all, ualign_inverse_all, align_inverse_all. split.
  - revert l. induction als as [|a als IH]; intros l; [reflexivity|]. cbn [map foldM].
    change (ualign (view_aligner E a) l) with (align a l). destruct (align a l); cbn [bind]; auto.
  - rewrite <- map_rev. revert l. induction (rev als) as [|a m IH]; intros l; [reflexivity|]. cbn [map foldM].
    change (ualign_inverse (view_aligner E a) l) with (align_inverse E a l). destruct (align_inverse E a l); cbn [bind]; auto.
Qed.
Lemma last_opt_map {A B} (f : A -> B) l : last_opt (map f l) = option_map f (last_opt l).
Proof. rewrite !last_opt_nth, map_length. apply nth_error_map. Qed.
Theorem library_add E p o ck :
  uadd_op (view_pipe E p) (view_op E o) ck = (view_pipe E (fst (add_op p o ck)), snd (add_op p o ck)).
Proof.
  unfold uadd_op, add_op, view_pipe, pipe_output_type. cbn [u_steps u_checkpoints].
  rewrite last_opt_map. destruct (last_opt (steps p)) as [l|]; cbn [option_map view_op u_in u_out eqb Eqb_seqtype].
  - destruct (seqtype_eqb (in_type o) (out_type l)); cbn [negb]; [|reflexivity].
    destruct ck as [n|]; cbn [fst snd steps checkpoints]; [|now rewrite map_app].
    destruct (dict_mem (checkpoints p) n); cbn [fst snd steps checkpoints]; rewrite map_app; [reflexivity|].
    now rewrite !app_length, map_length.
  - destruct ck as [n|]; cbn [fst snd steps checkpoints]; [|now rewrite map_app].
    destruct (dict_mem (checkpoints p) n); cbn [fst snd steps checkpoints]; rewrite map_app; [reflexivity|].
    now rewrite !app_length, map_length.
Qed.
Theorem library_iadd E p q :
  uiadd (view_pipe E p) (view_pipe E q) = (view_pipe E (fst (iadd p q)), snd (iadd p q)).
Proof.
  unfold uiadd, iadd, view_pipe, pipe_output_type, pipe_input_type. cbn [u_steps u_checkpoints].
  rewrite last_opt_map. destruct (last_opt (steps p)) as [l|]; cbn [option_map]; [|reflexivity].
  destruct (steps q) as [|b qs]; cbn [map]; [reflexivity|]. cbn [view_op u_in u_out eqb Eqb_seqtype].
  destruct (seqtype_eqb (out_type l) (in_type b)); cbn [negb]; [|reflexivity].
  destruct (existsb _ _); [reflexivity|]. cbn [fst snd steps checkpoints]. rewrite map_app. cbn [map].
  now rewrite !app_length; cbn [length]; rewrite !map_length.
Qed.
