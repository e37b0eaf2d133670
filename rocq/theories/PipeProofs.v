(** Proofs about pipes: order, checkpoints, types, concatenation, slices. *)

From Verif Require Import Py PyFacts Edit Labels Ops SpecOps Json SpecJson Elements Pipe SpecPipe.
Local Open Scope Z_scope.

Local Open Scope nat_scope.

(** ** Running *)

Lemma run_stepwise E ops : forall x y als coll,
  run E ops x = Ok (y, als, coll) <-> stepwise E ops x y als coll.
Proof.
  induction ops as [|o ops IH]; intros x y als coll; cbn [run].
  - split.
    + intros [= <- <- <-]. repeat split. intros [|k] o; discriminate.
    + intros (HA & HC & H0 & HY & _). destruct als; [|discriminate].
      destruct coll as [|c [|]]; try discriminate. cbn in H0, HY. congruence.
  - split.
    + destruct (transform_op E (o_op o) x) as [[v a]|e] eqn:HT; cbn [bind]; [|discriminate].
      destruct (run E ops v) as [[[z al] co]|e] eqn:HR; cbn [bind]; [|discriminate].
      intros [= <- <- <-]. apply IH in HR. destruct HR as (HA & HC & H0 & HY & HS).
      repeat split; cbn [length]; auto.
      intros [|k] o' Ho; cbn [nth_error] in *.
      * injection Ho as <-. exists x, v, a. auto.
      * exact (HS k o' Ho).
    + intros (HA & HC & H0 & HY & HS). destruct als as [|a als]; [discriminate|].
      destruct coll as [|c coll]; [discriminate|]. cbn in H0. injection H0 as ->.
      destruct (HS 0 o eq_refl) as (u & v & a' & Hu & Hv & Ha & HT). cbn in Hu, Hv, Ha.
      injection Hu as <-. injection Ha as <-. rewrite HT. cbn [bind].
      assert (run E ops v = Ok (y, als, coll)) as ->; [|reflexivity].
      apply IH. cbn in HA, HC, HY. repeat split; try lia; auto.
      intros k o' Ho. exact (HS (S k) o' Ho).
Qed.

Lemma run_app E a : forall b x,
  run E (a ++ b) x =
  ('(y, al, co) <- run E a x ;; '(z, al', co') <- run E b y ;; Ok (z, al ++ al', co ++ tl co')).
Proof.
  assert (HD : forall b x z al co, run E b x = Ok (z, al, co) -> co = x :: tl co).
  { intros b x z al co H. apply run_stepwise in H. destruct H as (_ & HC & H0 & _).
    destruct co; [discriminate|]. cbn in *. congruence. }
  induction a as [|o a IH]; intros b x.
  - cbn [app run bind]. destruct (run E b x) as [[[z al] co]|e] eqn:H; cbn [bind]; [|reflexivity].
    rewrite <- (HD _ _ _ _ _ H). reflexivity.
  - cbn [app run]. destruct (transform_op E (o_op o) x) as [[v al]|e]; cbn [bind]; [|reflexivity].
    rewrite IH. destruct (run E a v) as [[[y al1] co1]|e]; cbn [bind]; [|reflexivity].
    destruct (run E b y) as [[[z al2] co2]|e]; reflexivity.
Qed.

Lemma run_error E ops x e :
  run E ops x = Err e <->
  exists k o u al co, nth_error ops k = Some o /\ run E (firstn k ops) x = Ok (u, al, co) /\
    transform_op E (o_op o) u = Err e.
Proof.
  revert x. induction ops as [|o ops IH]; intros x; cbn [run].
  - split; [discriminate|]. intros ([|k] & o & u & al & co & H & _); discriminate.
  - split.
    + destruct (transform_op E (o_op o) x) as [[v a]|e'] eqn:HT; cbn [bind].
      * destruct (run E ops v) as [[[z al] co]|e'] eqn:HR; cbn [bind]; [discriminate|].
        intros [= ->]. apply IH in HR. destruct HR as (k & o' & u & al & co & Ho & HR & HE).
        exists (S k), o', u, (a :: al), (x :: co). cbn [nth_error firstn run]. rewrite HT. cbn [bind].
        rewrite HR. auto.
      * intros [= ->]. exists 0, o, x, [], [x]. auto.
    + intros (k & o' & u & al & co & Ho & HR & HE). destruct k as [|k].
      * cbn in Ho, HR. injection Ho as <-. injection HR as <- _ _. rewrite HE. reflexivity.
      * cbn [nth_error firstn run] in *.
        destruct (transform_op E (o_op o) x) as [[v a]|e']; cbn [bind] in *; [|discriminate].
        destruct (run E (firstn k ops) v) as [[[z al1] co1]|e'] eqn:H1; cbn [bind] in HR; [|discriminate].
        injection HR as <- <- <-.
        assert (run E ops v = Err e) as ->; [|reflexivity].
        apply IH. exists k, o', z, al1, co1. auto.
Qed.

(** ** Labels *)

Lemma foldM_app {A B} (f : B -> A -> res B) l m b :
  foldM f (l ++ m) b = (b <- foldM f l b ;; foldM f m b).
Proof. revert b. induction l as [|x l IH]; intros b; cbn; [reflexivity|]. destruct (f b x); cbn; auto. Qed.

Lemma align_all_forward als : forall l l', align_all als l = Ok l' <-> labels_forward als l l'.
Proof.
  induction als as [|a als IH]; intros l l'.
  - split.
    + intros [= <-]. exists [l]. repeat split. intros [|k] a; discriminate.
    + intros (t & HL & H0 & HN & _). cbn in *. congruence.
  - unfold align_all in *. cbn [foldM]. split.
    + destruct (align a l) as [m|e] eqn:HA; cbn [bind]; [|discriminate].
      intros H. apply IH in H. destruct H as (t & HL & H0 & HN & HS).
      exists (l :: t). repeat split; cbn [length]; auto.
      intros [|k] a' Ha; cbn [nth_error] in *.
      * injection Ha as <-. exists l, m. auto.
      * exact (HS k a' Ha).
    + intros (t & HL & H0 & HN & HS). destruct t as [|l0 t]; [discriminate|]. cbn in H0. injection H0 as ->.
      destruct (HS 0 a eq_refl) as (u & v & Hu & Hv & HA). cbn in Hu, Hv. injection Hu as <-.
      rewrite HA. cbn [bind]. apply IH. exists t. cbn in HL, HN. repeat split; try lia; auto.
      intros k a' Ha. exact (HS (S k) a' Ha).
Qed.

Lemma align_inverse_cons E a als l :
  align_inverse_all E (a :: als) l = (m <- align_inverse_all E als l ;; align_inverse E a m).
Proof.
  unfold align_inverse_all. cbn [rev]. rewrite foldM_app.
  destruct (foldM _ (rev als) l) as [m|e]; cbn; [|reflexivity].
  destruct (align_inverse E a m); reflexivity.
Qed.

Lemma align_all_backward E als : forall l l',
  align_inverse_all E als l = Ok l' <-> labels_backward E als l l'.
Proof.
  induction als as [|a als IH]; intros l l'.
  - split.
    + intros [= <-]. exists [l]. repeat split. intros [|k] a; discriminate.
    + intros (t & HL & H0 & HN & _). cbn in *. congruence.
  - rewrite align_inverse_cons. split.
    + destruct (align_inverse_all E als l) as [m|e] eqn:HA; cbn [bind]; [|discriminate].
      intros H. apply IH in HA. destruct HA as (t & HL & H0 & HN & HS).
      exists (l' :: t). repeat split; cbn [length]; auto.
      intros [|k] a' Ha; cbn [nth_error] in *.
      * injection Ha as <-. exists l', m. auto.
      * exact (HS k a' Ha).
    + intros (t & HL & H0 & HN & HS). destruct t as [|l0 t]; [discriminate|]. cbn in H0. injection H0 as ->.
      destruct (HS 0 a eq_refl) as (u & v & Hu & Hv & HA). cbn in Hu, Hv. injection Hu as <-.
      assert (align_inverse_all E als l = Ok v) as ->; [|exact HA].
      apply IH. exists t. cbn in HL, HN. repeat split; try lia; auto.
      intros k a' Ha. exact (HS (S k) a' Ha).
Qed.

Lemma align_all_error als : forall l e,
  align_all als l = Err e <->
  exists k a u, nth_error als k = Some a /\ labels_forward (firstn k als) l u /\ align a u = Err e.
Proof.
  induction als as [|a als IH]; intros l e.
  - split; [discriminate|]. intros ([|k] & a & u & H & _); discriminate.
  - unfold align_all in *. cbn [foldM]. split.
    + destruct (align a l) as [m|e'] eqn:HA; cbn [bind].
      * intros H. apply IH in H. destruct H as (k & b & u & Hb & HF & HE).
        exists (S k), b, u. split; [exact Hb|]. split; [|exact HE]. apply align_all_forward.
        unfold align_all. cbn [firstn foldM]. rewrite HA. cbn [bind]. now apply align_all_forward.
      * intros [= ->]. exists 0, a, l. split; [reflexivity|]. split; [|exact HA].
        now apply align_all_forward.
    + intros (k & b & u & Hb & HF & HE). apply align_all_forward in HF. destruct k as [|k].
      * cbn in Hb, HF. injection Hb as <-. injection HF as <-. rewrite HE. reflexivity.
      * unfold align_all in HF. cbn [firstn foldM nth_error] in *.
        destruct (align a l) as [m|e']; cbn [bind] in *; [|discriminate].
        apply IH. exists k, b, u. split; [exact Hb|]. split; [|exact HE]. now apply align_all_forward.
Qed.

Lemma align_inverse_all_error E als : forall l e,
  align_inverse_all E als l = Err e <->
  exists k a u, nth_error als k = Some a /\ labels_backward E (skipn (S k) als) l u /\
    align_inverse E a u = Err e.
Proof.
  induction als as [|a als IH]; intros l e.
  - split; [discriminate|]. intros ([|k] & a & u & H & _); discriminate.
  - rewrite align_inverse_cons. split.
    + destruct (align_inverse_all E als l) as [m|e'] eqn:HA; cbn [bind].
      * intros HE. exists 0, a, m. split; [reflexivity|]. split; [|exact HE].
        cbn [skipn]. now apply align_all_backward.
      * intros [= ->]. apply IH in HA. destruct HA as (k & b & u & Hb & HB & HE).
        exists (S k), b, u. auto.
    + intros ([|k] & b & u & Hb & HB & HE).
      * cbn in Hb. injection Hb as <-. cbn [skipn] in HB. apply align_all_backward in HB.
        rewrite HB. exact HE.
      * assert (align_inverse_all E als l = Err e) as ->; [|reflexivity].
        apply IH. exists k, b, u. auto.
Qed.

(** C37 on a datum *)
Lemma transform_ok E p d y is l als coll :
  transform E p d = Ok (y, is, l, als, coll) <->
  exists u l0, unpack_datum d = Ok (u, is, l0) /\ stepwise E (steps p) (SStr u) y als coll /\
    labels_forward als l0 l.
Proof.
  unfold transform, transform_sequence. split.
  - destruct (unpack_datum d) as [[[u is'] l0]|e]; cbn [bind]; [|discriminate].
    destruct (run E (steps p) (SStr u)) as [[[y' al'] co']|e] eqn:HR; cbn [bind]; [|discriminate].
    destruct (align_all al' l0) as [l'|e] eqn:HA; cbn [bind]; [|discriminate].
    intros [= <- <- <- <- <-]. exists u, l0. split; [reflexivity|]. split.
    + now apply run_stepwise.
    + now apply align_all_forward.
  - intros (u & l0 & HU & HR & HA). rewrite HU. cbn [bind].
    apply run_stepwise in HR. rewrite HR. cbn [bind].
    apply align_all_forward in HA. rewrite HA. reflexivity.
Qed.

(** ** Dictionaries *)

Lemma dict_get_In {V} (d : list (str * V)) k v : dict_get d k = Some v -> In (k, v) d.
Proof.
  induction d as [|[k' v'] d IH]; cbn [dict_get]; [discriminate|].
  destruct (eqb_spec k k') as [->|N]; [intros [= ->]; now left|]. intros H. right. auto.
Qed.
Lemma dict_get_None {V} (d : list (str * V)) k : dict_get d k = None <-> ~ In k (map fst d).
Proof.
  induction d as [|[k' v'] d IH]; cbn [dict_get map fst In]; [tauto|].
  destruct (eqb_spec k k') as [->|N]; [split; [discriminate|tauto]|]. rewrite IH. intuition congruence.
Qed.
Lemma dict_get_Some {V} (d : list (str * V)) k v :
  NoDup (map fst d) -> In (k, v) d -> dict_get d k = Some v.
Proof.
  induction d as [|[k' v'] d IH]; cbn [dict_get map fst In]; [tauto|].
  intros HND. inversion HND as [|? ? N ND]; subst. intros [[= -> ->]|H].
  - destruct (eqb_spec k k); congruence.
  - destruct (eqb_spec k k') as [->|]; [|auto]. exfalso. apply N. apply (in_map fst) in H. exact H.
Qed.
Lemma dict_mem_spec {V} (d : list (str * V)) k : dict_mem d k = true <-> In k (map fst d).
Proof.
  unfold dict_mem. pose proof (dict_get_None d k) as H. destruct (dict_get d k) eqn:E.
  - split; [|reflexivity]. intros _. apply dict_get_In in E. apply (in_map fst) in E. exact E.
  - split; [discriminate|]. intros HI. exfalso. apply H; auto.
Qed.
Lemma dict_set_get {V} (d : list (str * V)) k v k' :
  dict_get (dict_set d k v) k' = if eqb k' k then Some v else dict_get d k'.
Proof.
  induction d as [|[k0 v0] d IH]; cbn [dict_set dict_get]; [destruct (eqb_spec k' k); reflexivity|].
  destruct (eqb_spec k k0) as [->|N]; cbn [dict_get].
  - destruct (eqb_spec k' k0); reflexivity.
  - destruct (eqb_spec k' k0) as [->|N']; [|exact IH].
    destruct (eqb_spec k0 k); [congruence|reflexivity].
Qed.
Lemma dict_set_keys {V} (d : list (str * V)) k v :
  map fst (dict_set d k v) = if dict_mem d k then map fst d else map fst d ++ [k].
Proof.
  unfold dict_mem.
  induction d as [|[k0 v0] d IH]; cbn [dict_set dict_get map fst]; [reflexivity|].
  destruct (eqb_spec k k0) as [->|N]; cbn [map fst]; [reflexivity|].
  rewrite IH. destruct (dict_get d k); reflexivity.
Qed.
Lemma dict_set_NoDup {V} (d : list (str * V)) k v : NoDup (map fst d) -> NoDup (map fst (dict_set d k v)).
Proof.
  intros ND. rewrite dict_set_keys. destruct (dict_mem d k) eqn:E; [exact ND|].
  apply (Permutation_NoDup (l := k :: map fst d)); [apply Permutation_cons_append|].
  constructor; [|exact ND]. rewrite <- dict_mem_spec. congruence.
Qed.

(** ** Checkpoints *)

Lemma add_op_steps p o ck :
  steps (fst (add_op p o ck)) = steps p ++ [o] \/
  (fst (add_op p o ck) = p /\ snd (add_op p o ck) = Some TypeErr).
Proof.
  unfold add_op. destruct (pipe_output_type p) as [t|e].
  - destruct (negb _); [now right|]. left. destruct ck; [destruct (dict_mem _ _)|]; reflexivity.
  - left. destruct ck; [destruct (dict_mem _ _)|]; reflexivity.
Qed.

Lemma add_op_get p o ck name i :
  dict_get (checkpoints p) name = Some i -> dict_get (checkpoints (fst (add_op p o ck))) name = Some i.
Proof.
  unfold add_op. intros H. assert (forall b : bool, forall e,
    dict_get (checkpoints (fst (if b then (p, Some e) else match ck with
      | None => (mkPipe (steps p ++ [o]) (checkpoints p), None)
      | Some name0 => if dict_mem (checkpoints p) name0
          then (mkPipe (steps p ++ [o]) (checkpoints p), Some KeyErr)
          else (mkPipe (steps p ++ [o]) (dict_set (checkpoints p) name0 (Z.of_nat (length (steps p ++ [o])))), None)
      end))) name = Some i) as G.
  { intros [] e; [exact H|]. destruct ck as [n|]; [|exact H].
    destruct (dict_mem (checkpoints p) n) eqn:E; [exact H|]. cbn [fst checkpoints].
    rewrite dict_set_get. destruct (eqb_spec name n) as [->|]; [|exact H].
    unfold dict_mem in E. rewrite H in E. discriminate. }
  apply G.
Qed.

Lemma after_get h : forall p name i,
  dict_get (checkpoints p) name = Some i -> dict_get (checkpoints (after p h)) name = Some i.
Proof.
  induction h as [|c h IH]; intros p name i H; [exact H|]. cbn. apply IH. now apply add_op_get.
Qed.

Lemma after_steps h : forall p, exists t, steps (after p h) = steps p ++ t.
Proof.
  induction h as [|c h IH]; intros p; [exists []; now rewrite app_nil_r|]. cbn.
  destruct (IH (fst (add_op p (fst c) (snd c)))) as (t & Ht).
  destruct (add_op_steps p (fst c) (snd c)) as [H|[H _]].
  - exists (fst c :: t). unfold after in Ht. rewrite Ht, H, <- app_assoc. reflexivity.
  - exists t. unfold after in Ht. now rewrite Ht, H.
Qed.

Lemma add_op_ok_named p o name : snd (add_op p o (Some name)) = None ->
  steps (fst (add_op p o (Some name))) = steps p ++ [o] /\
  dict_get (checkpoints (fst (add_op p o (Some name)))) name = Some (Z.of_nat (S (length (steps p)))).
Proof.
  intros H. destruct (add_op_steps p o (Some name)) as [HS|[_ E]]; [|rewrite E in H; discriminate].
  split; [exact HS|]. revert H. unfold add_op.
  destruct (pipe_output_type p) as [t|e]; [destruct (negb _); [discriminate|]|];
    (destruct (dict_mem (checkpoints p) name); [discriminate|]; cbn [fst snd checkpoints]; intros _;
     rewrite dict_set_get; destruct (eqb_spec name name); [|congruence];
     rewrite app_length; cbn [length]; do 2 f_equal; lia).
Qed.

Lemma add_op_ok_steps p o ck : snd (add_op p o ck) = None -> steps (fst (add_op p o ck)) = steps p ++ [o].
Proof.
  intros H. destruct (add_op_steps p o ck) as [HS|[_ E]]; [exact HS|]. rewrite E in H. discriminate.
Qed.

Lemma get_item_nth {A} (l : list A) (k : nat) x :
  nth_error l k = Some x -> get_item l (Z.of_nat k) = Ok x.
Proof.
  intros H. unfold get_item. assert (k < length l) by (apply nth_error_Some; congruence).
  replace (Z.of_nat k <? 0)%Z with false by (symmetry; apply Z.ltb_ge; lia).
  replace ((0 <=? Z.of_nat k) && (Z.of_nat k <? Z.of_nat (length l)))%Z with true
    by (symmetry; apply andb_true_intro; split; [apply Z.leb_le|apply Z.ltb_lt]; lia).
  rewrite Nat2Z.id, H. reflexivity.
Qed.
Lemma get_item_beyond {A} (l : list A) (i : Z) :
  (Z.of_nat (length l) <= i)%Z -> get_item l i = Err IndexErr.
Proof.
  intros H. unfold get_item.
  replace (i <? 0)%Z with false by (symmetry; apply Z.ltb_ge; lia).
  replace ((0 <=? i) && (i <? Z.of_nat (length l)))%Z with false
    by (symmetry; apply andb_false_intro2; apply Z.ltb_ge; lia).
  reflexivity.
Qed.

(** the intermediate at index k is the output of the first k operators *)
Lemma run_prefix E ops x y als coll k :
  run E ops x = Ok (y, als, coll) -> k <= length ops ->
  exists v, run E (firstn k ops) x = Ok (v, firstn k als, firstn (S k) coll) /\ nth_error coll k = Some v.
Proof.
  intros H HK. apply run_stepwise in H. destruct H as (HA & HC & H0 & HY & HS).
  destruct (nth_error coll k) as [v|] eqn:HV; [|apply nth_error_None in HV; lia].
  exists v. split; [|reflexivity]. apply run_stepwise. repeat split.
  - rewrite !firstn_length. lia.
  - rewrite !firstn_length. lia.
  - destruct coll; [discriminate|]. exact H0.
  - rewrite firstn_length, Nat.min_l by lia.
    rewrite <- HV. clear. revert coll. induction k as [|k IH]; intros [|c coll]; try reflexivity.
    change (nth_error (firstn (S k) coll) k = nth_error coll k). apply IH.
  - intros j o Ho.
    assert (j < k).
    { assert (j < length (firstn k ops)) by (apply nth_error_Some; congruence). rewrite firstn_length in *. lia. }
    assert (FN : forall (T : Type) (l : list T) n m, m < n -> nth_error (firstn n l) m = nth_error l m).
    { clear. intros T l n. revert l. induction n as [|n IH]; intros l m H; [lia|].
      destruct l as [|t l]; [destruct m; reflexivity|]. destruct m as [|m]; [reflexivity|]. cbn. apply IH. lia. }
    rewrite FN in Ho by auto. destruct (HS j o Ho) as (u & w & a & Hu & Hw & Ha & HT).
    exists u, w, a. rewrite !FN by lia. auto.
Qed.

(** C38 *)
Theorem checkpoint_meaning E h k o name x y als coll :
  all_succeed pipe_new h -> nth_error h k = Some (o, Some name) ->
  transform_sequence E (after pipe_new h) x = Ok (y, als, coll) ->
  exists v, transform_sequence E (mkPipe (map fst (firstn (S k) h)) []) x
              = Ok (v, firstn (S k) als, firstn (S (S k)) coll) /\
    get_from_checkpoint (checkpoints (after pipe_new h)) coll name = Ok v.
Proof.
  intros HS HK HR.
  assert (G : forall h p, all_succeed p h ->
      steps (after p h) = steps p ++ map fst h /\
      (forall k o name, nth_error h k = Some (o, Some name) ->
         dict_get (checkpoints (after p h)) name = Some (Z.of_nat (S (length (steps p) + k))))).
  { clear. induction h as [|[o ck] h IH]; intros p HS.
    - split; [now rewrite app_nil_r|]. intros [|k]; discriminate.
    - destruct HS as [H1 HS]. cbn [fst snd] in *.
      pose proof (add_op_ok_steps _ _ _ H1) as E1. destruct (IH _ HS) as [I1 I2]. split.
      + cbn. unfold after in I1. rewrite I1, E1, <- app_assoc. reflexivity.
      + intros [|k] o' name Hk; cbn [nth_error] in Hk.
        * injection Hk as -> ->. destruct (add_op_ok_named _ _ _ H1) as [_ G].
          cbn. apply (after_get h) in G. unfold after in G. rewrite G. do 2 f_equal. lia.
        * specialize (I2 k o' name Hk). rewrite E1, app_length in I2. cbn [length] in I2.
          cbn. unfold after in I2. rewrite I2. do 2 f_equal. lia. }
  destruct (G h pipe_new HS) as [GS GC]. cbn [steps pipe_new app] in GS.
  specialize (GC k o name HK). cbn [steps pipe_new length plus] in GC.
  unfold transform_sequence in *. rewrite GS in HR. cbn [steps].
  assert (S k <= length (map fst h)).
  { rewrite map_length. apply nth_error_Some. unfold call in HK. rewrite HK. discriminate. }
  destruct (run_prefix E _ _ _ _ _ (S k) HR H) as (v & H1 & H2).
  exists v. rewrite <- firstn_map. split; [exact H1|].
  unfold get_from_checkpoint. rewrite GC. now apply get_item_nth.
Qed.

(** unknown names *)
Theorem checkpoint_unknown E h name x y als coll :
  (forall o, ~ In (o, Some name) h) -> transform_sequence E (after pipe_new h) x = Ok (y, als, coll) ->
  get_from_checkpoint (checkpoints (after pipe_new h)) coll name = Err KeyErr.
Proof.
  intros HN _. unfold get_from_checkpoint.
  assert (G : forall h p, (forall o, ~ In (o, Some name) h) -> dict_get (checkpoints p) name = None ->
    dict_get (checkpoints (after p h)) name = None).
  { clear. induction h as [|[o ck] h IH]; intros p HN H; [exact H|]. cbn. apply IH.
    - intros o' Ho. apply (HN o'). now right.
    - cbn [fst snd]. unfold add_op.
      assert (forall n, ck = Some n -> n <> name) as Nn by (intros n -> ->; apply (HN o); now left).
      destruct (pipe_output_type p) as [t|e]; [destruct (negb _); [exact H|]|];
        (destruct ck as [n|]; [|exact H]; destruct (dict_mem _ _); [exact H|]; cbn [fst checkpoints];
         rewrite dict_set_get; destruct (eqb_spec name n) as [->|]; [|exact H];
         exfalso; eapply Nn; reflexivity). }
  rewrite (G h pipe_new HN eq_refl). reflexivity.
Qed.

(** later calls do not change what a checkpoint name of an earlier run denotes *)
Theorem checkpoint_stable p h coll name v :
  get_from_checkpoint (checkpoints p) coll name = Ok v ->
  get_from_checkpoint (checkpoints (after p h)) coll name = Ok v.
Proof.
  unfold get_from_checkpoint. destruct (dict_get (checkpoints p) name) as [i|] eqn:H; [|discriminate].
  rewrite (after_get h p name i H). auto.
Qed.

(** a name added after the run *)
Theorem checkpoint_late E p o name x y als coll :
  transform_sequence E p x = Ok (y, als, coll) -> snd (add_op p o (Some name)) = None ->
  get_from_checkpoint (checkpoints p) coll name = Err KeyErr /\
  get_from_checkpoint (checkpoints (fst (add_op p o (Some name)))) coll name = Err IndexErr.
Proof.
  intros HR HA. destruct (add_op_ok_named _ _ _ HA) as [_ HG]. split.
  - unfold get_from_checkpoint. destruct (dict_get (checkpoints p) name) eqn:HD; [|reflexivity].
    exfalso. revert HA. unfold add_op, dict_mem. rewrite HD.
    destruct (pipe_output_type p) as [t|e]; [destruct (negb _); discriminate|discriminate].
  - unfold get_from_checkpoint. rewrite HG. apply get_item_beyond.
    apply run_stepwise in HR. destruct HR as (_ & HC & _). lia.
Qed.

Lemma dict_set_Forall {V} (Q : str * V -> Prop) d k v :
  (forall k', Q (k', v)) -> Forall Q d -> Forall Q (dict_set d k v).
Proof.
  intros Qv. induction 1 as [|[k' v'] d H1 H2 IH]; cbn [dict_set]; [auto|].
  destruct (eqb k k'); auto.
Qed.

Lemma add_op_in_range p o ck : in_range p -> in_range (fst (add_op p o ck)).
Proof.
  intros [ND R].
  assert (R' : Forall (fun kv : str * Z => (1 <= snd kv <= Z.of_nat (length (steps p ++ [o])))%Z) (checkpoints p)).
  { eapply Forall_impl; [|exact R]. intros kv. cbn. rewrite app_length. cbn. lia. }
  unfold add_op. destruct (pipe_output_type p) as [t|e]; [destruct (negb _); [now split|]|];
    (destruct ck as [n|]; [destruct (dict_mem _ _) eqn:EM|]; cbn [fst]; split; cbn [checkpoints steps]; auto;
     [now apply dict_set_NoDup|apply dict_set_Forall; [intros k; cbn; rewrite app_length; cbn; lia|exact R']]).
Qed.
Theorem after_in_range h : in_range (after pipe_new h).
Proof.
  assert (G : forall h p, in_range p -> in_range (after p h)).
  { clear. induction h as [|c h IH]; intros p H; [exact H|]. cbn. apply IH. now apply add_op_in_range. }
  apply G. split; constructor.
Qed.

(** ** Types *)

Lemma seqtype_eqb_spec a b : reflect (a = b) (seqtype_eqb a b).
Proof. destruct a, b; constructor; congruence. Qed.

Lemma last_opt_nth {A} (l : list A) : last_opt l = nth_error l (length l - 1).
Proof.
  destruct l as [|x l]; [reflexivity|]. cbn [last_opt length]. replace (S (length l) - 1) with (length l) by lia.
  revert x. induction l as [|y l IH]; intros x; [reflexivity|]. cbn [length nth_error]. rewrite <- IH.
  destruct l as [|z l]; [reflexivity|]. f_equal. change (last (z :: l) x = last (z :: l) y).
  clear. revert z. induction l as [|w l IH]; intros z; [reflexivity|]. apply IH.
Qed.

Lemma chained_app a b : chained a -> chained b ->
  (forall x y, last_opt a = Some x -> nth_error b 0 = Some y -> out_type x = in_type y) -> chained (a ++ b).
Proof.
  intros HA HB HJ k x y Hx Hy.
  destruct (Nat.lt_ge_cases (S k) (length a)) as [L|L].
  - rewrite nth_error_app1 in Hx by lia. rewrite nth_error_app1 in Hy by lia. eapply HA; eauto.
  - rewrite nth_error_app2 in Hy by lia.
    destruct (Nat.eq_dec (S k) (length a)) as [Q|Q].
    + rewrite nth_error_app1 in Hx by lia. apply HJ.
      * rewrite last_opt_nth, <- Q. now replace (S k - 1) with k by lia.
      * now replace (S k - length a) with 0 in Hy by lia.
    + rewrite nth_error_app2 in Hx by lia. apply (HB (k - length a)); auto.
      now replace (S (k - length a)) with (S k - length a) by lia.
Qed.

Lemma add_op_chained p o ck : chained (steps p) -> chained (steps (fst (add_op p o ck))).
Proof.
  intros H. destruct (add_op_steps p o ck) as [HS|[HS _]]; [|now rewrite HS].
  rewrite HS. apply chained_app; [exact H| |].
  - intros [|k] a b; [discriminate|]. destruct k; discriminate.
  - intros x y Hx Hy. cbn in Hy. injection Hy as <-.
    revert HS. unfold add_op, pipe_output_type. rewrite Hx.
    destruct (seqtype_eqb_spec (in_type o) (out_type x)) as [Q|Q]; [auto|]. cbn [negb fst].
    intros HS. exfalso. apply (f_equal (@length _)) in HS. rewrite app_length in HS. cbn in HS. lia.
Qed.

Lemma nth_error_sub {A} (l : list A) n m k :
  nth_error (firstn m (skipn n l)) k = if k <? m then nth_error l (n + k) else None.
Proof.
  destruct (Nat.ltb_spec k m) as [L|L].
  - revert m k L. revert l. induction n as [|n IH]; intros l m k L.
    + cbn [skipn plus]. revert m k L. induction l as [|x l IHl]; intros m k L; [destruct m, k; reflexivity|].
      destruct m as [|m]; [lia|]. destruct k as [|k]; [reflexivity|]. cbn. apply IHl. lia.
    + destruct l as [|x l]; [cbn [skipn]; rewrite firstn_nil; destruct k; reflexivity|]. cbn. now apply IH.
  - apply nth_error_None. rewrite firstn_length. lia.
Qed.

Lemma chained_sub l n m : chained l -> chained (firstn m (skipn n l)).
Proof.
  intros H k a b. rewrite !nth_error_sub.
  destruct (k <? m); [|discriminate]. destruct (S k <? m); [|discriminate].
  intros Ha Hb. apply (H (n + k)); auto. now replace (S (n + k)) with (n + S k) by lia.
Qed.

(** ** Slices *)

Lemma indices_up fuel : forall i bound,
  indices fuel i bound 1 = map (fun k => (i + Z.of_nat k)%Z) (seq 0 (Nat.min fuel (Z.to_nat (bound - i)))).
Proof.
  induction fuel as [|fuel IH]; intros i bound; [reflexivity|].
  cbn [indices]. change (1 <? 0)%Z with false. cbv iota. destruct (Z.ltb_spec i bound) as [L|L].
  - rewrite IH. replace (Nat.min (S fuel) (Z.to_nat (bound - i)))
      with (S (Nat.min fuel (Z.to_nat (bound - (i + 1))))) by lia.
    cbn [seq map]. f_equal; [lia|]. rewrite <- seq_shift, map_map. apply map_ext. intros k. lia.
  - replace (Z.to_nat (bound - i)) with 0 by lia. rewrite Nat.min_0_r. reflexivity.
Qed.

Lemma mapM_get_item {A} (l : list A) n m :
  n + m <= length l ->
  mapM (get_item l) (map (fun k => (Z.of_nat n + Z.of_nat k)%Z) (seq 0 m)) = Ok (firstn m (skipn n l)).
Proof.
  revert n. induction m as [|m IH]; intros n H; [reflexivity|].
  cbn [seq map mapM].
  destruct (nth_error l n) as [x|] eqn:HX; [|apply nth_error_None in HX; lia].
  replace (Z.of_nat n + Z.of_nat 0)%Z with (Z.of_nat n) by lia.
  rewrite (get_item_nth _ _ _ HX). cbn [bind].
  rewrite <- seq_shift, map_map.
  rewrite (map_ext _ (fun k => (Z.of_nat (S n) + Z.of_nat k)%Z)) by (intros; lia).
  rewrite IH by lia. cbn [bind]. f_equal.
  assert (skipn n l = x :: skipn (S n) l) as ->; [|reflexivity].
  clear -HX. revert l HX. induction n as [|n IH]; intros [|y l]; try discriminate; cbn.
  - now intros [= ->].
  - apply IH.
Qed.

Lemma get_slice_1 {A} (l : list A) start stop step :
  (step = None \/ step = Some 1%Z) ->
  exists n m, n + m <= length l /\ get_slice l (start, stop, step) = Ok (firstn m (skipn n l)) /\
    (forall a b, start = Some (Z.of_nat a) -> stop = Some (Z.of_nat b) ->
       n = Nat.min a (length l) /\ m = Nat.min b (length l) - n).
Proof.
  intros HST.
  assert (HS : match step with None => 1%Z | Some z => z end = 1%Z) by (destruct HST as [-> | ->]; reflexivity).
  unfold get_slice. rewrite HS. change (negb (1 =? 0)%Z) with true. cbn [guard bind].
  unfold slice_bounds. change (1 <? 0)%Z with false. cbv iota.
  set (N := Z.of_nat (length l)).
  set (clip := fun z : Z => let z0 := if (z <? 0)%Z then (z + N)%Z else z in
                 if (z0 <? 0)%Z then 0%Z else if (N <? z0)%Z then N else z0).
  assert (HC : forall z, (0 <= clip z <= N)%Z).
  { intros z. unfold clip. cbv zeta. destruct (Z.ltb_spec z 0);
      (match goal with |- context [(?a <? 0)%Z] => destruct (Z.ltb_spec a 0) end);
      try (match goal with |- context [(N <? ?a)%Z] => destruct (Z.ltb_spec N a) end); unfold N in *; lia. }
  assert (HP : forall a, clip (Z.of_nat a) = Z.of_nat (Nat.min a (length l))).
  { intros a. unfold clip. cbv zeta. destruct (Z.ltb_spec (Z.of_nat a) 0); [lia|].
    destruct (Z.ltb_spec (Z.of_nat a) 0); [lia|].
    destruct (Z.ltb_spec N (Z.of_nat a)); unfold N in *; lia. }
  set (i := match start with Some z => clip z | None => 0%Z end).
  set (bound := match stop with Some z => clip z | None => N end).
  assert (HI : (0 <= i <= N)%Z) by (unfold i; destruct start; [apply HC|unfold N; lia]).
  assert (HB : (0 <= bound <= N)%Z) by (unfold bound; destruct stop; [apply HC|unfold N; lia]).
  exists (Z.to_nat i), (Z.to_nat bound - Z.to_nat i).
  split; [unfold N in *; lia|]. split.
  - change (mapM (get_item l) (indices (length l) i bound 1) = Ok (firstn (Z.to_nat bound - Z.to_nat i) (skipn (Z.to_nat i) l))).
    rewrite indices_up.
    replace (Nat.min (length l) (Z.to_nat (bound - i))) with (Z.to_nat bound - Z.to_nat i) by (unfold N in *; lia).
    rewrite <- (mapM_get_item l (Z.to_nat i)) by (unfold N in *; lia).
    f_equal. apply map_ext. intros k. lia.
  - intros a b -> ->. unfold i, bound. rewrite !HP, !Nat2Z.id. auto.
Qed.

Lemma slice_steps p sl q : getitem_slice p sl = Ok q -> get_slice (steps p) sl = Ok (steps q).
Proof.
  unfold getitem_slice. destruct (get_slice (steps p) sl) as [s|]; cbn [bind]; [|discriminate].
  destruct sl as [[[start|] stop] step]; [intros [= <-]; reflexivity|].
  destruct (checkpoints p); [intros [= <-]; reflexivity|discriminate].
Qed.

(** C41 *)
Theorem slice_ok p a b q :
  a <= b -> getitem_slice p (Some (Z.of_nat a), Some (Z.of_nat b), None) = Ok q ->
  steps q = firstn (b - a) (skipn a (steps p)).
Proof.
  intros HAB HQ. apply slice_steps in HQ.
  destruct (get_slice_1 (steps p) (Some (Z.of_nat a)) (Some (Z.of_nat b)) None (or_introl eq_refl))
    as (n & m & HL & HG & HN).
  rewrite HG in HQ. injection HQ as <-. destruct (HN a b eq_refl eq_refl) as [-> ->].
  destruct (Nat.le_gt_cases a (length (steps p))) as [L|L].
  - rewrite (Nat.min_l a) by lia. destruct (Nat.le_gt_cases b (length (steps p))).
    + now rewrite Nat.min_l by lia.
    + rewrite Nat.min_r by lia. rewrite !firstn_all2; try (rewrite skipn_length; lia). reflexivity.
  - rewrite (Nat.min_r a) by lia. rewrite skipn_all. rewrite (skipn_all2 (n := a)) by lia.
    now rewrite !firstn_nil.
Qed.

(** Indexing a pipe *)
Theorem item_spec p i :
  let n := Z.of_nat (length (steps p)) in
  ((0 <= i < n)%Z -> exists o, nth_error (steps p) (Z.to_nat i) = Some o /\ getitem p i = Ok o) /\
  ((- n <= i < 0)%Z -> exists o, nth_error (steps p) (Z.to_nat (n + i)) = Some o /\ getitem p i = Ok o) /\
  ((i < - n \/ n <= i)%Z -> getitem p i = Err IndexErr).
Proof.
  intros n. unfold getitem, get_item. fold n.
  assert (K : forall j, (0 <= j < n)%Z -> exists o, nth_error (steps p) (Z.to_nat j) = Some o).
  { intros j Hj. destruct (nth_error (steps p) (Z.to_nat j)) as [o|] eqn:E; [eauto|].
    apply nth_error_None in E. lia. }
  split; [|split].
  - intros Hi. destruct (K i Hi) as (o & E). exists o. split; [exact E|].
    destruct (Z.ltb_spec i 0); [lia|]. destruct (Z.leb_spec 0 i); [|lia].
    destruct (Z.ltb_spec i n); [|lia]. cbn [andb]. now rewrite E.
  - intros Hi. destruct (K (n + i)%Z ltac:(lia)) as (o & E). exists o. split; [exact E|].
    destruct (Z.ltb_spec i 0); [|lia]. rewrite (Z.add_comm i n). destruct (Z.leb_spec 0 (n + i)); [|lia].
    destruct (Z.ltb_spec (n + i) n); [|lia]. cbn [andb]. now rewrite E.
  - intros Hi. destruct (Z.ltb_spec i 0).
    + destruct (Z.leb_spec 0 (i + n)); [lia|reflexivity].
    + destruct (Z.ltb_spec i n); [lia|]. now rewrite andb_false_r.
Qed.

Theorem slice_total p a b :
  exists q, getitem_slice p (Some a, Some b, None) = Ok q.
Proof.
  unfold getitem_slice.
  destruct (get_slice_1 (steps p) (Some a) (Some b) None (or_introl eq_refl)) as (n & m & _ & -> & _).
  cbn [bind]. eexists. reflexivity.
Qed.

Lemma filter_keys_get (d : list (str * Z)) (f : Z -> bool) (g : Z -> Z) name :
  NoDup (map fst d) ->
  dict_get (map (fun kv => (fst kv, g (snd kv))) (filter (fun kv => f (snd kv)) d)) name =
  match dict_get d name with
  | Some i => if f i then Some (g i) else None
  | None => None
  end.
Proof.
  induction d as [|[k i] d IH]; [reflexivity|]. cbn [map fst]. intros HND. inversion HND as [|? ? HN ND]; subst.
  specialize (IH ND). cbn [filter snd dict_get].
  destruct (eqb_spec name k) as [->|N].
  - destruct (f i) eqn:F; cbn [map dict_get fst snd].
    + destruct (eqb_spec k k); congruence.
    + rewrite IH. apply dict_get_None in HN. now rewrite HN.
  - destruct (f i); cbn [map dict_get fst snd]; [|exact IH].
    destruct (eqb_spec name k); [congruence|exact IH].
Qed.

(** What a checkpoint of [p] denotes in the slice. *)
Theorem slice_checkpoints E p a b q x y als coll name i :
  in_range p -> a <= b <= length (steps p) ->
  getitem_slice p (Some (Z.of_nat a), Some (Z.of_nat b), None) = Ok q ->
  transform_sequence E p x = Ok (y, als, coll) ->
  dict_get (checkpoints p) name = Some (Z.of_nat i) ->
  exists x' y', nth_error coll a = Some x' /\ nth_error coll b = Some y' /\
    let coll' := firstn (S (b - a)) (skipn a coll) in
    transform_sequence E q x' = Ok (y', firstn (b - a) (skipn a als), coll') /\
    (a < i <= b -> get_from_checkpoint (checkpoints q) coll' name =
                   get_from_checkpoint (checkpoints p) coll name) /\
    (i <= a -> get_from_checkpoint (checkpoints q) coll' name = Err KeyErr) /\
    (b < i -> get_from_checkpoint (checkpoints q) coll' name = Err IndexErr).
Proof.
  intros [ND HR] HAB HQ HT HI.
  assert (HSQ := slice_ok p a b q (proj1 HAB) HQ).
  assert (HCQ : checkpoints q = map (fun kv => (fst kv, (snd kv - Z.of_nat a)%Z))
                  (filter (fun kv => (Z.of_nat a <? snd kv)%Z) (checkpoints p))).
  { revert HQ. unfold getitem_slice. destruct (get_slice _ _); cbn [bind]; [|discriminate].
    intros [= <-]. reflexivity. }
  unfold transform_sequence in *. pose proof HT as HS. apply run_stepwise in HS.
  destruct HS as (LA & LC & H0 & HY & HS).
  destruct (nth_error coll a) as [x'|] eqn:HX; [|apply nth_error_None in HX; lia].
  destruct (nth_error coll b) as [y'|] eqn:HY'; [|apply nth_error_None in HY'; lia].
  exists x', y'. split; [reflexivity|]. split; [reflexivity|].
  assert (HLQ : length (steps q) = b - a) by (rewrite HSQ, firstn_length, skipn_length; lia).
  assert (HLC : length (firstn (S (b - a)) (skipn a coll)) = S (b - a))
    by (rewrite firstn_length, skipn_length; lia).
  cbv zeta. split.
  - apply run_stepwise. split; [rewrite HLQ, firstn_length, skipn_length; lia|].
    split; [lia|]. split; [|split].
    + rewrite nth_error_sub. cbn. now rewrite Nat.add_0_r.
    + rewrite HLQ, nth_error_sub. replace (b - a <? S (b - a)) with true by (symmetry; apply Nat.ltb_lt; lia).
      now replace (a + (b - a)) with b by lia.
    + intros k o. rewrite HSQ, nth_error_sub. destruct (Nat.ltb_spec k (b - a)) as [L|L]; [|discriminate].
      intros Ho. destruct (HS _ _ Ho) as (u & v & al & Hu & Hv & Hal & HTr).
      exists u, v, al. rewrite !nth_error_sub.
      replace (k <? S (b - a)) with true by (symmetry; apply Nat.ltb_lt; lia).
      replace (S k <? S (b - a)) with true by (symmetry; apply Nat.ltb_lt; lia).
      replace (k <? b - a) with true by (symmetry; apply Nat.ltb_lt; lia).
      replace (a + S k) with (S (a + k)) by lia. auto.
  - unfold get_from_checkpoint. rewrite HCQ.
    rewrite (filter_keys_get (checkpoints p) (fun i => (Z.of_nat a <? i)%Z) (fun i => (i - Z.of_nat a)%Z) name ND).
    rewrite HI. split; [|split].
    + intros HAI. replace (Z.of_nat a <? Z.of_nat i)%Z with true by (symmetry; apply Z.ltb_lt; lia).
      replace (Z.of_nat i - Z.of_nat a)%Z with (Z.of_nat (i - a)) by lia.
      destruct (nth_error coll i) as [w|] eqn:HW; [|apply nth_error_None in HW; lia].
      rewrite (get_item_nth coll i w HW). apply get_item_nth. rewrite nth_error_sub.
      replace (i - a <? S (b - a)) with true by (symmetry; apply Nat.ltb_lt; lia).
      now replace (a + (i - a)) with i by lia.
    + intros HAI. replace (Z.of_nat a <? Z.of_nat i)%Z with false by (symmetry; apply Z.ltb_ge; lia). reflexivity.
    + intros HAI. replace (Z.of_nat a <? Z.of_nat i)%Z with true by (symmetry; apply Z.ltb_lt; lia).
      apply get_item_beyond. rewrite HLC. lia.
Qed.

Theorem slice_without_start p stop step :
  (step = None \/ step = Some 1%Z) ->
  (checkpoints p <> [] -> getitem_slice p (None, stop, step) = Err TypeErr) /\
  (checkpoints p = [] -> exists q, getitem_slice p (None, stop, step) = Ok q /\ checkpoints q = []).
Proof.
  intros HS. unfold getitem_slice. destruct (get_slice_1 (steps p) None stop step HS) as (n & m & _ & -> & _).
  cbn [bind]. destruct (checkpoints p); split; try congruence; eauto.
Qed.

(** ** Concatenation *)

Lemma pipe_in_nth p : pipe_input_type p = match nth_error (steps p) 0 with Some o => Ok (in_type o) | None => Err IndexErr end.
Proof. unfold pipe_input_type. destruct (steps p); reflexivity. Qed.

Lemma shared_names p q :
  existsb (fun kv => dict_mem (checkpoints q) (fst kv)) (checkpoints p) = false <-> disjoint_names p q.
Proof.
  unfold disjoint_names. split.
  - intros H name Hp Hq. apply in_map_iff in Hp. destruct Hp as ([k i] & <- & Hki).
    rewrite <- dict_mem_spec in Hq.
    assert (existsb (fun kv => dict_mem (checkpoints q) (fst kv)) (checkpoints p) = true); [|congruence].
    apply existsb_exists. exists (k, i). auto.
  - intros H. destruct (existsb _ _) eqn:E; [|reflexivity]. exfalso.
    apply existsb_exists in E. destruct E as ([k i] & Hki & HM). apply dict_mem_spec in HM.
    apply (H k); [|exact HM]. apply (in_map fst) in Hki. exact Hki.
Qed.

(** the cases of [p += q] *)
Theorem iadd_cases p q :
  (steps p = [] \/ steps q = [] -> iadd p q = (p, Some IndexErr)) /\
  (steps p <> [] -> steps q <> [] -> ~ joinable p q -> iadd p q = (p, Some TypeErr)) /\
  (joinable p q -> ~ disjoint_names p q -> iadd p q = (p, Some KeyErr)) /\
  (joinable p q -> disjoint_names p q ->
     snd (iadd p q) = None /\ steps (fst (iadd p q)) = steps p ++ steps q).
Proof.
  assert (LN : forall A (l : list A), last_opt l = None -> l = []) by (intros A [|x l]; [auto|discriminate]).
  unfold iadd, joinable. rewrite pipe_in_nth. unfold pipe_output_type. split; [|split; [|split]].
  - intros [-> | ->]; cbn; [reflexivity|]. destruct (last_opt (steps p)); reflexivity.
  - intros HP HQ HJ.
    destruct (last_opt (steps p)) as [a|] eqn:HA; [|elim HP; auto].
    destruct (steps q) as [|b qs] eqn:HB; [congruence|]. cbn [nth_error] in *.
    destruct (seqtype_eqb_spec (out_type a) (in_type b)) as [Q|Q]; [|reflexivity].
    exfalso. apply HJ. exists a, b. auto.
  - intros (a & b & HA & HB & HT) HD. rewrite HA, HB.
    destruct (seqtype_eqb_spec (out_type a) (in_type b)); [|congruence]. cbn [negb].
    destruct (existsb _ _) eqn:E; [reflexivity|]. exfalso. apply HD. now apply shared_names.
  - intros (a & b & HA & HB & HT) HD. rewrite HA, HB.
    destruct (seqtype_eqb_spec (out_type a) (in_type b)); [|congruence]. cbn [negb].
    apply shared_names in HD. rewrite HD. split; reflexivity.
Qed.

Lemma copy_id p : copy p = p.
Proof. destruct p; reflexivity. Qed.

Lemma concat_inv p q r : concat_pipes p q = Ok r ->
  joinable p q /\ disjoint_names p q /\ r = fst (iadd p q) /\ steps r = steps p ++ steps q.
Proof.
  unfold concat_pipes. rewrite copy_id. intros H.
  destruct (iadd_cases p q) as (C1 & C2 & C3 & C4).
  assert (HP : steps p <> []) by (intros Q; rewrite C1 in H by auto; discriminate).
  assert (HQ : steps q <> []) by (intros Q; rewrite C1 in H by auto; discriminate).
  assert (HJ : joinable p q).
  { destruct (last_opt (steps p)) as [a|] eqn:HA; [|destruct (steps p); [congruence|discriminate]].
    destruct (steps q) as [|b qs] eqn:HB; [congruence|].
    destruct (seqtype_eqb_spec (out_type a) (in_type b)) as [Q|Q].
    - exists a, b. rewrite HB. auto.
    - rewrite C2 in H; auto; [discriminate|]. intros (a' & b' & HA' & HB' & HT).
      rewrite HB in HB'. cbn in HB'. congruence. }
  assert (HD : disjoint_names p q).
  { apply shared_names. destruct (existsb _ _) eqn:E; [|reflexivity]. exfalso.
    rewrite C3 in H; auto; [discriminate|]. rewrite <- shared_names. congruence. }
  destruct (C4 HJ HD) as [S1 S2]. destruct (iadd p q) as [r' [e|]]; [discriminate|].
  injection H as <-. cbn in *. auto.
Qed.

Theorem concat_succeeds p q :
  (exists r, concat_pipes p q = Ok r) <-> joinable p q /\ disjoint_names p q.
Proof.
  split.
  - intros (r & H). apply concat_inv in H. tauto.
  - intros [HJ HD]. destruct (iadd_cases p q) as (_ & _ & _ & C4). destruct (C4 HJ HD) as [S1 _].
    unfold concat_pipes. rewrite copy_id. destruct (iadd p q) as [r [e|]]; [discriminate|]. eauto.
Qed.

Theorem concat_errors p q :
  (steps p = [] \/ steps q = [] -> concat_pipes p q = Err IndexErr) /\
  (steps p <> [] -> steps q <> [] -> ~ joinable p q -> concat_pipes p q = Err TypeErr) /\
  (joinable p q -> ~ disjoint_names p q -> concat_pipes p q = Err KeyErr).
Proof.
  destruct (iadd_cases p q) as (C1 & C2 & C3 & _). unfold concat_pipes. rewrite copy_id.
  split; [|split]; intros.
  - now rewrite C1.
  - now rewrite C2.
  - now rewrite C3.
Qed.

(** C40 *)
Theorem concat_runs E p q r x :
  concat_pipes p q = Ok r ->
  transform_sequence E r x =
  ('(y, al, co) <- transform_sequence E p x ;;
   '(z, al', co') <- transform_sequence E q y ;; Ok (z, al ++ al', co ++ tl co')).
Proof.
  intros H. apply concat_inv in H. destruct H as (_ & _ & _ & HS).
  unfold transform_sequence. rewrite HS. apply run_app.
Qed.

Theorem align_all_app als als' l :
  align_all (als ++ als') l = (m <- align_all als l ;; align_all als' m).
Proof. apply foldM_app. Qed.
Theorem align_inverse_all_app E als als' l :
  align_inverse_all E (als ++ als') l = (m <- align_inverse_all E als' l ;; align_inverse_all E als m).
Proof. unfold align_inverse_all. rewrite rev_app_distr. apply foldM_app. Qed.

Lemma dict_update_new (d e : list (str * Z)) :
  NoDup (map fst e) -> (forall k, In k (map fst e) -> ~ In k (map fst d)) -> dict_update d e = d ++ e.
Proof.
  revert d. induction e as [|[k v] e IH]; intros d ND H; [now rewrite app_nil_r|].
  cbn [dict_update fold_left fst snd]. inversion ND; subst.
  assert (dict_set d k v = d ++ [(k, v)]) as ->.
  { assert (~ In k (map fst d)) as N by (apply H; now left). clear -N.
    induction d as [|[k' v'] d IH]; cbn [dict_set map fst In app] in *; [reflexivity|].
    destruct (eqb_spec k k') as [->|]; [exfalso; auto|]. rewrite IH by tauto. reflexivity. }
  unfold dict_update in IH. rewrite IH; auto.
  - now rewrite <- app_assoc.
  - intros k' Hk'. rewrite map_app, in_app_iff. cbn. intros [N|[->|[]]].
    + apply (H k'); [now right|exact N].
    + auto.
Qed.

Lemma dict_get_app {V} (d e : list (str * V)) k :
  dict_get (d ++ e) k = match dict_get d k with Some v => Some v | None => dict_get e k end.
Proof.
  induction d as [|[k' v'] d IH]; cbn [app dict_get]; [reflexivity|]. destruct (eqb k k'); auto.
Qed.

(** the checkpoints of [p] keep their meaning, those of [q] are never found *)
Theorem concat_checkpoints E p q r x y als coll name :
  in_range p -> in_range q -> concat_pipes p q = Ok r ->
  transform_sequence E r x = Ok (y, als, coll) ->
  (In name (map fst (checkpoints p)) ->
     exists v y' al' co', transform_sequence E p x = Ok (y', al', co') /\
       get_from_checkpoint (checkpoints p) co' name = Ok v /\
       get_from_checkpoint (checkpoints r) coll name = Ok v) /\
  (In name (map fst (checkpoints q)) -> get_from_checkpoint (checkpoints r) coll name = Err IndexErr).
Proof.
  intros [NP RP] [NQ RQ] HC HT. pose proof (concat_inv _ _ _ HC) as (HJ & HD & HR & HS).
  destruct (iadd_cases p q) as (_ & _ & _ & C4).
  assert (HCK : checkpoints r = checkpoints p ++
    map (fun kv => (fst kv, (snd kv + Z.of_nat (length (steps p ++ steps q)))%Z)) (checkpoints q)).
  { rewrite HR. destruct HJ as (a & b & HA & HB & HTy). unfold iadd. rewrite pipe_in_nth.
    unfold pipe_output_type. rewrite HA, HB. destruct (seqtype_eqb_spec (out_type a) (in_type b)); [|congruence].
    cbn [negb]. apply shared_names in HD. rewrite HD. cbn [fst checkpoints].
    apply shared_names in HD. apply dict_update_new.
    - rewrite map_map. cbn. exact NQ.
    - intros k. rewrite map_map. cbn. intros Hk Hp. apply (HD k Hp Hk). }
  pose proof HT as HT'. rewrite (concat_runs E p q r x HC) in HT'.
  destruct (transform_sequence E p x) as [[[yp alp] cop]|e] eqn:HP; cbn [bind] in HT'; [|discriminate].
  destruct (transform_sequence E q yp) as [[[yq alq] coq]|e] eqn:HQ; cbn [bind] in HT'; [|discriminate].
  injection HT' as <- <- HCO.
  unfold transform_sequence in HP. apply run_stepwise in HP. destruct HP as (_ & LCP & _).
  unfold transform_sequence in HT. apply run_stepwise in HT. destruct HT as (_ & LCR & _).
  unfold get_from_checkpoint. rewrite HCK. split.
  - intros HI. destruct (dict_get (checkpoints p) name) as [i|] eqn:HG; [|apply dict_get_None in HG; contradiction].
    pose proof (dict_get_In _ _ _ HG) as HIn. rewrite Forall_forall in RP. specialize (RP _ HIn). cbn in RP.
    replace i with (Z.of_nat (Z.to_nat i)) in * by lia. set (j := Z.to_nat i) in *.
    destruct (nth_error cop j) as [v|] eqn:HV; [|apply nth_error_None in HV; lia].
    exists v, yp, alp, cop. split; [reflexivity|]. split; [now apply get_item_nth|].
    rewrite dict_get_app, HG. apply get_item_nth. rewrite <- HCO. rewrite nth_error_app1 by lia. exact HV.
  - intros HI. rewrite dict_get_app.
    assert (HNP : dict_get (checkpoints p) name = None).
    { apply dict_get_None. intros Hp. exact (HD name Hp HI). }
    rewrite HNP.
    destruct (dict_get (checkpoints q) name) as [i|] eqn:HG; [|apply dict_get_None in HG; contradiction].
    pose proof (dict_get_In _ _ _ HG) as HIn. rewrite Forall_forall in RQ. specialize (RQ _ HIn). cbn in RQ.
    assert (HM : dict_get (map (fun kv => (fst kv, (snd kv + Z.of_nat (length (steps p ++ steps q)))%Z))
                   (checkpoints q)) name = Some (i + Z.of_nat (length (steps p ++ steps q)))%Z).
    { apply dict_get_Some; [rewrite map_map; exact NQ|].
      apply in_map_iff. exists (name, i). auto. }
    rewrite HM. apply get_item_beyond. rewrite LCR, HS. lia.
Qed.

Theorem concat_steps_assoc p q r pq qr a b :
  concat_pipes p q = Ok pq -> concat_pipes q r = Ok qr ->
  concat_pipes pq r = Ok a -> concat_pipes p qr = Ok b -> steps a = steps b.
Proof.
  intros H1 H2 H3 H4. apply concat_inv in H1, H2, H3, H4.
  destruct H1 as (_ & _ & _ & H1), H2 as (_ & _ & _ & H2), H3 as (_ & _ & _ & H3), H4 as (_ & _ & _ & H4).
  rewrite H3, H1, H4, H2. now rewrite app_assoc.
Qed.

(** C39 *)
Theorem reachable_chained E p : reachable E p -> chained (steps p).
Proof.
  assert (G : forall p q, chained (steps p) -> chained (steps q) -> chained (steps (fst (iadd p q)))).
  { clear. intros p q HP HQ. destruct (iadd_cases p q) as (C1 & C2 & C3 & C4).
    assert (D : joinable p q \/ ~ joinable p q).
    { unfold joinable. destruct (last_opt (steps p)) as [a|]; [|right; intros (a & b & H & _); discriminate].
      destruct (nth_error (steps q) 0) as [b|]; [|right; intros (a' & b & _ & H & _); discriminate].
      destruct (seqtype_eqb_spec (out_type a) (in_type b)); [left; eauto|].
      right. intros (a' & b' & [= <-] & [= <-] & H). contradiction. }
    destruct (steps p) eqn:EP; [rewrite C1 by auto; cbn; now rewrite EP|].
    destruct (steps q) eqn:EQ; [rewrite C1 by auto; cbn; now rewrite EP|].
    rewrite <- EP, <- EQ in *.
    destruct D as [HJ|HJ]; [|rewrite C2; auto; congruence].
    destruct (existsb (fun kv => dict_mem (checkpoints q) (fst kv)) (checkpoints p)) eqn:ED.
    - rewrite C3; auto. rewrite <- shared_names. congruence.
    - apply shared_names in ED. destruct (C4 HJ ED) as [_ ->].
      destruct HJ as (a & b & HA & HB & HT). apply chained_app; auto. intros x y Hx Hy. congruence. }
  induction 1 as [|p o ck _ IH _|p reg name kw ck _ IH _|p q _ IHp _ IHq|p q r _ IHp _ IHq HC|p _ IH
                  |p start stop q _ IH HS|p start stop q _ IH HS].
  - intros [|k] a b; discriminate.
  - now apply add_op_chained.
  - unfold add. destruct (op_from_dict _ _ _); [now apply add_op_chained|exact IH].
  - now apply G.
  - apply concat_inv in HC. destruct HC as (_ & _ & -> & _). now apply G.
  - exact IH.
  - apply slice_steps in HS. destruct (get_slice_1 (steps p) start stop None (or_introl eq_refl)) as (n & m & _ & HG & _).
    rewrite HG in HS. injection HS as <-. now apply chained_sub.
  - apply slice_steps in HS. destruct (get_slice_1 (steps p) start stop (Some 1%Z) (or_intror eq_refl)) as (n & m & _ & HG & _).
    rewrite HG in HS. injection HS as <-. now apply chained_sub.
Qed.

Lemma transform_out_type E o x y a : transform_op E o x = Ok (y, a) ->
  type_of x = input_type o /\ type_of y = output_type o.
Proof.
  unfold transform_op. destruct (seqtype_eqb_spec (type_of x) (input_type o)) as [HX|]; cbn [guard bind]; [|discriminate].
  destruct (match x with SStr s => transform_str E o s | SLst l => transform_lst E o l end) as [[y' a']|]; cbn [bind]; [|discriminate].
  cbn [fst]. destruct (seqtype_eqb_spec (type_of y') (output_type o)) as [HY|]; cbn [guard bind]; [|discriminate].
  intros [= <- <-]. auto.
Qed.

(** what reaches an operator has the type it wants *)
Theorem types_match E ops x o k u al co :
  chained ops -> (forall o0, nth_error ops 0 = Some o0 -> type_of x = in_type o0) ->
  nth_error ops k = Some o -> run E (firstn k ops) x = Ok (u, al, co) -> type_of u = in_type o.
Proof.
  intros HC H0 HO HR. destruct k as [|k].
  - cbn in HR. injection HR as <- _ _. now apply H0.
  - assert (k < length ops) by (assert (S k < length ops) by (apply nth_error_Some; congruence); lia).
    destruct (nth_error ops k) as [o'|] eqn:HO'; [|apply nth_error_None in HO'; lia].
    rewrite <- (HC k o' o HO' HO).
    apply run_stepwise in HR. destruct HR as (_ & _ & _ & HY & HS).
    assert (LF : length (firstn (S k) ops) = S k) by (rewrite firstn_length; lia).
    rewrite LF in HY.
    assert (HF : nth_error (firstn (S k) ops) k = Some o').
    { rewrite <- (app_nil_r (firstn (S k) ops)). change ops with (skipn 0 ops). rewrite app_nil_r.
      rewrite nth_error_sub. replace (k <? S k) with true by (symmetry; apply Nat.ltb_lt; lia). exact HO'. }
    destruct (HS k o' HF) as (w & v & a & Hw & Hv & Ha & HT).
    rewrite Hv in HY. injection HY as <-. apply transform_out_type in HT. exact (proj2 HT).
Qed.

(** a call either extends the pipe or leaves it unchanged with a TypeError *)
Theorem add_op_effect p o ck :
  let mismatch := exists l, last_opt (steps p) = Some l /\ out_type l <> in_type o in
  (mismatch -> add_op p o ck = (p, Some TypeErr)) /\
  (~ mismatch -> ck = None -> add_op p o ck = (mkPipe (steps p ++ [o]) (checkpoints p), None)) /\
  (~ mismatch -> forall name, ck = Some name -> ~ In name (map fst (checkpoints p)) ->
     add_op p o ck = (mkPipe (steps p ++ [o])
                        (checkpoints p ++ [(name, Z.of_nat (length (steps p) + 1))]), None)) /\
  (~ mismatch -> forall name, ck = Some name -> In name (map fst (checkpoints p)) ->
     add_op p o ck = (mkPipe (steps p ++ [o]) (checkpoints p), Some KeyErr)).
Proof.
  cbv zeta. unfold add_op, pipe_output_type.
  assert (SN : forall name z, ~ In name (map fst (checkpoints p)) ->
    dict_set (checkpoints p) name z = checkpoints p ++ [(name, z)]).
  { intros name z N. pose proof (dict_update_new (checkpoints p) [(name, z)]) as U. cbn in U.
    apply U; [repeat constructor; auto|]. intros k [<-|[]]. exact N. }
  assert (MF : forall name, ~ In name (map fst (checkpoints p)) -> dict_mem (checkpoints p) name = false).
  { intros name N. rewrite <- dict_mem_spec in N. now apply not_true_is_false. }
  split; [|split; [|split]].
  - intros (l & HL & HT). rewrite HL. destruct (seqtype_eqb_spec (in_type o) (out_type l)); [congruence|reflexivity].
  - intros HM ->. destruct (last_opt (steps p)) as [l|]; [|reflexivity].
    destruct (seqtype_eqb_spec (in_type o) (out_type l)); [reflexivity|].
    exfalso. apply HM. exists l. split; congruence.
  - intros HM name -> HN. rewrite (MF name HN), SN by auto. rewrite app_length. cbn [length].
    destruct (last_opt (steps p)) as [l|]; [|reflexivity].
    destruct (seqtype_eqb_spec (in_type o) (out_type l)); [reflexivity|].
    exfalso. apply HM. exists l. split; congruence.
  - intros HM name -> HN. apply dict_mem_spec in HN. rewrite HN.
    destruct (last_opt (steps p)) as [l|]; [|reflexivity].
    destruct (seqtype_eqb_spec (in_type o) (out_type l)); [reflexivity|].
    exfalso. apply HM. exists l. split; congruence.
Qed.
