(** Proofs about unpack_datum and pack_to_datum. *)

From Coq Require Import QArith Sorted.
From Verif Require Import Py PyFacts Json Elements SpecElements DatumProofs.
Local Open Scope Z_scope.

(** ** Lists as python uses them *)

Lemma zrange_nil a b : b <= a -> zrange a b = [].
Proof. intros H. unfold zrange. now replace (Z.to_nat (b - a)) with 0%nat by lia. Qed.

Lemma zrange_cons a b : a < b -> zrange a b = a :: zrange (a + 1) b.
Proof.
  intros H. unfold zrange. replace (Z.to_nat (b - a)) with (S (Z.to_nat (b - (a + 1)))) by lia.
  cbn [seq map]. f_equal; [lia|]. rewrite <- seq_shift, map_map. apply map_ext. intros n. lia.
Qed.

Lemma zrange_ind (P : Z -> Prop) b :
  (forall a, b <= a -> P a) -> (forall a, a < b -> P (a + 1) -> P a) -> forall a, P a.
Proof.
  intros H0 H1 a. remember (Z.to_nat (b - a)) as n eqn:E. revert a E.
  induction n as [|n IH]; intros a E; [apply H0; lia|]. apply H1; [lia|apply IH; lia].
Qed.

Lemma in_zrange x a b : In x (zrange a b) <-> a <= x < b.
Proof.
  unfold zrange. rewrite in_map_iff. split.
  - intros (n & <- & HN). apply in_seq in HN. lia.
  - intros H. exists (Z.to_nat (x - a)). split; [lia|]. apply in_seq. lia.
Qed.

Lemma length_zrange a b : length (zrange a b) = Z.to_nat (b - a).
Proof. unfold zrange. now rewrite map_length, seq_length. Qed.

Lemma zrange_split a m b : a <= m <= b -> zrange a b = (zrange a m ++ zrange m b)%list.
Proof.
  intros H. unfold zrange. replace (Z.to_nat (b - a)) with (Z.to_nat (m - a) + Z.to_nat (b - m))%nat by lia.
  rewrite seq_app, map_app. f_equal. cbn.
  apply nth_ext with (d := 0) (d' := 0); [now rewrite !map_length, !seq_length|].
  intros n HN. rewrite map_length, seq_length in HN.
  rewrite (nth_indep _ 0 (a + Z.of_nat 0)) by now rewrite map_length, seq_length.
  rewrite map_nth with (f := fun n => a + Z.of_nat n), seq_nth by lia.
  rewrite (nth_indep _ 0 (m + Z.of_nat 0)) by now rewrite map_length, seq_length.
  rewrite map_nth with (f := fun n => m + Z.of_nat n), seq_nth by lia. lia.
Qed.

Lemma upd_length {A} (l : list A) n x : length (upd l n x) = length l.
Proof. revert n; induction l as [|y l IH]; intros [|n]; cbn; auto. Qed.

Lemma nth_upd {A} (l : list A) n x i d : (n < length l)%nat ->
  nth i (upd l n x) d = if Nat.eqb i n then x else nth i l d.
Proof.
  revert n i; induction l as [|y l IH]; intros n i H; [cbn in H; lia|].
  destruct n as [|n], i as [|i]; try reflexivity.
  change (nth i (upd l n x) d = if Nat.eqb i n then x else nth i l d). apply IH. cbn in H. lia.
Qed.

Lemma get_item_nth {A} (l : list A) i d : 0 <= i < Z.of_nat (length l) ->
  get_item l i = Ok (nth (Z.to_nat i) l d).
Proof.
  intros H. unfold get_item. destruct (Z.ltb_spec i 0); [lia|].
  destruct (Z.leb_spec 0 i); [|lia]. destruct (Z.ltb_spec i (Z.of_nat (length l))); [|lia]. cbn [andb].
  destruct (nth_error l (Z.to_nat i)) eqn:E.
  - now rewrite (nth_error_nth _ _ d E).
  - apply nth_error_None in E. lia.
Qed.

Lemma set_item_ok {A} (l : list A) i x : 0 <= i < Z.of_nat (length l) ->
  set_item l i x = Ok (upd l (Z.to_nat i) x).
Proof.
  intros H. unfold set_item. destruct (Z.ltb_spec i 0); [lia|].
  destruct (Z.leb_spec 0 i); [|lia]. destruct (Z.ltb_spec i (Z.of_nat (length l))); [|lia]. reflexivity.
Qed.

Lemma set_item_cases {A} (l : list A) i x :
  (- Z.of_nat (length l) <= i < Z.of_nat (length l) /\
   exists m, set_item l i x = Ok m /\ length m = length l) \/
  (~ (- Z.of_nat (length l) <= i < Z.of_nat (length l)) /\ set_item l i x = Err IndexErr).
Proof.
  unfold set_item. destruct (Z.ltb_spec i 0);
  match goal with |- context [?a <=? ?b] => destruct (Z.leb_spec a b) end;
  match goal with |- context [(_ && (?a <? ?b))%bool] => destruct (Z.ltb_spec a b) end; cbn [andb];
  try (right; split; [lia|reflexivity]);
  left; (split; [lia|]); eexists; (split; [reflexivity|apply upd_length]).
Qed.

(** ** unpack_datum *)

Lemma foldM_app {A B} (f : B -> A -> res B) l m b :
  foldM f (l ++ m) b = (b' <- foldM f l b ;; foldM f m b').
Proof. revert b; induction l as [|x l IH]; intros b; cbn; [reflexivity|]. destruct (f b x); cbn; auto. Qed.

(** the positions are written iff they exist *)
Lemma write_cases l : forall stop start (ls : list Z),
  let n := Z.of_nat (length ls) in
  ((start < stop -> - n <= start /\ stop <= n) /\ exists m,
     foldM (fun ls i => set_item ls i l) (zrange start stop) ls = Ok m /\ length m = length ls) \/
  ((start < stop /\ ~ (- n <= start /\ stop <= n)) /\
     foldM (fun ls i => set_item ls i l) (zrange start stop) ls = Err IndexErr).
Proof.
  intros stop start. pattern start. apply (zrange_ind _ stop); clear start.
  - intros a H ls n. rewrite zrange_nil by exact H. left. split; [lia|]. exists ls. split; reflexivity.
  - intros a H IH ls n. rewrite zrange_cons by exact H. cbn [foldM].
    destruct (set_item_cases ls a l) as [(HA & m & -> & HM)|(HA & ->)]; cbn [bind].
    + destruct (IH m) as [(I1 & m' & -> & I2)|(I1 & ->)].
      * left. split; [|exists m'; split; [reflexivity|lia]].
        intros _. rewrite HM in I1. fold n in I1, HA. split; [lia|].
        destruct (Z.ltb_spec (a + 1) stop); [apply I1; assumption|lia].
      * right. split; [|reflexivity]. rewrite HM in I1. fold n in I1, HA. split; [exact H|]. lia.
    + right. split; [|reflexivity]. split; [exact H|]. fold n in HA. lia.
Qed.

Lemma write_value l : forall stop start (ls : list Z), 0 <= start -> stop <= Z.of_nat (length ls) ->
  exists m, foldM (fun ls i => set_item ls i l) (zrange start stop) ls = Ok m /\
    length m = length ls /\
    forall i, 0 <= i -> at_ m i = if (start <=? i) && (i <? stop) then l else at_ ls i.
Proof.
  intros stop start. pattern start. apply (zrange_ind _ stop); clear start.
  - intros a H ls H0 HL. rewrite zrange_nil by exact H. exists ls. split; [reflexivity|].
    split; [reflexivity|]. intros i HI.
    destruct (Z.leb_spec a i), (Z.ltb_spec i stop); cbn [andb]; try reflexivity. lia.
  - intros a H IH ls H0 HL. rewrite zrange_cons by exact H. cbn [foldM].
    rewrite set_item_ok by lia. cbn [bind].
    destruct (IH (upd ls (Z.to_nat a) l)) as (m & E & LM & HM); [lia|rewrite upd_length; lia|].
    exists m. split; [exact E|]. rewrite upd_length in LM. split; [exact LM|].
    intros i HI. rewrite HM by exact HI. unfold at_. rewrite nth_upd by lia.
    destruct (Nat.eqb_spec (Z.to_nat i) (Z.to_nat a)) as [EQ|NE].
    + replace i with a in * by lia.
      destruct (Z.leb_spec (a + 1) a), (Z.leb_spec a a), (Z.ltb_spec a stop); cbn [andb]; try reflexivity; lia.
    + destruct (Z.leb_spec (a + 1) i), (Z.leb_spec a i), (Z.ltb_spec i stop); cbn [andb]; try reflexivity; lia.
Qed.

(** the last entity that covers a position decides *)
Fixpoint painted (es : list entity) (i : Z) (l : Z) : Z :=
  match es with
  | [] => l
  | e :: es => painted es i (if (e_start e <=? i) && (i <? e_end e) then e_label e else l)
  end.

Lemma unpack_painted es ls : Forall (fun e => 0 <= e_start e /\ e_end e <= Z.of_nat (length ls)) es ->
  exists m, foldM write_entity es ls = Ok m /\ length m = length ls /\
    forall i, 0 <= i -> at_ m i = painted es i (at_ ls i).
Proof.
  revert ls; induction es as [|e es IH]; intros ls HF.
  - exists ls. repeat split; reflexivity.
  - inversion HF as [|? ? (H0 & H1) HF']; subst. cbn [foldM]. unfold write_entity at 1.
    destruct (write_value (e_label e) (e_end e) (e_start e) ls) as (m & -> & LM & HM); [lia..|]. cbn [bind].
    destruct (IH m) as (m' & E & LM' & HM'); [now rewrite LM|].
    exists m'. split; [exact E|]. split; [lia|]. intros i HI. rewrite HM', HM by exact HI. reflexivity.
Qed.

Lemma painted_off es i l : (forall e, In e es -> ~ covers e i) -> painted es i l = l.
Proof.
  revert l; induction es as [|e es IH]; intros l H; [reflexivity|]. cbn.
  rewrite IH by (intros e' HE; apply H; now right).
  specialize (H e (or_introl eq_refl)). unfold covers in H.
  destruct (Z.leb_spec (e_start e) i), (Z.ltb_spec i (e_end e)); cbn; try reflexivity. lia.
Qed.

Lemma painted_on es i l e : StronglySorted before es -> Forall (fun e => e_start e <= e_end e) es ->
  In e es -> covers e i -> painted es i l = e_label e.
Proof.
  revert l; induction es as [|a es IH]; intros l HS HF HE HC; [destruct HE|].
  apply StronglySorted_inv in HS. destruct HS as (HS & HA).
  inversion HF as [|? ? HL HF']; subst. cbn.
  destruct HE as [->|HE].
  - rewrite painted_off.
    + unfold covers in HC. destruct (Z.leb_spec (e_start e) i), (Z.ltb_spec i (e_end e)); cbn; try reflexivity; lia.
    + intros b HB. rewrite Forall_forall in HA. specialize (HA b HB). unfold before, covers in *. lia.
  - now apply IH.
Qed.

Lemma painted_labelled es i : StronglySorted before es -> Forall (fun e => e_start e <= e_end e) es ->
  labelled es i (painted es i 0).
Proof.
  intros HS HF. destruct (existsb (fun e => (e_start e <=? i) && (i <? e_end e)) es) eqn:EX.
  - apply existsb_exists in EX. destruct EX as (e & HE & HC).
    assert (covers e i) by (unfold covers; lia). left. exists e. split; [exact HE|]. split; [assumption|].
    symmetry. now apply painted_on.
  - right. assert (HN : forall e, In e es -> ~ covers e i).
    { intros e HE HC. enough (existsb (fun e => (e_start e <=? i) && (i <? e_end e)) es = true) by congruence.
      apply existsb_exists. exists e. split; [exact HE|]. unfold covers in HC. lia. }
    split; [exact HN|]. now apply painted_off.
Qed.

Lemma labelled_unique es i l m : StronglySorted before es ->
  labelled es i l -> labelled es i m -> l = m.
Proof.
  intros HS HL HM.
  destruct HL as [(a & HA & CA & <-)|(NA & ->)], HM as [(b & HB & CB & <-)|(NB & ->)].
  - assert (a = b) as ->; [|reflexivity]. clear - HS HA CA HB CB.
    induction es as [|e es IH]; [destruct HA|].
    apply StronglySorted_inv in HS. destruct HS as (HS & HE). rewrite Forall_forall in HE.
    unfold before, covers in *.
    destruct HA as [->|HA], HB as [->|HB]; [reflexivity|specialize (HE b HB); lia|specialize (HE a HA); lia|].
    now apply IH.
  - destruct (NB a HA CA).
  - destruct (NA b HB CB).
  - reflexivity.
Qed.

Lemma at_repeat n i : at_ (repeat 0 n) i = 0.
Proof. unfold at_. apply nth_repeat. Qed.

Lemma unpack_inside d : is_datum d -> Forall (inside (d_utterance d)) (d_entities d) ->
  exists ls, unpack_datum d = Ok (d_utterance d, d_intents d, ls) /\
    length ls = length (d_utterance d) /\
    forall i, 0 <= i < Z.of_nat (length (d_utterance d)) -> labelled (d_entities d) i (at_ ls i).
Proof.
  intros HD HI. apply is_datum_inv in HD. destruct HD as (_ & _ & _ & _ & HB & _).
  unfold unpack_datum.
  destruct (unpack_painted (d_entities d) (repeat 0 (length (d_utterance d)))) as (m & -> & LM & HM).
  { rewrite repeat_length. eapply Forall_impl; [|exact HI]. unfold inside. cbn. lia. }
  rewrite repeat_length in LM. cbn [bind]. exists m. split; [reflexivity|]. split; [exact LM|].
  intros i (H0 & _). rewrite HM by exact H0. rewrite at_repeat. apply painted_labelled; [exact HB|].
  eapply Forall_impl; [|exact HI]. unfold inside. cbn. lia.
Qed.

(** [unpack] succeeds iff every non-empty entity has positions that python can write *)
Lemma unpack_succeeds d :
  ((exists r, unpack_datum d = Ok r) <->
   Forall (fun e => e_start e < e_end e -> - Z.of_nat (length (d_utterance d)) <= e_start e /\
                    e_end e <= Z.of_nat (length (d_utterance d))) (d_entities d)) /\
  (forall x, unpack_datum d = Err x -> x = IndexErr).
Proof.
  unfold unpack_datum. set (n := Z.of_nat (length (d_utterance d))).
  assert (G : forall es (ls : list Z), Z.of_nat (length ls) = n ->
    ((exists m, foldM write_entity es ls = Ok m) <->
     Forall (fun e => e_start e < e_end e -> - n <= e_start e /\ e_end e <= n) es) /\
    (forall x, foldM write_entity es ls = Err x -> x = IndexErr)).
  { induction es as [|e es IH]; intros ls HL.
    - split; [split; [constructor|intros _; exists ls; reflexivity]|discriminate].
    - cbn [foldM]. unfold write_entity at 1 3.
      destruct (write_cases (e_label e) (e_end e) (e_start e) ls) as [(H1 & m & -> & H2)|(H1 & ->)];
        rewrite HL in H1; cbn [bind].
      + destruct (IH m) as (I1 & I2); [lia|]. split; [|exact I2]. rewrite I1. split.
        * intros HF. now constructor.
        * intros HF. now inversion HF.
      + split; [|intros x [= <-]; reflexivity]. split; [intros (m & HM); discriminate|].
        intros HF. inversion HF; subst. lia. }
  destruct (G (d_entities d) (repeat 0 (length (d_utterance d)))) as (G1 & G2);
    [rewrite repeat_length; reflexivity|].
  rewrite <- G1. destruct (foldM write_entity _ _) as [m|x]; cbn [bind].
  - split; [|discriminate]. split; [intros _; now exists m|intros _; eexists; reflexivity].
  - split; [|intros y [= <-]; now apply G2]. split; intros (m & HM); discriminate.
Qed.

(** ** Groups of equal labels *)

Definition flat (gs : list (Z * nat)) : list Z := flat_map (fun g => repeat (fst g) (snd g)) gs.
Definition total (gs : list (Z * nat)) : Z := Z.of_nat (length (flat gs)).

Fixpoint good (gs : list (Z * nat)) : Prop :=
  match gs with
  | [] => True
  | (v, n) :: gs => (0 < n)%nat /\ good gs /\ match gs with [] => True | (w, _) :: _ => v <> w end
  end.

Lemma good_cons v n gs : good ((v, n) :: gs) <->
  (0 < n)%nat /\ good gs /\ match gs with [] => True | (w, _) :: _ => v <> w end.
Proof. reflexivity. Qed.

Lemma groups_exist ls : exists gs, flat gs = ls /\ good gs.
Proof.
  induction ls as [|x ls (gs & <- & HG)]; [exists []; split; reflexivity|].
  destruct gs as [|[v n] gs].
  - exists [(x, 1%nat)]. split; [reflexivity|]. cbn. lia.
  - destruct (Z.eq_dec x v) as [->|N].
    + exists ((v, S n) :: gs). split; [reflexivity|].
      apply good_cons in HG. destruct HG as (_ & H1 & H2). apply good_cons. split; [lia|now split].
    + exists ((x, 1%nat) :: (v, n) :: gs). split; [reflexivity|].
      apply good_cons. split; [lia|]. split; [exact HG|exact N].
Qed.

Lemma flat_app a b : flat (a ++ b) = (flat a ++ flat b)%list.
Proof. apply flat_map_app. Qed.

Lemma flat_rev gs : flat (rev gs) = rev (flat gs).
Proof.
  induction gs as [|[v n] gs IH]; [reflexivity|]. cbn [rev]. rewrite flat_app, IH.
  unfold flat. cbn [flat_map fst snd]. rewrite rev_app_distr, app_nil_r. f_equal.
  clear. induction n as [|n IH]; [reflexivity|]. cbn [repeat rev]. rewrite <- IH. apply repeat_cons.
Qed.

Lemma good_app a v n b : good (a ++ (v, n) :: b) ->
  good ((v, n) :: b) /\ (forall a' w m, a = (a' ++ [(w, m)])%list -> w <> v /\ (0 < m)%nat).
Proof.
  induction a as [|[x k] a IH]; intros H.
  - split; [exact H|]. intros a' w m E. now destruct a'.
  - cbn [app] in H. apply good_cons in H. destruct H as (HK & HG & HN).
    destruct (IH HG) as (I1 & I2). split; [exact I1|].
    intros a' w m E. destruct a' as [|y a'].
    + injection E as -> -> ->. cbn in HN. auto.
    + injection E as _ E. now apply (I2 a' w m).
Qed.

Lemma good_rev gs : good gs -> good (rev gs).
Proof.
  assert (G : forall gs v n, good gs -> (0 < n)%nat ->
              (forall a' w m, gs = (a' ++ [(w, m)])%list -> w <> v) -> good (gs ++ [(v, n)])).
  { clear. induction gs as [|[x k] gs IH]; intros v n HG HN HL; [cbn; auto|].
    cbn [app]. apply good_cons in HG. destruct HG as (HK & HG & HX). apply good_cons.
    split; [exact HK|]. split.
    - apply IH; [exact HG|exact HN|]. intros a' w m ->. apply (HL ((x, k) :: a') w m eq_refl).
    - destruct gs as [|[w m] gs]; [|exact HX]. cbn. apply (HL [] x k eq_refl). }
  induction gs as [|[v n] gs IH]; intros HG; [exact I|].
  apply good_cons in HG. destruct HG as (HN & HG & HX). cbn [rev]. apply G; [now apply IH|exact HN|].
  intros a' w m E. assert (gs = (w, m) :: rev a') as ->.
  { rewrite <- (rev_involutive gs), E, rev_app_distr. reflexivity. }
  congruence.
Qed.

Lemma total_cons v n gs : total ((v, n) :: gs) = Z.of_nat n + total gs.
Proof. unfold total, flat. cbn [flat_map fst snd]. rewrite app_length, repeat_length. lia. Qed.

Fixpoint offsets (pos : Z) (gs : list (Z * nat)) : list Z :=
  match gs with [] => [] | (_, n) :: gs => pos :: offsets (pos + Z.of_nat n) gs end.

Lemma start_indices_skip v n i ls :
  start_indices_from i v (repeat v n ++ ls) = start_indices_from (i + Z.of_nat n) v ls.
Proof.
  revert i; induction n as [|n IH]; intros i; [cbn [repeat app]; f_equal; lia|].
  cbn [repeat app start_indices_from]. rewrite Z.eqb_refl. cbn [negb]. rewrite IH. f_equal; lia.
Qed.

Lemma start_indices_flat gs i cur : good gs ->
  match gs with [] => True | (v, _) :: _ => cur <> v end ->
  start_indices_from i cur (flat gs) = offsets i gs.
Proof.
  revert i cur; induction gs as [|[v n] gs IH]; intros i cur HG HC; [reflexivity|].
  apply good_cons in HG. destruct HG as (HN & HG & HX).
  destruct n as [|n]; [lia|]. unfold flat. cbn [flat_map fst snd]. fold (flat gs).
  cbn [repeat app start_indices_from]. destruct (Z.eqb_spec v cur); [congruence|]. cbn [negb offsets].
  f_equal. rewrite start_indices_skip, IH; [f_equal; lia|exact HG|]. exact HX.
Qed.

Lemma start_indices gs : good gs -> gs <> [] -> get_start_indices (flat gs) = Ok (offsets 0 gs).
Proof.
  destruct gs as [|[v n] gs]; [congruence|]. intros HG _. apply good_cons in HG.
  destruct HG as (HN & HG & HX).
  destruct n as [|n]; [lia|]. unfold flat. cbn [flat_map fst snd]. fold (flat gs).
  unfold get_start_indices. cbn [repeat app start_indices_from]. rewrite Z.eqb_refl. cbn [negb].
  rewrite start_indices_skip, start_indices_flat by assumption. cbn [offsets]. do 3 f_equal. lia.
Qed.

(** ** The filter in place *)

Definition nonzero (ls : list Z) (i : Z) : bool := negb (at_ ls i =? 0).

Lemma firstn_upd {A} (l : list A) j x : (j < length l)%nat ->
  firstn (S j) (upd l j x) = (firstn j l ++ [x])%list.
Proof.
  revert j; induction l as [|y l IH]; intros j H; [cbn in H; lia|].
  destruct j as [|j]; [reflexivity|].
  change (y :: firstn (S j) (upd l j x) = y :: (firstn j l ++ [x])%list).
  rewrite IH by (cbn in H; lia). reflexivity.
Qed.

Lemma skipn_upd {A} (l : list A) j k x : (j < k)%nat -> skipn k (upd l j x) = skipn k l.
Proof.
  revert j k; induction l as [|y l IH]; intros j k H; [reflexivity|].
  destruct k as [|k]; [lia|]. destruct j as [|j]; [reflexivity|].
  change (skipn k (upd l j x) = skipn k l). apply IH. lia.
Qed.

Lemma skipn_nth {A} (l : list A) i d : (i < length l)%nat -> skipn i l = nth i l d :: skipn (S i) l.
Proof.
  revert i; induction l as [|y l IH]; intros i H; [cbn in H; lia|].
  destruct i as [|i]; [reflexivity|]. change (skipn i l = nth i l d :: skipn (S i) l). apply IH. cbn in H; lia.
Qed.

Lemma meaningful_loop_spec ls n : forall idx i j,
  (n + i = length idx)%nat -> (j <= i)%nat ->
  Forall (fun p => 0 <= p < Z.of_nat (length ls)) (skipn i idx) ->
  meaningful_loop n ls idx i j = Ok (firstn j idx ++ filter (nonzero ls) (skipn i idx))%list.
Proof.
  induction n as [|n IH]; intros idx i j HN HJ HF.
  - cbn [meaningful_loop]. rewrite skipn_all2 by lia. cbn. now rewrite app_nil_r.
  - cbn [meaningful_loop]. rewrite (get_item_nth idx (Z.of_nat i) 0) by lia. cbn [bind].
    rewrite Nat2Z.id. rewrite (skipn_nth idx i 0) in HF |- * by lia.
    inversion HF as [|? ? HP HF']; subst.
    rewrite (get_item_nth ls (nth i idx 0) 0) by exact HP. cbn [bind filter].
    unfold nonzero at 1. unfold at_.
    destruct (Z.eqb_spec (nth (Z.to_nat (nth i idx 0)) ls 0) 0); cbn [negb].
    + apply IH; [lia|lia|exact HF'].
    + rewrite IH; [|rewrite upd_length; lia|lia|rewrite skipn_upd by lia; exact HF'].
      rewrite firstn_upd by lia. rewrite skipn_upd by lia. now rewrite <- app_assoc.
Qed.

(** ** The runs of a grouped list *)

Fixpoint mruns (pos : Z) (gs : list (Z * nat)) : list (Z * Z * Z) :=
  match gs with
  | [] => []
  | (v, n) :: gs =>
      let rest := mruns (pos + Z.of_nat n) gs in
      if v =? 0 then rest else (pos, pos + Z.of_nat n, v) :: rest
  end.

Definition r_s (r : Z * Z * Z) : Z := fst (fst r).
Definition r_t (r : Z * Z * Z) : Z := snd (fst r).
Definition r_l (r : Z * Z * Z) : Z := snd r.

Lemma at_app_l a b i : 0 <= i < Z.of_nat (length a) -> at_ (a ++ b) i = at_ a i.
Proof. intros H. unfold at_. apply app_nth1. lia. Qed.
Lemma at_app_r a b i : Z.of_nat (length a) <= i -> at_ (a ++ b) i = at_ b (i - Z.of_nat (length a)).
Proof. intros H. unfold at_. rewrite app_nth2 by lia. f_equal. lia. Qed.
Lemma at_rep v n i : 0 <= i < Z.of_nat n -> at_ (repeat v n) i = v.
Proof.
  intros H. unfold at_. rewrite (nth_indep _ 0 v) by (rewrite repeat_length; lia). apply nth_repeat.
Qed.

Lemma filter_offsets (pre : list Z) gs : good gs ->
  filter (nonzero (pre ++ flat gs)) (offsets (Z.of_nat (length pre)) gs) =
  map r_s (mruns (Z.of_nat (length pre)) gs).
Proof.
  revert pre; induction gs as [|[v n] gs IH]; intros pre HG; [reflexivity|].
  apply good_cons in HG. destruct HG as (HN & HG & _). cbn [offsets mruns filter].
  unfold nonzero at 1. rewrite at_app_r by lia. rewrite Z.sub_diag.
  unfold flat at 1. cbn [flat_map fst snd]. fold (flat gs).
  rewrite at_app_l by (rewrite repeat_length; lia). rewrite at_rep by lia.
  specialize (IH (pre ++ repeat v n)%list HG). rewrite app_length, repeat_length, Nat2Z.inj_add in IH.
  rewrite <- app_assoc in IH. change (repeat v n ++ flat gs)%list with (flat ((v, n) :: gs)) in IH.
  destruct (Z.eqb_spec v 0); cbn [negb map]; rewrite IH; reflexivity.
Qed.

Lemma offsets_range pos gs : good gs -> Forall (fun p => pos <= p < pos + total gs) (offsets pos gs).
Proof.
  revert pos; induction gs as [|[v n] gs IH]; intros pos HG; [constructor|].
  apply good_cons in HG. destruct HG as (HN & HG & _). rewrite total_cons. cbn [offsets].
  assert (0 <= total gs) by (unfold total; lia).
  constructor; [lia|]. eapply Forall_impl; [|apply IH, HG]. cbn. lia.
Qed.

Lemma meaningful gs : good gs -> gs <> [] ->
  get_meaningful_start_indices (flat gs) = Ok (map r_s (mruns 0 gs)).
Proof.
  intros HG HN. unfold get_meaningful_start_indices. rewrite start_indices by assumption. cbn [bind].
  rewrite meaningful_loop_spec; [|lia|lia|].
  - cbn [skipn firstn app]. pose proof (filter_offsets [] gs HG) as H. cbn [app length] in H.
    change (Z.of_nat 0) with 0 in H. now rewrite <- H.
  - cbn [skipn]. pose proof (offsets_range 0 gs HG) as H. eapply Forall_impl; [|exact H].
    cbn. unfold total. lia.
Qed.

Lemma total_nonneg gs : 0 <= total gs.
Proof. unfold total. lia. Qed.

Lemma total_rev gs : total (rev gs) = total gs.
Proof. unfold total. now rewrite flat_rev, rev_length. Qed.

Lemma total_app a b : total (a ++ b) = total a + total b.
Proof. unfold total. rewrite flat_app, app_length. lia. Qed.

Lemma mruns_app pos a b : mruns pos (a ++ b) = (mruns pos a ++ mruns (pos + total a) b)%list.
Proof.
  revert pos; induction a as [|[v n] a IH]; intros pos.
  - cbn. f_equal. unfold total. cbn. lia.
  - cbn [app mruns]. rewrite IH, total_cons, Z.add_assoc. now destruct (v =? 0).
Qed.

Lemma mruns_shift k pos gs :
  mruns (k + pos) gs = map (fun r => (k + r_s r, k + r_t r, r_l r)) (mruns pos gs).
Proof.
  revert pos; induction gs as [|[v n] gs IH]; intros pos; [reflexivity|]. cbn [mruns].
  rewrite <- Z.add_assoc, IH. now destruct (v =? 0).
Qed.

Lemma ends_rev gs : map (fun p => total gs - p) (rev (map r_s (mruns 0 (rev gs)))) = map r_t (mruns 0 gs).
Proof.
  induction gs as [|[v n] gs IH]; [reflexivity|]. cbn [rev]. rewrite mruns_app, map_app, rev_app_distr.
  rewrite map_app, total_rev, Z.add_0_l, total_cons. cbn [mruns].
  rewrite (Z.add_comm 0 (Z.of_nat n)), mruns_shift.
  assert (R : map (fun p => Z.of_nat n + total gs - p) (rev (map r_s (mruns 0 (rev gs)))) =
              map r_t (map (fun r => (Z.of_nat n + r_s r, Z.of_nat n + r_t r, r_l r)) (mruns 0 gs))).
  { rewrite !map_map. unfold r_t at 1. cbn [fst snd]. rewrite <- (map_map r_t (fun t => Z.of_nat n + t)), <- IH.
    rewrite map_map. apply map_ext. intros p. lia. }
  rewrite R. destruct (v =? 0); [reflexivity|]. cbn. f_equal. unfold r_s, r_t. cbn. lia.
Qed.

Lemma good_split_in pos gs r : In r (mruns pos gs) -> exists a v n b,
  gs = (a ++ (v, n) :: b)%list /\ v <> 0 /\ r = (pos + total a, pos + total a + Z.of_nat n, v).
Proof.
  revert pos; induction gs as [|[v n] gs IH]; intros pos HR; [destruct HR|].
  cbn [mruns] in HR.
  assert (G : In r (mruns (pos + Z.of_nat n) gs) -> exists a w m b,
    ((v, n) :: gs = a ++ (w, m) :: b)%list /\ w <> 0 /\ r = (pos + total a, pos + total a + Z.of_nat m, w)).
  { intros H. destruct (IH _ H) as (a & w & m & b & -> & HW & ->). exists ((v, n) :: a), w, m, b.
    split; [reflexivity|]. split; [exact HW|]. rewrite total_cons. apply f_equal2; [apply f_equal2; lia|reflexivity]. }
  destruct (Z.eqb_spec v 0); [exact (G HR)|]. destruct HR as [<-|HR]; [|exact (G HR)].
  exists [], v, n, gs. split; [reflexivity|]. split; [assumption|]. unfold total, flat. cbn [flat_map length]. apply f_equal2; [apply f_equal2; lia|reflexivity].
Qed.

Lemma exists_last' {A} (l : list A) : l = [] \/ exists a x, l = (a ++ [x])%list.
Proof.
  destruct l as [|x l]; [now left|right]. destruct (@exists_last _ (x :: l)) as (a & y & E); [discriminate|].
  now exists a, y.
Qed.

Lemma mruns_run gs r : good gs -> In r (mruns 0 gs) -> run (flat gs) (r_s r) (r_t r) (r_l r).
Proof.
  intros HG HR. apply good_split_in in HR. destruct HR as (a & v & n & b & -> & HV & ->).
  apply good_app in HG. destruct HG as (HG & HP). apply good_cons in HG. destruct HG as (HN & HG & HX).
  unfold r_s, r_t, r_l. cbn [fst snd]. rewrite !Z.add_0_l.
  rewrite flat_app. change (flat ((v, n) :: b)) with (repeat v n ++ flat b)%list.
  unfold run. rewrite !app_length, repeat_length.
  unfold total in *. split; [lia|]. split; [lia|]. split; [exact HV|]. split; [|split].
  - intros i HI. rewrite at_app_r by lia. rewrite at_app_l by (rewrite repeat_length; lia).
    apply at_rep. lia.
  - destruct (exists_last' a) as [->|(a' & [w m] & ->)]; [left; reflexivity|right].
    destruct (HP a' w m eq_refl) as (HW & HM).
    rewrite flat_app. unfold flat at 2 5. cbn [flat_map fst snd]. rewrite app_nil_r, <- app_assoc.
    rewrite app_length, repeat_length.
    rewrite at_app_r by lia. rewrite at_app_l by (rewrite repeat_length; lia). rewrite at_rep by lia. exact HW.
  - destruct b as [|[w m] b]; [left; cbn [flat flat_map length]; lia|right].
    apply good_cons in HG. destruct HG as (HM & _ & _).
    change (flat ((w, m) :: b)) with (repeat w m ++ flat b)%list.
    rewrite at_app_r by lia. rewrite at_app_r by (rewrite repeat_length; lia). rewrite repeat_length.
    rewrite at_app_l by (rewrite repeat_length; lia). rewrite at_rep by lia. auto.
Qed.

Lemma mruns_cover (pre : list Z) gs i : 0 <= i - Z.of_nat (length pre) < total gs ->
  at_ (pre ++ flat gs) i <> 0 ->
  exists r, In r (mruns (Z.of_nat (length pre)) gs) /\ r_s r <= i < r_t r.
Proof.
  revert pre; induction gs as [|[v n] gs IH]; intros pre HI HA; [unfold total in HI; cbn in HI; lia|].
  rewrite total_cons in HI. cbn [mruns].
  change (flat ((v, n) :: gs)) with (repeat v n ++ flat gs)%list in HA.
  destruct (Z.ltb_spec (i - Z.of_nat (length pre)) (Z.of_nat n)) as [L|L].
  - rewrite at_app_r in HA by lia. rewrite at_app_l in HA by (rewrite repeat_length; lia).
    rewrite at_rep in HA by lia. destruct (Z.eqb_spec v 0); [congruence|].
    eexists. split; [left; reflexivity|]. unfold r_s, r_t. cbn. lia.
  - specialize (IH (pre ++ repeat v n)%list). rewrite app_length, repeat_length, Nat2Z.inj_add in IH.
    rewrite <- app_assoc in IH. destruct IH as (r & HR & HC); [lia|exact HA|].
    exists r. split; [|exact HC]. destruct (v =? 0); [exact HR|now right].
Qed.

(** maximal runs that meet are the same *)
Lemma run_same ls s t l s' t' l' : run ls s t l -> run ls s' t' l' -> s' <= s < t' ->
  s = s' /\ t = t' /\ l = l'.
Proof.
  intros (A1 & A2 & A3 & A4 & A5 & A6) (B1 & B2 & B3 & B4 & B5 & B6) H.
  assert (l = l') as <-. { rewrite <- (A4 s) by lia. apply B4. lia. }
  assert (s = s') as <-.
  { destruct (Z.eq_dec s s') as [|N]; [assumption|]. exfalso.
    destruct A5 as [|A5]; [lia|]. apply A5, B4. lia. }
  split; [reflexivity|]. split; [|reflexivity].
  destruct (Z.lt_trichotomy t t') as [L|[E|L]]; [exfalso|exact E|exfalso].
  - destruct A6 as [|A6]; [lia|]. apply A6, B4. lia.
  - destruct B6 as [|B6]; [lia|]. apply B6, A4. lia.
Qed.

Lemma run_mruns gs s t l : good gs -> run (flat gs) s t l -> In (s, t, l) (mruns 0 gs).
Proof.
  intros HG HR. pose proof HR as (A1 & A2 & A3 & A4 & A5 & A6).
  destruct (mruns_cover [] gs s) as (r & HIn & HC).
  - cbn [length]. unfold total. lia.
  - cbn [app]. rewrite A4 by lia. exact A3.
  - pose proof (mruns_run gs r HG HIn) as HR'.
    destruct (run_same _ _ _ _ _ _ _ HR HR') as (-> & -> & ->); [exact HC|].
    now destruct r as [[? ?] ?].
Qed.

Lemma mruns_from pos gs r : In r (mruns pos gs) -> pos <= r_s r.
Proof.
  intros H. apply good_split_in in H. destruct H as (a & v & n & b & _ & _ & ->).
  unfold r_s. cbn. pose proof (total_nonneg a). lia.
Qed.

Lemma mruns_sorted pos gs : StronglySorted (fun a b => r_t a <= r_s b) (mruns pos gs).
Proof.
  revert pos; induction gs as [|[v n] gs IH]; intros pos; [constructor|]. cbn [mruns].
  destruct (v =? 0); [apply IH|]. constructor; [apply IH|]. apply Forall_forall.
  intros r HR. apply mruns_from in HR. exact HR.
Qed.

(** ** pack_to_datum *)

Definition run_entity (u : str) (r : Z * Z * Z) : entity :=
  mkEntity (r_l r) (slice_z u (r_s r) (r_t r)) (r_s r) (r_t r) [].

Lemma mapM_ok {A B} (f : A -> res B) (g : A -> B) l :
  Forall (fun x => f x = Ok (g x)) l -> mapM f l = Ok (map g l).
Proof. induction 1 as [|x l HX _ IH]; [reflexivity|]. cbn [mapM map]. rewrite HX, IH. reflexivity. Qed.

Lemma combine_map_map {A B C} (f : A -> B) (g : A -> C) l :
  combine (map f l) (map g l) = map (fun x => (f x, g x)) l.
Proof. induction l; cbn; congruence. Qed.

Lemma StronglySorted_map {A B} (R : B -> B -> Prop) (f : A -> B) l :
  StronglySorted (fun a b => R (f a) (f b)) l -> StronglySorted R (map f l).
Proof.
  induction 1 as [|x l _ IH HF]; cbn; constructor; [exact IH|].
  apply Forall_forall. intros y HY. apply in_map_iff in HY. destruct HY as (z & <- & HZ).
  rewrite Forall_forall in HF. now apply HF.
Qed.

Lemma StronglySorted_impl {A} (R S : A -> A -> Prop) l :
  (forall x y, In x l -> In y l -> R x y -> S x y) -> StronglySorted R l -> StronglySorted S l.
Proof.
  intros H HS. induction HS as [|x l HS IH HF]; constructor.
  - apply IH. intros a b HA HB. apply H; now right.
  - rewrite Forall_forall in *. intros y HY. apply H; [now left|now right|now apply HF].
Qed.

Lemma pack_runs u ints ls : length u = length ls -> u <> [] -> Forall i32 ints ->
  (forall s t l, run ls s t l -> i32 t /\ i32 l) ->
  exists gs, good gs /\ flat gs = ls /\
  pack_to_datum u ints ls =
    Ok (mkDatum u (sort_by intent_hash (sort_by (fun x => x) (dedup ints)))
                (map (run_entity u) (mruns 0 gs))).
Proof.
  intros HL HU HI HR. destruct (groups_exist ls) as (gs & HF & HG). exists gs.
  split; [exact HG|]. split; [exact HF|]. subst ls.
  assert (HN : gs <> []). { intros ->. destruct u; [congruence|discriminate]. }
  unfold pack_to_datum. rewrite HL, Nat.eqb_refl. cbn [guard bind].
  rewrite (mapM_ok make_intent (fun x => x)).
  2:{ apply Forall_forall. intros x HX. unfold make_intent. apply to_i32_ok.
      rewrite Forall_forall in HI. apply HI. apply in_dedup.
      eapply Permutation_in; [apply sort_by_perm|exact HX]. }
  rewrite map_id. cbn [bind]. rewrite meaningful by assumption. cbn [bind].
  rewrite <- flat_rev. rewrite meaningful.
  2:{ now apply good_rev. }
  2:{ intros E. apply HN. rewrite <- (rev_involutive gs), E. reflexivity. }
  cbn [bind].
  assert (E : rev (map r_s (mruns 0 (rev gs))) = map (fun r => total gs - r_t r) (mruns 0 gs)).
  { rewrite <- (map_map r_t (fun p => total gs - p)), <- ends_rev, map_map.
    rewrite <- (map_id (rev _)) at 1. apply map_ext. intros p. lia. }
  rewrite E, combine_map_map.
  rewrite (mapM_ok _ (fun st => run_entity u (fst st, total gs - snd st, at_ (flat gs) (fst st)))).
  2:{ apply Forall_forall. intros st HST. apply in_map_iff in HST. destruct HST as (r & <- & HIn).
      pose proof (mruns_run gs r HG HIn) as HRun. pose proof HRun as (A1 & A2 & A3 & A4 & _).
      destruct (HR _ _ _ HRun) as (B1 & B2).
      unfold pack_entity. replace (Z.of_nat (length u)) with (total gs) by (unfold total; lia).
      replace (total gs - (total gs - r_t r)) with (r_t r) by lia.
      rewrite (get_item_nth _ _ 0) by lia. cbn [bind]. fold (at_ (flat gs) (r_s r)). cbn [fst snd].
      rewrite (A4 (r_s r)) by lia. replace (total gs - (total gs - r_t r)) with (r_t r) by lia.
      rewrite make_entity_ok; [|exact B2|unfold i32 in *; lia|exact B1].
      reflexivity. }
  cbn [bind]. rewrite map_map. cbn [fst snd].
  assert (EE : map (fun x => run_entity u (r_s x, total gs - (total gs - r_t x), at_ (flat gs) (r_s x)))
                 (mruns 0 gs) = map (run_entity u) (mruns 0 gs)).
  { apply map_ext_in. intros r HIn. pose proof (mruns_run gs r HG HIn) as (A1 & A2 & A3 & A4 & _).
    rewrite (A4 (r_s r)) by lia. replace (total gs - (total gs - r_t r)) with (r_t r) by lia.
    now destruct r as [[? ?] ?]. }
  rewrite EE.
  assert (S1 : StronglySorted (fun a b => r_s a <= r_s b) (mruns 0 gs)).
  { eapply StronglySorted_impl; [|apply (mruns_sorted 0 gs)]. intros a b HA _ H. cbn in *.
    pose proof (mruns_run gs a HG HA) as (A1 & _). lia. }
  rewrite make_datum_ok.
  - do 2 f_equal. apply sort_by_id. apply StronglySorted_map. exact S1.
  - apply Forall_forall. intros e HE. apply in_map_iff in HE. destruct HE as (r & <- & _). reflexivity.
  - apply StronglySorted_map. pose proof (mruns_sorted 0 gs) as S2.
    clear - S1 S2. induction (mruns 0 gs) as [|r rs IH]; [constructor|].
    apply StronglySorted_inv in S1, S2. destruct S1 as (S1 & F1), S2 as (S2 & F2).
    constructor; [now apply IH|]. rewrite Forall_forall in *. intros b HB.
    specialize (F1 b HB). specialize (F2 b HB). cbn in F1. unfold apart, before. cbn.
    destruct (Z.leb_spec (r_s r) (r_s b)); lia.
Qed.

(** the entities of a packed datum are the maximal runs of the labels *)
Lemma pack_spec u ints ls : length u = length ls -> u <> [] -> Forall i32 ints ->
  (forall s t l, run ls s t l -> i32 t /\ i32 l) ->
  exists d, pack_to_datum u ints ls = Ok d /\ is_datum d /\
    d_utterance d = u /\ same_set (d_intents d) ints /\ NoDup (d_intents d) /\
    Forall (inside u) (d_entities d) /\
    (forall e, In e (d_entities d) -> e_replacements e = [] /\ text_at u (e_start e) (e_end e) (e_value e)) /\
    (forall s t l, run ls s t l <->
       exists e, In e (d_entities d) /\ e_start e = s /\ e_end e = t /\ e_label e = l) /\
    StronglySorted before (d_entities d).
Proof.
  intros HL HU HI HR. destruct (pack_runs u ints ls HL HU HI HR) as (gs & HG & HF & EQ).
  subst ls. eexists. split; [exact EQ|].
  set (rs := mruns 0 gs) in *.
  assert (RR : forall r, In r rs -> run (flat gs) (r_s r) (r_t r) (r_l r)).
  { intros r. now apply mruns_run. }
  cbn [d_utterance d_intents d_entities].
  assert (SB : StronglySorted before (map (run_entity u) rs)).
  { apply StronglySorted_map. apply (mruns_sorted 0 gs). }
  assert (IN : Forall (inside u) (map (run_entity u) rs)).
  { apply Forall_forall. intros e HE. apply in_map_iff in HE. destruct HE as (r & <- & HIn).
    destruct (RR r HIn) as (A1 & A2 & _). unfold inside, run_entity. cbn. lia. }
  split; [|split; [reflexivity|split; [|split; [|split; [exact IN|split; [|split; [|exact SB]]]]]]].
  - exists u, (sort_by (fun x => x) (dedup ints)), (map (run_entity u) rs). split; [|split].
    + rewrite make_datum_ok.
      * do 2 f_equal. apply sort_by_id. eapply StronglySorted_impl; [|exact SB].
        intros a b HA _ H. rewrite Forall_forall in IN. specialize (IN a HA). unfold before, inside in *. lia.
      * apply Forall_forall. intros e HE. apply in_map_iff in HE. destruct HE as (r & <- & _). reflexivity.
      * eapply StronglySorted_impl; [|exact SB]. intros a b HA _ H. rewrite Forall_forall in IN.
        specialize (IN a HA). unfold apart. unfold before, inside in *.
        destruct (Z.leb_spec (e_start a) (e_start b)); lia.
    + apply Forall_forall. intros x HX. apply is_intent_iff. rewrite Forall_forall in HI. apply HI.
      apply in_dedup. eapply Permutation_in; [apply sort_by_perm|exact HX].
    + apply Forall_forall. intros e HE. apply in_map_iff in HE. destruct HE as (r & <- & HIn).
      apply is_entity_iff. pose proof (RR r HIn) as HRun. destruct (HR _ _ _ HRun) as (B1 & B2).
      destruct HRun as (A1 & A2 & _). cbn. split; [exact B2|]. split; [unfold i32 in *; lia|].
      split; [exact B1|constructor].
  - intros x. rewrite <- (in_dedup x ints). split; intros HX.
    + eapply Permutation_in; [apply (sort_by_perm (fun x => x))|].
      eapply Permutation_in; [apply sort_by_perm|exact HX].
    + eapply Permutation_in; [symmetry; apply sort_by_perm|].
      eapply Permutation_in; [symmetry; apply sort_by_perm|exact HX].
  - eapply Permutation_NoDup; [symmetry; apply sort_by_perm|].
    eapply Permutation_NoDup; [symmetry; apply sort_by_perm|]. apply NoDup_dedup.
  - intros e HE. split.
    + apply in_map_iff in HE. destruct HE as (r & <- & _). reflexivity.
    + apply inside_text; [rewrite Forall_forall in IN; now apply IN|].
      apply in_map_iff in HE. destruct HE as (r & <- & _). reflexivity.
  - intros s t l. split.
    + intros HRun. exists (run_entity u (s, t, l)). split; [|now split].
      apply in_map. now apply run_mruns.
    + intros (e & HE & <- & <- & <-). apply in_map_iff in HE. destruct HE as (r & <- & HIn).
      cbn. now apply RR.
Qed.

Lemma at_nth_ext a b : length a = length b ->
  (forall i, 0 <= i < Z.of_nat (length a) -> at_ a i = at_ b i) -> a = b.
Proof.
  intros HL H. apply nth_ext with (d := 0) (d' := 0); [exact HL|]. intros n HN.
  specialize (H (Z.of_nat n)). unfold at_ in H. rewrite Nat2Z.id in H. apply H. lia.
Qed.

Lemma runs_exist ls i : 0 <= i < Z.of_nat (length ls) -> at_ ls i <> 0 ->
  exists s t, run ls s t (at_ ls i) /\ s <= i < t.
Proof.
  intros HI HA. destruct (groups_exist ls) as (gs & <- & HG).
  destruct (mruns_cover [] gs i) as (r & HR & HC); [cbn [length]; unfold total; lia|exact HA|].
  pose proof (mruns_run gs r HG HR) as HRun. exists (r_s r), (r_t r). split; [|exact HC].
  pose proof HRun as (_ & _ & _ & A4 & _). now rewrite (A4 i HC).
Qed.

Lemma unpack_pack u ints ls : length u = length ls -> u <> [] -> Forall i32 ints ->
  (forall s t l, run ls s t l -> i32 t /\ i32 l) ->
  exists d is_, pack_to_datum u ints ls = Ok d /\ unpack_datum d = Ok (u, is_, ls) /\
    same_set is_ ints /\ NoDup is_.
Proof.
  intros HL HU HI HR.
  destruct (pack_spec u ints ls HL HU HI HR) as (d & EP & HD & EU & HS & HN & IN & HV & HRun & HB).
  destruct (unpack_inside d HD) as (ls' & E & LL & HLab); [now rewrite EU|].
  exists d, (d_intents d). split; [exact EP|]. split; [|split; assumption].
  rewrite E, EU. repeat f_equal. rewrite EU in LL, HLab.
  apply at_nth_ext; [congruence|]. intros i Hi. rewrite LL in Hi.
  eapply labelled_unique; [exact HB|apply HLab; lia|].
  destruct (Z.eq_dec (at_ ls i) 0) as [Z0|NZ].
  - right. split; [|exact Z0]. intros e HE HC.
    assert (R : run ls (e_start e) (e_end e) (e_label e)) by (apply HRun; now exists e).
    destruct R as (A1 & A2 & A3 & A4 & _). apply A3. rewrite <- (A4 i HC). exact Z0.
  - left. destruct (runs_exist ls i) as (s & t & R & HC); [lia|exact NZ|].
    pose proof R as R'. apply HRun in R'. destruct R' as (e & HE & <- & <- & EL).
    exists e. split; [exact HE|]. split; [exact HC|exact EL].
Qed.

(** labels painted by separated entities: their maximal runs are the entities *)
Lemma labelled_runs u es ls : StronglySorted before es ->
  Forall (fun e => inside u e /\ e_start e < e_end e /\ e_label e <> 0) es ->
  (forall a b, In a es -> In b es -> e_end a = e_start b -> e_label a <> e_label b) ->
  length ls = length u ->
  (forall i, 0 <= i < Z.of_nat (length u) -> labelled es i (at_ ls i)) ->
  forall s t l, run ls s t l <->
    exists e, In e es /\ e_start e = s /\ e_end e = t /\ e_label e = l.
Proof.
  intros HS HF HT LL HLab. rewrite Forall_forall in HF.
  assert (ON : forall e i, In e es -> covers e i -> at_ ls i = e_label e).
  { intros e i HE HC. destruct (HF e HE) as ((H1 & H2) & _). unfold covers in HC.
    eapply labelled_unique; [exact HS|apply HLab; lia|]. left. exists e. auto. }
  assert (RUN : forall e, In e es -> run ls (e_start e) (e_end e) (e_label e)).
  { intros e HE. destruct (HF e HE) as ((H1 & H2) & H3 & H4). unfold run. rewrite LL.
    split; [lia|]. split; [lia|]. split; [exact H4|]. split; [|split].
    - intros i HI. now apply ON.
    - destruct (Z.eq_dec (e_start e) 0) as [|N]; [now left|right]. intros EQ.
      destruct (HLab (e_start e - 1)) as [(a & HA & CA & EA)|(_ & E0)]; [lia| |congruence].
      assert (ea : e_end a = e_start e).
      { clear - HS HA HE CA H3. unfold covers in CA.
        assert (a = e \/ before a e \/ before e a) as [->|[B|B]].
        { clear - HS HA HE. induction es as [|x es IH]; [destruct HA|].
          apply StronglySorted_inv in HS. destruct HS as (HS & HX). rewrite Forall_forall in HX.
          destruct HA as [->|HA], HE as [->|HE]; auto. }
        all: unfold before in *; lia. }
      apply (HT a e HA HE ea). congruence.
    - destruct (Z.eq_dec (e_end e) (Z.of_nat (length u))) as [|N]; [now left|right]. intros EQ.
      destruct (HLab (e_end e)) as [(a & HA & CA & EA)|(_ & E0)]; [lia| |congruence].
      assert (ea : e_end e = e_start a).
      { clear - HS HA HE CA H3. unfold covers in CA.
        assert (a = e \/ before a e \/ before e a) as [->|[B|B]].
        { clear - HS HA HE. induction es as [|x es IH]; [destruct HA|].
          apply StronglySorted_inv in HS. destruct HS as (HS & HX). rewrite Forall_forall in HX.
          destruct HA as [->|HA], HE as [->|HE]; auto. }
        all: unfold before in *; lia. }
      apply (HT e a HE HA ea). congruence. }
  intros s t l. split.
  - intros R. pose proof R as (A1 & A2 & A3 & A4 & _).
    destruct (HLab s) as [(a & HA & CA & EA)|(_ & E0)]; [lia| |rewrite A4 in E0 by lia; congruence].
    exists a. split; [exact HA|].
    destruct (run_same ls s t l (e_start a) (e_end a) (e_label a)) as (-> & -> & ->);
      [exact R|now apply RUN|exact CA|auto].
  - intros (e & HE & <- & <- & <-). now apply RUN.
Qed.

Lemma sorted_NoDup es : Forall (fun e => e_start e < e_end e) es -> StronglySorted before es -> NoDup es.
Proof.
  induction es as [|e es IH]; intros HF HS; constructor.
  - apply StronglySorted_inv in HS. destruct HS as (_ & HX). rewrite Forall_forall in HX.
    intros HE. specialize (HX e HE). inversion HF; subst. unfold before in HX. lia.
  - apply IH; [now inversion HF|now apply StronglySorted_inv in HS].
Qed.

Lemma pack_unpack d : is_datum d -> d_utterance d <> [] ->
  Forall (fun e => inside (d_utterance d) e /\ e_start e < e_end e /\ e_label e <> 0) (d_entities d) ->
  (forall a b, In a (d_entities d) -> In b (d_entities d) -> e_end a = e_start b -> e_label a <> e_label b) ->
  exists u is_ ls d', unpack_datum d = Ok (u, is_, ls) /\ pack_to_datum u is_ ls = Ok d' /\
    d_utterance d' = d_utterance d /\ same_set (d_intents d') (d_intents d) /\
    d_entities d' = map bare_entity (d_entities d).
Proof.
  intros HD HU HF HT. pose proof (is_datum_inv d HD) as (D1 & D2 & D3 & D4 & D5 & D6).
  destruct (unpack_inside d HD) as (ls & E & LL & HLab).
  { eapply Forall_impl; [|exact HF]. cbn. tauto. }
  pose proof (labelled_runs (d_utterance d) (d_entities d) ls D5 HF HT LL HLab) as RUNS.
  destruct (pack_spec (d_utterance d) (d_intents d) ls) as (d' & EP & _ & EU & HS & _ & IN & HV & HRun & HB);
    [congruence|exact HU|exact D1| |].
  { intros s t l R. apply RUNS in R. destruct R as (e & HE & <- & <- & <-).
    rewrite Forall_forall in D2. destruct (proj1 (is_entity_iff e) (D2 e HE)) as (I1 & I2 & I3 & _). auto. }
  exists (d_utterance d), (d_intents d), ls, d'. split; [exact E|]. split; [exact EP|].
  split; [exact EU|]. split; [exact HS|].
  assert (N1 : Forall (fun e => e_start e < e_end e) (d_entities d')).
  { apply Forall_forall. intros e HE.
    assert (R : run ls (e_start e) (e_end e) (e_label e)) by (apply HRun; now exists e).
    destruct R as (A1 & _). lia. }
  assert (S2 : StronglySorted before (map bare_entity (d_entities d))).
  { apply StronglySorted_map. exact D5. }
  assert (N2 : Forall (fun e => e_start e < e_end e) (map bare_entity (d_entities d))).
  { apply Forall_map. eapply Forall_impl; [|exact HF]. cbn. tauto. }
  rewrite Forall_forall in D6, HF.
  apply (sorted_perm_unique before); [|exact HB|exact S2|].
  - intros x y HX HY B1 B2. rewrite Forall_forall in N1. pose proof (N1 x HX). pose proof (N1 y HY).
    unfold before in *. lia.
  - apply NoDup_Permutation; [now apply sorted_NoDup|now apply sorted_NoDup|].
    assert (VAL : forall e, In e (d_entities d') ->
              e_replacements e = [] /\ e_value e = slice_z (d_utterance d) (e_start e) (e_end e)).
    { intros e HE. destruct (HV e HE) as (V1 & V2). split; [exact V1|].
      rewrite Forall_forall in IN. destruct (IN e HE) as (I1 & _).
      now apply text_at_slice in V2. }
    intros e. split; intros HE.
    + assert (R : run ls (e_start e) (e_end e) (e_label e)) by (apply HRun; now exists e).
      apply RUNS in R. destruct R as (a & HA & A1 & A2 & A3). apply in_map_iff. exists a. split; [|exact HA].
      destruct (VAL e HE) as (V1 & V2). destruct e as [el ev es et er]. cbn in *. subst. unfold bare_entity.
      f_equal. now apply D6.
    + apply in_map_iff in HE. destruct HE as (a & <- & HA).
      assert (R : run ls (e_start a) (e_end a) (e_label a)) by (apply RUNS; now exists a).
      apply HRun in R. destruct R as (b & HB' & B1 & B2 & B3). destruct (VAL b HB') as (V1 & V2).
      replace (bare_entity a) with b; [exact HB'|].
      destruct b as [el ev es et er]. cbn in *. subst. unfold bare_entity. f_equal. symmetry. now apply D6.
Qed.

Lemma pack_mismatch u ints ls : length u <> length ls -> pack_to_datum u ints ls = Err ValueErr.
Proof. intros H. unfold pack_to_datum. destruct (Nat.eqb_spec (length u) (length ls)); [lia|reflexivity]. Qed.

Lemma pack_empty ints : Forall i32 ints -> pack_to_datum [] ints [] = Err IndexErr.
Proof.
  intros HI. unfold pack_to_datum. cbn [length Nat.eqb guard bind].
  rewrite (mapM_ok make_intent (fun x => x)); [reflexivity|].
  apply Forall_forall. intros x HX. unfold make_intent. apply to_i32_ok.
  rewrite Forall_forall in HI. apply HI. apply in_dedup.
  eapply Permutation_in; [apply sort_by_perm|exact HX].
Qed.
