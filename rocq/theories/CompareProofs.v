(** Proofs about [==], [!=] and [hash] of any two objects (C99). *)

From Verif Require Import Py PyFacts Edit Ops Json Elements Pipe Factory GroupObj SpecElements SpecPipe JsonProofs DatumProofs ElementsLaws EqProofs PipeLaws FactoryProofs GroupProofs Compare SpecCompare.
From Coq Require Import List ZArith Permutation Bool Lia.
Import ListNotations.
Local Open Scope Z_scope.

(** ** [same] is an equivalence *)

Lemma Forall2_sym {X} (R : X -> X -> Prop) l m :
  Forall (fun x => forall y, R x y -> R y x) l -> Forall2 R l m -> Forall2 R m l.
Proof. intros F G. revert F. induction G; intros F; constructor; inversion F; subst; auto. Qed.

Lemma Forall2_perm_r {X Y} (R : X -> Y -> Prop) l m m' : Permutation m m' -> Forall2 R l m ->
  exists l', Permutation l l' /\ Forall2 R l' m'.
Proof.
  intros P. revert l. induction P as [|x m m' P IH|x y m|m m' m'' P IH P' IH']; intros l F.
  - exists l. auto.
  - inversion F as [|a ? l0 ? HA HF]; subst. destruct (IH _ HF) as (l' & Q & G).
    exists (a :: l'). split; [now constructor|now constructor].
  - inversion F as [|a ? l0 ? HA HF]; subst. inversion HF as [|b ? l1 ? HB HG]; subst.
    exists (b :: a :: l1). split; [constructor|repeat (constructor; auto)].
  - destruct (IH _ F) as (l' & Q & G). destruct (IH' _ G) as (l'' & Q' & G').
    exists l''. split; [now transitivity l'|exact G'].
Qed.

Lemma Forall2_flip {X Y} (R : X -> Y -> Prop) l m : Forall2 R l m -> Forall2 (fun y x => R x y) m l.
Proof. induction 1; constructor; auto. Qed.

Lemma same_sym a : forall b, same a b -> same b a.
Proof.
  induction a as [ |x|x|x|l IH|l IH|d IH] using jval_rec'; intros b S0; inversion S0; subst; try constructor.
  - now apply Forall2_sym.
  - now apply Forall2_sym.
  - match goal with P : Permutation e e', F : Forall2 _ d e' |- _ =>
      destruct (Forall2_perm_r _ _ _ _ (Permutation_sym P) F) as (d' & Q & G) end.
    apply same_dict with d'; [exact Q|]. apply Forall2_flip in G.
    assert (IH' : Forall (fun kv => forall b, same (snd kv) b -> same b (snd kv)) d').
    { rewrite Forall_forall in IH |- *. intros kv Hk. apply IH. now apply (Permutation_in _ (Permutation_sym Q)). }
    clear -G IH'. induction G as [|x y l m [E1 E2] G IHG]; constructor; inversion IH'; subst; auto.
Qed.

Lemma Forall2_trans_in {X} (R : X -> X -> Prop) l m n :
  Forall (fun x => forall y z, R x y -> R y z -> R x z) l -> Forall2 R l m -> Forall2 R m n -> Forall2 R l n.
Proof.
  intros F G. revert n F. induction G; intros n F G2; inversion G2; subst; constructor; inversion F; subst; eauto.
Qed.

Lemma same_trans a : forall b c, same a b -> same b c -> same a c.
Proof.
  induction a as [ |x|x|x|l IH|l IH|d IH] using jval_rec'; intros b c S1 S2.
  - inversion S1; subst; inversion S2; subst; constructor.
  - inversion S1; subst; inversion S2; subst; try constructor;
      repeat match goal with v : bool |- _ => destruct v end; try discriminate; constructor.
  - inversion S1; subst; inversion S2; subst; try constructor;
      repeat match goal with v : bool |- _ => destruct v end; try discriminate; constructor.
  - inversion S1; subst; inversion S2; subst; constructor.
  - inversion S1; subst; inversion S2; subst; constructor. now apply Forall2_trans_in with m.
  - inversion S1; subst; inversion S2; subst; constructor. now apply Forall2_trans_in with m.
  - inversion S1 as [| | | | | | | |? e e' P F]; subst. inversion S2 as [| | | | | | | |? f f' Q G]; subst.
    assert (P1 : Permutation e e') by exact P.
    destruct (Forall2_perm_r _ _ _ _ P1 (Forall2_flip _ _ _ G)) as (f'' & R & G').
    apply same_dict with f''; [now transitivity f'|].
    apply Forall2_flip in G'. clear -F G' IH. revert f'' G'. induction F as [|x y l m [E1 E2] F IHF]; intros f'' G';
      inversion G' as [|? z ? n [E3 E4] G]; subst; constructor.
    + split; [congruence|]. inversion IH; subst. eauto.
    + inversion IH; subst. auto.
Qed.

Section compare.
  Context {A C : Type} {EA : Eqb A} {EC : Eqb C}.
  Implicit Types a b c : pyobj A C.

  Lemma factories (f g : list (str * C)) : NoDup (map fst f) -> NoDup (map fst g) ->
    feq f g = true <-> Permutation f g.
  Proof.
    intros Nf Ng. rewrite (feq_spec f g Nf Ng). split.
    - intros Q. apply NoDup_Permutation; [now apply NoDup_map_inv with (f := fst)..|].
      intros [k v]. rewrite (get_In f k v Nf), (get_In g k v Ng), Q. reflexivity.
    - intros P k. destruct (dict_get f k) as [v|] eqn:Q.
      + symmetry. apply (get_In g k v Ng). apply (Permutation_in _ P). now apply (get_In f k v Nf).
      + symmetry. apply get_none_keys. apply get_none_keys in Q. intros Hk. apply Q.
        now apply (Permutation_in _ (Permutation_map fst (Permutation_sym P))).
  Qed.

  Lemma span_groups g h : sg_done h = true ->
    exists r, sg_eq g h = Ok r /\ (r = true <-> length (sg_items g) = length (sg_items h) /\ same_set (sg_items g) (sg_items h)).
  Proof.
    intros D. unfold sg_eq, sg_iter. rewrite D. cbn [bind]. eexists. split; [reflexivity|].
    rewrite !andb_true_iff, Nat.eqb_eq, !forallb_forall. split.
    - intros ((L & H1) & H2). split; [lia|]. intros x. split; intros Hx; apply existsb_span; auto.
    - intros (L & H). split; [split; [lia|]|]; intros x Hx; apply existsb_span, H, Hx.
  Qed.

  Lemma replacement_groups (g h : rgroup A) : rg_done h = true ->
    exists r, rg_eq g h = Ok r /\ (r = true <-> length (rg_items g) = length (rg_items h) /\ same_set (rg_items g) (rg_items h)).
  Proof.
    intros D. unfold rg_eq, rg_iter, rg_len. rewrite D. cbn [bind]. eexists. split; [reflexivity|].
    rewrite andb_true_iff, Nat.eqb_eq.
    destruct (DatumProofs.set_eqb_spec (rg_items h) (rg_items g)) as [S0|S0]; (split; intros (L & S1); try discriminate; (split; [congruence|])).
    - intros x. symmetry. apply S0.
    - reflexivity.
    - exfalso. apply S0. intros x. symmetry. apply S1.
  Qed.

  (** C99: objects of the same kind *)
  Lemma same_kind_equal E a b : proper E a -> proper E b -> same_kind a b -> readable b ->
    exists r, py_eq a b = Ok r /\ (r = true <-> alike a b).
  Proof.
    intros PA PB K R. unfold py_eq.
    destruct a as [l|e|d|[s e]|x|g|g|o|p|f|n], b as [l'|e'|d'|[s' e']|x'|g'|g'|o'|p'|f'|n']; try discriminate K;
      cbn [slot_eq proper readable fst snd] in *.
    - eexists. split; [reflexivity|]. rewrite Z.eqb_eq. split; [intros ->; constructor|now inversion 1].
    - eexists. split; [reflexivity|]. rewrite entity_equal. split; [now constructor|now inversion 1].
    - eexists. split; [reflexivity|]. rewrite datum_equal. split; [now constructor|now inversion 1].
    - eexists. split; [reflexivity|]. rewrite andb_true_iff, !Nat.eqb_eq. split; [intros (-> & ->); constructor|now inversion 1].
    - eexists. split; [reflexivity|]. destruct (item_eqb_spec x x') as [->|N]; split; try discriminate; try constructor.
      inversion 1; contradiction.
    - destruct (span_groups g g' R) as (r & Q & I). exists r. split; [exact Q|]. rewrite I.
      split; [intros []; now constructor|now inversion 1].
    - destruct (replacement_groups g g' R) as (r & Q & I). exists r. split; [exact Q|]. rewrite I.
      split; [intros []; now constructor|now inversion 1].
    - eexists. split; [reflexivity|]. rewrite (op_eqb_spec E) by assumption. split; [now constructor|now inversion 1].
    - eexists. split; [reflexivity|]. rewrite (pipe_eq E) by assumption. split; [intros []; now constructor|now inversion 1].
    - eexists. split; [reflexivity|]. rewrite factories by assumption. split; [now constructor|now inversion 1].
    - eexists. split; [reflexivity|]. rewrite Nat.eqb_eq. split; [intros ->; constructor|now inversion 1].
  Qed.

  (** C99: a group that is not finished, on the right *)
  Lemma unfinished_equal a b : same_kind a b -> ~ readable b -> py_eq a b = Err RuntimeErr.
  Proof.
    intros K R. unfold py_eq. destruct b as [l'|e'|d'|s'|x'|g'|g'|o'|p'|f'|n']; cbn [readable] in R; try (exfalso; now apply R);
      destruct a as [l|e|d|s|x|g|g|o|p|f|n]; try discriminate K; cbn [slot_eq].
    - unfold sg_eq, sg_iter. destruct (sg_done g'); [congruence|reflexivity].
    - unfold rg_eq, rg_iter. destruct (rg_done g'); [congruence|reflexivity].
  Qed.

  (** C99: objects of different kinds.  [x] is the operand whose class decides, [y] the other one *)
  Lemma other_kinds a b x y : ~ same_kind a b -> (~ foreign a /\ x = a /\ y = b \/ foreign a /\ x = b /\ y = a) ->
    (raises_type x -> py_eq a b = Err TypeErr) /\
    (raises_attribute x y -> py_eq a b = Err AttributeErr) /\
    (forall l e, x = OIntent l -> y = OEntity e -> exists r, py_eq a b = Ok r /\ (r = true <-> l = e_label e)) /\
    (~ raises_type x -> ~ raises_attribute x y -> (forall l e, ~ (x = OIntent l /\ y = OEntity e)) -> py_eq a b = Ok false).
  Proof.
    intros K D.
    assert (Q : exists r, slot_eq x y = Some r /\ py_eq a b = r).
    { unfold py_eq. destruct D as [(N & -> & ->)|((n & ->) & -> & ->)].
      - destruct a; cbn [slot_eq]; try (eexists; split; reflexivity). exfalso. apply N. now exists n.
      - destruct b; try (exfalso; now apply K); cbn [slot_eq]; eexists; split; reflexivity. }
    assert (K2 : ~ same_kind x y) by (unfold same_kind in *; destruct D as [(_ & -> & ->)|(_ & -> & ->)]; congruence).
    assert (Fx : ~ foreign x).
    { destruct D as [(N & -> & ->)|((n & ->) & -> & ->)]; [exact N|]. intros (m & ->). now apply K. }
    destruct Q as (r & Q & ->). clear D K.
    repeat split.
    - intros [(e & ->)|(d & ->)]; destruct y; try (exfalso; now apply K2); cbn in Q; congruence.
    - intros [(l & -> & H)|[(i & ->)|(p & ->)]]; destruct y; try (exfalso; now apply K2);
        try (exfalso; eapply H; reflexivity); cbn in Q; congruence.
    - intros l e -> ->. cbn in Q. injection Q as <-. eexists. split; [reflexivity|]. apply Z.eqb_eq.
    - intros N1 N2 N3. destruct x; destruct y; try (exfalso; now apply K2); cbn in Q; try congruence; exfalso;
        first [apply N1; left; eexists; reflexivity | apply N1; right; eexists; reflexivity
              | apply N2; left; eexists; split; [reflexivity|discriminate]
              | apply N2; right; left; eexists; reflexivity | apply N2; right; right; eexists; reflexivity
              | eapply N3; split; reflexivity | apply Fx; eexists; reflexivity].
  Qed.

  (** C99: [!=] *)
  Lemma not_equal a b : (forall r, py_eq a b = Ok r <-> py_ne a b = Ok (negb r)) /\
    (forall x, py_eq a b = Err x <-> py_ne a b = Err x).
  Proof.
    unfold py_ne. destruct (py_eq a b) as [[]|]; cbn [bind negb]; split; intros y; split; intros Q; try discriminate; try congruence;
      destruct y; cbn in *; congruence.
  Qed.

  Lemma alike_refl a : alike a a.
  Proof.
    destruct a as [l|e|d|[s e]|x|g|g|o|p|f|n]; constructor; try reflexivity; try (intros x; reflexivity).
    - repeat split; auto.
    - repeat split; auto. induction (d_entities d); constructor; auto. repeat split; auto.
    - split; [reflexivity|apply same_refl].
    - induction (steps p); constructor; auto. split; [reflexivity|apply same_refl].
  Qed.

  Lemma same_set_sym {X} (l m : list X) : same_set l m -> same_set m l.
  Proof. intros S0 x. symmetry. apply S0. Qed.
  Lemma same_set_trans {X} (l m n : list X) : same_set l m -> same_set m n -> same_set l n.
  Proof. intros S1 S2 x. now rewrite (S1 x). Qed.
  Lemma same_entity_sym e e' : same_entity e e' -> same_entity e' e.
  Proof. intros (? & ? & ? & ? & ?). do 4 (split; [congruence|]). now apply same_set_sym. Qed.
  Lemma same_entity_trans e e' e'' : same_entity e e' -> same_entity e' e'' -> same_entity e e''.
  Proof. intros (? & ? & ? & ? & ?) (? & ? & ? & ? & ?). do 4 (split; [congruence|]). eapply same_set_trans; eauto. Qed.
  Lemma Forall2_sym' {X} (R : X -> X -> Prop) l m : (forall x y, R x y -> R y x) -> Forall2 R l m -> Forall2 R m l.
  Proof. intros S0. induction 1; constructor; auto. Qed.
  Lemma Forall2_trans' {X} (R : X -> X -> Prop) l m n : (forall x y z, R x y -> R y z -> R x z) ->
    Forall2 R l m -> Forall2 R m n -> Forall2 R l n.
  Proof. intros T F. revert n. induction F; intros n G; inversion G; subst; constructor; eauto. Qed.
  Lemma same_operator_sym o o' : same_operator o o' -> same_operator o' o.
  Proof. intros (? & ?). split; [congruence|now apply same_sym]. Qed.
  Lemma same_operator_trans o o' o'' : same_operator o o' -> same_operator o' o'' -> same_operator o o''.
  Proof. intros (? & ?) (? & ?). split; [congruence|eapply same_trans; eauto]. Qed.

  Lemma alike_sym a b : alike a b -> alike b a.
  Proof.
    destruct 1; constructor; auto using same_entity_sym, same_set_sym, same_operator_sym, Permutation_sym.
    - destruct H as (? & ? & ?). split; [congruence|]. split; [now apply same_set_sym|].
      now apply Forall2_sym'; [apply same_entity_sym|].
    - now apply Forall2_sym'; [apply same_operator_sym|].
  Qed.

  Lemma alike_trans a b c : alike a b -> alike b c -> alike a c.
  Proof.
    intros S1 S2. destruct S1; inversion S2; subst; try constructor; try congruence;
      eauto using same_entity_trans, same_set_trans, same_operator_trans, Permutation_trans.
    - destruct H as (? & ? & ?), H1 as (? & ? & ?). split; [congruence|]. split; [eapply same_set_trans; eauto|].
      eapply Forall2_trans'; eauto using same_entity_trans.
    - eapply Forall2_trans'; eauto using same_operator_trans.
  Qed.

  Lemma alike_kind a b : alike a b -> same_kind a b.
  Proof. destruct 1; reflexivity. Qed.

  (** C99: an object and itself *)
  Lemma equal_itself E a : proper E a ->
    (readable a -> py_eq a a = Ok true) /\ (~ readable a -> py_eq a a = Err RuntimeErr).
  Proof.
    intros PA. split; intros R; [|now apply unfinished_equal].
    destruct (same_kind_equal E a a PA PA eq_refl R) as (r & -> & I). f_equal. apply I, alike_refl.
  Qed.

  (** C99: when the answer is yes *)
  Lemma equal_true E a b : proper E a -> proper E b ->
    py_eq a b = Ok true <->
    alike a b /\ readable b \/ (exists l e, a = OIntent l /\ b = OEntity e /\ l = e_label e).
  Proof.
    intros PA PB. split.
    - intros Q. destruct (Nat.eq_dec (kind_name a) (kind_name b)) as [K|K].
      + assert (R : readable b).
        { destruct b; cbn [readable]; auto.
          - destruct (sg_done g) eqn:D; [reflexivity|]. rewrite unfinished_equal in Q; [discriminate|exact K|cbn; congruence].
          - destruct (rg_done g) eqn:D; [reflexivity|]. rewrite unfinished_equal in Q; [discriminate|exact K|cbn; congruence]. }
        destruct (same_kind_equal E a b PA PB K R) as (r & Q2 & I). left. split; [|exact R]. apply I. congruence.
      + right. unfold py_eq in Q. destruct a, b; cbn in Q; try discriminate; try (exfalso; now apply K).
        eexists _, _. split; [reflexivity|]. split; [reflexivity|]. apply Z.eqb_eq. congruence.
    - intros [(S0 & R)|(l & e & -> & -> & ->)].
      + destruct (same_kind_equal E a b PA PB (alike_kind _ _ S0) R) as (r & -> & I). f_equal. now apply I.
      + cbn. now rewrite Z.eqb_refl.
  Qed.

  (** C99: the order of the operands *)
  Lemma equal_symmetric E a b : proper E a -> proper E b -> same_kind a b -> readable a -> readable b ->
    py_eq a b = py_eq b a.
  Proof.
    intros PA PB K RA RB. destruct (same_kind_equal E a b PA PB K RB) as (r & -> & I).
    destruct (same_kind_equal E b a PB PA (eq_sym K) RA) as (r' & -> & I').
    f_equal. destruct r, r'; try reflexivity.
    - symmetry. apply I', alike_sym, I. reflexivity.
    - apply I, alike_sym, I'. reflexivity.
  Qed.

  (** C99: three objects *)
  Lemma equal_transitive E a b c : proper E a -> proper E b -> proper E c ->
    py_eq a b = Ok true -> py_eq b c = Ok true -> py_eq a c = Ok true.
  Proof.
    intros PA PB PC Q1 Q2. apply (equal_true E) in Q1, Q2; auto. apply (equal_true E); auto.
    destruct Q1 as [(S1 & R1)|(l & e & -> & -> & ->)], Q2 as [(S2 & R2)|(l' & e' & Q1 & Q2 & Q3)]; try discriminate Q1.
    - left. split; [eapply alike_trans; eauto|exact R2].
    - subst. inversion S1; subst. right. eexists _, _. split; [reflexivity|]. split; reflexivity.
    - inversion S2 as [|? e' SE| | | | | | | | |]; subst. right. exists (e_label e), e'. split; [reflexivity|]. split; [reflexivity|].
      apply SE.
  Qed.

  (** C99: [hash] *)
  Lemma hash_cases H K a : (has_hash K a -> exists h, py_hash H K a = Ok h) /\
    (~ has_hash K a -> py_hash H K a = Err TypeErr).
  Proof.
    split.
    - intros [(l & ->)|[([s e] & ->)|[(x & ->)|(n & h & -> & Q)]]]; cbn [py_hash]; try (eexists; reflexivity).
      rewrite Q. eexists; reflexivity.
    - intros N. destruct a as [l|e|d|[s e]|x|g|g|o|p|f|n]; cbn [py_hash]; try reflexivity.
      + exfalso; apply N. left. now exists l.
      + exfalso; apply N. right; left. now exists (s, e).
      + exfalso; apply N. right; right; left. now exists x.
      + destruct (K n) eqn:Q; [|reflexivity]. exfalso; apply N. right; right; right. now exists n, z.
  Qed.

  Lemma equal_hash E H K a b : proper E a -> proper E b -> has_hash K b -> py_eq a b = Ok true ->
    py_hash H K a = py_hash H K b.
  Proof.
    intros PA PB HB Q. apply (equal_true E) in Q; auto. destruct Q as [(S0 & _)|(l & e & -> & -> & _)].
    - destruct S0; try reflexivity.
    - exfalso. destruct HB as [(? & Q)|[(? & Q)|[(? & Q)|(? & ? & Q & _)]]]; discriminate Q.
  Qed.

  (** C99: the hash is the label, the hash of the pair, or the last 32 bits of the latter as a
      signed number; -1 becomes -2 *)
  Lemma hash_value H K a :
    (forall l, a = OIntent l -> exists h, py_hash H K a = Ok h /\ (l <> -1 -> h = l) /\ (l = -1 -> h = -2)) /\
    (forall s e, a = OSpan (s, e) -> py_hash H K a = Ok (H s e)) /\
    (forall str s e v, a = OReplacement (str, mkR s e v) -> exists t h k, py_hash H K a = Ok h /\
       H s e = t + k * 2 ^ 32 /\ - 2 ^ 31 <= t < 2 ^ 31 /\ (t <> -1 -> h = t) /\ (t = -1 -> h = -2)).
  Proof.
    split; [|split].
    - intros l ->. eexists. split; [reflexivity|]. unfold intent_hash. destruct (Z.eqb_spec l (-1)); lia.
    - intros s e ->. reflexivity.
    - intros str s e v ->. cbn [py_hash]. unfold int_hash, i_start, i_end. cbn [snd r_start r_end].
      set (h := H s e). pose proof (Z.mod_pos_bound (h + 2 ^ 31) (2 ^ 32) ltac:(lia)) as B.
      pose proof (Z.div_mod (h + 2 ^ 31) (2 ^ 32) ltac:(lia)) as D.
      exists ((h + 2 ^ 31) mod 2 ^ 32 - 2 ^ 31). eexists. exists ((h + 2 ^ 31) / 2 ^ 32).
      split; [reflexivity|]. split; [lia|]. split; [lia|].
      destruct (Z.eqb_spec ((h + 2 ^ 31) mod 2 ^ 32 - 2 ^ 31) (-1)); lia.
  Qed.
End compare.
