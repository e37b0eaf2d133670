(** Proofs about equality of operators and of pipes, and about saving pipes. *)

From Coq Require Import String Ascii.
From Verif Require Import Py PyFacts Edit Labels Regex Trie Ops SpecOps SpecScan Json SpecJson JsonProofs
  Elements Pipe SpecPipe PipeProofs ObjProofs.
From Coq Require Import List.
Local Open Scope nat_scope.

(** ** Python equality of values *)

Lemma dict_reorder (d e : list (str * jval)) (R : jval -> jval -> Prop) :
  NoDup (map fst d) -> length d = length e ->
  (forall k v, In (k, v) d -> exists w, dict_get e k = Some w /\ R v w) ->
  exists e', Permutation e e' /\ Forall2 (fun x y => fst x = fst y /\ R (snd x) (snd y)) d e'.
Proof.
  revert e. induction d as [|[k v] d IH]; intros e ND HL H.
  - destruct e; [|discriminate]. exists []. auto.
  - destruct (H k v (or_introl eq_refl)) as (w & HG & HR).
    pose proof (dict_get_In _ _ _ HG) as HI. apply in_split in HI. destruct HI as (e1 & e2 & ->).
    cbn in ND. inversion ND as [|? ? N1 N2]; subst.
    destruct (IH (e1 ++ e2)) as (e' & HP & HF); auto.
    + rewrite app_length in *. cbn in HL. lia.
    + intros k' v' Hk'. destruct (H k' v' (or_intror Hk')) as (w' & HG' & HR').
      exists w'. split; [|exact HR']. rewrite dict_get_app in *. cbn [dict_get] in HG'.
      destruct (dict_get e1 k'); [exact HG'|].
      destruct (eqb_spec k' k) as [->|]; [|exact HG']. exfalso. apply N1.
      apply (in_map fst) in Hk'. exact Hk'.
    + exists ((k, w) :: e'). split.
      * transitivity ((k, w) :: e1 ++ e2); [symmetry; apply Permutation_middle|]. now constructor.
      * constructor; auto.
Qed.

Lemma Forall2_len {A B} (R : A -> B -> Prop) l m : Forall2 R l m -> length l = length m.
Proof. induction 1; cbn; auto. Qed.

Definition list_py_eqb : list jval -> list jval -> bool :=
  fix go l m := match l, m with
                | [], [] => true
                | x :: l, y :: m => py_eqb x y && go l m
                | _, _ => false
                end.

Lemma list_py_eqb_same l :
  Forall (fun a => forall b, value a -> value b -> py_eqb a b = true <-> same a b) l ->
  Forall value l -> forall m, Forall value m -> list_py_eqb l m = true <-> Forall2 same l m.
Proof.
  induction 1 as [|a l Ha _ IH]; intros Vl m Vm; cbn [list_py_eqb].
  - destruct m; split; try discriminate; auto. inversion 1.
  - destruct m as [|b m]; [split; [discriminate|inversion 1]|].
    inversion Vl; inversion Vm; subst. rewrite andb_true_iff, Ha, IH by auto. split.
    + intros []. now constructor.
    + inversion 1; auto.
Qed.

Theorem py_eqb_same a : forall b, value a -> value b -> py_eqb a b = true <-> same a b.
Proof.
  induction a as [ |x|x|x|l IH|l IH|d IH] using jval_rec'; intros b Va Vb.
  - destruct b; cbn; split; try discriminate; try constructor; inversion 1.
  - destruct b as [ |y|y| | | | ]; cbn [py_eqb]; try (split; [discriminate|inversion 1]).
    + destruct x, y; cbn; split; try discriminate; try constructor; inversion 1.
    + rewrite Z.eqb_eq. split; [intros <-; constructor|]. now inversion 1.
  - destruct b as [ |y|y| | | | ]; cbn [py_eqb]; try (split; [discriminate|inversion 1]).
    + rewrite Z.eqb_eq. split; [intros ->; constructor|]. now inversion 1.
    + rewrite Z.eqb_eq. split; [intros ->; constructor|]. now inversion 1.
  - destruct b as [ |y|y|y| | | ]; cbn [py_eqb]; try (split; [discriminate|inversion 1]).
    destruct (eqb_spec x y) as [->|N]; split; try discriminate; try constructor; auto.
    inversion 1; contradiction.
  - destruct b as [ |y|y|y|m|m|e]; try (split; [discriminate|inversion 1]).
    change (py_eqb (JList l) (JList m)) with (list_py_eqb l m).
    cbn [value] in Va, Vb. rewrite fold_Forall in Va, Vb. rewrite (list_py_eqb_same l IH Va m Vb).
    split; [now constructor|now inversion 1].
  - destruct b as [ |y|y|y|m|m|e]; try (split; [discriminate|inversion 1]).
    change (py_eqb (JTuple l) (JTuple m)) with (list_py_eqb l m).
    cbn [value] in Va, Vb. rewrite fold_Forall in Va, Vb. rewrite (list_py_eqb_same l IH Va m Vb).
    split; [now constructor|now inversion 1].
  - destruct b as [ |y|y|y|m|m|e]; try (split; [discriminate|inversion 1]).
    apply value_dict in Va, Vb. destruct Va as [ND Fd], Vb as [NE Fe]. rewrite Forall_forall in *.
    cbn [py_eqb]. rewrite andb_true_iff, Nat.eqb_eq, forallb_forall. split.
    + intros [HL HF].
      destruct (dict_reorder d e same ND HL) as (e' & HP & H2).
      * intros k v Hk. specialize (HF _ Hk). cbn [fst snd] in HF.
        destruct (dict_get e k) as [w|] eqn:HG; [|discriminate]. exists w. split; [reflexivity|].
        apply (IH _ Hk); auto; [apply (Fd _ Hk)|]. apply dict_get_In in HG. apply (Fe _ HG).
      * now apply same_dict with e'.
    + intros HS. inversion HS as [| | | | | | | |d0 e0 e' HP H2 Q1 Q2]; subst. split.
      * apply Forall2_len in H2. apply Permutation_length in HP. congruence.
      * intros [k v] Hk. cbn [fst snd].
        assert (exists w, In (k, w) e' /\ same v w) as (w & Hw & HSw).
        { clear -H2 Hk. induction H2 as [|x [k' w'] ? ? [H1 H2] _ IH]; [destruct Hk|].
          destruct Hk as [->|Hk].
          - exists w'. cbn in *. subst. split; [now left|exact H2].
          - destruct (IH Hk) as (w & A & B). exists w. split; [now right|exact B]. }
        apply (Permutation_in _ (Permutation_sym HP)) in Hw.
        rewrite (dict_get_Some _ _ _ NE Hw). apply (IH _ Hk); auto; [apply (Fd _ Hk)|apply (Fe _ Hw)].
Qed.

Lemma same_refl a : same a a.
Proof.
  induction a as [ |x|x|x|l IH|l IH|d IH] using jval_rec'; try constructor.
  - induction IH; auto.
  - induction IH; auto.
  - apply same_dict with d; [reflexivity|]. induction IH; auto.
Qed.

(** C43: [==] *)
Theorem op_eqb_spec E a b : made E a -> made E b ->
  op_eqb a b = true <-> o_class a = o_class b /\ same (JDict (o_configs a)) (JDict (o_configs b)).
Proof.
  intros Ha Hb. destruct (made_coherent E a Ha) as (c & ba & (_ & _ & _ & _ & _ & VA & _)).
  destruct (made_coherent E b Hb) as (c' & bb & (_ & _ & _ & _ & _ & VB & _)).
  unfold op_eqb. rewrite andb_true_iff, (py_eqb_same _ _ VA VB). destruct (eqb_spec (o_class a) (o_class b)); intuition congruence.
Qed.

Theorem op_eqb_refl E a : made E a -> op_eqb a a = true.
Proof. intros Ha. apply (op_eqb_spec E); auto. split; [reflexivity|apply same_refl]. Qed.

(** ** Equal operators behave alike *)

Lemma equivalent_refl a : equivalent a a.
Proof. repeat split. Qed.

Lemma same_int v w : same v w -> as_int v = as_int w.
Proof. destruct 1; reflexivity. Qed.
Lemma same_as_str v w : same v w -> as_str v = as_str w.
Proof. destruct 1; reflexivity. Qed.
Lemma same_elem v w x y : same v w -> as_elem v = Ok x -> as_elem w = Ok y -> x = y.
Proof. destruct 1; cbn; congruence. Qed.
Lemma same_truthy v w : same v w -> truthy v = truthy w.
Proof.
  destruct 1 as [| | |[]|[]| |? ? H|? ? H|? ? ? HP H]; cbn; try reflexivity; apply Forall2_len in H; rewrite H; auto.
  now rewrite (Permutation_length HP).
Qed.
Lemma same_strs l m : Forall2 same l m -> mapM as_str l = mapM as_str m.
Proof. induction 1 as [|v w l m H _ IH]; [reflexivity|]. cbn [mapM]. now rewrite (same_as_str _ _ H), IH. Qed.
Lemma same_words v w : same v w -> as_words v = as_words w.
Proof. destruct 1; cbn [as_words]; try reflexivity; now rewrite (same_strs l m). Qed.

Lemma same_vocab v w a b : same v w -> as_vocab v = Ok a -> as_vocab w = Ok b -> forall t : str, memb t a = memb t b.
Proof.
  destruct 1 as [| | |[]|[]| |l m H|l m H|d e e' HP H]; cbn [as_vocab]; intros H1 H2 t; try congruence.
  - rewrite (same_strs _ _ H) in H1. congruence.
  - rewrite (same_strs _ _ H) in H1. congruence.
  - injection H1 as <-. injection H2 as <-.
    assert (Q : map fst d = map fst e').
    { clear -H. induction H as [|x y ? ? [Q _] _ IH]; cbn; congruence. }
    rewrite Q. apply (Permutation_map fst) in HP.
    destruct (memb t (map fst e')) eqn:M1, (memb t (map fst e)) eqn:M2; try reflexivity.
    + apply memb_In in M1. apply (Permutation_in _ (Permutation_sym HP)) in M1. apply memb_In in M1. congruence.
    + apply memb_In in M2. apply (Permutation_in _ HP) in M2. apply memb_In in M2. congruence.
Qed.

Lemma mapM_keys d d' :
  mapM (fun kv : str * jval => z <- as_int (snd kv) ;; Ok (fst kv, z)) d = Ok d' ->
  map fst d' = map fst d /\ length d' = length d /\
  forall k, dict_get d' k = match dict_get d k with Some v => match as_int v with Ok z => Some z | _ => None end | None => None end.
Proof.
  revert d'. induction d as [|[k v] d IH]; intros d'; cbn [mapM fst snd]; [intros [= <-]; auto|].
  destruct (as_int v) as [z|] eqn:HZ; cbn [bind]; [|discriminate].
  destruct (mapM _ d) as [r|] eqn:HR; cbn [bind]; [|discriminate]. intros [= <-].
  destruct (IH r eq_refl) as (A & B & C). cbn [map fst length dict_get]. repeat split; try congruence.
  intros k'. destruct (eqb k' k); [now rewrite HZ|apply C].
Qed.

Lemma same_index v w a b : value v -> value w -> same v w -> as_index_dict v = Ok a -> as_index_dict w = Ok b ->
  length a = length b /\ forall t, dict_get a t = dict_get b t.
Proof.
  intros Vv Vw. destruct 1 as [| | |[]|[]| |l m H|l m H|d e e' HP H]; cbn [as_index_dict]; intros H1 H2; try discriminate.
  apply mapM_keys in H1, H2. destruct H1 as (A1 & A2 & A3), H2 as (B1 & B2 & B3).
  apply value_dict in Vv, Vw. destruct Vv as [ND _], Vw as [NE _].
  assert (NE' : NoDup (map fst e')) by (apply (Permutation_NoDup (Permutation_map fst HP)); exact NE).
  split; [apply Forall2_len in H; apply Permutation_length in HP; congruence|].
  intros t. rewrite A3, B3.
  assert (Q : dict_get e t = dict_get e' t).
  { destruct (dict_get e t) as [u|] eqn:G.
    - symmetry. apply dict_get_Some; [exact NE'|]. apply (Permutation_in _ HP). now apply dict_get_In.
    - symmetry. apply dict_get_None. apply dict_get_None in G. intros I1. apply G.
      apply (Permutation_in _ (Permutation_sym (Permutation_map fst HP))). exact I1. }
  rewrite Q. clear -H. induction H as [|[k v] [k' v'] ? ? [Q1 Q2] _ IH]; [reflexivity|].
  cbn [fst snd dict_get] in *. subst. destruct (eqb t k'); [now rewrite (same_int _ _ Q2)|exact IH].
Qed.

Lemma elem_edits_ext f g l : (forall x, f x = g x) -> forall i acc, elem_edits f i l acc = elem_edits g i l acc.
Proof.
  intros H. induction l as [|x l IH]; intros i acc; [reflexivity|]. cbn [elem_edits]. rewrite H.
  destruct (g x); cbn [bind]; auto.
Qed.
Lemma elem_group_ext E f g l : (forall x, f x = g x) -> elem_group E f l = elem_group E g l.
Proof. intros H. unfold elem_group. now rewrite (elem_edits_ext f g l H). Qed.

Lemma longest_piece_ext a b chars start n : (forall t : str, memb t a = memb t b) ->
  longest_piece a chars start n = longest_piece b chars start n.
Proof.
  intros H. induction n as [|n IH]; [reflexivity|]. cbn [longest_piece]. cbv zeta. rewrite H, IH. reflexivity.
Qed.
Lemma subword_loop_ext a b chars : (forall t : str, memb t a = memb t b) -> forall fuel start acc,
  subword_loop fuel a chars start acc = subword_loop fuel b chars start acc.
Proof.
  intros H. induction fuel as [|fuel IH]; intros start acc; [reflexivity|]. cbn [subword_loop].
  destruct (length chars <=? start); [reflexivity|]. rewrite (longest_piece_ext a b) by exact H.
  destruct (longest_piece b chars start _) as [[]|]; auto.
Qed.

Lemma subwords_equivalent a b u m : (forall t : str, memb t a = memb t b) ->
  equivalent (SpanSubwords a u m) (SpanSubwords b u m).
Proof.
  intros H. split; [reflexivity|]. split; [reflexivity|]. intros E [s|l]; [reflexivity|].
  unfold transform_op. cbn [transform_lst type_of input_type output_type].
  rewrite (elem_group_ext E (subwords_newv a u m) (subwords_newv b u m)); [reflexivity|].
  intros [t|z]; [|reflexivity]. cbn [subwords_newv]. unfold span_subwords.
  now rewrite (subword_loop_ext a b).
Qed.
Lemma index_equivalent a b u : (forall t, dict_get a t = dict_get b t) ->
  equivalent (Token2Index a u) (Token2Index b u).
Proof.
  intros H. split; [reflexivity|]. split; [reflexivity|]. intros E [s|l]; [reflexivity|].
  unfold transform_op. cbn [transform_lst type_of input_type output_type].
  rewrite (elem_group_ext E (index_newv a u) (index_newv b u)); [reflexivity|].
  intros [t|z]; unfold index_newv; now rewrite !H.
Qed.
Lemma hash_equivalent a b : length a = length b -> (forall t, dict_get a t = dict_get b t) ->
  equivalent (Token2IndexwithHash a) (Token2IndexwithHash b).
Proof.
  intros HL H. split; [reflexivity|]. split; [reflexivity|]. intros E [s|l]; [reflexivity|].
  unfold transform_op. cbn [transform_lst type_of input_type output_type].
  rewrite (elem_group_ext E (hash_newv a) (hash_newv b)); [reflexivity|].
  intros [t|z]; [|reflexivity]. cbn [hash_newv]. now rewrite H, HL.
Qed.

Lemma bind_Ok {A B} (x : res A) (f : A -> res B) y : bind x f = Ok y -> exists a, x = Ok a /\ f a = Ok y.
Proof. destruct x; cbn; [eauto|discriminate]. Qed.

Ltac unbind :=
  repeat match goal with
    | H : bind _ _ = Ok _ |- _ => apply bind_Ok in H; destruct H as (? & ? & H)
    end;
  repeat match goal with H : Ok _ = Ok _ |- _ => injection H as <- end;
  repeat match goal with
    | H : ?f = Ok ?a, H' : ?f = Ok ?b |- _ =>
        let Q := fresh in assert (Q : b = a) by congruence; clear H'; subst b
    | S : same ?v ?w, H : as_elem ?v = Ok ?a, H' : as_elem ?w = Ok ?b |- _ =>
        let Q := fresh in pose proof (same_elem v w a b S H H') as Q; clear H'; subst b
    | S : same ?v ?w, H : as_vocab ?v = Ok ?a, H' : as_vocab ?w = Ok ?b |- _ =>
        pose proof (same_vocab v w a b S H H'); clear H'
    | S : same ?v ?w, V : value ?v, W : value ?w, H : as_index_dict ?v = Ok ?a, H' : as_index_dict ?w = Ok ?b |- _ =>
        let Q := fresh in pose proof (same_index v w a b V W S H H') as Q; destruct Q; clear H'
    end.

Lemma init_equivalent name c E x y a b : dict_get classes name = Some c ->
  Forall value x -> Forall value y -> Forall2 same x y ->
  c_init c E x = Ok a -> c_init c E y = Ok b -> equivalent a b.
Proof.
  intros HG Vx Vy HF. apply dict_get_In in HG. unfold classes in HG.
  repeat (destruct HG as [HG|HG]; [injection HG as _ <-; cbn [c_init plain];
    try (intros [= <-] [= <-]; apply equivalent_refl)|]); [| | | | | | | | | |destruct HG].
  all: inversion HF as [|v1 w1 x1 y1 S1 HF1]; subst; [discriminate|].
  all: inversion HF1 as [|v2 w2 x2 y2 S2 HF2]; subst; try discriminate.
  all: try (inversion HF2 as [|v3 w3 x3 y3 S3 HF3]; subst; try discriminate).
  all: try (inversion HF3; subst; try discriminate).
  all: inversion Vx as [|? ? V1 Vx1]; inversion Vy as [|? ? V1' Vy1]; subst.
  all: cbn [one two three].
  - (* WordnZhChar *) unfold init_wordn. rewrite (same_words _ _ S1), (same_truthy _ _ S2). intros -> [= <-]. apply equivalent_refl.
  - (* ReplaceAwithB *) unfold init_replace. rewrite (same_as_str _ _ S1), (same_as_str _ _ S2). intros -> [= <-]. apply equivalent_refl.
  - unfold init_custom. rewrite (same_words _ _ S1), (same_truthy _ _ S2). intros -> [= <-]. apply equivalent_refl.
  - unfold init_soseos. intros HA HB. unbind. apply equivalent_refl.
  - unfold init_pad. rewrite (same_int _ _ S1). intros HA HB. unbind. apply equivalent_refl.
  - unfold init_index. rewrite (same_as_str _ _ S2). unfold make_token2index. intros HA HB. unbind.
    now apply index_equivalent.
  - unfold init_subwords. rewrite (same_int _ _ S3). intros HA HB. unbind. now apply subwords_equivalent.
  - unfold init_hash, make_hash. intros HA HB. unbind. now apply hash_equivalent.
  - unfold init_purenum. destruct S1; cbn; try congruence; intros [= <-] [= <-]; apply equivalent_refl.
  - unfold init_end. destruct S1; try congruence. intros -> [= <-]. apply equivalent_refl.
Qed.

Lemma coherent_bound_value E o c bound : coherent E o c bound -> Forall value bound.
Proof.
  intros (HG & [HL HC] & _ & _ & _ & HV & _). apply value_dict in HV. destruct HV as [_ HV].
  rewrite Forall_forall in *. intros v Hv. apply In_nth_error in Hv. destruct Hv as (k & Hk).
  destruct (nth_error (c_params c) k) as [[n d]|] eqn:Hp.
  - specialize (HC k n d Hp). rewrite Hk in HC. apply dict_get_In in HC. apply (HV _ HC).
  - apply nth_error_None in Hp. assert (k < length bound) by (apply nth_error_Some; congruence). lia.
Qed.

(** C43: equal operators behave the same *)
Theorem equal_behave E a b : made E a -> made E b -> op_eqb a b = true -> equivalent (o_op a) (o_op b).
Proof.
  intros Ha Hb HE. apply (op_eqb_spec E) in HE; auto. destruct HE as [HN HS].
  destruct (made_coherent E a Ha) as (c & ba & CA). destruct (made_coherent E b Hb) as (c' & bb & CB).
  pose proof (coherent_bound_value _ _ _ _ CA) as VA. pose proof (coherent_bound_value _ _ _ _ CB) as VB.
  destruct CA as (GA & CoA & IA & NA & KA & VDA & _), CB as (GB & CoB & IB & NB & KB & VDB & _).
  rewrite HN, GB in GA. injection GA as ->.
  apply (init_equivalent (o_class b) c E ba bb); auto.
  destruct CoA as [LA CA], CoB as [LB CB].
  apply py_eqb_same in HS; auto. cbn [py_eqb] in HS. apply andb_true_iff in HS. destruct HS as [_ HS].
  rewrite forallb_forall in HS.
  assert (G : forall k v w, nth_error ba k = Some v -> nth_error bb k = Some w -> same v w).
  { intros k v w Hv Hw. destruct (nth_error (c_params c) k) as [[n d]|] eqn:Hp.
    - specialize (CA k n d Hp). specialize (CB k n d Hp). rewrite Hv in CA. rewrite Hw in CB.
      pose proof (dict_get_In _ _ _ CA) as IN. specialize (HS _ IN). cbn [fst snd] in HS. rewrite CB in HS.
      apply py_eqb_same in HS; auto.
      + rewrite Forall_forall in VA. apply VA. eapply nth_error_In; eauto.
      + rewrite Forall_forall in VB. apply VB. eapply nth_error_In; eauto.
    - apply nth_error_None in Hp. assert (k < length ba) by (apply nth_error_Some; congruence). lia. }
  clear -LA LB G. rewrite <- LB in LA. clear LB. revert bb LA G. induction ba as [|v ba IH]; intros [|w bb] LA G; try discriminate.
  - constructor.
  - constructor; [exact (G 0 v w eq_refl eq_refl)|]. apply IH; [cbn in LA; lia|]. intros k. exact (G (S k)).
Qed.

(** the object read back is equal iff no tuple was recorded *)
Lemma same_json v : value v -> same v (as_json v) <-> no_tuple v.
Proof.
  intros V. split.
  - revert V. induction v as [ |x|x|x|l IH|l IH|d IH] using jval_rec'; intros V HS; cbn [no_tuple as_json] in *; auto.
    + inversion HS as [| | | | | |? ? HF| |]; subst. rewrite fold_Forall in *. clear HS.
      induction l as [|x l IHl]; [constructor|]. inversion IH; inversion V; subst. cbn in HF. inversion HF; subst.
      constructor; auto.
    + inversion HS.
    + apply py_eqb_same in HS.
      2: exact V. 2: exact (as_json_value (JDict d) V).
      apply value_dict in V. destruct V as [ND FV].
      cbn [py_eqb] in HS. apply andb_true_iff in HS. destruct HS as [_ HS]. rewrite forallb_forall in HS.
      rewrite fold_Forall. rewrite Forall_forall in *. intros [k w] Hk. specialize (HS _ Hk). cbn [fst snd] in HS.
      fold (json_dict d) in HS. rewrite json_dict_get, (dict_get_Some _ _ _ ND Hk) in HS. cbn [option_map] in HS.
      pose proof (proj2 (FV _ Hk)) as VW. cbn [snd] in *.
      apply (IH _ Hk VW). apply py_eqb_same; auto. now apply as_json_value.
  - intros HT. rewrite (as_json_same v HT). apply same_refl.
Qed.

Lemma made_json E o : made E o -> made E (as_json_obj o).
Proof.
  intros HM. destruct (made_coherent E o HM) as (c & bound & HC).
  exists (o_class o), [], (json_dict (o_configs o)). split; [constructor|]. split.
  - destruct HC as (_ & _ & _ & _ & _ & HV & _). exact (as_json_value _ HV).
  - exact (construct_again E o c bound _ HC (or_intror eq_refl)).
Qed.

Theorem round_trip_equal E o : made E o ->
  op_eqb o (as_json_obj o) = true <-> no_tuple (JDict (o_configs o)).
Proof.
  intros HM. rewrite (op_eqb_spec E) by (auto using made_json). cbn [as_json_obj o_class o_configs].
  destruct (made_coherent E o HM) as (c & bound & (_ & _ & _ & _ & _ & HV & _)).
  rewrite <- (same_json _ HV). cbn [as_json]. fold (json_dict (o_configs o)). tauto.
Qed.

(** ** Saving pipes *)

Lemma text_app a b : text a -> text b -> text (a ++ b).
Proof. intros H1 H2. apply Forall_app. auto. Qed.
Lemma text_flat {A} (f : A -> str) l : (forall x, In x l -> text (f x)) -> text (flat_map f l).
Proof.
  induction l as [|x l IH]; cbn [flat_map]; intros H; [constructor|]. apply text_app; [apply H; now left|].
  apply IH. intros y Hy. apply H. now right.
Qed.
Lemma text_cons c s : (0 <= c)%Z -> text s -> text (c :: s).
Proof. now constructor. Qed.
Lemma text_dump_str s : text s -> text (dump_str s).
Proof.
  intros H. unfold dump_str. apply text_cons; [discriminate|]. apply text_app; [|repeat constructor; discriminate].
  apply text_flat. intros c Hc. unfold text in H. rewrite Forall_forall in H. specialize (H c Hc). cbn in H. unfold escape.
  repeat match goal with |- context [(?a =? ?b)%Z] => destruct (Z.eqb_spec a b); [repeat constructor; discriminate|] end.
  destruct (Z.ltb_spec c 32); [|repeat constructor; lia].
  assert (0 <= c / 16 < 16)%Z by (split; [apply Z.div_pos; lia|apply Z.div_lt_upper_bound; lia]).
  assert (0 <= c mod 16 < 16)%Z by (apply Z.mod_pos_bound; lia).
  assert (Hx : forall h, (0 <= h < 16)%Z -> (0 <= hex h)%Z) by (intros h Hh; unfold hex; destruct (h <? 10)%Z; lia).
  repeat constructor; try discriminate; apply Hx; auto.
Qed.
Lemma text_newline n : text (newline n).
Proof. unfold newline. apply text_cons; [discriminate|]. apply Forall_forall. intros c Hc. apply repeat_spec in Hc. subst. discriminate. Qed.
Lemma text_commas n l : Forall text l -> text (with_commas n l).
Proof.
  intros H. destruct l as [|x l]; [constructor|]. inversion H; subst. cbn [with_commas].
  apply text_app; [apply text_newline|]. apply text_app; [auto|]. apply text_flat. intros y Hy.
  rewrite Forall_forall in *. apply text_cons; [discriminate|]. apply text_app; [apply text_newline|auto].
Qed.
Lemma text_uint u : text (dump_uint u).
Proof. induction u; cbn [dump_uint]; repeat (apply text_cons; [discriminate|]); auto; constructor. Qed.
Lemma text_dumps v : value v -> forall ind, text (dumps ind v).
Proof.
  induction v as [ |x|x|x|l IH|l IH|d IH] using jval_rec'; intros V ind.
  - repeat constructor; discriminate.
  - destruct x; repeat constructor; discriminate.
  - cbn [dumps]. unfold dump_int. destruct (Z.to_int x); [|apply text_cons; [discriminate|]]; apply text_uint.
  - now apply text_dump_str.
  - cbn [dumps]. destruct l as [|v l]; [repeat constructor; discriminate|].
    cbn [value] in V. rewrite fold_Forall in V.
    apply text_cons; [discriminate|]. apply text_app; [|apply text_app; [apply text_newline|repeat constructor; discriminate]].
    apply text_commas. apply Forall_map. rewrite Forall_forall in *. intros w Hw. apply IH; auto.
  - cbn [dumps]. destruct l as [|v l]; [repeat constructor; discriminate|].
    cbn [value] in V. rewrite fold_Forall in V.
    apply text_cons; [discriminate|]. apply text_app; [|apply text_app; [apply text_newline|repeat constructor; discriminate]].
    apply text_commas. apply Forall_map. rewrite Forall_forall in *. intros w Hw. apply IH; auto.
  - cbn [dumps]. destruct d as [|v d]; [repeat constructor; discriminate|].
    apply value_dict in V. destruct V as [_ V].
    apply text_cons; [discriminate|]. apply text_app; [|apply text_app; [apply text_newline|repeat constructor; discriminate]].
    apply text_commas. apply Forall_map. rewrite Forall_forall in *. intros w Hw. destruct (V w Hw) as [V1 V2].
    apply text_app; [now apply text_dump_str|]. cbn [app]. apply text_cons; [discriminate|]. apply text_cons; [discriminate|].
    apply IH; auto.
Qed.

Lemma op_serialize_value E o : made E o -> value (JStr (op_serialize o)).
Proof.
  intros HM. destruct (made_coherent E o HM) as (c & bound & (_ & _ & _ & _ & _ & HV & HT)).
  cbn [value]. unfold op_serialize. apply text_dumps. apply value_dict. split.
  - apply nodupb_ok. reflexivity.
  - constructor; [|constructor; [|constructor]]; (split; [apply textb_ok; reflexivity|]); [exact HT|exact HV].
Qed.

(** reading the steps one after the other *)
Fixpoint restore_all (E : env) (reg : list str) (p : pipe) (ops : list opobj) : res pipe :=
  match ops with
  | [] => Ok p
  | o :: ops =>
      if memb (o_class o) reg then
        match add_op p (as_json_obj o) None with
        | (p, None) => restore_all E reg p ops
        | (_, Some e) => Err e
        end
      else Err KeyErr
  end.

Lemma restore_steps E reg ops : Forall (made E) ops -> forall p,
  foldM (restore_step E reg) (map as_json (map (fun o => JStr (op_serialize o)) ops)) p = restore_all E reg p ops.
Proof.
  induction 1 as [|o ops Ho _ IH]; intros p; [reflexivity|]. cbn [map as_json foldM restore_all].
  unfold restore_step at 1. destruct (memb (o_class o) reg) eqn:HR.
  - apply memb_In in HR. rewrite (op_round_trip E reg o Ho HR). cbn [bind].
    destruct (add_op p (as_json_obj o) None) as [q [e|]]; [reflexivity|]. apply IH.
  - rewrite (op_unknown E reg o Ho); [reflexivity|]. rewrite <- memb_In. congruence.
Qed.

Lemma checkpoints_value ck : value (JDict (map (fun kv : str * Z => (fst kv, JInt (snd kv))) ck)) <->
  NoDup (map fst ck) /\ Forall text (map fst ck).
Proof.
  rewrite value_dict, map_map. cbn [fst]. rewrite !Forall_map. cbn [fst snd value].
  split; intros [A B]; (split; [exact A|]); eapply Forall_impl; try exact B; cbn; tauto.
Qed.

Lemma as_index_ck ck : as_index_dict (as_json (JDict (map (fun kv : str * Z => (fst kv, JInt (snd kv))) ck))) = Ok ck.
Proof.
  cbn [as_json as_index_dict]. rewrite map_map. cbn [fst snd as_json]. induction ck as [|[k z] ck IH]; [reflexivity|].
  cbn [map mapM fst snd as_int bind]. rewrite IH. reflexivity.
Qed.

Lemma pipe_read E reg p :
  Forall (made E) (steps p) -> NoDup (map fst (checkpoints p)) -> Forall text (map fst (checkpoints p)) ->
  pipe_deserialize E reg (pipe_serialize p) =
  (q <- restore_all E reg pipe_new (steps p) ;; Ok (mkPipe (steps q) (checkpoints p))).
Proof.
  intros HM ND HT. unfold pipe_deserialize, pipe_serialize. rewrite loads_dumps.
  - cbn [bind]. remember (JDict (map (fun kv : str * Z => (fst kv, JInt (snd kv))) (checkpoints p))) as ck eqn:Hck.
    remember (map (fun o => JStr (op_serialize o)) (steps p)) as ss eqn:Hss.
    change (as_json (JDict [(K_steps, JList ss); (K_checkpoints, ck)]))
      with (JDict [(K_steps, JList (map as_json ss)); (K_checkpoints, as_json ck)]).
    change (key (JDict [(K_steps, JList (map as_json ss)); (K_checkpoints, as_json ck)]) K_steps)
      with (Ok (JList (map as_json ss)) : res jval).
    change (key (JDict [(K_steps, JList (map as_json ss)); (K_checkpoints, as_json ck)]) K_checkpoints)
      with (Ok (as_json ck) : res jval).
    cbn [bind as_list]. rewrite Hss, restore_steps by exact HM.
    destruct (restore_all E reg pipe_new (steps p)) as [q|]; cbn [bind]; [|reflexivity].
    rewrite Hck, as_index_ck. reflexivity.
  - apply value_dict. split.
    + apply nodupb_ok. reflexivity.
    + constructor; [|constructor; [|constructor]]; (split; [apply textb_ok; reflexivity|]); cbn [snd].
      * cbn [value]. rewrite fold_Forall, Forall_map. eapply Forall_impl; [|exact HM]. intros o Ho.
        now apply (op_serialize_value E).
      * apply checkpoints_value. auto.
Qed.

Lemma json_in_type o : in_type (as_json_obj o) = in_type o. Proof. reflexivity. Qed.
Lemma json_out_type o : out_type (as_json_obj o) = out_type o. Proof. reflexivity. Qed.

Lemma chained_tail o ops : chained (o :: ops) -> chained ops.
Proof. intros H k a b Ha Hb. exact (H (S k) a b Ha Hb). Qed.

Lemma restore_chained E reg ops : forall p,
  (forall o, In o ops -> In (o_class o) reg) -> chained ops ->
  (forall a b, last_opt (steps p) = Some a -> nth_error ops 0 = Some b -> out_type a = in_type b) ->
  restore_all E reg p ops = Ok (mkPipe (steps p ++ map as_json_obj ops) (checkpoints p)).
Proof.
  induction ops as [|o ops IH]; intros p HR HC HJ.
  - cbn. rewrite app_nil_r. destruct p; reflexivity.
  - cbn [restore_all map]. rewrite (proj2 (memb_In (o_class o) reg)) by (apply HR; now left).
    destruct (add_op_effect p (as_json_obj o) None) as (_ & H2 & _ & _).
    rewrite H2; auto.
    2:{ intros (l & HL & HT). apply HT. rewrite json_in_type. now apply HJ. }
    rewrite IH.
    + cbn [steps checkpoints]. now rewrite <- app_assoc.
    + intros o' Ho'. apply HR. now right.
    + now apply chained_tail in HC.
    + cbn [steps]. intros a b Ha Hb. rewrite last_opt_nth, app_length in Ha. cbn [length] in Ha.
      replace (length (steps p) + 1 - 1) with (length (steps p)) in Ha by lia.
      rewrite nth_error_app2, Nat.sub_diag in Ha by lia. injection Ha as <-. rewrite json_out_type.
      exact (HC 0 o b eq_refl Hb).
Qed.

(** C42 *)
Theorem pipe_round_trip E reg p :
  Forall (made E) (steps p) -> NoDup (map fst (checkpoints p)) -> Forall text (map fst (checkpoints p)) ->
  chained (steps p) -> (forall o, In o (steps p) -> In (o_class o) reg) ->
  pipe_deserialize E reg (pipe_serialize p) = Ok (as_json_pipe p).
Proof.
  intros HM ND HT HC HR. rewrite (pipe_read E reg p HM ND HT).
  rewrite restore_chained; auto. intros a b Ha. discriminate.
Qed.

Theorem pipe_round_trip_exact E reg p :
  Forall (made E) (steps p) -> NoDup (map fst (checkpoints p)) -> Forall text (map fst (checkpoints p)) ->
  chained (steps p) -> (forall o, In o (steps p) -> In (o_class o) reg) ->
  (forall o, In o (steps p) -> no_tuple (JDict (o_configs o))) ->
  pipe_deserialize E reg (pipe_serialize p) = Ok p.
Proof.
  intros HM ND HT HC HR HN. rewrite (pipe_round_trip E reg p); auto. unfold as_json_pipe. destruct p as [ops ck].
  cbn [steps checkpoints] in *. do 2 f_equal. rewrite <- (map_id ops) at 2. apply map_ext_in. intros o Ho.
  specialize (HN o Ho). apply as_json_same in HN. cbn [as_json] in HN. injection HN as HN.
  unfold as_json_obj. fold (json_dict (o_configs o)) in HN. rewrite HN. destruct o; reflexivity.
Qed.

(** steps that do not fit are refused, unregistered ones too *)
Theorem pipe_read_fails E reg p :
  Forall (made E) (steps p) -> NoDup (map fst (checkpoints p)) -> Forall text (map fst (checkpoints p)) ->
  (chained (steps p) -> (exists o, In o (steps p) /\ ~ In (o_class o) reg) ->
     pipe_deserialize E reg (pipe_serialize p) = Err KeyErr) /\
  (~ chained (steps p) -> (forall o, In o (steps p) -> In (o_class o) reg) ->
     pipe_deserialize E reg (pipe_serialize p) = Err TypeErr).
Proof.
  intros HM ND HT. rewrite (pipe_read E reg p HM ND HT).
  assert (LA : forall p o b, last_opt (steps (mkPipe (steps p ++ [o]) (checkpoints p))) = Some b -> b = o).
  { clear. intros p o b Ha. cbn [steps] in Ha. rewrite last_opt_nth, app_length in Ha. cbn [length] in Ha.
      replace (length (steps p) + 1 - 1) with (length (steps p)) in Ha by lia.
      rewrite nth_error_app2, Nat.sub_diag in Ha by lia. now injection Ha as <-. }
  split.
  - assert (G : forall ops q, chained ops -> (exists o, In o ops /\ ~ In (o_class o) reg) ->
      (forall a b, last_opt (steps q) = Some a -> nth_error ops 0 = Some b -> out_type a = in_type b) ->
      restore_all E reg q ops = Err KeyErr).
    { clear -LA. induction ops as [|o ops IH]; intros q HC (u & HU & HN) HJ; [destruct HU|].
      cbn [restore_all]. destruct (memb (o_class o) reg) eqn:HM; [|reflexivity].
      destruct (add_op_effect q (as_json_obj o) None) as (_ & H2 & _ & _). rewrite H2; auto.
      - apply IH.
        + now apply chained_tail in HC.
        + exists u. split; [|exact HN]. destruct HU as [->|HU]; [|exact HU]. apply memb_In in HM. contradiction.
        + intros a b Ha Hb. apply LA in Ha. subst a. rewrite json_out_type. exact (HC 0 o b eq_refl Hb).
      - intros (l & HL & HT). apply HT. rewrite json_in_type. now apply HJ. }
    intros HC HU. rewrite G; auto. intros a b Ha. discriminate.
  - assert (G : forall ops q, (forall o, In o ops -> In (o_class o) reg) ->
      ~ (chained ops /\ (forall a b, last_opt (steps q) = Some a -> nth_error ops 0 = Some b -> out_type a = in_type b)) ->
      restore_all E reg q ops = Err TypeErr).
    { clear -LA. induction ops as [|o ops IH]; intros q HR HN.
      - exfalso. apply HN. split; [intros [|k] a b; discriminate|]. intros a b _ H. discriminate.
      - cbn [restore_all]. rewrite (proj2 (memb_In (o_class o) reg)) by (apply HR; now left).
        destruct (add_op_effect q (as_json_obj o) None) as (H1 & H2 & _ & _).
        assert (D : (exists l, last_opt (steps q) = Some l /\ out_type l <> in_type (as_json_obj o)) \/
                    ~ (exists l, last_opt (steps q) = Some l /\ out_type l <> in_type (as_json_obj o))).
        { destruct (last_opt (steps q)) as [l|]; [|right; intros (l & ? & _); discriminate].
          destruct (seqtype_eqb_spec (out_type l) (in_type (as_json_obj o))).
          - right. intros (l' & [= <-] & ?). contradiction.
          - left. eauto. }
        destruct D as [D|D]; [now rewrite H1|]. rewrite H2 by auto. apply IH.
        + intros o' Ho'. apply HR. now right.
        + intros [HC HJ]. apply HN. split.
          * intros [|k] a b Ha Hb; cbn in Ha, Hb.
            -- injection Ha as <-. rewrite <- (json_out_type o). apply HJ; [|exact Hb].
               cbn [steps]. rewrite last_opt_nth, app_length. cbn [length].
               replace (length (steps q) + 1 - 1) with (length (steps q)) by lia.
               now rewrite nth_error_app2, Nat.sub_diag by lia.
            -- exact (HC k a b Ha Hb).
          * intros a b Ha Hb. cbn in Hb. injection Hb as <-.
            destruct (seqtype_eqb_spec (out_type a) (in_type o)) as [|N]; [auto|]. exfalso. apply D. exists a. auto. }
    intros HC HR. rewrite G; auto. intros [HC' _]. contradiction.
Qed.
