(** What an aligner gives back when the contents of its input list have changed (C83). *)

From Coq Require Import ZArith Bool Lia Sorted Permutation.
From Verif Require Import Py Edit Labels Ops Elements Pipe SpecEdit SpecLabels SpecOps SeqHeap SpecSeqHeap.
From Verif Require Import PyFacts EditProofs LabelProofs EditApiProofs SegProofs ListOpProofs AlignProofs.
From Coq Require Import List.
Import ListNotations.
Local Open Scope nat_scope.

(** ** Groups that add_all makes *)

Lemma radd_each_In {A} (l : list (Z * Z * list A)) : forall acc g,
  radd_each acc l = Ok g -> Forall well_formed acc -> Forall well_formed g /\
  (forall r, In r g -> In r acc \/ exists s e v, In (s, e, v) l /\ r = mkR (Z.to_nat s) (Z.to_nat e) v).
Proof.
  induction l as [|((s, e), v) l IH]; intros acc g H W; cbn [radd_each] in H.
  - injection H as <-. auto.
  - unfold radd_py, to_u32 in H. destruct (u32b s); [|discriminate]. destruct (u32b e); [|discriminate].
    cbn [bind] in H. unfold radd in H.
    destruct (Nat.ltb_spec (Z.to_nat e) (Z.to_nat s)) as [L|L].
    + destruct (IH _ _ H W) as (W' & I). split; [exact W'|]. intros r HR.
      destruct (I r HR) as [?|(s' & e' & v' & HI & Q)]; [now left|]. right. exists s', e', v'.
      split; [now right|exact Q].
    + destruct (IH _ _ H) as (W' & I).
      { apply Forall_app. split; [exact W|]. constructor; [exact L|constructor]. }
      split; [exact W'|]. intros r HR.
      destruct (I r HR) as [HA|(s' & e' & v' & HI & Q)].
      * apply in_app_or in HA. destruct HA as [HA|[<-|[]]]; [now left|]. right. exists s, e, v.
        split; [now left|reflexivity].
      * right. exists s', e', v'. split; [now right|exact Q].
Qed.

Lemma radd_all_in E (l : list (Z * Z * list elem)) g n :
  ord_ok (ord_e E) -> radd_all (ord_e E) l = Ok g ->
  (forall s e v, In (s, e, v) l -> (e <= Z.of_nat n)%Z) ->
  group_in 0 n g /\ NoDup g /\ (forall r, In r g -> exists s e v, In (s, e, v) l /\ r = mkR (Z.to_nat s) (Z.to_nat e) v).
Proof.
  intros HO H HB. unfold radd_all in H. destruct (radd_each [] l) as [acc|] eqn:EA; [|discriminate].
  cbn [bind] in H. destruct (radd_each_In _ _ _ EA (Forall_nil _)) as (W & I).
  destruct (rdone_ok _ _ _ HO W H) as (N & HI & _ & _ & G). split; [|split; [exact N|]].
  - apply G. intros r HR. destruct (I r HR) as [[]|(s & e & v & HV & ->)]. cbn [r_end].
    specialize (HB _ _ _ HV). lia.
  - intros r HR. apply HI in HR. destruct (I r HR) as [[]|(s & e & v & HV & ->)]. eauto.
Qed.

Lemma no_touching_one {A} (g : list (repl A)) : length g <= 1 -> no_touching_deletions g.
Proof. destruct g as [|r [|r' g]]; cbn; auto; lia. Qed.

Lemma short_of_one {A} (g : list A) x : NoDup g -> (forall y, In y g -> y = x) -> length g <= 1.
Proof.
  intros N H. destruct g as [|a [|b g]]; cbn; [lia|lia|]. exfalso.
  inversion N as [|? ? N1 _]; subst. apply N1. left.
  rewrite (H a (or_introl eq_refl)), (H b (or_intror (or_introl eq_refl))). reflexivity.
Qed.

Lemma elem_edits_in newv l : forall i acc g,
  elem_edits newv i l acc = Ok g ->
  Forall (fun r : repl elem => well_formed r /\ r_end r <= i + length l) acc ->
  Forall (fun r : repl elem => well_formed r /\ r_end r <= i + length l) g.
Proof.
  induction l as [|x l IH]; intros i acc g H F; cbn [elem_edits] in H.
  - now injection H as <-.
  - destruct (newv x) as [v|]; [|discriminate]. cbn [bind] in H. cbn [length] in F |- *.
    rewrite <- Nat.add_succ_comm in F |- *. apply (IH _ _ _ H).
    destruct v as [v|]; [|exact F]. unfold radd. destruct (Nat.ltb_spec (i + 1) i); [lia|].
    apply Forall_app. split; [exact F|]. constructor; [|constructor]. unfold well_formed.
    cbn [r_start r_end]. lia.
Qed.

Lemma elem_group_in E newv l g :
  ord_ok (ord_e E) -> elem_group E newv l = Ok g -> group_in 0 (length l) g.
Proof.
  intros HO H. unfold elem_group in H. destruct (elem_edits newv 0 l []) as [acc|] eqn:EA; [|discriminate].
  cbn [bind] in H. pose proof (elem_edits_in _ _ _ _ _ EA (Forall_nil _)) as F. cbn in F.
  rewrite Forall_forall in F.
  destruct (rdone_ok (ord_e E) acc g HO) as (_ & _ & _ & _ & G); [|exact H|].
  - rewrite Forall_forall. intros r HR. apply (F r HR).
  - apply G. intros r HR. apply (F r HR).
Qed.

Lemma subwords_no_touching E vocab unk maxlen ts g :
  ord_ok (ord_e E) -> ~ two_empty ts ->
  elem_group E (subwords_newv vocab unk maxlen) (map ETok ts) = Ok g -> no_touching_deletions g.
Proof.
  intros HO HN H.
  destruct (subwords_rewrites E vocab unk maxlen ts HO) as (outs & HS & sg & _ & _ & HG & ESG).
  rewrite HG in H. injection H as <-. rewrite ESG. generalize 0 as lo. clear -HS HN.
  induction HS as [|t o ts outs H1 H2 IH]; intros lo; [exact I|].
  cbn [combine map fst snd grp].
  assert (HN' : ~ two_empty ts) by (intros Q; apply HN; now right). specialize (IH HN').
  assert (NE : o = [] -> t = []).
  { intros ->. destruct H1 as [(_ & ps & HP & Q)|(_ & Q)]; [|discriminate].
    destruct ps; [|discriminate]. inversion HP; subst; reflexivity. }
  destruct (eqb o [ETok t]) eqn:EQ; [apply IH|]. cbn [grp length].
  specialize (IH (lo + 1)).
  destruct (grp (lo + 1) (map (fun to : list Z * list elem =>
     ([ETok (fst to)], if eqb (snd to) [ETok (fst to)] then None else Some (snd to)))
     (combine ts outs))) as [|r g] eqn:EG; [exact I|].
  split; [|exact IH]. cbn [r_new r_end]. intros (Q1 & Q2 & Q3).
  destruct H2 as [|t2 o2 ts outs G1 G2]; [discriminate|].
  cbn [combine map fst snd grp] in EG.
  destruct (eqb o2 [ETok t2]) eqn:EQ2.
  - pose proof (grp_start_ge (lo + 1 + length [ETok t2]) (map (fun to : list Z * list elem =>
     ([ETok (fst to)], if eqb (snd to) [ETok (fst to)] then None else Some (snd to)))
     (combine ts outs))) as F. rewrite EG in F. inversion F as [|? ? F1 _]; subst.
    cbn [length] in F1. lia.
  - cbn [grp] in EG. injection EG as <- _. cbn [r_new] in Q2. subst o2.
    apply HN. left. split; [now apply NE|].
    destruct G1 as [(_ & ps & HP & Q)|(_ & Q)]; [|discriminate].
    destruct ps; [|discriminate]. inversion HP; subst; reflexivity.
Qed.

(** ** What the operators make *)

Definition total (f : transducer) : Prop := forall ls k, exists out, f ls k = Ok out.

Definition no_pair (o : op) (x : pseq) : Prop :=
  forall v u m ts, o = SpanSubwords v u m -> x = SLst (map ETok ts) -> ~ two_empty ts.

Definition fine (o : op) (x : pseq) (a : aligner) : Prop :=
  is_null a = keeps_labels o /\
  match a with
  | ALst l g n _ b =>
      x = SLst l /\ n = length (apply l g) /\ group_in 0 (length l) g /\ sized b /\ total b /\
      (no_pair o x -> no_touching_deletions g)
  | _ => True
  end.

Lemma transform_fine E o x y a :
  ord_ok (ord_e E) -> transform_op E o x = Ok (y, a) -> fine o x a.
Proof.
  intros HO H. unfold transform_op in H.
  destruct (guard (seqtype_eqb (type_of x) (input_type o)) TypeErr) as [[]|]; [|discriminate].
  cbn [bind] in H. destruct x as [s|l].
  - destruct (transform_str E o s) as [(y', a')|] eqn:ET; [|discriminate]. cbn [bind fst] in H.
    destruct (guard _ TypeErr) as [[]|]; [|discriminate]. cbn [bind] in H. injection H as -> ->.
    destruct o; cbn [transform_str] in ET; unfold str_result, tok_result in ET; try discriminate;
      repeat match type of ET with
        | bind ?r _ = _ => destruct r; cbn [bind] in ET; [|discriminate]
        | match ?r with _ => _ end = _ => destruct r; [|discriminate]
        end; try discriminate; injection ET as _ <-; split; exact eq_refl || exact I.
  - destruct (transform_lst E o l) as [(y', a')|] eqn:ET; [|discriminate]. cbn [bind fst] in H.
    destruct (guard _ TypeErr) as [[]|]; [|discriminate]. cbn [bind] in H. injection H as -> ->.
    destruct o; cbn [transform_lst] in ET; unfold lst_result, lst_result_null in ET; try discriminate;
    match type of ET with bind ?r _ = _ => destruct r as [g|] eqn:EG end; try discriminate;
    cbn [bind] in ET; injection ET as _ <-; (split; [reflexivity|]); try exact I;
    (split; [reflexivity|]); (split; [reflexivity|]).
    + unfold pad_group in EG.
      assert (B : group_in 0 (length l) g /\ length g <= 1).
      { destruct (Z.eqb_spec (Z.of_nat (length l)) maxlen) as [Q|Q];
          [|destruct (Z.ltb_spec maxlen (Z.of_nat (length l))) as [L|L]];
        destruct (radd_all_in E _ g (length l) HO EG) as (G & N & I);
          try (intros ? ? ? [R|[]]; injection R as <- <- <-; lia); try (intros ? ? ? []).
        - split; [exact G|]. destruct g as [|r g]; cbn; [lia|].
          destruct (I r (or_introl eq_refl)) as (? & ? & ? & [] & _).
        - split; [exact G|]. eapply short_of_one; [exact N|]. intros r HR.
          destruct (I r HR) as (? & ? & ? & [R|[]] & ->). injection R as <- <- <-. reflexivity.
        - split; [exact G|]. eapply short_of_one; [exact N|]. intros r HR.
          destruct (I r HR) as (? & ? & ? & [R|[]] & ->). injection R as <- <- <-. reflexivity. }
      destruct B as (B1 & B2). split; [exact B1|]. split; [apply sized_not_entity|].
      split; [exact total_not_entity|]. intros _. now apply no_touching_one.
    + unfold soseos_group in EG. destruct (radd_all_in E _ g (length l) HO EG) as (G & _ & I).
      { intros ? ? ? [R|[R|[]]]; injection R as <- <- <-; lia. }
      split; [exact G|]. split; [apply sized_not_entity|]. split; [exact total_not_entity|].
      intros _. apply no_touching_nonempty. rewrite Forall_forall. intros r HR.
      destruct (I r HR) as (? & ? & v & [R|[R|[]]] & ->); injection R as _ _ <-; discriminate.
    + unfold end_group in EG. destruct (radd_all_in E _ g (length l) HO EG) as (G & _ & I).
      { intros ? ? ? [R|[]]; injection R as <- <- <-; lia. }
      split; [exact G|]. split; [apply sized_not_entity|]. split; [exact total_not_entity|].
      intros _. apply no_touching_nonempty. rewrite Forall_forall. intros r HR.
      destruct (I r HR) as (? & ? & v & [R|[]] & ->); injection R as _ _ <-; discriminate.
    + split; [exact (elem_group_in _ _ _ _ HO EG)|]. split; [apply sized_except|].
      split; [exact total_except|]. intros NT.
      assert (HL : exists ts, l = map ETok ts).
      { unfold elem_group in EG. destruct (elem_edits _ 0 l []) as [acc|] eqn:EA; [|discriminate].
        eapply all_toks; [|eapply elem_edits_inv; exact EA]. intros i. eexists. reflexivity. }
      destruct HL as (ts & ->). eapply subwords_no_touching; [exact HO| |exact EG].
      exact (NT _ _ _ _ eq_refl eq_refl).
Qed.

(** ** The way back with other contents *)

Section Back.
Context {A : Type} `{Eqb A}.

Definition shape (r : repl A) : nat * nat * nat := (r_start r, r_end r, length (r_new r)).

Lemma compute_output_length_shape n (g h : list (repl A)) :
  map shape g = map shape h -> compute_output_length n g = compute_output_length n h.
Proof.
  intros Q. unfold compute_output_length. f_equal. f_equal. f_equal.
  generalize 0%Z as k. revert h Q. induction g as [|r g IH]; intros [|r' h] Q k; try discriminate; [reflexivity|].
  cbn [map] in Q. injection Q as Q1 Q2 Q3 Q4. cbn [fold_left]. rewrite Q1, Q2, Q3. now apply IH.
Qed.

Lemma propagate_shape labels (g h : list (repl A)) f :
  map shape g = map shape h -> propagate labels g f = propagate labels h f.
Proof.
  intros Q. unfold propagate. rewrite (compute_output_length_shape _ _ _ Q).
  generalize (repeat NOT_ENTITY (compute_output_length (length labels) h)) as out.
  generalize 0 at 1 3 as i. generalize 0 as j. revert h Q.
  induction g as [|r g IH]; intros [|r' h] Q j i out; try discriminate; [reflexivity|].
  cbn [map] in Q. injection Q as Q1 Q2 Q3 Q4. cbn [propagate_loop]. cbn zeta. rewrite Q1, Q2, Q3.
  destruct (f _ _); [|reflexivity]. cbn [bind]. now apply IH.
Qed.

Lemma inv_rec_shapes (s s' : list A) g : forall lo olo n,
  group_in lo n g -> n = length s ->
  (map shape (inv_rec s' lo olo g) = map shape (inv_rec s lo olo g) /\
     total_growth (inv_rec s' lo olo g) = total_growth (inv_rec s lo olo g)) \/
  (length s' < length s /\ (total_growth (inv_rec s' lo olo g) < total_growth (inv_rec s lo olo g))%Z).
Proof.
  induction g as [|r g IH]; intros lo olo n HG HL; [left; split; reflexivity|].
  cbn [group_in] in HG. destruct HG as (G1 & G2 & G3). pose proof (group_in_bound _ _ _ G3) as B.
  cbn [inv_rec]. cbn zeta. set (st := olo + (r_start r - lo)).
  specialize (IH (r_end r) (st + length (r_new r)) n G3 HL).
  assert (L : length (slice s (r_start r) (r_end r)) = r_end r - r_start r).
  { apply slice_length; lia. }
  assert (L' : length (slice s' (r_start r) (r_end r)) <= r_end r - r_start r).
  { unfold slice. rewrite firstn_length. lia. }
  assert (Ls : length s' < length s \/ length (slice s' (r_start r) (r_end r)) = r_end r - r_start r).
  { destruct (Nat.lt_ge_cases (length s') (length s)) as [Q|Q]; [now left|right]. apply slice_length; lia. }
  cbn [map total_growth fold_right shape r_new r_start r_end].
  fold (total_growth (inv_rec s (r_end r) (st + length (r_new r)) g)).
  fold (total_growth (inv_rec s' (r_end r) (st + length (r_new r)) g)).
  unfold shape at 1 3. cbn [r_start r_end r_new].
  destruct IH as [(I1 & I2)|(I1 & I2)].
  - destruct (Nat.eq_dec (length (slice s' (r_start r) (r_end r))) (r_end r - r_start r)) as [Q|Q].
    + left. rewrite I1, I2, L, Q. split; reflexivity.
    + right. split; [lia|]. rewrite I2. lia.
  - right. split; [exact I1|]. lia.
Qed.

Lemma inverse_contents (ord : list (repl A) -> list (repl A)) s s' g n f labels :
  ord_ok ord -> group_in 0 (length s) g -> no_touching_deletions g -> sized f -> total f ->
  n = length (apply s g) -> length labels = n ->
  exists h h' out out', inverse ord s g = Ok h /\ inverse ord s' g = Ok h' /\
    propagate labels h f = Ok out /\ propagate labels h' f = Ok out' /\ length out = length s /\
    (out' = out \/ (length s' < length s /\ length out' < length s)).
Proof.
  intros HO HG NT HF TF -> HL.
  assert (I0 : forall t, inverse ord t g = Ok (inv_rec t 0 0 g) /\
                 group_in 0 (length labels) (inv_rec t 0 0 g)).
  { intros t. pose proof (inv_rec_group_in t g 0 0 (length s) HG) as G.
    assert (OL : 0 + out_len (length s) 0 g = length labels).
    { rewrite HL. cbn [Nat.add]. unfold apply. now rewrite transform_length. }
    rewrite OL in G. split; [|exact G].
    unfold inverse. rewrite gen_inverse_inv_list, inv_list_rec.
    rewrite (rdone_strict ord _ (length labels)); auto.
    - cbn [bind]. rewrite <- inv_list_rec, inv_list_length, Nat.eqb_refl. reflexivity.
    - eapply inv_rec_strict; eauto. }
  destruct (I0 s) as (E1 & G1). destruct (I0 s') as (E2 & G2).
  exists (inv_rec s 0 0 g), (inv_rec s' 0 0 g).
  destruct (propagate_succeeds A labels _ f HF TF G1) as (k & T1 & P1).
  destruct (propagate_succeeds A labels _ f HF TF G2) as (k' & T2 & P2).
  exists (splice_all labels k), (splice_all labels k').
  split; [exact E1|]. split; [exact E2|]. split; [exact P1|]. split; [exact P2|].
  destruct (inverse_undoes ord s g HO HG NT) as (h & EH & _ & U). rewrite E1 in EH. injection EH as <-.
  assert (LEN : forall t out, group_in 0 (length labels) (inv_rec t 0 0 g) ->
     propagate labels (inv_rec t 0 0 g) f = Ok out ->
     Z.of_nat (length out) = (Z.of_nat (length labels) + total_growth (inv_rec t 0 0 g))%Z).
  { intros t out G P. rewrite HL in G.
    destruct (propagate_positions f labels (inv_rec t 0 0 g) (apply s g) out HF G HL P) as (L & _).
    rewrite L, (apply_length_growth A H (apply s g)) by exact G. now rewrite HL. }
  pose proof (LEN s _ G1 P1) as L1. pose proof (LEN s' _ G2 P2) as L2.
  assert (L0 : length (splice_all labels k) = length s).
  { rewrite HL in G1.
    destruct (propagate_positions f labels (inv_rec s 0 0 g) (apply s g) _ HF G1 HL P1) as (L & _).
    now rewrite L, U. }
  split; [exact L0|].
  destruct (inv_rec_shapes s s' g 0 0 (length s) HG eq_refl) as [(Q1 & _)|(Q1 & Q2)].
  - left. rewrite (propagate_shape labels _ _ f Q1), P1 in P2. now injection P2.
  - right. split; [exact Q1|]. lia.
Qed.
End Back.

(** The current value of an input: a text never changes, a list stays a list. *)
Definition same_kind (x v : pseq) : Prop :=
  match x, v with SStr s, SStr s' => s' = s | SLst _, SLst _ => True | _, _ => False end.
Definition not_shorter (x v : pseq) : Prop :=
  match x, v with SLst l, SLst l' => length l <= length l' | _, _ => True end.

Definition back_with (E : env) (a : aligner) (v : pseq) (labels : list Z) : res (list Z) :=
  _ <- guard (Nat.eqb (length labels) (output_length a)) ValueErr ;;
  out <- align_inverse_raw E (with_input a v) labels ;;
  _ <- guard (Nat.eqb (length out) (input_length a)) ValueErr ;;
  Ok out.

Lemma back_same E o x y a labels :
  ord_ok (ord_e E) -> transform_op E o x = Ok (y, a) -> back_with E a x labels = align_inverse E a labels.
Proof.
  intros HO H. destruct (transform_fine _ _ _ _ _ HO H) as (_ & F). unfold back_with, align_inverse.
  destruct a; try reflexivity. destruct F as (-> & _). reflexivity.
Qed.

Lemma back_cases E o x y a v labels :
  ord_ok (ord_e E) -> transform_op E o x = Ok (y, a) -> no_pair o x -> same_kind x v ->
  (back_with E a v labels = align_inverse E a labels) \/
  (~ not_shorter x v /\ back_with E a v labels = Err ValueErr).
Proof.
  intros HO H NT SK. destruct (transform_fine _ _ _ _ _ HO H) as (_ & F). unfold back_with, align_inverse.
  destruct a as [| |l g n f b|]; try (left; destruct v; reflexivity).
  destruct F as (-> & -> & HG & HF & TF & HN). destruct v as [|l']; [destruct SK|].
  cbn [output_length input_length with_input align_inverse_raw not_shorter].
  destruct (Nat.eqb_spec (length labels) (length (apply l g))) as [Q|Q]; cbn [guard bind]; [|now left].
  destruct (inverse_contents (ord_e E) l l' g _ b labels HO HG (HN NT) HF TF eq_refl Q)
    as (h & h' & out & out' & E1 & E2 & P1 & P2 & L & C).
  rewrite E1, E2. cbn [bind]. rewrite P1, P2. cbn [bind].
  destruct C as [->|(C1 & C2)]; [now left|]. right. split; [lia|].
  destruct (Nat.eqb_spec (length out') (length l)); [lia|]. reflexivity.
Qed.
