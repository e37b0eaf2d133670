(** Pipes that do the same (C76). *)

From Verif Require Import Py PyFacts Edit Labels SpecEdit SpecLabels SpecSeg SpecRuns SpecWords SpecOps Ops Json Elements Pipe SpecLaws RunsProofs SegProofs TokProofs OpLaws LawsTok.
From Coq Require Import List Lia.

(** ** Composing descriptions *)

Definition acts (E : env) (ops : list op) (x y : pseq) (F : list Z -> list Z) (G : list Z -> res (list Z)) : Prop :=
  forall objs, map o_op objs = ops -> exists als coll, run E objs x = Ok (y, als, coll) /\
    (forall l, length l = pseq_length x -> align_all als l = Ok (F l) /\ length (F l) = pseq_length y) /\
    (forall l, length l <> pseq_length x -> align_all als l = Err ValueErr) /\
    (forall l, length l = pseq_length y -> align_inverse_all E als l = G l /\
       forall m, G l = Ok m -> length m = pseq_length x) /\
    (forall l, length l <> pseq_length y -> align_inverse_all E als l = Err ValueErr).

Lemma foldM_app {A B} (f : B -> A -> res B) (a b : list A) : forall x,
  foldM f (a ++ b) x = (y <- foldM f a x ;; foldM f b y).
Proof. induction a as [|c a IH]; intros x; cbn [app foldM bind]; [reflexivity|]. destruct (f x c); cbn [bind]; auto. Qed.

Lemma run_app2 E a b x : run E (a ++ b) x =
  ('(y, al, co) <- run E a x ;; '(z, al', co') <- run E b y ;; Ok (z, al ++ al', removelast co ++ co')).
Proof.
  revert x. induction a as [|o a IH]; intros x; cbn [app run bind].
  - destruct (run E b x) as [[[z al] co]|]; reflexivity.
  - destruct (transform_op E (o_op o) x) as [[y al]|]; cbn [bind]; [|reflexivity]. rewrite IH.
    destruct (run E a y) as [[[z al2] co2]|] eqn:R; cbn [bind]; [|reflexivity].
    destruct (run E b z) as [[[u al3] co3]|]; cbn [bind]; [|reflexivity].
    assert (co2 <> []) as N.
    { destruct a; cbn [run] in R; [injection R as <- <- <-; discriminate|].
      destruct (transform_op _ _ _) as [[? ?]|]; cbn [bind] in R; [|discriminate].
      destruct (run E a _) as [[[? ?] ?]|]; cbn [bind] in R; [|discriminate]. injection R as _ _ <-. discriminate. }
    destruct co2; [congruence|]. reflexivity.
Qed.

Lemma acts_app E ops1 ops2 x y z F G F' G' : acts E ops1 x y F G -> acts E ops2 y z F' G' ->
  acts E (ops1 ++ ops2) x z (fun l => F' (F l)) (fun l => m <- G' l ;; G m).
Proof.
  intros A B objs HO. apply map_eq_app in HO. destruct HO as (o1 & o2 & -> & H1 & H2).
  destruct (A o1 H1) as (als1 & c1 & R1 & F1 & F1' & G1 & G1'). destruct (B o2 H2) as (als2 & c2 & R2 & F2 & F2' & G2 & G2').
  exists (als1 ++ als2), (removelast c1 ++ c2). rewrite run_app2, R1. cbn [bind]. rewrite R2. cbn [bind].
  split; [reflexivity|]. unfold align_all, align_inverse_all in *. rewrite rev_app_distr.
  repeat split.
  - rewrite foldM_app. destruct (F1 l H) as [-> L1]. cbn [bind]. now destruct (F2 _ L1).
  - destruct (F1 l H) as [_ L1]. now destruct (F2 _ L1).
  - intros l H. rewrite foldM_app. now rewrite (F1' l H).
  - rewrite foldM_app. destruct (G2 l H) as [-> L2]. destruct (G' l) as [m|e]; cbn [bind]; [|reflexivity].
    now destruct (G1 m (L2 m eq_refl)).
  - intros m Q. destruct (G2 l H) as [_ L2]. destruct (G' l) as [m'|e]; cbn [bind] in Q; [|discriminate].
    destruct (G1 m' (L2 m' eq_refl)) as [_ L1]. now apply L1.
  - intros l H. rewrite foldM_app. now rewrite (G2' l H).
Qed.

Lemma acts_same E ops1 ops2 x y F G F' G' : acts E ops1 x y F G -> acts E ops2 x y F' G' ->
  (forall l, length l = pseq_length x -> F l = F' l) ->
  (forall l, length l = pseq_length y -> G l = G' l) -> interchangeable E ops1 ops2 x.
Proof.
  intros A B HF HG p q HP HQ. destruct (A _ HP) as (als1 & c1 & R1 & F1 & F1' & G1 & G1').
  destruct (B _ HQ) as (als2 & c2 & R2 & F2 & F2' & G2 & G2').
  exists y, als1, c1, als2, c2. split; [exact R1|]. split; [exact R2|]. intros l. split.
  - destruct (Nat.eq_dec (length l) (pseq_length x)) as [H|H].
    + destruct (F1 l H) as [-> _]. destruct (F2 l H) as [-> _]. now rewrite HF.
    + now rewrite F1', F2'.
  - destruct (Nat.eq_dec (length l) (pseq_length y)) as [H|H].
    + destruct (G1 l H) as [-> _]. destruct (G2 l H) as [-> _]. now rewrite HG.
    + now rewrite G1', G2'.
Qed.

Lemma acts_maps E o x y F G : maps E o any_labels x y F G -> acts E [o] x y F (fun l => Ok (G l)).
Proof.
  intros (a & T & HF & HF' & HG & HG') objs HO. destruct objs as [|ob [|]]; try discriminate.
  injection HO as HO. exists [a], [x; y]. cbn [run]. rewrite HO, T. cbn [bind]. split; [reflexivity|].
  unfold align_all, align_inverse_all. cbn [foldM rev app].
  repeat split.
  - destruct (HF l H I) as [-> _]. reflexivity.
  - now destruct (HF l H I).
  - intros l H. now rewrite HF'.
  - destruct (HG l H I) as [-> _]. reflexivity.
  - intros m [= <-]. now destruct (HG l H I).
  - intros l H. now rewrite HG'.
Qed.

Definition back32 (G : list Z -> list Z) (l : list Z) : res (list Z) :=
  if forallb fits l then Ok (G l) else Err OverflowErr.

Lemma acts_tokenizes E o s ps : tokenizes E o s ps ->
  acts E [o] (SStr s) (SLst (map ETok (tokens_of ps))) (token_labels32 ps) (back32 (char_labels ps)).
Proof.
  intros (_ & a & T & (HF & HF' & HG & HG') & H32 & HO) objs HB. destruct objs as [|ob [|]]; try discriminate.
  injection HB as HB. exists [a], [SStr s; SLst (map ETok (tokens_of ps))]. cbn [run]. rewrite HB, T. cbn [bind]. split; [reflexivity|].
  unfold align_all, align_inverse_all. cbn [foldM rev app pseq_length]. rewrite map_length.
  repeat split.
  - rewrite (H32 l H). reflexivity.
  - now rewrite token_labels32_length.
  - intros l H. now rewrite HF'.
  - unfold back32. destruct (forallb fits l) eqn:Q.
    + apply fits_u32 in Q. destruct (HG l H Q) as [-> _]. reflexivity.
    + rewrite HO; [reflexivity|exact H|]. intros U. apply fits_u32 in U. congruence.
  - intros m. unfold back32. destruct (forallb fits l) eqn:Q; [|discriminate]. intros [= <-].
    apply fits_u32 in Q. now destruct (HG l H Q).
  - intros l H. now rewrite HG'.
Qed.

(** The tokenizers that cut by kinds. *)
Definition tok_fwd (k : Z -> kind) (s : str) (l : list Z) : list Z :=
  map lab (tk (fun cx => k (fst cx)) [] (combine s l)).
Lemma acts_ext E ops x y F G F' G' : acts E ops x y F G ->
  (forall l, length l = pseq_length x -> F l = F' l) ->
  (forall l, length l = pseq_length y -> G l = G' l) -> acts E ops x y F' G'.
Proof.
  intros A HF HG objs HO. destruct (A objs HO) as (als & c & R & F1 & F1' & G1 & G1'). exists als, c.
  split; [exact R|]. repeat split; auto; intros.
  - rewrite <- HF by assumption. now apply F1.
  - rewrite <- HF by assumption. now apply F1.
  - rewrite <- HG by assumption. now apply G1.
  - rewrite <- HG in H0 by assumption. now apply (G1 l).
Qed.
Lemma acts_cut E o k s : (forall ps, cut k s ps -> tokenizes E o s (kept ps)) ->
  acts E [o] (SStr s) (SLst (map ETok (tk k [] s))) (tok_fwd k s) (back32 (chlab k None s)).
Proof.
  intros H. pose proof (cut_by_cut k s) as C. specialize (H _ C). apply acts_tokenizes in H.
  rewrite (cut_tokens_tk k s _ C) in H. eapply acts_ext; [exact H| |].
  - intros l HL. apply (cut_labels k s _ l C HL).
  - intros l HL. unfold back32. now rewrite (cut_back_labels k s _ l C).
Qed.
