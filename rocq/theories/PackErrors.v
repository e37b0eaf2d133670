(** When pack_to_datum raises OverflowError. *)

From Coq Require Import Sorted.
From Verif Require Import Py PyFacts Json Elements SpecElements DatumProofs PackProofs ElementsLaws.
From Coq Require Import List Lia Permutation.
Local Open Scope Z_scope.

Lemma mapM_err {A B} (f : A -> res B) e l : (forall x, In x l -> (exists y, f x = Ok y) \/ f x = Err e) ->
  (exists x, In x l /\ f x = Err e) -> mapM f l = Err e.
Proof.
  induction l as [|x l IH]; intros H (y & HY & EY); [destruct HY|]. cbn [mapM].
  destruct (H x (or_introl eq_refl)) as [(v & E)| ->]; [|reflexivity]. rewrite E. cbn [bind].
  destruct HY as [->|HY]; [congruence|]. rewrite IH; [reflexivity| |].
  - intros z HZ. apply H. now right.
  - now exists y.
Qed.

Lemma i32_dec z : i32 z \/ ~ i32 z.
Proof. unfold i32. lia. Qed.

Lemma Forall_or {A} (P : A -> Prop) : (forall x, P x \/ ~ P x) -> forall l, Forall P l \/ exists x, In x l /\ ~ P x.
Proof.
  intros D. induction l as [|x l [IH|(y & HY & N)]]; [left; constructor| |right; exists y; split; [now right|exact N]].
  destruct (D x); [left; now constructor|right; exists x; split; [now left|assumption]].
Qed.

Lemma pack_overflow u ints ls : length u = length ls ->
  ~ (Forall i32 ints /\ forall s t l, run ls s t l -> i32 t /\ i32 l) -> pack_to_datum u ints ls = Err OverflowErr.
Proof.
  intros HL HN. unfold pack_to_datum. rewrite HL, Nat.eqb_refl. cbn [guard bind].
  destruct (Forall_or i32 i32_dec ints) as [HI|(x & HX & NX)].
  2:{ rewrite (mapM_err _ OverflowErr); [reflexivity| |].
      - intros y _. unfold make_intent. destruct (i32_dec y) as [Y|Y].
        + left. exists y. now apply to_i32_ok.
        + right. now apply to_i32_err.
      - exists x. split; [|now apply to_i32_err]. eapply Permutation_in; [symmetry; apply sort_by_perm|].
        now apply in_dedup. }
  rewrite (mapM_ok make_intent (fun x => x)).
  2:{ apply Forall_forall. intros x HX. unfold make_intent. apply to_i32_ok.
      rewrite Forall_forall in HI. apply HI. apply in_dedup.
      eapply Permutation_in; [apply sort_by_perm|exact HX]. }
  cbn [bind]. destruct (groups_exist ls) as (gs & <- & HG).
  destruct (Forall_or (fun r : Z * Z * Z => i32 (r_t r) /\ i32 (r_l r))
              ltac:(intros r; destruct (i32_dec (r_t r)), (i32_dec (r_l r)); tauto) (mruns 0 gs)) as [HF|(r & HR & NR)].
  { exfalso. apply HN. split; [exact HI|]. intros s t l R. apply run_mruns in R; [|exact HG].
    rewrite Forall_forall in HF. exact (HF _ R). }
  assert (HNil : gs <> []) by (intros ->; destruct HR).
  rewrite meaningful by assumption. cbn [bind]. rewrite <- flat_rev, meaningful.
  2:{ now apply good_rev. }
  2:{ intros E. apply HNil. rewrite <- (rev_involutive gs), E. reflexivity. }
  cbn [bind].
  assert (E : rev (map r_s (mruns 0 (rev gs))) = map (fun r => total gs - r_t r) (mruns 0 gs)).
  { rewrite <- (map_map r_t (fun p => total gs - p)), <- ends_rev, map_map.
    rewrite <- (map_id (rev _)) at 1. apply map_ext. intros p. lia. }
  rewrite E, combine_map_map.
  assert (V : forall r, In r (mruns 0 gs) -> pack_entity u (flat gs) (r_s r, total gs - r_t r) =
                make_entity (r_l r) (slice_z u (r_s r) (r_t r)) (r_s r) (r_t r) None).
  { intros q HQ. pose proof (mruns_run gs q HG HQ) as (A1 & A2 & A3 & A4 & _).
    unfold pack_entity. replace (Z.of_nat (length u)) with (total gs) by (unfold total; lia).
    replace (total gs - (total gs - r_t q)) with (r_t q) by lia.
    rewrite (get_item_nth _ _ 0) by lia. cbn [bind]. fold (at_ (flat gs) (r_s q)).
    rewrite (A4 (r_s q)) by lia. reflexivity. }
  rewrite (mapM_err _ OverflowErr); [reflexivity| |].
  - intros st HST. apply in_map_iff in HST. destruct HST as (q & <- & HQ). rewrite (V q HQ).
    destruct (i32_dec (r_l q)) as [I1|I1]; [|right; apply entity_overflow; tauto].
    destruct (i32_dec (r_s q)) as [I2|I2]; [|right; apply entity_overflow; tauto].
    destruct (i32_dec (r_t q)) as [I3|I3]; [|right; apply entity_overflow; tauto].
    left. eexists. now apply make_entity_ok.
  - exists (r_s r, total gs - r_t r). split; [apply in_map_iff; now exists r|].
    rewrite (V r HR). apply entity_overflow. tauto.
Qed.
