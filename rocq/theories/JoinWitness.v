(** Concrete cases for the theorems about annotated texts put together (C98). *)

From Coq Require Import QArith String.
From Verif Require Import Py PyFacts Edit SpecEdit Ops Json Elements Pipe SpecOps SpecElements Concrete OpsWitness PipeWitness TripWitness SpecGlue GlueProofs GlueWitness SpecJoin JoinProofs JoinExpand.
From Coq Require Import List Lia.
Import ListNotations.
Local Open Scope Z_scope.

(** [Call 12] and [ km]: the entities are [12] and [km]; [12] may become [7] and [100]. *)
Definition left_part : datum := mkDatum (txt "Call 12") [1] [mkEntity 2 (txt "12") 5 7 [txt "7"; txt "100"]].
Definition right_part : datum := mkDatum (txt " km") [1; 4] [mkEntity 3 (txt "km") 1 3 [txt "m"]].
Definition both_parts : datum := mkDatum (txt "Call 12 km") [4]
  [mkEntity 2 (txt "12") 5 7 [txt "7"; txt "100"]; mkEntity 3 (txt "km") 8 10 [txt "m"]].

Definition join_pipe : pipe := mkPipe glue_steps [].

Lemma home_by u ints es : make_datum u (Some ints) (Some es) = Ok (mkDatum u ints es) ->
  forallb (fun i => i32b i) ints = true ->
  forallb (fun e => i32b (e_label e) && (0 <=? e_start e) && (e_start e <=? e_end e) && (e_end e <=? Z.of_nat (length u)) && i32b (e_end e)) es = true ->
  Forall (fun e => NoDup (e_replacements e)) es -> at_home (mkDatum u ints es).
Proof.
  intros M HI HE HN. rewrite forallb_forall in HI, HE. rewrite Forall_forall in HN. split.
  - exists u, ints, es. split; [exact M|]. split; apply Forall_forall.
    + intros i Hi. specialize (HI i Hi). apply DatumProofs.is_intent_iff. destruct (DatumProofs.i32b_spec i); [assumption|discriminate].
    + intros e He. specialize (HE e He). rewrite !Bool.andb_true_iff in HE. destruct HE as ((((H1 & H2) & H3) & H4) & H5).
      apply DatumProofs.is_entity_iff. destruct (DatumProofs.i32b_spec (e_label e)); [|discriminate].
      destruct (DatumProofs.i32b_spec (e_end e)); [|discriminate]. apply Z.leb_le in H2, H3, H4. unfold i32 in *.
      repeat split; try lia. now apply HN.
  - apply Forall_forall. intros e He. specialize (HE e He). cbn in *. rewrite !Bool.andb_true_iff in HE.
    destruct HE as ((((H1 & H2) & H3) & H4) & H5). apply Z.leb_le in H2, H3, H4. unfold inside. lia.
Qed.

Example ex_joined : at_home left_part /\ at_home right_part /\ is_datum both_parts /\ joined left_part right_part both_parts /\
  glued_pipe env0 join_pipe (SStr (d_utterance left_part)) (SStr (d_utterance right_part)).
Proof.
  assert (HN : NoDup [txt "7"; txt "100"] /\ NoDup [txt "m"]).
  { split; repeat (constructor; [cbn; intuition discriminate|]); constructor. }
  destruct HN as (N1 & N2).
  split; [apply home_by; try reflexivity; repeat (constructor; [assumption|]); constructor|].
  split; [apply home_by; try reflexivity; repeat (constructor; [assumption|]); constructor|].
  split; [apply home_by; try reflexivity; repeat (constructor; [assumption|]); constructor|].
  split; [split; reflexivity|].
  intros y1 als1 coll1 y2 als2 coll2 T1 T2.
  destruct (seams_glued env0 glue_steps _ _ env0_python ex_seams _ _ _ _ _ _ T1 T2) as (als & coll & T & _ & H).
  exists als, coll. split; [exact T|exact H].
Qed.

(** What comes out of the pipe: the labels of the tokens, and the datum that the labels become. *)
Definition join_outcome (d : datum) (l : list Z) : res (pseq * list Z * datum) :=
  '(y, ints, m, als, _) <- transform env0 join_pipe d ;;
  b <- align_inverse_all env0 als l ;; e <- pack_to_datum (d_utterance d) ints b ;; Ok (y, m, e).
Example ex_join_outcome :
  join_outcome left_part [0; 2] = Ok (SLst [ETok (txt "call"); ETok (txt "_int_")], [0; 2],
    mkDatum (txt "Call 12") [1] [mkEntity 2 (txt "12") 5 7 []]) /\
  join_outcome right_part [3] = Ok (SLst [ETok (txt "km")], [3],
    mkDatum (txt " km") [1; 4] [mkEntity 3 (txt "km") 1 3 []]) /\
  join_outcome both_parts [0; 2; 3] = Ok (SLst [ETok (txt "call"); ETok (txt "_int_"); ETok (txt "km")], [0; 2; 3],
    mkDatum (txt "Call 12 km") [4] [mkEntity 2 (txt "12") 5 7 []; mkEntity 3 (txt "km") 8 10 []]).
Proof. repeat split; vm_compute; reflexivity. Qed.

(** Two times three expansions. *)
Example ex_join_expand :
  expand_by_entities left_part None true = Ok [
    mkDatum (txt "Call 100") [1] [mkEntity 2 (txt "100") 5 8 []];
    mkDatum (txt "Call 7") [1] [mkEntity 2 (txt "7") 5 6 []];
    mkDatum (txt "Call 12") [1] [mkEntity 2 (txt "12") 5 7 []]] /\
  expand_by_entities right_part None true = Ok [
    mkDatum (txt " m") [1; 4] [mkEntity 3 (txt "m") 1 2 []];
    mkDatum (txt " km") [1; 4] [mkEntity 3 (txt "km") 1 3 []]] /\
  expand_by_entities both_parts None true = Ok [
    mkDatum (txt "Call 100 m") [4] [mkEntity 2 (txt "100") 5 8 []; mkEntity 3 (txt "m") 9 10 []];
    mkDatum (txt "Call 7 m") [4] [mkEntity 2 (txt "7") 5 6 []; mkEntity 3 (txt "m") 7 8 []];
    mkDatum (txt "Call 12 m") [4] [mkEntity 2 (txt "12") 5 7 []; mkEntity 3 (txt "m") 8 9 []];
    mkDatum (txt "Call 100 km") [4] [mkEntity 2 (txt "100") 5 8 []; mkEntity 3 (txt "km") 9 11 []];
    mkDatum (txt "Call 7 km") [4] [mkEntity 2 (txt "7") 5 6 []; mkEntity 3 (txt "km") 7 9 []];
    mkDatum (txt "Call 12 km") [4] [mkEntity 2 (txt "12") 5 7 []; mkEntity 3 (txt "km") 8 10 []]].
Proof. repeat split; vm_compute; reflexivity. Qed.

(** Labels that go on over the cut become one entity, which is in neither part. *)
Theorem pack_parts_refuted : exists u1 u2 l1 l2 d1 d2 d, pack_to_datum u1 [] l1 = Ok d1 /\ pack_to_datum u2 [] l2 = Ok d2 /\
  pack_to_datum (u1 ++ u2) [] (l1 ++ l2) = Ok d /\ across l1 l2 /\ ~ joined d1 d2 d /\
  length (d_entities d1) = 1%nat /\ length (d_entities d2) = 1%nat /\ length (d_entities d) = 1%nat.
Proof.
  exists (txt "New "), (txt "York"), [5; 5; 5; 5], [5; 5; 5; 5].
  exists (mkDatum (txt "New ") [] [mkEntity 5 (txt "New ") 0 4 []]), (mkDatum (txt "York") [] [mkEntity 5 (txt "York") 0 4 []]).
  exists (mkDatum (txt "New York") [] [mkEntity 5 (txt "New York") 0 8 []]).
  split; [vm_compute; reflexivity|]. split; [vm_compute; reflexivity|]. split; [vm_compute; reflexivity|].
  split; [exists [5; 5; 5], 5, [5; 5; 5]; repeat split; discriminate|].
  split; [intros (_ & H); discriminate|]. repeat split.
Qed.

(** A datum whose entities do not lie inside its text: the positions count from the end of the joined text. *)
Theorem joined_outside_refuted : exists d1 d2 d, is_datum d1 /\ is_datum d2 /\ joined d1 d2 d /\ ~ is_datum d.
Proof.
  exists (mkDatum (txt "ab") [] [mkEntity 1 (txt "a") (-2) (-1) []]), (mkDatum (txt "c") [] []),
    (mkDatum (txt "abc") [] [mkEntity 1 (txt "a") (-2) (-1) []]).
  split.
  { exists (txt "ab"), [], [mkEntity 1 (txt "a") (-2) (-1) []]. split; [vm_compute; reflexivity|]. split; [constructor|].
    constructor; [|constructor]. exists 1, (txt "a"), (-2), (-1), None. vm_compute; reflexivity. }
  split; [exists (txt "c"), [], []; repeat split; constructor|]. split; [split; reflexivity|].
  intros H. apply DatumProofs.is_datum_inv in H. destruct H as (_ & _ & _ & _ & _ & H).
  inversion H as [|? ? Q _]; subst. vm_compute in Q. discriminate.
Qed.

(** Another annotation of the same texts: [Call] is an entity, [12] is not, [km] has another label. *)
Definition left_other : datum := mkDatum (txt "Call 12") [1] [mkEntity 9 (txt "Call") 0 4 []].
Definition right_other : datum := mkDatum (txt " km") [1] [mkEntity 8 (txt "km") 1 3 []].
Definition both_other : datum := mkDatum (txt "Call 12 km") [1] [mkEntity 9 (txt "Call") 0 4 []; mkEntity 8 (txt "km") 8 10 []].
Example ex_join_ratio : at_home left_other /\ at_home right_other /\ is_datum both_other /\ joined left_other right_other both_other /\
  exists r1 r2 r, entity_overlapping_ratio (fun q => q) left_part left_other (1 # 2) = Ok r1 /\
    entity_overlapping_ratio (fun q => q) right_part right_other (1 # 2) = Ok r2 /\
    entity_overlapping_ratio (fun q => q) both_parts both_other (1 # 2) = Ok r /\
    (r1 == 1 # 7)%Q /\ (r2 == 2 # 3)%Q /\ (r == 3 # 10)%Q.
Proof.
  split; [apply home_by; try reflexivity; repeat (constructor; [constructor|]); constructor|].
  split; [apply home_by; try reflexivity; repeat (constructor; [constructor|]); constructor|].
  split; [apply home_by; try reflexivity; repeat (constructor; [constructor|]); constructor|].
  split; [split; reflexivity|]. eexists _, _, _. repeat split; vm_compute; reflexivity.
Qed.

(** [Call ], the candidates for [12], and a space before [km]; with the other annotation [ 12] and the space are one part. *)
Example ex_join_parts :
  partition_by_entities left_part true = ([[txt "Call "]; [txt "100"; txt "7"; txt "12"]], [None; Some 2]) /\
  partition_by_entities right_part true = ([[txt " "]; [txt "m"; txt "km"]], [None; Some 3]) /\
  partition_by_entities both_parts true =
    ([[txt "Call "]; [txt "100"; txt "7"; txt "12"]; [txt " "]; [txt "m"; txt "km"]], [None; Some 2; None; Some 3]) /\
  partition_by_entities left_other true = ([[txt "Call"]; [txt " 12"]], [Some 9; None]) /\
  partition_by_entities right_other true = ([[txt " "]; [txt "km"]], [None; Some 8]) /\
  partition_by_entities both_other true = ([[txt "Call"]; [txt " 12 "]; [txt "km"]], [Some 9; None; Some 8]).
Proof. repeat split; vm_compute; reflexivity. Qed.
