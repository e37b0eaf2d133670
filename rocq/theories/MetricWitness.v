(** Concrete cases for C111 and C112. *)

From Coq Require Import QArith String Lqa.
From Verif Require Import Py PyFacts Json SpecOps Elements SpecElements SpecRound SpecJoin SpecMetric ElementsWitness RatioProofs ExpandMore RatioMore.
From Coq Require Import List Lia.
Import ListNotations.
Local Open Scope Z_scope.

Lemma by_itself d : make_datum (d_utterance d) (Some (d_intents d)) (Some (d_entities d)) = Ok d ->
  forallb i32b (d_intents d) = true -> forallb entity_ok (d_entities d) = true -> is_datum d.
Proof. apply datum_by. Qed.

(** ** C111 *)

Example d0_home : at_home d0. Proof. split; [exact d0_is|exact d0_inside]. Qed.
Definition d0_sfo : datum := mkDatum (txt "fly to SFO now") [1; 3] [ent 1 "SFO" 7 10 []; ent 2 "now" 11 14 []].
Example d0_again : expand_by_entities d0_sfo None true = Ok [d0_sfo] /\ expand_by_entities d0_sfo (Some (fun n => [n; 7])) false = Ok [d0_sfo; d0_sfo].
Proof. split; vm_compute; reflexivity. Qed.
Example d0_round : exists ds ds', mapM (fun d => expand_by_entities d None true) [d0; d0'] = Ok [ds; ds'] /\ length ds = 3%nat /\ length ds' = 1%nat /\
  get_unique_entities (fun l => l) (ds ++ ds') = [1; 2; 5].
Proof. eexists _, _. split; [vm_compute; reflexivity|]. repeat split. Qed.
(** With its own value the original is there; without, it is not. *)
Example d0_original : exists a b, expand_by_entities d0 None true = Ok a /\ expand_by_entities d0 None false = Ok b /\
  In (mkDatum u0 [1; 3] (map bare_entity (d_entities d0))) a /\ length b = 2%nat.
Proof.
  eexists _, _. split; [vm_compute; reflexivity|]. split; [vm_compute; reflexivity|].
  split; [right; right; left; reflexivity|reflexivity].
Qed.
Lemma original_refuted : exists d ds, at_home d /\ expand_by_entities d None false = Ok ds /\ ds <> [] /\
  forall r, In r ds -> d_utterance r <> d_utterance d.
Proof.
  exists d0. eexists. split; [exact d0_home|]. split; [vm_compute; reflexivity|]. split; [discriminate|].
  intros r [<-|[<-|[]]]; vm_compute; discriminate.
Qed.
(** A sampling method can leave out everything, also the labels. *)
Lemma sampled_labels_refuted : exists d s ds, at_home d /\ expand_by_entities d (Some s) true = Ok ds /\
  get_unique_entities (fun l => l) ds = [] /\ get_unique_entities (fun l => l) [d] = [1; 2].
Proof.
  exists d0, (fun _ => []), []. split; [exact d0_home|]. repeat split; vm_compute; reflexivity.
Qed.
(** An entity that goes on behind the text, and one that is counted from the end: the expansions are in order. *)
Definition d_behind : datum := mkDatum (txt "to LA") [1] [ent 4 "LA" 3 9 ["NY"]%string].
Definition d_counted : datum := mkDatum (txt "to LA") [1] [ent 4 "L" (-2) (-1) ["x"]%string].
Example ex_behind : is_datum d_behind /\ is_datum d_counted /\ ~ at_home d_behind /\ ~ at_home d_counted /\
  expand_by_entities d_behind None true = Ok [mkDatum (txt "to NY") [1] [ent 4 "NY" 3 5 []]; mkDatum (txt "to LA") [1] [ent 4 "LA" 3 5 []]] /\
  expand_by_entities d_counted None false = Ok [mkDatum (txt "to xA") [1] [ent 4 "x" 3 4 []]].
Proof.
  split; [apply by_itself; vm_compute; reflexivity|]. split; [apply by_itself; vm_compute; reflexivity|].
  split; [intros (_ & H); inversion H as [|? ? (_ & C) _]; subst; now apply C|].
  split; [intros (_ & H); inversion H as [|? ? ((C & _) & _) _]; subst; now apply C|].
  split; vm_compute; reflexivity.
Qed.
(** Index 2^31 is no C int. *)
Example d0_no_index : expand_by_entities d0 (Some (fun n => [0; 2147483648])) true = Err OverflowErr.
Proof. vm_compute. reflexivity. Qed.

(** ** C112 *)

Definition plain (l : Z) : datum := mkDatum (txt "LA") [] (if l =? 0 then [] else [ent l "LA" 0 2 []]).
Lemma plain_is l : In l [0; 1; 2; 3] -> is_datum (plain l).
Proof.
  intros [<-|[<-|[<-|[<-|[]]]]]; apply by_itself; vm_compute; reflexivity.
Qed.
Definition d1' : datum := mkDatum u0 [] [ent 1 "LA now" 7 13 []].
Example d1'_home : at_home d1' /\ at_home d0'.
Proof.
  split; (split; [apply by_itself; vm_compute; reflexivity|apply insideb_all; vm_compute; reflexivity]).
Qed.
(** [LA] 1, [now] 2; [LA] 5; [LA now] 1: distances 4/13, 5/13 (rounded up: 4 + 1/2 * 2), and the third. *)
Example ex_triangle : exists p q s, entity_overlapping_ratio (fun q => q) d0 d0' (1 # 2) = Ok p /\
  entity_overlapping_ratio (fun q => q) d0' d1' (1 # 2) = Ok q /\ entity_overlapping_ratio (fun q => q) d0 d1' (1 # 2) = Ok s /\
  (1 - p == 4 # 13)%Q /\ (1 - q == 5 # 13)%Q /\ (1 - s == (5 # 2) / 13)%Q.
Proof. eexists _, _, _. do 3 (split; [vm_compute; reflexivity|]). repeat split; vm_compute; reflexivity. Qed.
Example ex_counts : places one_sided [0; 0; 0; 0; 0; 0; 0; 1; 1; 0; 2; 2; 2] [0; 0; 0; 0; 0; 0; 0; 5; 5; 0; 0; 0; 0] = 3 /\
  places two_labels [0; 0; 0; 0; 0; 0; 0; 1; 1; 0; 2; 2; 2] [0; 0; 0; 0; 0; 0; 0; 5; 5; 0; 0; 0; 0] = 2.
Proof. split; reflexivity. Qed.
(** Two entities with one label, side by side, and one entity. *)
Definition cut_la : datum := mkDatum (txt "LA") [] [ent 1 "L" 0 1 []; ent 1 "A" 1 2 []].
Example ex_annotation : is_datum cut_la /\ same_annotation cut_la (plain 1) /\ d_entities cut_la <> d_entities (plain 1) /\
  entity_overlapping_ratio (fun q => q) cut_la (plain 2) (1 # 2) = entity_overlapping_ratio (fun q => q) (plain 1) (plain 2) (1 # 2).
Proof.
  split; [apply by_itself; vm_compute; reflexivity|].
  split; [|split; [discriminate|vm_compute; reflexivity]].
  intros i a b (I1 & I2) HA HB. change (Z.of_nat (length (d_utterance cut_la))) with 2 in I2.
  assert (b = 1).
  { destruct HB as [(e & [<-|[]] & _ & <-)|(N & _)]; [reflexivity|]. exfalso. apply (N _ (or_introl eq_refl)).
    unfold covers. cbn. lia. }
  assert (a = 1); [|congruence].
  destruct HA as [(e & [<-|[<-|[]]] & _ & <-)|(N & _)]; [reflexivity|reflexivity|]. exfalso.
  assert (i = 0 \/ i = 1) as [-> | ->] by lia.
  - apply (N _ (or_introl eq_refl)). unfold covers. cbn. lia.
  - apply (N _ (or_intror (or_introl eq_refl))). unfold covers. cbn. lia.
Qed.

(** With a rate above 2 it is shorter to go over the text without entities; with a negative one, nothing fits. *)
Lemma high_rate_refuted : exists d1 d2 d3 rate p q s, is_datum d1 /\ is_datum d2 /\ is_datum d3 /\ (2 < rate)%Q /\
  entity_overlapping_ratio (fun q => q) d1 d2 rate = Ok p /\ entity_overlapping_ratio (fun q => q) d2 d3 rate = Ok q /\
  entity_overlapping_ratio (fun q => q) d1 d3 rate = Ok s /\ ~ (1 - s <= (1 - p) + (1 - q))%Q.
Proof.
  exists (plain 1), (plain 0), (plain 2), 3%Q. eexists _, _, _.
  do 3 (split; [apply plain_is; cbn; tauto|]). split; [reflexivity|]. do 3 (split; [vm_compute; reflexivity|]).
  vm_compute. intros C. now apply C.
Qed.
Lemma negative_rate_refuted : exists d1 d2 d3 rate p q s, is_datum d1 /\ is_datum d2 /\ is_datum d3 /\ (rate < 0)%Q /\
  entity_overlapping_ratio (fun q => q) d1 d2 rate = Ok p /\ entity_overlapping_ratio (fun q => q) d2 d3 rate = Ok q /\
  entity_overlapping_ratio (fun q => q) d1 d3 rate = Ok s /\ ~ (1 - s <= (1 - p) + (1 - q))%Q.
Proof.
  exists (plain 1), (plain 2), (plain 3), (-1)%Q. eexists _, _, _.
  do 3 (split; [apply plain_is; cbn; tauto|]). split; [reflexivity|]. do 3 (split; [vm_compute; reflexivity|]).
  vm_compute. intros C. now apply C.
Qed.
