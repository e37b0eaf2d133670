(** Cases for the rounded ratio (C50). *)

From Coq Require Import String QArith Qabs Qround Lqa.
From Verif Require Import Py Json Elements SpecElements SpecOps ElementsWitness SpecRound DoubleProofs.
From Coq Require Import List Lia.
Local Open Scope Z_scope.

Example rounds : ~ exact binary64.
Proof. intros H. specialize (H (1 # 3)). revert H. unfold Qeq. vm_compute. discriminate. Qed.

Example ratio_d0_near : exists r, entity_overlapping_ratio binary64 d0 d0' (1 # 3) = Ok r /\ ~ (r == 1)%Q /\
  almost 13 r (1 - (((1 # 3) + (1 # 3) + 1 + 1 + 1) / 13))%Q.
Proof.
  eexists. split; [vm_compute; reflexivity|]. split.
  - unfold Qeq. vm_compute. discriminate.
  - unfold almost, Qle. vm_compute. discriminate.
Qed.

Example not_tiny : (inject_Z (13 * (13 + 6)) * (1 # 2 ^ 54) < 1 # 3)%Q.
Proof. reflexivity. Qed.

(** the doubles that python shows as 0.1, 0.3333333333333333 and 2.5e-323; a tie *)
Example ex_binary64 : (binary64 (1 # 10) == 3602879701896397 # 2 ^ 55)%Q /\
  (binary64 (1 # 3) == 6004799503160661 # 2 ^ 54)%Q /\ (binary64 (19 # 2 ^ 1076) == 5 # 2 ^ 1074)%Q /\
  (binary64 (inject_Z (2 ^ 53 + 1)) == inject_Z (2 ^ 53))%Q /\ (binary64 (- inject_Z (2 ^ 53 + 3)) == - inject_Z (2 ^ 53 + 4))%Q.
Proof. repeat split; unfold Qeq; vm_compute; reflexivity. Qed.

(** a rate that is lost in the rounding *)
Lemma tiny_rate_refuted : exists fl d1 d2 rate r, to_nearest fl /\ in01 rate /\ ~ (rate == 0)%Q /\ is_datum d1 /\ is_datum d2 /\
  entity_overlapping_ratio fl d1 d2 rate = Ok r /\ (r == 1)%Q /\ ~ same_annotation d1 d2.
Proof.
  exists binary64, (mkDatum (txt "ab") [] [ent 1 "ab" 0 2 []]), (mkDatum (txt "ab") [] [ent 2 "ab" 0 2 []]), (1 # 2 ^ 60)%Q.
  eexists. split; [exact binary64_nearest|]. split; [unfold in01, Qle; cbn; lia|]. split; [unfold Qeq; cbn; lia|].
  split; [apply (datum_by (txt "ab") [] [ent 1 "ab" 0 2 []]); vm_compute; reflexivity|].
  split; [apply (datum_by (txt "ab") [] [ent 2 "ab" 0 2 []]); vm_compute; reflexivity|].
  split; [vm_compute; reflexivity|]. split; [unfold Qeq; vm_compute; reflexivity|].
  intros H. assert (E : 1 = 2); [|discriminate E]. apply (H 0); [cbn; lia| |].
  - left. eexists. split; [now left|]. split; [|reflexivity]. unfold covers. cbn. lia.
  - left. eexists. split; [now left|]. split; [|reflexivity]. unfold covers. cbn. lia.
Qed.
