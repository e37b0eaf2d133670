(** Concrete cases for the theorems on datums and ordinal labels: hypotheses that hold, and
    refutations. *)

From Coq Require Import String QArith Sorted.
From Verif Require Import Py PyFacts Json SpecOps Elements SpecElements DatumProofs PackProofs
  ExpandProofs RatioProofs SpecOrdinal OrdinalProofs LearnProofs ElementsLaws.
From Coq Require Import List Lia.
Local Open Scope Z_scope.

Definition ent (l : Z) (v : string) (s t : Z) (r : list string) : entity :=
  mkEntity l (txt v) s t (map txt r).

(** boolean checks for concrete values *)
Fixpoint distinct (l : list str) : bool :=
  match l with [] => true | x :: l => negb (memb x l) && distinct l end.
Lemma distinct_ok l : distinct l = true -> NoDup l.
Proof.
  induction l as [|x l IH]; cbn; [constructor|]. rewrite andb_true_iff, negb_true_iff. intros (H & HD).
  constructor; [|now apply IH]. intros C. apply memb_In in C. congruence.
Qed.
Definition entity_ok (e : entity) : bool :=
  i32b (e_label e) && i32b (e_start e) && i32b (e_end e) && distinct (e_replacements e).
Lemma entity_ok_is e : entity_ok e = true -> is_entity e.
Proof.
  unfold entity_ok. rewrite !andb_true_iff. intros (((H1 & H2) & H3) & H4). apply is_entity_iff.
  destruct (i32b_spec (e_label e)); [|discriminate]. destruct (i32b_spec (e_start e)); [|discriminate].
  destruct (i32b_spec (e_end e)); [|discriminate]. split; [assumption|]. split; [assumption|].
  split; [assumption|]. now apply distinct_ok.
Qed.
Lemma datum_by u ints ents d : make_datum u (Some ints) (Some ents) = Ok d ->
  forallb i32b ints = true -> forallb entity_ok ents = true -> is_datum d.
Proof.
  intros H HI HE. exists u, ints, ents. split; [exact H|]. rewrite forallb_forall in HI, HE. split.
  - apply Forall_forall. intros i Hi. apply is_intent_iff. specialize (HI i Hi).
    destruct (i32b_spec i); [assumption|discriminate].
  - apply Forall_forall. intros e He. now apply entity_ok_is, HE.
Qed.
Definition insideb (u : str) (e : entity) : bool :=
  (0 <=? e_start e) && (e_start e <=? e_end e) && (e_end e <=? Z.of_nat (length u)).
Lemma insideb_all u es : forallb (insideb u) es = true -> Forall (inside u) es.
Proof.
  intros H. apply Forall_forall. intros e HE. rewrite forallb_forall in H. specialize (H e HE).
  unfold insideb in H. rewrite !andb_true_iff, !Z.leb_le in H. unfold inside. lia.
Qed.

(** "fly to LA now": destination LA (or NY, SF), date now; intents 3 and 1 *)
Definition u0 : str := txt "fly to LA now".
Definition la := ent 1 "LA" 7 9 ["NY"; "SFO"]%string.
Definition now_ := ent 2 "now" 10 13 [].
Definition d0 : datum := mkDatum u0 [1; 3] [la; now_].

Example d0_made : make_datum u0 (Some [3; 1]) (Some [now_; la]) = Ok d0.
Proof. vm_compute. reflexivity. Qed.
Example d0_is : is_datum d0.
Proof. apply (datum_by u0 [3; 1] [now_; la]); vm_compute; reflexivity. Qed.
Example d0_inside : Forall (inside (d_utterance d0)) (d_entities d0).
Proof. apply insideb_all. vm_compute. reflexivity. Qed.
Example d0_entities : d_entities d0 <> [].
Proof. discriminate. Qed.

(** ** C45 *)

Example wrong_value : make_datum u0 (Some []) (Some [ent 1 "LA" 6 8 []]) = Err EntityPositionErr.
Proof. vm_compute. reflexivity. Qed.
Example overlapping : make_datum u0 (Some []) (Some [ent 1 "LA now" 7 13 []; ent 2 "LA" 7 9 []]) =
  Err EntityOverlapErr.
Proof. vm_compute. reflexivity. Qed.

(** positions that do not exist are accepted: behind the end, negative, reversed *)
Lemma positions_refuted : exists d1 d2 d3 e1 e2 e3,
  is_datum d1 /\ d_entities d1 = [e1] /\ 0 <= e_start e1 <= e_end e1 /\
    Z.of_nat (length (d_utterance d1)) < e_end e1 /\
  is_datum d2 /\ d_entities d2 = [e2] /\ e_start e2 < 0 /\
  is_datum d3 /\ d_entities d3 = [e3] /\ e_end e3 < e_start e3.
Proof.
  exists (mkDatum (txt "ab") [] [ent 1 "ab" 0 5 []]), (mkDatum (txt "ab") [] [ent 1 "b" (-1) 2 []]),
         (mkDatum (txt "ab") [] [ent 1 "" 2 1 []]), (ent 1 "ab" 0 5 []), (ent 1 "b" (-1) 2 []), (ent 1 "" 2 1 []).
  split; [apply (datum_by (txt "ab") [] [ent 1 "ab" 0 5 []]); vm_compute; reflexivity|].
  split; [reflexivity|]. split; [cbn; lia|]. split; [cbn; lia|].
  split; [apply (datum_by (txt "ab") [] [ent 1 "b" (-1) 2 []]); vm_compute; reflexivity|].
  split; [reflexivity|]. split; [cbn; lia|].
  split; [apply (datum_by (txt "ab") [] [ent 1 "" 2 1 []]); vm_compute; reflexivity|].
  split; [reflexivity|cbn; lia].
Qed.

(** two entities without text may have the same place or lie inside of another one, but
    only in one order of the arguments *)
Lemma order_refuted : exists u a b d, is_entity a /\ is_entity b /\
  make_datum u (Some []) (Some [a; b]) = Ok d /\
  make_datum u (Some []) (Some [b; a]) = Err EntityOverlapErr.
Proof.
  exists (txt "ab"), (ent 1 "" 0 0 []), (ent 1 "a" 0 1 []). eexists.
  split; [apply entity_ok_is; reflexivity|]. split; [apply entity_ok_is; reflexivity|].
  split; [vm_compute; reflexivity|vm_compute; reflexivity].
Qed.

(** ** C46 *)

Example unpack_d0 : unpack_datum d0 = Ok (u0, [1; 3], [0; 0; 0; 0; 0; 0; 0; 1; 1; 0; 2; 2; 2]).
Proof. vm_compute. reflexivity. Qed.
Example pack_d0 : pack_to_datum u0 [3; 1; 3] [0; 0; 0; 0; 0; 0; 0; 1; 1; 0; 2; 2; 2] =
  Ok (mkDatum u0 [1; 3] [ent 1 "LA" 7 9 []; ent 2 "now" 10 13 []]).
Proof. vm_compute. reflexivity. Qed.
Example touching_runs : pack_to_datum (txt "abcd") [] [2; 2; 1; 0] =
  Ok (mkDatum (txt "abcd") [] [ent 2 "ab" 0 2 []; ent 1 "c" 2 3 []]).
Proof. vm_compute. reflexivity. Qed.
Example label_too_large : pack_to_datum (txt "ab") [1] [2147483648; 0] = Err OverflowErr.
Proof. vm_compute. reflexivity. Qed.
Example intent_too_small : pack_to_datum (txt "ab") [-2147483649] [1; 0] = Err OverflowErr.
Proof. vm_compute. reflexivity. Qed.

Lemma unpack_refuted : exists d, is_datum d /\ unpack_datum d = Err IndexErr.
Proof.
  exists (mkDatum (txt "ab") [] [ent 1 "ab" 0 5 []]).
  split; [apply (datum_by (txt "ab") [] [ent 1 "ab" 0 5 []]); vm_compute; reflexivity|].
  vm_compute. reflexivity.
Qed.

(** an entity that starts at a negative position puts its label on other characters too *)
Lemma unpack_negative_refuted : exists d e ls, is_datum d /\ d_entities d = [e] /\
  e_value e = txt "b" /\ unpack_datum d = Ok (txt "ab", [], ls) /\ ls = [1; 1].
Proof.
  exists (mkDatum (txt "ab") [] [ent 1 "b" (-1) 2 []]), (ent 1 "b" (-1) 2 []), [1; 1].
  split; [apply (datum_by (txt "ab") [] [ent 1 "b" (-1) 2 []]); vm_compute; reflexivity|].
  split; [reflexivity|]. split; [reflexivity|]. split; [vm_compute; reflexivity|reflexivity].
Qed.

(** touching entities of one label become one; label 0 and empty entities are lost *)
Lemma pack_unpack_refuted : exists d u is_ ls d', is_datum d /\
  Forall (inside (d_utterance d)) (d_entities d) /\
  unpack_datum d = Ok (u, is_, ls) /\ pack_to_datum u is_ ls = Ok d' /\
  length (d_entities d) = 4%nat /\ length (d_entities d') = 1%nat.
Proof.
  set (es := [ent 1 "a" 0 1 []; ent 1 "b" 1 2 []; ent 0 "c" 2 3 []; ent 2 "" 3 3 []]).
  exists (mkDatum (txt "abc") [] es), (txt "abc"), [], [1; 1; 0], (mkDatum (txt "abc") [] [ent 1 "ab" 0 2 []]).
  split; [apply (datum_by (txt "abc") [] es); vm_compute; reflexivity|].
  split; [apply insideb_all; vm_compute; reflexivity|].
  split; [vm_compute; reflexivity|]. split; [vm_compute; reflexivity|]. split; reflexivity.
Qed.

(** ** C47 *)

Example d0_candidates : Forall2 (candidates true) (d_entities d0)
  [[txt "NY"; txt "SFO"; txt "LA"]; [txt "now"]].
Proof.
  constructor; [|constructor; [reflexivity|constructor]].
  exists [txt "NY"; txt "SFO"]. split; [|split; [reflexivity|reflexivity]].
  constructor; [repeat constructor|]. constructor; [|constructor]. apply le_lt. reflexivity.
Qed.
Example d0_expanded : expand_by_entities d0 None true =
  Ok [mkDatum (txt "fly to NY now") [1; 3] [ent 1 "NY" 7 9 []; ent 2 "now" 10 13 []];
      mkDatum (txt "fly to SFO now") [1; 3] [ent 1 "SFO" 7 10 []; ent 2 "now" 11 14 []];
      mkDatum (txt "fly to LA now") [1; 3] [ent 1 "LA" 7 9 []; ent 2 "now" 10 13 []]].
Proof. vm_compute. reflexivity. Qed.
Example d0_small : forall vs, In vs (choices [[txt "NY"; txt "SFO"; txt "LA"]; [txt "now"]]) ->
  Z.of_nat (length (d_utterance (rebuilt d0 vs))) < 2 ^ 31.
Proof. intros vs HV. vm_compute in HV. destruct HV as [<-|[<-|[<-|[]]]]; vm_compute; reflexivity. Qed.
Example d0_sampled : expand_by_entities d0 (Some (fun n => [n - 1; 1])) true =
  Ok [mkDatum (txt "fly to LA now") [1; 3] [ent 1 "LA" 7 9 []; ent 2 "now" 10 13 []];
      mkDatum (txt "fly to SFO now") [1; 3] [ent 1 "SFO" 7 10 []; ent 2 "now" 11 14 []]].
Proof. vm_compute. reflexivity. Qed.

(** the value of an entity may be among its own replacements: then it comes twice *)
Lemma expand_twice_refuted : exists d a b, is_datum d /\ Forall (inside (d_utterance d)) (d_entities d) /\
  expand_by_entities d None true = Ok [a; b] /\ a = b.
Proof.
  exists (mkDatum (txt "LA") [] [ent 1 "LA" 0 2 ["LA"]%string]),
         (mkDatum (txt "LA") [] [ent 1 "LA" 0 2 []]), (mkDatum (txt "LA") [] [ent 1 "LA" 0 2 []]).
  split; [apply (datum_by (txt "LA") [] [ent 1 "LA" 0 2 ["LA"]%string]); vm_compute; reflexivity|].
  split; [apply insideb_all; vm_compute; reflexivity|]. split; [vm_compute; reflexivity|reflexivity].
Qed.

(** a datum without entities is returned as it is *)
Example expand_without : expand_by_entities (mkDatum u0 [1] []) None true = Ok [mkDatum u0 [1] []].
Proof. reflexivity. Qed.

(** an entity behind the end: the text after it is doubled up with [utt[pointer:]] empty, and
    a part is made of nothing *)
Lemma expand_outside_refuted : exists d parts labels, is_datum d /\
  partition_by_entities d true = (parts, labels) /\ In [[]] parts.
Proof.
  exists (mkDatum (txt "ab") [] [ent 1 "ab" 0 5 []]), [[txt "ab"]; [[]]], [Some 1; None].
  split; [apply (datum_by (txt "ab") [] [ent 1 "ab" 0 5 []]); vm_compute; reflexivity|].
  split; [vm_compute; reflexivity|]. right. now left.
Qed.

(** ** C48 *)

Definition its0 : list (list Z) := [[1; 2]; [3; 4; 5]].
Example its0_nonempty : Forall (fun it => it <> []) its0.
Proof. repeat constructor; discriminate. Qed.
Example its0_NoDup : Forall (@NoDup Z) its0.
Proof. repeat constructor; cbn; lia. Qed.
Example its0_choices : choices its0 = [[1; 3]; [2; 3]; [1; 4]; [2; 4]; [1; 5]; [2; 5]] /\ n_choices its0 = 6.
Proof. split; reflexivity. Qed.
Example its0_kth : get_kth_combination its0 3 = Ok [2; 4] /\ get_kth_combination its0 (-1) = Ok [2; 5].
Proof. split; reflexivity. Qed.

(** ** C49 *)

Example d0_parts : partition_by_entities d0 true =
  ([[txt "fly to "]; [txt "NY"; txt "SFO"; txt "LA"]; [txt " "]; [txt "now"]], [None; Some 1; None; Some 2]).
Proof. vm_compute. reflexivity. Qed.
Example d0_parts_without : partition_by_entities d0 false =
  ([[txt "fly to "]; [txt "NY"; txt "SFO"]; [txt " "]; [txt "now"]], [None; Some 1; None; Some 2]).
Proof. vm_compute. reflexivity. Qed.

(** ** C50 *)

Definition d0' : datum := mkDatum u0 [] [ent 5 "LA" 7 9 []].
Example d0'_is : is_datum d0'.
Proof. apply (datum_by u0 [] [ent 5 "LA" 7 9 []]); vm_compute; reflexivity. Qed.
Example ratio_d0 : exists r, entity_overlapping_ratio (fun q => q) d0 d0' (1 # 2) = Ok r /\
  (r == 9 # 13)%Q.
Proof. eexists. split; [vm_compute; reflexivity|reflexivity]. Qed.
Example exact_id : exact (fun q => q) /\ rounding (fun q => q).
Proof. split; [intros x; reflexivity|]. split; [auto|reflexivity]. Qed.
Example differs : ~ same_annotation d0 d0'.
Proof.
  intros H. assert (1 = 5); [|discriminate]. apply (H 7); [cbn; lia| |].
  - left. exists la. split; [now left|]. split; [unfold covers; cbn; lia|reflexivity].
  - left. exists (ent 5 "LA" 7 9 []). split; [now left|]. split; [unfold covers; cbn; lia|reflexivity].
Qed.

(** ** C51 *)

Definition o0 : ordinal := mkOrdinal [(txt "book", 1); (txt "ask", 0); (txt "stop", 2); (txt "go", 3)]
  [(txt "city", 1); (txt "date", 2)] 0.
Ltac not_in := cbn; intros H; repeat (destruct H as [H|H]; [discriminate H|]); exact H.
Ltac nodup := repeat (constructor; [not_in|]); constructor.
Example o0_is : is_ordinal o0.
Proof.
  exists (intent2index o0), (entity2index o0), 0. split; [|split].
  - unfold is_dict. cbn. nodup.
  - unfold is_dict. cbn. nodup.
  - vm_compute. reflexivity.
Qed.
Example o0_small : small o0.
Proof. split; repeat constructor; cbn; unfold i32; cbn; lia. Qed.
Example o0_known : known o0 d0.
Proof.
  split; cbn.
  - constructor; [exists (txt "book"); cbn; tauto|]. constructor; [exists (txt "go"); cbn; tauto|constructor].
  - constructor; [exists (txt "city"); cbn; tauto|]. constructor; [exists (txt "date"); cbn; tauto|constructor].
Qed.
Example o0_distinct : NoDup (map snd (entity2index o0)) /\ ~ In not_entity (map fst (entity2index o0)).
Proof. split; [cbn; nodup|not_in]. Qed.
Definition r0 : jval := raw_datum u0 [txt "book"; txt "go"]
  [mkRaw (txt "city") 7 9 [txt "NY"; txt "SFO"]; mkRaw (txt "date") 10 13 []].
Example o0_humanize : humanize (fun l => l) o0 d0 = Ok r0.
Proof. vm_compute. reflexivity. Qed.
Example o0_machanize : machanize o0 r0 = Ok d0.
Proof. vm_compute. reflexivity. Qed.
Example o0_i32 : Forall (fun r => i32 (w_start r) /\ i32 (w_end r))
  [mkRaw (txt "city") 7 9 [txt "NY"; txt "SFO"]; mkRaw (txt "date") 10 13 []].
Proof. repeat constructor; cbn; unfold i32; cbn; lia. Qed.
Example o0_unknown : humanize (fun l => l) o0 (mkDatum u0 [7] []) = Err KeyErr /\
  machanize o0 (raw_datum u0 [txt "fly"] []) = Err KeyErr.
Proof. split; vm_compute; reflexivity. Qed.
Example reorders_rev : reorders (@rev str).
Proof. intros l. symmetry. apply Permutation_rev. Qed.
Example o0_unordered : machanize o0 (raw_datum u0 []
  [mkRaw (txt "date") 10 13 []; mkRaw (txt "city") 7 9 [txt "NY"; txt "SFO"]]) = Ok (mkDatum u0 [] [la; now_]).
Proof. vm_compute. reflexivity. Qed.

(** "__NOT_ENTITY__" as the name of an entity: two names for one index *)
Lemma collision_refuted : exists o u es d j, is_ordinal o /\ small o /\
  Forall (fun r => i32 (w_start r) /\ i32 (w_end r)) es /\
  machanize o (raw_datum u [] es) = Ok d /\ humanize (fun l => l) o d = Ok j /\
  forall es', j = raw_datum u [] es' -> ~ Forall2 same_raw es es'.
Proof.
  set (o := mkOrdinal [] [(txt "city", 1); (txt "__NOT_ENTITY__", 1)] 0).
  exists o, (txt "ab"), [mkRaw (txt "__NOT_ENTITY__") 0 1 []], (mkDatum (txt "ab") [] [ent 1 "a" 0 1 []]),
    (raw_datum (txt "ab") [] [mkRaw (txt "city") 0 1 []]).
  split; [|split; [|split; [|split; [|split]]]].
  - exists [], (entity2index o), 0. split; [constructor|]. split; [|vm_compute; reflexivity].
    unfold is_dict. cbn. nodup.
  - split; repeat constructor; cbn; unfold i32; cbn; lia.
  - repeat constructor; cbn; unfold i32; cbn; lia.
  - vm_compute. reflexivity.
  - vm_compute. reflexivity.
  - intros es' E F. inversion F as [|? r ? l (HN & _) FL]; subst. inversion FL; subst.
    destruct r as [n s t p]. cbn [w_name] in HN. subst n. vm_compute in E. discriminate E.
Qed.

(** a corpus of two rows *)
Definition corpus0 : jval := JDict [(txt "data", JList [
  raw_datum (txt "ab") [txt "x"; txt "y"] [mkRaw (txt "A") 0 1 []; mkRaw (txt "B") 1 2 []];
  raw_datum (txt "c") [txt "y"; txt "z"] [];
  raw_datum (txt "b") [txt "x"] [mkRaw (txt "B") 0 1 []]])].
Example corpus0_is : corpus corpus0 [txt "x"; txt "y"; txt "y"; txt "z"; txt "x"] [txt "A"; txt "B"; txt "B"].
Proof.
  eexists _, _, [[txt "x"; txt "y"]; [txt "y"; txt "z"]; [txt "x"]], [[txt "A"; txt "B"]; []; [txt "B"]].
  split; [reflexivity|]. split; [reflexivity|]. split; [reflexivity|]. split; [reflexivity|].
  split; [|split; reflexivity].
  intros [|[|[|k]]] x a b HX HA HB; cbn in HX, HA, HB; try (destruct k; discriminate).
  all: injection HX as <-; injection HA as <-; injection HB as <-.
  - eexists _, _. split; [reflexivity|]. split; [reflexivity|]. split; [reflexivity|]. right.
    eexists. split; [reflexivity|]. repeat constructor; eexists; split; reflexivity.
  - eexists _, _. split; [reflexivity|]. split; [reflexivity|]. split; [reflexivity|]. left. split; reflexivity.
  - eexists _, _. split; [reflexivity|]. split; [reflexivity|]. split; [reflexivity|]. right.
    eexists. split; [reflexivity|]. repeat constructor; eexists; split; reflexivity.
Qed.
Example corpus0_learned : from_raw_dictionary corpus0 1 =
  Ok (mkOrdinal [(txt "x", 0); (txt "y", 1); (txt "z", 2)] [(txt "A", 0); (txt "B", 2)] 1).
Proof. vm_compute. reflexivity. Qed.
Example corpus0_too_big : from_raw_dictionary corpus0 3 = Err ValueErr.
Proof. vm_compute. reflexivity. Qed.

(** learned from data: the name "__NOT_ENTITY__" gets another index than the one meant for it *)
Lemma learned_collision_refuted : exists r ne o i, from_raw_dictionary r ne = Ok o /\
  In (not_entity, i) (entity2index o) /\ i <> not_entity_index o.
Proof.
  exists (JDict [(txt "data", JList [raw_datum (txt "a") [] [mkRaw (txt "__NOT_ENTITY__") 0 1 []]])]), 0,
    (mkOrdinal [] [(txt "__NOT_ENTITY__", 1)] 0), 1.
  split; [vm_compute; reflexivity|]. split; [now left|discriminate].
Qed.
