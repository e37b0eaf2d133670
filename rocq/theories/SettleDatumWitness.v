(** Concrete datums that come back, or not, from pipes (C94), and the pipe of README.md. *)

From Coq Require Import String Bool.
From Verif Require Import Py SpecLabels SpecSeg SpecRuns SpecOps Ops Json Elements Pipe SpecPipe SpecElements SpecBert SpecTrip
  Concrete OpsWitness ElementsWitness PipeWitness PipeAlign PackProofs DatumProofs SpecAccept AcceptWitness AcceptPipe SizePipe
  BertWitness SpecSettle SettleSurvive SettlePipe SettleNumbers SettleCells SettleDatum SettleWitness.
From Coq Require Import List Lia.
Local Open Scope Z_scope.

(** ** The pipe of README.md *)

Lemma readme_cut i : passes [AddSosEos (tk "<sos>") (tk "<eos>"); Pad 5 (tk "<pad>"); Token2Index readme_index (lit "<unk>")] i = (i <? 4)%nat.
Proof.
  cbn [passes moved]. destruct (Z.ltb_spec (Z.of_nat (S i)) 5) as [L|L], (Nat.ltb_spec i 4) as [M|M]; cbn [passes moved]; try reflexivity; lia.
Qed.

Theorem readme_datum E p d y1 ints m als1 coll1 : python E -> regexes E -> token_letters E -> is_space E 95 = false ->
  add_calls E imported pipe_new readme_calls = (p, None) -> legible d -> Z.of_nat (length (d_utterance d)) < 2 ^ 27 ->
  transform E (first_steps 5 p) d = Ok (y1, ints, m, als1, coll1) ->
  Forall (on_numbers E [IntTokenWithSpace; FloatTokenWithSpace] (by_punct E) (d_utterance d)) (d_entities d) ->
  (forall i x, nth_error m i = Some x -> (4 <= i)%nat -> x = 0) -> recovered E p d.
Proof.
  intros PY RX TL U HA LD HL HM HE NC. pose proof LD as (_ & _ & HF & _).
  pose proof (add_calls_reachable E imported _ _ _ readme_values (r_new E) HA) as R.
  apply (numbers_datum E PY RX p d [IntTokenWithSpace; FloatTokenWithSpace] [MergeWhiteSpaceCharacters; StripWhiteSpaceCharacters] EngTokenizer (by_punct E)
    [AddSosEos (tk "<sos>") (tk "<eos>"); Pad 5 (tk "<pad>"); Token2Index readme_index (lit "<unk>")] y1 ints m als1 coll1); auto.
  - repeat constructor; cbn; tauto.
  - repeat constructor; cbn; tauto.
  - cbn. tauto.
  - repeat constructor.
  - exact (readme_ops E p HA).
  - destruct (readme_total E p d PY RX HA) as (out & l & als & coll & T & _).
    + eapply Forall_impl; [|exact HF]. intros e ((I1 & I2) & _). unfold writable, inside in *. lia.
    + exact HL.
    + unfold transform in T. destruct (unpack_datum d) as [[[u i] ls]|] eqn:UP; [|discriminate]. cbn [bind] in T.
      assert (u = d_utterance d) as ->.
      { unfold unpack_datum in UP. match type of UP with bind ?r _ = _ => destruct r; [|discriminate] end. cbn [bind] in UP. now injection UP. }
      destruct (transform_sequence E p (SStr (d_utterance d))) as [r|]; [eauto|discriminate].
  - intros i x HX Q. rewrite readme_cut in Q. apply Nat.ltb_ge in Q. now apply (NC i).
Qed.

(** ** Concrete datums *)

Definition legibleb (d : datum) : bool :=
  forallb (fun e => insideb (d_utterance d) e && (0 <? e_label e) && (e_start e <? e_end e)) (d_entities d) &&
  forallb (fun a => forallb (fun b => negb (e_end a =? e_start b) || negb (e_label a =? e_label b)) (d_entities d)) (d_entities d) &&
  match d_utterance d with [] => false | _ => true end.
Lemma legible_by u ints ents d : make_datum u (Some ints) (Some ents) = Ok d ->
  forallb i32b ints = true -> forallb entity_ok ents = true -> legibleb d = true -> legible d.
Proof.
  intros H1 H2 H3 H. unfold legibleb in H. rewrite !andb_true_iff in H. destruct H as ((A & B) & C).
  split; [exact (datum_by _ _ _ _ H1 H2 H3)|]. split; [intros Q; now rewrite Q in C|]. rewrite forallb_forall in A, B. split.
  - apply Forall_forall. intros e HE. specialize (A e HE). unfold insideb in A. rewrite !andb_true_iff, !Z.leb_le, !Z.ltb_lt in A. unfold inside. lia.
  - intros a b HA HB Q L. specialize (B a HA). rewrite forallb_forall in B. specialize (B b HB).
    rewrite Q, L, !Z.eqb_refl in B. discriminate.
Qed.

(** The datum after the round trip. *)
Definition round (E : env) (p : pipe) (d : datum) : res datum :=
  '(_, ints, m, als, _) <- transform E p d ;; ls <- align_inverse_all E als m ;; pack_to_datum (d_utterance d) ints ls.
Lemma round_recovered E p d d' : round E p d = Ok d' ->
  (recovered E p d <-> d_utterance d' = d_utterance d /\ same_set (d_intents d') (d_intents d) /\ d_entities d' = map bare_entity (d_entities d)).
Proof.
  unfold round. intros H. destruct (transform E p d) as [[[[[y ints] m] als] coll]|] eqn:T; [|discriminate]. cbn [bind] in H.
  destruct (align_inverse_all E als m) as [ls|] eqn:A; [|discriminate]. cbn [bind] in H. split.
  - intros (y' & i' & m' & als' & c' & ls' & d2 & T' & A' & P' & Q). rewrite T in T'. injection T' as <- <- <- <- <-.
    rewrite A in A'. injection A' as <-. rewrite H in P'. injection P' as <-. exact Q.
  - intros Q. exists y, ints, m, als, coll, ls, d'. auto.
Qed.

Definition label_of (E : env) (p : pipe) (d : datum) : res (list Z) := '(_, _, m, _, _) <- transform E p d ;; Ok m.
Lemma label_by E p d m : label_of E p d = Ok m -> exists y ints als coll, transform E p d = Ok (y, ints, m, als, coll).
Proof.
  unfold label_of. destruct (transform E p d) as [[[[[y ints] m'] als] coll]|]; [|discriminate]. cbn [bind]. intros [= <-]. eauto.
Qed.

(** "ab1.5 23": an entity of a word and the number behind it, and one of a number. *)
Definition d_num : datum := mkDatum (txt "ab1.5 23") [4] [ent 1 "ab1.5" 0 5 []; ent 5 "23" 6 8 []].
Example d_num_legible : legible d_num.
Proof. apply (legible_by (txt "ab1.5 23") [4] [ent 1 "ab1.5" 0 5 []; ent 5 "23" 6 8 []]); vm_compute; reflexivity. Qed.
Example ex_num_recovered : recovered env0 p_numbers d_num.
Proof. apply (round_recovered env0 p_numbers d_num d_num); [vm_compute; reflexivity|]. split; [reflexivity|]. split; [intros x; reflexivity|reflexivity]. Qed.
Example ex_on_numbers : Forall (on_numbers env0 [FloatTokenWithSpace; IntTokenWithSpace] (by_punct env0) (d_utterance d_num)) (d_entities d_num).
Proof.
  destruct ex_numbers as (R & _ & O & _ & T). destruct (trips_by _ _ _ _ _ _ _ T) as (y & als & coll & X & _).
  destruct (split_run env0 env0_python env0_regexes p_numbers ([FloatTokenWithSpace; IntTokenWithSpace] ++ [MergeWhiteSpaceCharacters] ++ [EngTokenizer]) []
    (txt "ab1.5 23") y als coll R (eq_trans O (eq_sym (app_nil_r _))) X) as (y1 & als1 & _ & c1 & _ & X1 & O1 & _ & _ & C & _).
  destruct (tokenizer_gives env0 EngTokenizer (by_punct env0) [MergeWhiteSpaceCharacters] [FloatTokenWithSpace; IntTokenWithSpace] _ _ _ _ _
    ltac:(repeat constructor; cbn; tauto) ltac:(repeat constructor; cbn; tauto) ltac:(cbn; tauto) O1 X1) as (ts & ->).
  apply (numbers_datum_iff env0 env0_python env0_regexes p_numbers d_num y als coll [FloatTokenWithSpace; IntTokenWithSpace] [MergeWhiteSpaceCharacters] EngTokenizer (by_punct env0) [] ts
    env0_token_letters eq_refl ltac:(repeat constructor; cbn; tauto) ltac:(repeat constructor; cbn; tauto) ltac:(cbn; tauto) (Forall_nil _) R
    (eq_trans O (eq_sym (app_nil_r _))) d_num_legible X C (fun _ _ => eq_refl)).
  exact ex_num_recovered.
Qed.

(** Part of a number does not come back. *)
Definition d_part : datum := mkDatum (txt "ab1.5 23") [4] [ent 1 "1." 2 4 []].
Example d_part_legible : legible d_part.
Proof. apply (legible_by (txt "ab1.5 23") [4] [ent 1 "1." 2 4 []]); vm_compute; reflexivity. Qed.
Example ex_part_lost : ~ recovered env0 p_numbers d_part.
Proof.
  intros H. apply (round_recovered env0 p_numbers d_part (mkDatum (txt "ab1.5 23") [4] [ent 1 "1.5" 2 5 []])) in H; [|vm_compute; reflexivity].
  destruct H as (_ & _ & H). discriminate.
Qed.

(** The example of README.md. *)
Definition p_readme : pipe := fst (add_calls env0 imported pipe_new readme_calls).
Example p_readme_made : add_calls env0 imported pipe_new readme_calls = (p_readme, None).
Proof. destruct (readme_made env0) as (q & H & _). unfold p_readme. rewrite H. reflexivity. Qed.
Definition d_readme : datum := mkDatum (txt "I like apples.") [1; 2] [ent 7 "apples" 7 13 []].
Example d_readme_legible : legible d_readme.
Proof. apply (legible_by (txt "I like apples.") [1; 2] [ent 7 "apples" 7 13 []]); vm_compute; reflexivity. Qed.
Example ex_readme_recovered : recovered env0 p_readme d_readme.
Proof. apply (round_recovered env0 p_readme d_readme d_readme); [vm_compute; reflexivity|]. split; [reflexivity|]. split; [intros x; reflexivity|reflexivity]. Qed.
Example ex_readme_labels : exists y1 ints als1 coll1, transform env0 (first_steps 5 p_readme) d_readme = Ok (y1, ints, [0; 0; 7; 0], als1, coll1).
Proof. apply label_by. vm_compute. reflexivity. Qed.

(** In a longer text the end is cut off, with the labels. *)
Definition d_long : datum := mkDatum (txt "I like some red apples.") [] [ent 7 "apples" 16 22 []].
Example d_long_legible : legible d_long.
Proof. apply (legible_by (txt "I like some red apples.") [] [ent 7 "apples" 16 22 []]); vm_compute; reflexivity. Qed.
Theorem readme_cut_refuted : exists E p d, python E /\ regexes E /\ token_letters E /\ is_space E 95 = false /\
  add_calls E imported pipe_new readme_calls = (p, None) /\ legible d /\
  Forall (on_tokens (by_punct E) (d_utterance d)) (d_entities d) /\ ~ recovered E p d.
Proof.
  exists env0, p_readme, d_long. split; [exact env0_python|]. split; [exact env0_regexes|]. split; [exact env0_token_letters|]. split; [reflexivity|].
  split; [exact p_readme_made|]. split; [exact d_long_legible|]. split.
  - repeat constructor.
    + intros i c HI HC. cbn [e_start e_end ent] in HI.
      assert (B : (i = 16 \/ i = 17 \/ i = 18 \/ i = 19 \/ i = 20 \/ i = 21)%nat) by (unfold ent in HI; cbn in HI; lia).
      destruct B as [->|[->|[->|[->|[->| ->]]]]]; vm_compute in HC; injection HC as <-; vm_compute; discriminate.
    + intros (j & c & d & Q & HC & _ & KC & _). assert (j = 15)%nat as -> by (unfold ent in Q; cbn in Q; lia). vm_compute in HC. injection HC as <-. vm_compute in KC. discriminate.
    + intros (j & c & d & Q & _ & HD & _ & KD). assert (j = 21)%nat as -> by (unfold ent in Q; cbn in Q; lia). vm_compute in HD. injection HD as <-. vm_compute in KD. discriminate.
  - intros H. apply (round_recovered env0 p_readme d_long (mkDatum (txt "I like some red apples.") [] [])) in H; [|vm_compute; reflexivity].
    destruct H as (_ & _ & H). discriminate.
Qed.

(** ["ab cd"] cut into words and the first word kept. *)
Definition h_cut : list call :=
  [(obj "StripWhiteSpaceCharacters" [], None); (obj "WhiteSpaceTokenizer" [], None); (obj "AddSosEos" [], None); (obj "Pad" [JInt 2], None)].
Definition p_cut : pipe := after pipe_new h_cut.
Definition d_first : datum := mkDatum (txt "ab cd") [] [ent 1 "ab" 0 2 []].
Definition d_second : datum := mkDatum (txt "ab cd") [] [ent 1 "cd" 3 5 []].
Example ex_cut : reachable env0 p_cut /\ legible d_first /\ legible d_second /\
  map o_op (steps p_cut) =
    ([StripWhiteSpaceCharacters] ++ [WhiteSpaceTokenizer]) ++ [AddSosEos (ETok (txt "<sos>")) (ETok (txt "<eos>")); Pad 2 (ETok (txt "<pad>"))] /\
  (exists y1 ints als1 coll1, transform env0 (first_steps 2 p_cut) d_first = Ok (y1, ints, [1; 0], als1, coll1)) /\
  (exists y1 ints als1 coll1, transform env0 (first_steps 2 p_cut) d_second = Ok (y1, ints, [0; 1], als1, coll1)) /\
  recovered env0 p_cut d_first /\ ~ recovered env0 p_cut d_second.
Proof.
  split; [apply after_reachable; [|apply r_new];
    repeat constructor; cbn [fst]; apply obj_made; try reflexivity; eexists; reflexivity|].
  split; [apply (legible_by (txt "ab cd") [] [ent 1 "ab" 0 2 []]); vm_compute; reflexivity|].
  split; [apply (legible_by (txt "ab cd") [] [ent 1 "cd" 3 5 []]); vm_compute; reflexivity|].
  split; [reflexivity|]. split; [apply label_by; vm_compute; reflexivity|]. split; [apply label_by; vm_compute; reflexivity|]. split.
  - apply (round_recovered env0 p_cut d_first d_first); [vm_compute; reflexivity|]. split; [reflexivity|]. split; [intros x; reflexivity|reflexivity].
  - intros H. apply (round_recovered env0 p_cut d_second (mkDatum (txt "ab cd") [] [])) in H; [|vm_compute; reflexivity].
    destruct H as (_ & _ & H). discriminate.
Qed.
