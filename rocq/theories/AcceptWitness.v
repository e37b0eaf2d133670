(** Concrete cases for the theorems on accepted sequences (C89) and on inputs of a fixed size (C90). *)

From Coq Require Import String.
From Verif Require Import Py PyFacts Edit Labels SpecEdit SpecLabels SpecScan Regex Ops SpecOps Concrete OpsWitness
  Json SpecJson JsonProofs Elements SpecElements ElementsWitness Pipe SpecPipe PipeProofs ObjProofs PipeAlign PipeLaws PipeWitness
  SpecAccept AcceptProofs AcceptPipe FixedSize.
From Coq Require Import List.
Local Open Scope Z_scope.

(** ** Every rule of [raises] is about something that happens *)

Definition tk (s : string) : elem := ETok (lit s).

Example ex_type : raises env0 Lowercase (SLst [tk "A"]) TypeErr.
Proof. apply f_type. discriminate. Qed.
Example ex_accents : raises env0 StripAccentToken (SStr [101; 769]) AssertionErr.
Proof. apply f_accent. discriminate. Qed.
Example ex_stuck : raises env0 (ReplaceAwithB (lit "x*") (lit "y")) (SStr (lit "ab")) OutOfFuel.
Proof. eapply f_stuck; [reflexivity|]. apply stuck_here; [cbn; lia|reflexivity]. Qed.
Example ex_element : raises env0 (PureNum2Token (tk "_num_")) (SLst [tk "12"; EIdx 3; tk "4"]) TypeErr.
Proof.
  apply (f_element env0 _ [tk "12"] (EIdx 3) [tk "4"]); [|constructor].
  intros z e' [<-|[]] H. inversion H.
Qed.
Definition long : list elem := repeat (EIdx 0) (Z.to_nat (2 ^ 32)).
Lemma long_length : Z.of_nat (length long) = 2 ^ 32.
Proof. unfold long. rewrite repeat_length. apply Z2Nat.id. discriminate. Qed.
Example ex_pad : raises env0 (Pad 5 (tk "")) (SLst long) OverflowErr /\ raises env0 (Pad (-1) (tk "")) (SLst []) OverflowErr.
Proof. split; [apply f_pad; rewrite long_length; [reflexivity|discriminate]|now apply f_negative]. Qed.
Example ex_ends : raises env0 (AddSosEos (tk "") (tk "")) (SLst long) OverflowErr /\
  raises env0 (AddEndToken (lit "e")) (SLst long) OverflowErr.
Proof. split; [apply f_soseos|apply f_end]; rewrite long_length; discriminate. Qed.

(** No rule applies. *)
Example ex_accepted : forall e, ~ raises env0 (Pad 3 (tk "")) (SLst [EIdx 1; tk "a"]) e.
Proof.
  intros e H. inversion H as [o x N| | |o l1 x l2 e' A R Q|m t l L|m t l L N| |]; subst.
  - now apply N.
  - inversion R.
  - lia.
  - cbn in L. lia.
Qed.

(** ** The pipe of README.md *)

Lemma add_calls_reachable E reg : forall calls p q,
  Forall (fun c : str * list (str * jval) * option str => value (JDict (snd (fst c)))) calls ->
  reachable E p -> add_calls E reg p calls = (q, None) -> reachable E q.
Proof.
  induction calls as [|[[name kwargs] ck] calls IH]; intros p q HV HP; cbn [add_calls].
  - now intros [= <-].
  - inversion HV as [|? ? V VS]; subst. cbn [fst snd] in V.
    destruct (add E reg p name (Some kwargs) ck) as [p' [e|]] eqn:HA; [discriminate|].
    apply IH; [exact VS|]. change p' with (fst (p', @None exn)). rewrite <- HA. now apply r_add.
Qed.

Definition readme_index : list (str * Z) :=
  [(lit "<sos>", 0); (lit "<eos>", 1); (lit "<unk>", 2); (lit "<pad>", 3); (lit "_int_", 4); (lit "_float_", 5);
   (lit "I", 6); (lit "apples", 7)].
Definition readme_head : list op :=
  [IntTokenWithSpace; FloatTokenWithSpace; MergeWhiteSpaceCharacters; StripWhiteSpaceCharacters; EngTokenizer;
   AddSosEos (tk "<sos>") (tk "<eos>")].

Lemma readme_values : Forall (fun c : str * list (str * jval) * option str => value (JDict (snd (fst c)))) readme_calls.
Proof. apply Forall_forall. intros c HC. apply valueb_ok. revert c HC. apply forallb_forall. vm_compute. reflexivity. Qed.

Lemma readme_made E : exists p, add_calls E imported pipe_new readme_calls = (p, None) /\
  map o_op (steps p) = readme_head ++ [Pad 5 (tk "<pad>"); Token2Index readme_index (lit "<unk>")].
Proof. eexists. split; [vm_compute; reflexivity|]. vm_compute. reflexivity. Qed.

Lemma readme_ops E p : add_calls E imported pipe_new readme_calls = (p, None) ->
  map o_op (steps p) = readme_head ++ [Pad 5 (tk "<pad>"); Token2Index readme_index (lit "<unk>")].
Proof. destruct (readme_made E) as (q & H & HS). intros Q. rewrite H in Q. injection Q as <-. exact HS. Qed.

Lemma readme_handles E : all_handle E Chars readme_head Words.
Proof.
  unfold readme_head.
  do 4 (eapply a_more; [apply h_text; [apply built_plain; cbn [In]; tauto|reflexivity|reflexivity|discriminate|discriminate]|]).
  eapply a_more; [apply h_words; [apply built_plain; cbn [In]; tauto|reflexivity|reflexivity]|].
  eapply a_more; [apply h_soseos; eexists; reflexivity|constructor].
Qed.

Theorem readme_shape E p dt : python E -> regexes E -> add_calls E imported pipe_new readme_calls = (p, None) ->
  Forall (writable (d_utterance dt)) (d_entities dt) ->
  (exists out l als coll, transform E p dt = Ok (SLst (map EIdx out), d_intents dt, l, als, coll) /\
     length out = 5%nat /\ length l = 5%nat /\ Forall (fun i => 0 <= i <= 7) out) \/
  (transform E p dt = Err OverflowErr /\ too_long E p (SStr (d_utterance dt))).
Proof.
  intros PY HR HA HW. pose proof (readme_ops E p HA) as HS.
  pose proof (add_calls_reachable E imported _ _ _ readme_values (r_new E) HA) as R.
  destruct (always_fixed_size E p dt readme_head Words 5 (tk "<pad>") readme_index (lit "<unk>") _ PY HR R HS
    ltac:(discriminate) eq_refl (readme_handles E) ltac:(discriminate) HW)
    as [(toks & out & l & als & coll & T & _ & L1 & L2 & _ & RG & _)|Q]; [left|now right].
  assert (G : exists ids, out = map EIdx ids /\ Forall (fun i => 0 <= i <= 7) ids).
  { clear -RG. induction out as [|x out IH]; [now exists []|].
    destruct IH as (ids & -> & F); [intros y HY; apply RG; now right|].
    destruct (RG x (or_introl eq_refl)) as (i & -> & B). exists (i :: ids). split; [reflexivity|].
    constructor; [cbn in B; lia|exact F]. }
  destruct G as (ids & -> & F). exists ids, l, als, coll. rewrite map_length in L1. auto.
Qed.

Theorem readme_refuted : exists E p dt als coll, python E /\ regexes E /\
  add_calls E imported pipe_new readme_calls = (p, None) /\ readme_datum = Ok dt /\
  transform E p dt = Ok (SLst (map EIdx [0; 6; 2; 7; 2]), [1; 2], [0; 0; 0; 7; 0], als, coll) /\
  get_from_checkpoint (checkpoints p) coll (lit "result_of_add_sos_eos")
    = Ok (SLst [tk "<sos>"; tk "I"; tk "like"; tk "apples"; tk "."; tk "<eos>"]) /\
  align_all als [0; 0; 0; 0; 0; 0; 0; 7; 7; 7; 7; 7; 7; 0] = Ok [0; 0; 0; 7; 0] /\
  align_inverse_all E als [0; 0; 0; 7; 0] = Ok [0; 0; 0; 0; 0; 0; 0; 7; 7; 7; 7; 7; 7; 0] /\
  align_inverse_all E als [0; 0; 0; 7; 0; 0; 0] = Err ValueErr.
Proof.
  assert (H : exists p dt y is l als coll, add_calls env0 imported pipe_new readme_calls = (p, None) /\ readme_datum = Ok dt /\
    transform env0 p dt = Ok (y, is, l, als, coll) /\ y = SLst (map EIdx [0; 6; 2; 7; 2]) /\ is = [1; 2] /\ l = [0; 0; 0; 7; 0] /\
    get_from_checkpoint (checkpoints p) coll (lit "result_of_add_sos_eos")
      = Ok (SLst [tk "<sos>"; tk "I"; tk "like"; tk "apples"; tk "."; tk "<eos>"]) /\
    align_all als [0; 0; 0; 0; 0; 0; 0; 7; 7; 7; 7; 7; 7; 0] = Ok [0; 0; 0; 7; 0] /\
    align_inverse_all env0 als [0; 0; 0; 7; 0] = Ok [0; 0; 0; 0; 0; 0; 0; 7; 7; 7; 7; 7; 7; 0] /\
    align_inverse_all env0 als [0; 0; 0; 7; 0; 0; 0] = Err ValueErr).
  { do 7 eexists. split; [vm_compute; reflexivity|]. split; [vm_compute; reflexivity|]. split; [vm_compute; reflexivity|].
    repeat (split; [vm_compute; reflexivity|]). vm_compute. reflexivity. }
  destruct H as (p & dt & y & is & l & als & coll & A & B & C & -> & -> & -> & D).
  exists env0, p, dt, als, coll. split; [exact env0_python|]. split; [exact env0_regexes|].
  split; [exact A|]. split; [exact B|]. split; [exact C|exact D].
Qed.
