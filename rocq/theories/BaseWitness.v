(** Concrete pipes with base classes in them (C109). *)

From Coq Require Import String.
From Verif Require Import Py Edit SpecEdit Regex Trie Ops SpecOps Json SpecJson Elements Pipe SpecPipe
  Concrete OpsWitness ElementsWitness PipeWitness PipeAlign BaseOps SpecBase BaseProofs BasePipe.
From Coq Require Import List Lia.
Import ListNotations.
Local Open Scope Z_scope.

Definition added (p : fpipe) (n : string) : fpipe := fst (f_add env0 imported p (lit n) None None).

(** ["StripWhiteSpaceCharacters"], ["AddWhitespaceAroundCharacter"], ["CharTokenizer"] *)
Definition blank_pipe : fpipe :=
  added (added (added fpipe_new "StripWhiteSpaceCharacters") "AddWhitespaceAroundCharacter") "CharTokenizer".

Example blank_classes : map f_class (f_steps blank_pipe) =
  map lit ["StripWhiteSpaceCharacters"; "AddWhitespaceAroundCharacter"; "CharTokenizer"]%string.
Proof. reflexivity. Qed.

Lemma added_reachable p n : f_reachable env0 p -> f_reachable env0 (added p n).
Proof. intros R. apply fr_add; [exact R|]. cbn. split; constructor. Qed.

Example blank_reachable : f_reachable env0 blank_pipe.
Proof. repeat apply added_reachable. apply fr_new. Qed.

(** runs on white space only, and maps the labels like the pipe without the base class *)
Definition seen_run (p : fpipe) (x : str) (l : list Z) : res (pseq * list Z * list Z) :=
  '(y, als, _) <- f_run env0 (f_steps p) (SStr x) ;;
  m <- align_all als l ;;
  b <- align_inverse_all env0 als m ;;
  Ok (y, m, b).
Example blank_runs : seen_run blank_pipe (txt "  ") [1; 2] = Ok (SLst [], [], [0; 0]).
Proof. vm_compute. reflexivity. Qed.
Example blank_stops : f_run env0 (f_steps blank_pipe) (SStr (txt " a ")) = Err RuntimeErr.
Proof. vm_compute. reflexivity. Qed.
Example blank_hypotheses : python env0 /\ regexes env0 /\ Forall (f_made env0) (f_steps blank_pipe) /\
  exists y als coll, f_run env0 (f_steps blank_pipe) (SStr (txt "  ")) = Ok (y, als, coll).
Proof.
  split; [exact env0_python|]. split; [exact env0_regexes|].
  split; [exact (proj1 (f_reachable_ok _ _ blank_reachable))|].
  destruct (f_run env0 (f_steps blank_pipe) (SStr (txt "  "))) as [[[y als] coll]|e] eqn:R; [eauto|].
  vm_compute in R. discriminate.
Qed.

(** saving and reading *)
Example blank_saved : fpipe_deserialize env0 imported (fpipe_serialize blank_pipe) = Ok blank_pipe.
Proof.
  rewrite (fpipe_round_trip env0 imported blank_pipe blank_reachable).
  - reflexivity.
  - constructor.
  - intros l I. cbn in I. repeat (destruct I as [I|I]; [try discriminate; injection I as <-; cbn; tauto|]). destruct I.
Qed.

(** names that are accepted and names that are not *)
Example base_adds :
  snd (f_add env0 imported fpipe_new (txt "Tokenizer") None None) = None /\
  snd (f_add env0 imported fpipe_new (txt "PatternRecognizer") (Some []) None) = None /\
  f_add env0 imported fpipe_new (txt "Tokenizer") (Some [(txt "a", JInt 1)]) None = (fpipe_new, Some TypeErr) /\
  f_add env0 imported fpipe_new (txt "Operator") None None = (fpipe_new, Some TypeErr) /\
  f_add env0 imported fpipe_new (txt "Nonsense") None None = (fpipe_new, Some KeyErr).
Proof. repeat split. Qed.
Example base_mismatch :
  snd (f_add env0 imported (added fpipe_new "Tokenizer") (txt "Lowercase") None None) = Some TypeErr /\
  snd (f_add env0 imported (added fpipe_new "Tokenizer") (txt "Pad") (Some [(txt "maxlen", JInt 3)]) None) = None.
Proof. repeat split. Qed.

(** A pipe can be built whose every run fails: the name is only refused when the pipe is used. *)
Theorem built_runs_refuted : exists E reg n p, In n base_names /\
  f_add E reg fpipe_new n None None = (p, None) /\ forall x, exists e, f_run E (f_steps p) x = Err e.
Proof.
  exists env0, imported, (txt "Tokenizer"), (added fpipe_new "Tokenizer").
  split; [cbn; tauto|]. split; [reflexivity|]. intros x.
  apply (base_stops env0 _ x BTokenizer (proj1 env0_python)); [left; reflexivity|discriminate].
Qed.
