(** Concrete cases for C101. *)

From Coq Require Import String.
From Verif Require Import Py PyFacts Edit SpecRuns SpecOps Ops Json Concrete OpsWitness Elements Pipe SpecPipe BertProofs PipeWitness SpecReadBack ReadBackWitness SpecLength.
From Coq Require Import List ZArith Lia.
Import ListNotations.
Local Open Scope nat_scope.

Example env0_usual : usual env0.
Proof. repeat split. Qed.

(** every range of the first table misses every range of the second *)
Definition tables_apart (a b : list (Z * Z)) : bool :=
  forallb (fun r => forallb (fun q => ((snd r <? fst q) || (snd q <? fst r))%Z) b) a.

Lemma tables_apart_spec a b c : tables_apart a b = true -> in_table a c = true -> in_table b c = false.
Proof.
  intros H HA. destruct (in_table b c) eqn:HB; [exfalso|reflexivity]. unfold in_table, tables_apart in *.
  apply existsb_exists in HA, HB. destruct HA as (r & R1 & R2), HB as (q & Q1 & Q2).
  rewrite forallb_forall in H. specialize (H r R1). rewrite forallb_forall in H. specialize (H q Q1).
  destruct r as [r1 r2], q as [q1 q2]. cbn [fst snd] in *. unfold Ops.in_range in *. lia.
Qed.

Example env0_keeps_blanks : keeps_blanks env0.
Proof.
  intros s. unfold stripped, nfd, is_mn, is_space. cbn [env0]. unfold nfd0.
  induction s as [|c s IH]; [reflexivity|]. cbn [flat_map]. rewrite !filter_app, !app_length, IH.
  change (c :: s) with ([c] ++ s). rewrite filter_app, app_length. f_equal.
  destruct (dict_get decomp_table c) as [d|] eqn:D.
  - assert (F : forallb (fun cd => length (filter (in_table space_table) (filter (fun c => negb (in_table mn_table c)) (snd cd))) =?
      length (filter (in_table space_table) [fst cd])) decomp_table = true) by (vm_compute; reflexivity).
    rewrite forallb_forall in F. apply dict_get_In in D. specialize (F _ D). apply Nat.eqb_eq in F. exact F.
  - cbn [filter]. destruct (in_table space_table c) eqn:S1.
    + rewrite (tables_apart_spec space_table mn_table c) by (try exact S1; vm_compute; reflexivity). cbn [negb filter]. now rewrite S1.
    + destruct (in_table mn_table c); cbn [negb filter]; [reflexivity|]. now rewrite S1.
Qed.

(** the longest outputs for texts of three and five characters *)
Example ex_longest : turns env0 IntToken (text_ "1a1") (text_ "_int_a_int_") /\ at_most IntToken 3 = 11 /\
  turns env0 FloatToken (text_ "1.1a1.1") (text_ "_float_a_float_") /\ at_most FloatToken 7 = 15 /\
  turns env0 AddWhitespaceAroundPunctuation (text_ "!?") (text_ " !  ? ") /\ at_most AddWhitespaceAroundPunctuation 2 = 6 /\
  turns env0 WhiteSpaceTokenizer (text_ "a b c") (toks_ ["a"; "b"; "c"]%string) /\ at_most WhiteSpaceTokenizer 5 = 3.
Proof. repeat split; turn. Qed.

(** fixed lengths, and sos and eos around nothing: one element when they are equal *)
Example ex_fixed : turns env0 (Pad 3 (ETok (txt "_"))) (toks_ ["a"]%string) (toks_ ["a"; "_"; "_"]%string) /\
  turns env0 (AddSosEos (ETok (txt "x")) (ETok (txt "x"))) (toks_ []) (toks_ ["x"]%string).
Proof. split; turn. Qed.

(** as many pieces as letters, and the empty token gives none *)
Example ex_pieces_letters : turns env0 (SpanSubwords (map txt ["a"; "##b"; "##c"]%string) (ETok (txt "[UNK]")) 9) (toks_ ["abc"; "d"]%string)
    (toks_ ["a"; "##b"; "##c"; "[UNK]"]%string) /\ letters (map txt ["abc"; "d"]%string) = 4 /\
  turns env0 (SpanSubwords [] (ETok (txt "[UNK]")) 9) (toks_ [""]%string) (toks_ []).
Proof. split; [turn|]. split; [reflexivity|turn]. Qed.

(** the full pipe on two punctuation marks and a blank *)
Example ex_full_length : exists als coll, transform_sequence env0 (mkPipe (basic_steps ++ [subwords_obj full_vocab]) []) (SStr (txt "! ?"))
  = Ok (toks_ ["[UNK]"; "[UNK]"]%string, als, coll).
Proof. apply pipe_turns_out. vm_compute. reflexivity. Qed.
