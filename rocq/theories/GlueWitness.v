(** Concrete cases for the theorems about working piece by piece (C97). *)

From Coq Require Import String.
From Verif Require Import Py Edit SpecEdit SpecLabels SpecSeg SpecRuns SpecWords SpecScan SpecOps SpecElements SpecBert Ops Json Elements Pipe BertRef Concrete OpsWitness PipeWitness SpecTrip TripWitness SpecGlue GlueProofs GluePipe.
From Coq Require Import List Lia.
Import ListNotations.
Local Open Scope Z_scope.

Lemma meet_by p s t c d t' : p c && p d = false -> t = d :: t' -> last s c = c -> s <> [] -> ~ meet p s t.
Proof.
  intros H -> L N (s' & x & y & u & -> & Q & HX & HY). rewrite last_last in L. subst x. injection Q as <- _.
  now rewrite HX, HY in H.
Qed.

(** [Call 12] and [ km] through three steps: the cut is right after the number. *)
Definition glue_steps : list opobj := [obj "Lowercase" []; obj "IntToken" []; obj "WhiteSpaceTokenizer" []].
Example ex_seams : seams env0 glue_steps (SStr (txt "Call 12")) (SStr (txt " km")).
Proof.
  constructor; [apply seam_anywhere; cbn; tauto|]. intros y1 a1 y2 a2 T1 T2.
  assert (y1 = SStr (txt "call 12") /\ y2 = SStr (txt " km")) as (-> & ->).
  { vm_compute in T1, T2. injection T1 as <- _. injection T2 as <- _. split; reflexivity. }
  clear T1 T2. constructor.
  { apply seam_number; [cbn; tauto|].
    apply (meet_by _ _ _ 50 32 (txt "km")); try reflexivity. discriminate. }
  intros y1 b1 y2 b2 T1 T2.
  assert (y1 = SStr (txt "call _int_") /\ y2 = SStr (txt " km")) as (-> & ->).
  { vm_compute in T1, T2. injection T1 as <- _. injection T2 as <- _. split; reflexivity. }
  clear T1 T2. constructor; [|constructor].
  apply (seam_tokens _ _ (by_space env0)); [cbn; tauto|].
  apply (meet_by _ _ _ 95 32 (txt "km")); try reflexivity. discriminate.
Qed.

Definition glue_outcome (s : str) (l m : list Z) : res (pseq * list Z * list Z) :=
  '(y, als, _) <- Pipe.run env0 glue_steps (SStr s) ;;
  f <- align_all als l ;; b <- align_inverse_all env0 als m ;; Ok (y, f, b).
Example ex_glue :
  glue_outcome (txt "Call 12") [1; 1; 1; 1; 0; 2; 2] [5; 6] =
    Ok (SLst [ETok (txt "call"); ETok (txt "_int_")], [1; 2], [5; 5; 5; 5; 0; 6; 6]) /\
  glue_outcome (txt " km") [0; 3; 3] [7] = Ok (SLst [ETok (txt "km")], [3], [0; 7; 7]) /\
  glue_outcome (txt "Call 12 km") [1; 1; 1; 1; 0; 2; 2; 0; 3; 3] [5; 6; 7] =
    Ok (SLst [ETok (txt "call"); ETok (txt "_int_"); ETok (txt "km")], [1; 2; 3], [5; 5; 5; 5; 0; 6; 6; 0; 7; 7]) /\
  glue_outcome (txt "Call 12") [1; 1; 1; 1; 0; 2; 2] [5; -6] = Err OverflowErr /\
  glue_outcome (txt "Call 12 km") [1; 1; 1; 1; 0; 2; 2; 0; 3; 3] [5; -6; 7] = Err OverflowErr.
Proof. repeat split; vm_compute; reflexivity. Qed.

(** The other places of a cut: between two characters of whitespace, in a number, in a word of the
    list; the texts come out differently. *)
Definition out_of (o : op) (s : str) : option pseq :=
  match transform_op env0 o (SStr s) with Ok (y, _) => Some y | Err _ => None end.
Example ex_no_seam :
  out_of MergeWhiteSpaceCharacters (txt "a ") = Some (SStr (txt "a ")) /\
  out_of MergeWhiteSpaceCharacters (txt " b") = Some (SStr (txt " b")) /\
  out_of MergeWhiteSpaceCharacters (txt "a  b") = Some (SStr (txt "a b")) /\
  out_of FloatToken (txt "3.") = Some (SStr (txt "3.")) /\ out_of FloatToken (txt "5") = Some (SStr (txt "5")) /\
  out_of FloatToken (txt "3.5") = Some (SStr (txt "_float_")) /\
  (exists o, make_custom (Some [txt "ab"]) false = Ok o /\ out_of o (txt "a") = Some (SLst [ETok (txt "a")]) /\
     out_of o (txt "b") = Some (SLst [ETok (txt "b")]) /\ out_of o (txt "ab") = Some (SLst [ETok (txt "ab")])).
Proof. repeat split; try (vm_compute; reflexivity). eexists. repeat split; vm_compute; reflexivity. Qed.

(** A cut at the end of a line is not enough: an operator may look at the end of its text. *)
Theorem line_by_line_refuted : exists E o s t, python E /\ built E o /\ is_space E 10%Z = true /\ ~ glued E o (SStr (s ++ [10%Z])) (SStr t).
Proof.
  exists env0, StripWhiteSpaceCharacters, (txt "a"), (txt "b"). split; [exact env0_python|].
  split; [apply built_plain; cbn; tauto|]. split; [vm_compute; reflexivity|]. intros H.
  destruct (transform_op env0 StripWhiteSpaceCharacters (SStr (txt "a" ++ [10]))) as [[y1 a1]|] eqn:T1; [|vm_compute in T1; discriminate].
  destruct (transform_op env0 StripWhiteSpaceCharacters (SStr (txt "b"))) as [[y2 a2]|] eqn:T2; [|vm_compute in T2; discriminate].
  destruct (H _ _ _ _ T1 T2) as (a & T & _). vm_compute in T1, T2. injection T1 as <- _. injection T2 as <- _.
  vm_compute in T. discriminate.
Qed.

(** The same for lists: [Pad] fills every part up. *)
Theorem list_parts_refuted : exists E o l m, python E /\ built E o /\ l <> [] /\ m <> [] /\ ~ glued E o (SLst l) (SLst m).
Proof.
  exists env0, (Pad 3 (ETok (txt "<pad>"))), [ETok (txt "a")], [ETok (txt "b")]. split; [exact env0_python|].
  split; [|split; [discriminate|split; [discriminate|]]].
  - apply built_pad.
  - intros H.
    destruct (transform_op env0 (Pad 3 (ETok (txt "<pad>"))) (SLst [ETok (txt "a")])) as [[y1 a1]|] eqn:T1; [|vm_compute in T1; discriminate].
    destruct (transform_op env0 (Pad 3 (ETok (txt "<pad>"))) (SLst [ETok (txt "b")])) as [[y2 a2]|] eqn:T2; [|vm_compute in T2; discriminate].
    destruct (H _ _ _ _ T1 T2) as (a & T & _). vm_compute in T1, T2. injection T1 as <- _. injection T2 as <- _.
    vm_compute in T. discriminate.
Qed.

(** The talk of [TripWitness.v] in two parts: [I love Ann] and [, her 3-D cat]. *)
Definition basic_tokens (s : str) : option pseq :=
  match transform_sequence env0 the_basic (SStr s) with Ok (y, _, _) => Some y | Err _ => None end.
Example ex_talk_parts : talk = txt "I love Ann" ++ txt ", her 3-D cat" /\
  ~ meet (wordy (by_punct_cjk env0)) (txt "I love Ann") (txt ", her 3-D cat") /\
  basic_tokens (txt "I love Ann") = Some (SLst (map ETok [txt "i"; txt "love"; txt "ann"])) /\
  basic_tokens (txt ", her 3-D cat") = Some (SLst (map ETok [txt ","; txt "her"; txt "3"; txt "-"; txt "d"; txt "cat"])) /\
  basic_tokens talk =
    Some (SLst (map ETok [txt "i"; txt "love"; txt "ann"; txt ","; txt "her"; txt "3"; txt "-"; txt "d"; txt "cat"])).
Proof.
  split; [reflexivity|]. split; [|repeat split; vm_compute; reflexivity].
  apply (meet_by _ _ _ 110 44 (txt " her 3-D cat")); try reflexivity. discriminate.
Qed.
