(** Concrete classes meeting the hypotheses of C65-C67, and the counterexamples. *)

From Coq Require Import String.
From Verif Require Import Py Ops Json SpecJson Elements Pipe SpecPipe SpecCalls Factory Custom SpecCustom CustomProofs
  ObjProofs CallWitness.
From Coq Require Import List.

Definition no_error (l : list jval) : option exn := None.

(** [class Cut(Operator): def __init__(self, maxlen, pad_token="<pad>")], both types list *)
Definition cut_decl : decl seqtype unit :=
  mkD (lit "Cut") operator_class (Some ([lit "maxlen"; lit "pad_token"], [text_of "<pad>"], no_error))
    (Some (Some TList)) (Some (Some TList)) false None (Some tt).
(** [class MyCut(Cut): pass] *)
Definition mycut_decl : decl seqtype unit :=
  mkD (lit "MyCut") (build cut_decl) None None None false None None.
(** [class Frame(Operator): def __init__(self, start_token="<sos>", end_token="<eos>")] *)
Definition frame_decl : decl seqtype unit :=
  mkD (lit "Frame") operator_class
    (Some ([lit "start_token"; lit "end_token"], [text_of "<sos>"; text_of "<eos>"], no_error))
    (Some (Some TList)) (Some (Some TList)) false None (Some tt).
(** [class MyFrame(Frame): pass] *)
Definition myframe_decl : decl seqtype unit :=
  mkD (lit "MyFrame") (build frame_decl) None None None false None None.
(** [class Draft(Operator): pass]: no types, no [_transform] *)
Definition draft_decl : decl seqtype unit :=
  mkD (lit "Draft") operator_class None None None false None None.
(** the same with everything there *)
Definition draft2_decl : decl seqtype unit :=
  mkD (lit "Draft") operator_class None (Some (Some TStr)) (Some (Some TStr)) false None (Some tt).

Example cut_declares : declares [lit "maxlen"; lit "pad_token"] [text_of "<pad>"] pad_sig.
Proof.
  split; [apply nodupb_ok; reflexivity|]. split; [reflexivity|].
  exists [lit "maxlen"], [(lit "pad_token", text_of "<pad>")]. split; reflexivity.
Qed.
Example frame_declares : declares [lit "start_token"; lit "end_token"] [text_of "<sos>"; text_of "<eos>"] soseos_sig.
Proof.
  split; [apply nodupb_ok; reflexivity|]. split; [reflexivity|].
  exists [], [(lit "start_token", text_of "<sos>"); (lit "end_token", text_of "<eos>")]. split; reflexivity.
Qed.
Example cut_own : own_init (build cut_decl) pad_sig no_error /\ concrete (build cut_decl).
Proof.
  split; [|left; discriminate]. exists [lit "maxlen"; lit "pad_token"], [text_of "<pad>"].
  split; [reflexivity|apply cut_declares].
Qed.
Example mycut_inherits : inherited_init (build mycut_decl) pad_sig no_error /\ concrete (build mycut_decl).
Proof.
  split; [|left; discriminate]. exists (OwnInit [lit "maxlen"; lit "pad_token"] [text_of "<pad>"] no_error).
  split; [reflexivity|]. constructor. apply cut_declares.
Qed.
Example myframe_inherits : inherited_init (build myframe_decl) soseos_sig no_error /\ concrete (build myframe_decl).
Proof.
  split; [|left; discriminate].
  exists (OwnInit [lit "start_token"; lit "end_token"] [text_of "<sos>"; text_of "<eos>"] no_error).
  split; [reflexivity|]. constructor. apply frame_declares.
Qed.

Definition world : list (decl seqtype unit) := [cut_decl; mycut_decl; frame_decl; myframe_decl].
Example world_defined :
  outcome [] cut_decl = Ok (build cut_decl) /\ outcome [cut_decl] mycut_decl = Ok (build mycut_decl) /\
  outcome [cut_decl; mycut_decl] frame_decl = Ok (build frame_decl) /\
  outcome [cut_decl; mycut_decl; frame_decl] myframe_decl = Ok (build myframe_decl) /\
  outcome world cut_decl = Err KeyErr.
Proof. repeat split; vm_compute; reflexivity. Qed.

(** [Cut(5)] records both parameters and comes back *)
Example cut_stored : exists o, instantiate (build cut_decl) [JInt 5] [] = Ok o /\
  ob_configs o = [(lit "maxlen", JInt 5); (lit "pad_token", text_of "<pad>")] /\
  fget (after_classes world) (lit "Cut") = Ok (build cut_decl) /\
  obj_deserialize (after_classes world) (obj_serialize o) = Ok o.
Proof. eexists. split; [vm_compute; reflexivity|]. repeat split; vm_compute; reflexivity. Qed.
(** [MyCut(maxlen=5)] comes back *)
Example mycut_stored : exists o, instantiate (build mycut_decl) [] [(lit "maxlen", JInt 5)] = Ok o /\
  ob_configs o = [(lit "maxlen", JInt 5)] /\
  obj_deserialize (after_classes world) (obj_serialize o) = Ok o.
Proof. eexists. split; [vm_compute; reflexivity|]. repeat split; vm_compute; reflexivity. Qed.

(** ** Counterexamples for classes that inherit [__init__] *)

Theorem inherited_equality_refuted : exists (h : list (decl seqtype unit)) d c o o',
  outcome h d = Ok c /\ instantiate c [JInt 5] [] = Ok o /\ instantiate c [JInt 7] [] = Ok o' /\
  ob_bound o <> ob_bound o' /\ obj_eqb o o' = true.
Proof.
  exists [cut_decl], mycut_decl, (build mycut_decl). do 2 eexists.
  split; [vm_compute; reflexivity|]. split; [vm_compute; reflexivity|]. split; [vm_compute; reflexivity|].
  split; [discriminate|vm_compute; reflexivity].
Qed.

Theorem inherited_reading_refuted : exists (h : list (decl seqtype unit)) d c o,
  outcome h d = Ok c /\ instantiate c [JInt 5] [] = Ok o /\
  obj_deserialize (after_classes (h ++ [d])) (obj_serialize o) = Err TypeErr.
Proof.
  exists [cut_decl], mycut_decl, (build mycut_decl). eexists.
  split; [vm_compute; reflexivity|]. split; [vm_compute; reflexivity|]. vm_compute; reflexivity.
Qed.

Theorem inherited_silent_refuted : exists (h : list (decl seqtype unit)) d c o o',
  outcome h d = Ok c /\ instantiate c [text_of "A"; text_of "B"] [] = Ok o /\
  obj_deserialize (after_classes (h ++ [d])) (obj_serialize o) = Ok o' /\
  obj_eqb o o' = true /\ ob_bound o = [text_of "A"; text_of "B"] /\ ob_bound o' = [text_of "<sos>"; text_of "<eos>"].
Proof.
  exists [frame_decl], myframe_decl, (build myframe_decl). do 2 eexists.
  split; [vm_compute; reflexivity|]. split; [vm_compute; reflexivity|]. split; [vm_compute; reflexivity|].
  repeat split; vm_compute; reflexivity.
Qed.

(** ** A failed class statement leaves a class behind *)

Theorem failed_statement_refuted : exists d d' : decl seqtype unit,
  d_name d = d_name d' /\ outcome [] d = Err AssertionErr /\ well_declared d' /\
  outcome [] d' <> Err KeyErr /\ outcome [d] d' = Err KeyErr /\
  exists o, from_dict (after_classes [d]) (d_name d) [] = Ok o /\ k_transform (ob_class o) = None.
Proof.
  exists draft_decl, draft2_decl. split; [reflexivity|]. split; [vm_compute; reflexivity|].
  split; [split; [exists TStr; now left|]; split; [exists TStr; now left|]; discriminate|].
  split; [vm_compute; discriminate|]. split; [vm_compute; reflexivity|].
  eexists. split; [vm_compute; reflexivity|reflexivity].
Qed.
