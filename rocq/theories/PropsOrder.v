(** Property theorems C96 (results do not depend on the iteration order of sets).
    The concrete cases that meet the hypotheses are in [OrderWitness.v]. *)

From Verif Require Import Py Edit SpecEdit SpecOps Ops Elements Json Pipe SpecPipe SpecOrder OrderProofs OrderWitness.
From Coq Require Import List.
Import ListNotations.

(** C96: the order of sets *)
Theorem C96_operators : forall E oc oe o x,
  python E -> ord_ok oc -> ord_ok oe -> built E o -> ~ undecided o x ->
  transform_op (reseed E oc oe) o x = transform_op E o x /\
  forall y a l, transform_op E o x = Ok (y, a) -> align_inverse (reseed E oc oe) a l = align_inverse E a l.
Proof. exact operators_free. Qed.
Print Assumptions C96_operators.

Theorem C96_pipes : forall E oc oe p x,
  python E -> ord_ok oc -> ord_ok oe -> Forall (fun o => built E (o_op o)) (steps p) -> decided E (steps p) x ->
  transform_sequence (reseed E oc oe) p x = transform_sequence E p x /\
  forall y als coll labels, transform_sequence E p x = Ok (y, als, coll) ->
    align_inverse_all (reseed E oc oe) als labels = align_inverse_all E als labels.
Proof. exact pipes_free. Qed.
Print Assumptions C96_pipes.

Theorem C96_datums : forall E oc oe p d,
  python E -> ord_ok oc -> ord_ok oe -> Forall (fun o => built E (o_op o)) (steps p) ->
  decided E (steps p) (SStr (d_utterance d)) ->
  transform (reseed E oc oe) p d = transform E p d.
Proof. exact datums_free. Qed.
Print Assumptions C96_datums.

Theorem C96_without_sos_eos : forall E ops x, Forall (fun o => forall sos eos, o_op o = AddSosEos sos eos -> sos = eos) ops -> decided E ops x.
Proof. exact decided_without. Qed.
Print Assumptions C96_without_sos_eos.

Theorem C96_building : forall E oc oe,
  (forall name args kwargs, construct (reseed E oc oe) name args kwargs = construct E name args kwargs) /\
  (forall reg s, op_deserialize (reseed E oc oe) reg s = op_deserialize E reg s) /\
  (forall reg p name kwargs ck, add (reseed E oc oe) reg p name kwargs ck = add E reg p name kwargs ck) /\
  (forall reg s, pipe_deserialize (reseed E oc oe) reg s = pipe_deserialize E reg s).
Proof. exact building_free. Qed.
Print Assumptions C96_building.

Theorem C96_empty_list_differs : forall E o x,
  python E -> undecided o x -> exists oe y y' a a', ord_ok oe /\
    transform_op E o x = Ok (y, a) /\ transform_op (reseed E (ord_c E) oe) o x = Ok (y', a') /\ y' <> y.
Proof. exact undecided_differs. Qed.
Print Assumptions C96_empty_list_differs.

Theorem C96_always_refuted : exists E oc oe p x y y' als als' coll coll',
  python E /\ ord_ok oc /\ ord_ok oe /\ reachable E p /\
  transform_sequence E p x = Ok (y, als, coll) /\
  transform_sequence (reseed E oc oe) p x = Ok (y', als', coll') /\ y' <> y.
Proof. exact order_refuted. Qed.
Print Assumptions C96_always_refuted.
