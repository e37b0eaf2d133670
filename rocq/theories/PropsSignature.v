(** Property theorems C104 (operators written by users, with any parameters).
    The concrete cases that meet the hypotheses are in [SignatureWitness.v]. *)

From Coq Require Import String.
From Verif Require Import Py Json SpecJson Elements Pipe SpecPipe SpecCalls Factory Custom SpecCustom Signature SpecSignature
  SignatureProofs SignatureWitness.
From Coq Require Import List Permutation.
Import ListNotations.

(** C104: operators written by users, with any parameters *)
Theorem C104_call : forall c ps args kwargs, declared (sc_sig c) ps ->
  ((forall r, ~ receives (sc_sig c) ps args kwargs r) -> make_any c args kwargs = Err TypeErr) /\
  (forall r, receives (sc_sig c) ps args kwargs r ->
     (forall e, sc_body c r = Some e -> make_any c args kwargs = Err e) /\
     (sc_body c r = None -> exists o, make_any c args kwargs = Ok o /\ so_class o = c /\ so_got o = r)).
Proof. exact any_call. Qed.
Print Assumptions C104_call.

Theorem C104_one_outcome : forall s ps args kwargs r r', declared s ps ->
  receives s ps args kwargs r -> receives s ps args kwargs r' -> r = r'.
Proof. exact receives_fun. Qed.
Print Assumptions C104_one_outcome.

Theorem C104_ordinary_parameters : forall s ps args kwargs r, declared s ps -> s_rest s = false -> s_kwonly s = [] -> s_options s = false ->
  (receives s ps args kwargs r <-> exists vals, r = mkR vals [] [] [] /\ call_binds ps args kwargs vals).
Proof. exact any_ordinary. Qed.
Print Assumptions C104_ordinary_parameters.

Theorem C104_recorded : forall c ps, declared (sc_sig c) ps -> sc_inherited c = false -> forall args kwargs o, NoDup (map fst kwargs) -> make_any c args kwargs = Ok o ->
    NoDup (map fst (so_configs o)) /\
    forall n v, In (n, v) (so_configs o) <->
      (exists k d, nth_error ps k = Some (n, d) /\ nth_error (r_params (so_got o)) k = Some v) \/
      (~ In n (map fst ps) /\ In (n, v) kwargs).
Proof. exact any_recorded. Qed.
Print Assumptions C104_recorded.

Theorem C104_read_back : forall c ps, declared (sc_sig c) ps -> sc_inherited c = false -> forall args kwargs o f, NoDup (map fst kwargs) -> make_any c args kwargs = Ok o ->
    fget f (sc_name c) = Ok c ->
    from_dict_any f (sc_name c) (so_configs o) =
      match sc_body c (without_rest (so_got o)) with
      | Some e => Err e
      | None => Ok (mkSO c (so_configs o) (without_rest (so_got o)))
      end.
Proof. exact any_read_back. Qed.
Print Assumptions C104_read_back.

Theorem C104_round_trip : forall c ps, declared (sc_sig c) ps -> sc_inherited c = false -> forall args kwargs o f, NoDup (map fst kwargs) -> make_any c args kwargs = Ok o ->
    fget f (sc_name c) = Ok c -> length args <= length ps -> from_dict_any f (sc_name c) (so_configs o) = Ok o.
Proof. exact any_round_trip. Qed.
Print Assumptions C104_round_trip.

Theorem C104_stored : forall f o, text (sc_name (so_class o)) -> value (JDict (so_configs o)) -> no_tuple (JDict (so_configs o)) ->
  deserialize_sobj f (serialize_sobj o) = from_dict_any f (sc_name (so_class o)) (so_configs o).
Proof. exact any_stored. Qed.
Print Assumptions C104_stored.

Theorem C104_equality : forall c ps, declared (sc_sig c) ps -> sc_inherited c = false -> forall args kwargs args' kwargs' o o', NoDup (map fst kwargs) -> NoDup (map fst kwargs') ->
    make_any c args kwargs = Ok o -> make_any c args' kwargs' = Ok o' ->
    value (JDict (so_configs o)) -> value (JDict (so_configs o')) ->
    (sobj_eqb o o' = true <->
       Forall2 same (r_params (so_got o)) (r_params (so_got o')) /\
       same (JDict (r_options (so_got o))) (JDict (r_options (so_got o'))) /\
       forall n, In n (map fst (s_kwonly (sc_sig c))) -> same_options (dict_get kwargs n) (dict_get kwargs' n)).
Proof. exact any_equal. Qed.
Print Assumptions C104_equality.

Theorem C104_equal_classes : forall o o', sobj_eqb o o' = true -> sc_name (so_class o) = sc_name (so_class o').
Proof. exact any_other_class. Qed.
Print Assumptions C104_equal_classes.

Theorem C104_inherited : forall c ps args kwargs o f, declared (sc_sig c) ps -> sc_inherited c = true -> NoDup (map fst kwargs) ->
  make_any c args kwargs = Ok o -> fget f (sc_name c) = Ok c ->
  so_configs o = kwargs /\ from_dict_any f (sc_name c) (so_configs o) = make_any c [] kwargs /\
  (forall k n, nth_error ps k = Some (n, None) -> k < length args ->
     from_dict_any f (sc_name c) (so_configs o) = Err TypeErr).
Proof. exact any_inherited. Qed.
Print Assumptions C104_inherited.

Theorem C104_different_arguments_refuted : exists c ps args args' kwargs o o',
  declared (sc_sig c) ps /\ sc_inherited c = false /\ make_any c args kwargs = Ok o /\ make_any c args' kwargs = Ok o' /\
  so_got o <> so_got o' /\ sobj_eqb o o' = true.
Proof. exact rest_equality_refuted. Qed.
Print Assumptions C104_different_arguments_refuted.

Theorem C104_same_arguments_back_refuted : (exists c ps args kwargs o o', declared (sc_sig c) ps /\ sc_inherited c = false /\ make_any c args kwargs = Ok o /\
     deserialize_sobj [(sc_name c, c)] (serialize_sobj o) = Ok o' /\ sobj_eqb o o' = true /\ so_got o' <> so_got o) /\
  (exists c ps args kwargs o, declared (sc_sig c) ps /\ sc_inherited c = false /\ make_any c args kwargs = Ok o /\
     deserialize_sobj [(sc_name c, c)] (serialize_sobj o) = Err ValueErr).
Proof. exact rest_read_back_refuted. Qed.
Print Assumptions C104_same_arguments_back_refuted.

Theorem C104_spelled_out_refuted : exists c ps args kwargs kwargs' o o',
  declared (sc_sig c) ps /\ sc_inherited c = false /\ make_any c args kwargs = Ok o /\ make_any c args kwargs' = Ok o' /\
  so_got o = so_got o' /\ sobj_eqb o o' = false.
Proof. exact spelled_out_refuted. Qed.
Print Assumptions C104_spelled_out_refuted.
