(** Property theorems C65-C67 (operator classes written by users).  The concrete cases that
    meet the hypotheses are in [CustomWitness.v]. *)

From Coq Require Import String.
From Verif Require Import Py Ops Json SpecJson Elements Pipe SpecPipe SpecCalls Factory Custom SpecCustom
  CustomProofs CustomWitness SpecForeign ForeignProofs.
From Coq Require Import List.

(** C65 *)
Theorem C65_construction : forall (T B : Type) (c : pyclass T B) ps body args kwargs, own_init c ps body -> concrete c ->
  NoDup (map fst kwargs) ->
  ((forall vals, ~ call_binds ps args kwargs vals) -> instantiate c args kwargs = Err TypeErr) /\
  (forall vals, call_binds ps args kwargs vals ->
     (forall e, body vals = Some e -> instantiate c args kwargs = Err e) /\
     (body vals = None -> exists o, instantiate c args kwargs = Ok o /\ ob_class o = c /\
        ob_bound o = vals /\ records ps (ob_configs o) vals)).
Proof. exact @own_call. Qed.
Print Assumptions C65_construction.

Theorem C65_from_dict : forall (T B : Type) (c : pyclass T B) ps body args kwargs o f, own_init c ps body -> NoDup (map fst kwargs) ->
  instantiate c args kwargs = Ok o -> fget f (k_name c) = Ok c ->
  from_dict f (k_name c) (ob_configs o) = Ok o.
Proof. exact @own_round_trip. Qed.
Print Assumptions C65_from_dict.

Theorem C65_stored : forall (T B : Type) (c : pyclass T B) ps body args kwargs o f, own_init c ps body -> NoDup (map fst kwargs) ->
  instantiate c args kwargs = Ok o -> fget f (k_name c) = Ok c ->
  text (k_name c) -> value (JDict (ob_configs o)) -> no_tuple (JDict (ob_configs o)) ->
  obj_deserialize f (obj_serialize o) = Ok o.
Proof. exact @own_stored. Qed.
Print Assumptions C65_stored.

Theorem C65_foreign_text : forall (T B : Type) (f : list (str * pyclass T B)) v e, value v -> no_tuple v ->
  refused (fun n => exists c, fget f n = Ok c) v e -> obj_deserialize f (dumps 0 v) = Err e.
Proof. exact @obj_refused. Qed.
Print Assumptions C65_foreign_text.

Theorem C65_equality : forall (T B : Type) (c : pyclass T B) ps body args kwargs args' kwargs' o o', own_init c ps body ->
  NoDup (map fst kwargs) -> NoDup (map fst kwargs') ->
  instantiate c args kwargs = Ok o -> instantiate c args' kwargs' = Ok o' ->
  value (JDict (ob_configs o)) -> value (JDict (ob_configs o')) ->
  (obj_eqb o o' = true <-> Forall2 same (ob_bound o) (ob_bound o')).
Proof. exact @own_equal. Qed.
Print Assumptions C65_equality.

(** C66 *)
Theorem C66_construction : forall (T B : Type) (c : pyclass T B) ps body args kwargs, inherited_init c ps body -> concrete c ->
  NoDup (map fst kwargs) ->
  ((forall vals, ~ call_binds ps args kwargs vals) -> instantiate c args kwargs = Err TypeErr) /\
  (forall vals, call_binds ps args kwargs vals ->
     (forall e, body vals = Some e -> instantiate c args kwargs = Err e) /\
     (body vals = None -> exists o, instantiate c args kwargs = Ok o /\ ob_class o = c /\
        ob_bound o = vals /\ ob_configs o = kwargs)).
Proof. exact @inherited_call. Qed.
Print Assumptions C66_construction.

Theorem C66_keywords_only : forall (T B : Type) (c : pyclass T B) ps body kwargs o f, inherited_init c ps body -> NoDup (map fst kwargs) ->
  instantiate c [] kwargs = Ok o -> fget f (k_name c) = Ok c ->
  from_dict f (k_name c) (ob_configs o) = Ok o.
Proof. exact @inherited_keywords. Qed.
Print Assumptions C66_keywords_only.

Theorem C66_required_by_position : forall (T B : Type) (c : pyclass T B) ps body args kwargs o f k n, inherited_init c ps body -> NoDup (map fst kwargs) ->
  instantiate c args kwargs = Ok o -> fget f (k_name c) = Ok c ->
  nth_error ps k = Some (n, None) -> k < length args ->
  from_dict f (k_name c) (ob_configs o) = Err TypeErr.
Proof. exact @inherited_required. Qed.
Print Assumptions C66_required_by_position.

Theorem C66_optional_by_position : forall (T B : Type) (c : pyclass T B) ps body args kwargs o f vals', inherited_init c ps body -> value (JDict kwargs) ->
  instantiate c args kwargs = Ok o -> fget f (k_name c) = Ok c ->
  call_binds ps [] kwargs vals' -> body vals' = None ->
  exists o', from_dict f (k_name c) (ob_configs o) = Ok o' /\ obj_eqb o o' = true /\ ob_bound o' = vals' /\
    forall k n d, k < length args -> nth_error ps k = Some (n, d) -> nth_error (ob_bound o') k = d.
Proof. exact @inherited_defaults. Qed.
Print Assumptions C66_optional_by_position.

Theorem C66_equality : forall (T B : Type) (c : pyclass T B) ps body args kwargs args' kwargs' o o', inherited_init c ps body ->
  value (JDict kwargs) -> value (JDict kwargs') ->
  instantiate c args kwargs = Ok o -> instantiate c args' kwargs' = Ok o' ->
  (obj_eqb o o' = true <-> same (JDict kwargs) (JDict kwargs')).
Proof. exact @inherited_equal. Qed.
Print Assumptions C66_equality.

Theorem C66_equality_refuted : exists (h : list (decl seqtype unit)) d c o o',
  outcome h d = Ok c /\ instantiate c [JInt 5] [] = Ok o /\ instantiate c [JInt 7] [] = Ok o' /\
  ob_bound o <> ob_bound o' /\ obj_eqb o o' = true.
Proof. exact inherited_equality_refuted. Qed.
Print Assumptions C66_equality_refuted.

Theorem C66_reading_back_refuted : exists (h : list (decl seqtype unit)) d c o,
  outcome h d = Ok c /\ instantiate c [JInt 5] [] = Ok o /\
  obj_deserialize (after_classes (h ++ [d])) (obj_serialize o) = Err TypeErr.
Proof. exact inherited_reading_refuted. Qed.
Print Assumptions C66_reading_back_refuted.

Theorem C66_same_arguments_refuted : exists (h : list (decl seqtype unit)) d c o o',
  outcome h d = Ok c /\ instantiate c [text_of "A"; text_of "B"] [] = Ok o /\
  obj_deserialize (after_classes (h ++ [d])) (obj_serialize o) = Ok o' /\
  obj_eqb o o' = true /\ ob_bound o = [text_of "A"; text_of "B"] /\
  ob_bound o' = [text_of "<sos>"; text_of "<eos>"].
Proof. exact inherited_silent_refuted. Qed.
Print Assumptions C66_same_arguments_refuted.

(** C67 *)
Theorem C67_class_statement : forall (T B : Type) h (d : decl T B),
  (In (d_name d) (lit "Operator" :: map d_name h) ->
     outcome h d = Err KeyErr /\ after_classes (h ++ [d]) = after_classes h) /\
  (~ In (d_name d) (lit "Operator" :: map d_name h) ->
     exists c, class_of d c /\ fget (after_classes (h ++ [d])) (d_name d) = Ok c /\
       (well_declared d -> outcome h d = Ok c) /\ (~ well_declared d -> outcome h d = Err AssertionErr)).
Proof. exact @statement_outcome. Qed.
Print Assumptions C67_class_statement.

Theorem C67_lookup : forall (T B : Type) (h : list (decl T B)) n,
  (forall c, fget (after_classes h) n = Ok c ->
     (n = lit "Operator" /\ c = operator_class) \/ exists d, first_for h d /\ d_name d = n /\ class_of d c) /\
  (forall d, first_for h d -> d_name d = n -> exists c, fget (after_classes h) n = Ok c /\ class_of d c) /\
  (fget (after_classes h) n = Err KeyErr <-> ~ In n (lit "Operator" :: map d_name h)).
Proof. exact @class_lookup. Qed.
Print Assumptions C67_lookup.

Theorem C67_abstract_classes : forall (T B : Type) (c : pyclass T B) args kwargs,
  ~ concrete c -> instantiate c args kwargs = Err TypeErr.
Proof. exact @abstract_refused. Qed.
Print Assumptions C67_abstract_classes.

Theorem C67_failed_statement_leaves_nothing_refuted : exists d d' : decl seqtype unit,
  d_name d = d_name d' /\ outcome [] d = Err AssertionErr /\ well_declared d' /\
  outcome [] d' <> Err KeyErr /\ outcome [d] d' = Err KeyErr /\
  exists o, from_dict (after_classes [d]) (d_name d) [] = Ok o /\ k_transform (ob_class o) = None.
Proof. exact failed_statement_refuted. Qed.
Print Assumptions C67_failed_statement_leaves_nothing_refuted.
