(** Property theorems C109 (the base classes in the factory).
    The concrete cases that meet the hypotheses are in [BaseWitness.v]. *)

From Coq Require Import String ZArith.
From Verif Require Import Py Edit SpecEdit Ops SpecOps Json SpecJson Elements Pipe SpecPipe BaseOps SpecBase BaseProofs BasePipe
  BaseWitness.
From Coq Require Import List Permutation.
Import ListNotations.
Local Open Scope nat_scope.

(** C109: the base classes in the factory *)
Theorem C109_built : forall E reg n k o, In n base_names ->
  (f_from_dict E reg (JDict [(K_op_name, JStr n); (K_op_kwargs, k)]) = Ok o <->
   n <> txt "Operator" /\ k = JDict [] /\ f_class o = n /\ f_configs o = [] /\ exists b, o = FBase b).
Proof. exact base_built. Qed.
Print Assumptions C109_built.

Theorem C109_refused : forall E reg n k, In n base_names -> n = txt "Operator" \/ k <> JDict [] ->
  f_from_dict E reg (JDict [(K_op_name, JStr n); (K_op_kwargs, k)]) = Err TypeErr.
Proof. exact base_refused. Qed.
Print Assumptions C109_refused.

Theorem C109_other_names : forall E reg n k, ~ In n base_names ->
  f_from_dict E reg (JDict [(K_op_name, JStr n); (K_op_kwargs, k)]) =
  (o <- op_from_dict E reg (JDict [(K_op_name, JStr n); (K_op_kwargs, k)]) ;; Ok (FLib o)).
Proof. exact other_names. Qed.
Print Assumptions C109_other_names.

Theorem C109_tokenizer : forall E x, exists e, f_transform E (FBase BTokenizer) x = Err e /\
  (e = RuntimeErr <-> exists s, x = SStr s) /\ (e = TypeErr <-> exists l, x = SLst l).
Proof. exact base_tokenizer. Qed.
Print Assumptions C109_tokenizer.

Theorem C109_recognizer : forall E x, ord_ok (ord_c E) -> exists e, f_transform E (FBase BRecognizer) x = Err e /\
  (e = AttributeErr <-> exists s, x = SStr s /\ s <> []) /\
  (e = TypeErr <-> x = SStr [] \/ exists l, x = SLst l).
Proof. exact base_recognizer. Qed.
Print Assumptions C109_recognizer.

Theorem C109_spacer : forall E, ord_ok (ord_c E) ->
  (exists a, f_transform E (FBase BSpacer) (SStr []) = Ok (SStr [], a) /\
     forall l, (l = [] -> align a l = Ok [] /\ align_inverse E a l = Ok []) /\
               (l <> [] -> align a l = Err ValueErr /\ align_inverse E a l = Err ValueErr)) /\
  (forall s, s <> [] -> f_transform E (FBase BSpacer) (SStr s) = Err RuntimeErr) /\
  (forall l, f_transform E (FBase BSpacer) (SLst l) = Err TypeErr).
Proof. exact base_spacer. Qed.
Print Assumptions C109_spacer.

Theorem C109_library_run : forall E ops x, f_run E (map FLib ops) x = Pipe.run E ops x.
Proof. exact lib_run. Qed.
Print Assumptions C109_library_run.

Theorem C109_run : forall E ops x y als coll, python E -> regexes E -> Forall (f_made E) ops ->
  f_run E ops x = Ok (y, als, coll) ->
  (forall k b, nth_error ops k = Some (FBase b) -> b = BSpacer /\ nth_error coll k = Some (SStr [])) /\
  exists als' coll', Pipe.run E (libs ops) x = Ok (y, als', coll') /\
    (forall l, length l = pseq_length x -> align_all als l = align_all als' l) /\
    (forall l, length l = pseq_length y -> align_inverse_all E als l = align_inverse_all E als' l).
Proof. exact base_steps. Qed.
Print Assumptions C109_run.

Theorem C109_run_back : forall E ops x y als' coll', ord_ok (ord_c E) ->
  Pipe.run E (libs ops) x = Ok (y, als', coll') ->
  (forall k b, nth_error ops k = Some (FBase b) ->
     b = BSpacer /\ exists al co, Pipe.run E (libs (firstn k ops)) x = Ok (SStr [], al, co)) ->
  exists als coll, f_run E ops x = Ok (y, als, coll).
Proof. exact base_steps_back. Qed.
Print Assumptions C109_run_back.

Theorem C109_run_error : forall E ops x e, f_run E ops x = Err e <->
  exists k o u al co, nth_error ops k = Some o /\ f_run E (firstn k ops) x = Ok (u, al, co) /\
    f_transform E o u = Err e.
Proof. exact f_run_error. Qed.
Print Assumptions C109_run_error.

Theorem C109_stops : forall E ops x b, ord_ok (ord_c E) -> In (FBase b) ops -> b <> BSpacer ->
  exists e, f_run E ops x = Err e.
Proof. exact base_stops. Qed.
Print Assumptions C109_stops.

Theorem C109_add : forall E reg p n kwargs ck, In n base_names ->
  (n <> txt "Operator" -> kwargs = None \/ kwargs = Some [] ->
     exists b, f_class (FBase b) = n /\ f_add E reg p n kwargs ck = f_add_op p (FBase b) ck) /\
  (n = txt "Operator" \/ (exists k d, kwargs = Some (k :: d)) -> f_add E reg p n kwargs ck = (p, Some TypeErr)).
Proof. exact add_base. Qed.
Print Assumptions C109_add.

Theorem C109_add_effect : forall p o ck, let mismatch := exists l, last_opt (f_steps p) = Some l /\ f_out l <> f_in o in
  (mismatch -> f_add_op p o ck = (p, Some TypeErr)) /\
  (~ mismatch -> ck = None -> f_add_op p o ck = (mkFP (f_steps p ++ [o]) (f_checkpoints p), None)) /\
  (~ mismatch -> forall name, ck = Some name -> ~ In name (map fst (f_checkpoints p)) ->
     f_add_op p o ck = (mkFP (f_steps p ++ [o])
                        (f_checkpoints p ++ [(name, Z.of_nat (length (f_steps p) + 1))]), None)) /\
  (~ mismatch -> forall name, ck = Some name -> In name (map fst (f_checkpoints p)) ->
     f_add_op p o ck = (mkFP (f_steps p ++ [o]) (f_checkpoints p), Some KeyErr)).
Proof. exact f_add_op_effect. Qed.
Print Assumptions C109_add_effect.

Theorem C109_fits : forall p o b, b <> BOperator ->
  (snd (f_add_op p (FBase b) None) = None <-> forall l, last_opt (f_steps p) = Some l -> f_out l = TStr) /\
  (last_opt (f_steps p) = Some (FBase b) ->
     (snd (f_add_op p o None) = None <-> f_in o = if eqb (f_class (FBase b)) (txt "Tokenizer") then TList else TStr)).
Proof. exact base_fits. Qed.
Print Assumptions C109_fits.

Theorem C109_add_library : forall E reg p n kwargs ck, ~ In n base_names ->
  f_add E reg (lift_pipe p) n kwargs ck = (lift_pipe (fst (add E reg p n kwargs ck)), snd (add E reg p n kwargs ck)).
Proof. exact add_lib. Qed.
Print Assumptions C109_add_library.

Theorem C109_round_trip : forall E reg o, f_made E o -> (forall l, o = FLib l -> In (o_class l) reg) ->
  f_deserialize E reg (f_serialize o) = Ok (f_as_json o).
Proof. exact f_round_trip. Qed.
Print Assumptions C109_round_trip.

Theorem C109_pipe_round_trip : forall E reg p, f_reachable E p -> Forall text (map fst (f_checkpoints p)) ->
  (forall l, In (FLib l) (f_steps p) -> In (o_class l) reg) ->
  fpipe_deserialize E reg (fpipe_serialize p) = Ok (mkFP (map f_as_json (f_steps p)) (f_checkpoints p)).
Proof. exact fpipe_round_trip. Qed.
Print Assumptions C109_pipe_round_trip.

Theorem C109_equality : forall E a o, (forall b, f_eqb (FBase a) (FBase b) = true <-> a = b) /\
  (made E o -> f_eqb (FBase a) (FLib o) = false /\ f_eqb (FLib o) (FBase a) = false).
Proof. exact f_eqb_base. Qed.
Print Assumptions C109_equality.

Theorem C109_library_equality : forall a b, f_eqb (FLib a) (FLib b) = op_eqb a b.
Proof. exact f_eqb_lib. Qed.
Print Assumptions C109_library_equality.

Theorem C109_pipe_equality : forall p q, NoDup (map fst (f_checkpoints p)) -> NoDup (map fst (f_checkpoints q)) ->
  fpipe_eqb p q = true <->
  Forall2 (fun x y => f_eqb x y = true) (f_steps p) (f_steps q) /\ Permutation (f_checkpoints p) (f_checkpoints q).
Proof. exact fpipe_eqb_spec. Qed.
Print Assumptions C109_pipe_equality.

Theorem C109_built_runs_refuted : exists E reg n p, In n base_names /\
  f_add E reg fpipe_new n None None = (p, None) /\ forall x, exists e, f_run E (f_steps p) x = Err e.
Proof. exact built_runs_refuted. Qed.
Print Assumptions C109_built_runs_refuted.
