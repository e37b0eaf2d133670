(** Concrete classes meeting the hypotheses of C104, and the counterexamples. *)

From Coq Require Import String.
From Verif Require Import Py Json SpecJson Elements Pipe SpecPipe SpecCalls ObjProofs Factory Custom SpecCustom
  Signature SpecSignature SignatureProofs.
From Coq Require Import List.

Definition accepts_all (r : received) : option exn := None.
(** [class Join(Operator): def __init__(self, sep, end="", *words, limit, keep=True, **options)] *)
Definition join_sig : signature :=
  mkSig [lit "sep"; lit "end"] [text_of ""] true [(lit "limit", None); (lit "keep", Some (JBool true))] true.
Definition join_ps : list (str * option jval) := [required "sep"; optional "end" (text_of "")].
Definition join : sclass := mkSC (lit "Join") false join_sig accepts_all.
(** [class MyJoin(Join): pass] *)
Definition myjoin : sclass := mkSC (lit "MyJoin") true join_sig accepts_all.
Definition shop : list (str * sclass) := [(lit "Join", join); (lit "MyJoin", myjoin)].
(** [class Few(Operator): def __init__(self, *words)], which raises ValueError without words *)
Definition few : sclass := mkSC (lit "Few") false (mkSig [] [] true [] false)
  (fun r => match r_rest r with [] => Some ValueErr | _ => None end).

Example join_declared : declared join_sig join_ps.
Proof.
  split.
  - split; [apply nodupb_ok; reflexivity|]. split; [reflexivity|].
    exists [lit "sep"], [(lit "end", text_of "")]. split; reflexivity.
  - apply nodupb_ok. reflexivity.
Qed.

(** [Join("-", limit=3, color="red")] *)
Definition red_call : list (str * jval) := [(lit "limit", JInt 3); (lit "color", text_of "red")].
Definition red_got : received := mkR [text_of "-"; text_of ""] [] [JInt 3; JBool true] [(lit "color", text_of "red")].
Example red_receives : receives join_sig join_ps [text_of "-"] red_call red_got.
Proof. apply (bind_any_is _ _ join_declared). vm_compute. reflexivity. Qed.
Example red_made : make_any join [text_of "-"] red_call =
  Ok (mkSO join [(lit "sep", text_of "-"); (lit "limit", JInt 3); (lit "color", text_of "red"); (lit "end", text_of "")] red_got).
Proof. vm_compute. reflexivity. Qed.
Example red_round_trip : exists o, make_any join [text_of "-"] red_call = Ok o /\
  from_dict_any shop (lit "Join") (so_configs o) = Ok o /\ deserialize_sobj shop (serialize_sobj o) = Ok o.
Proof. eexists. split; [exact red_made|]. split; vm_compute; reflexivity. Qed.
(** [Join("-", "", "x", limit=3)] *)
Definition words_got : received := mkR [text_of "-"; text_of ""] [text_of "x"] [JInt 3; JBool true] [].
Example words_receives : receives join_sig join_ps [text_of "-"; text_of ""; text_of "x"] [(lit "limit", JInt 3)] words_got.
Proof. apply (bind_any_is _ _ join_declared). vm_compute. reflexivity. Qed.
(** refused: a keyword-only parameter by position or not at all, [self], a value given twice *)
Example refused_calls :
  make_any join [text_of "-"; text_of ""; JInt 3] [] = Err TypeErr /\
  make_any join [text_of "-"] [] = Err TypeErr /\
  make_any join [text_of "-"] (red_call ++ [(lit "self", JNone)]) = Err TypeErr /\
  make_any join [text_of "-"] (red_call ++ [(lit "sep", JNone)]) = Err TypeErr.
Proof. vm_compute. repeat split; reflexivity. Qed.
(** an inherited [__init__] *)
Example myjoin_made : exists o, make_any myjoin [text_of "-"] red_call = Ok o /\ so_configs o = red_call /\
  from_dict_any shop (lit "MyJoin") (so_configs o) = Err TypeErr.
Proof. eexists. split; [vm_compute; reflexivity|]. split; vm_compute; reflexivity. Qed.

(** ** Refuted *)

Theorem rest_equality_refuted : exists c ps args args' kwargs o o',
  declared (sc_sig c) ps /\ sc_inherited c = false /\ make_any c args kwargs = Ok o /\ make_any c args' kwargs = Ok o' /\
  so_got o <> so_got o' /\ sobj_eqb o o' = true.
Proof.
  exists join, join_ps, [text_of "-"; text_of ""; text_of "x"], [text_of "-"; text_of ""; text_of "y"], [(lit "limit", JInt 3)].
  do 2 eexists. split; [exact join_declared|]. split; [reflexivity|]. split; [vm_compute; reflexivity|].
  split; [vm_compute; reflexivity|]. split; [discriminate|vm_compute; reflexivity].
Qed.

Theorem rest_read_back_refuted :
  (exists c ps args kwargs o o', declared (sc_sig c) ps /\ sc_inherited c = false /\ make_any c args kwargs = Ok o /\
     deserialize_sobj [(sc_name c, c)] (serialize_sobj o) = Ok o' /\ sobj_eqb o o' = true /\ so_got o' <> so_got o) /\
  (exists c ps args kwargs o, declared (sc_sig c) ps /\ sc_inherited c = false /\ make_any c args kwargs = Ok o /\
     deserialize_sobj [(sc_name c, c)] (serialize_sobj o) = Err ValueErr).
Proof.
  split.
  - exists join, join_ps, [text_of "-"; text_of ""; text_of "x"], [(lit "limit", JInt 3)].
    do 2 eexists. split; [exact join_declared|]. split; [reflexivity|]. split; [vm_compute; reflexivity|].
    split; [vm_compute; reflexivity|]. split; [vm_compute; reflexivity|discriminate].
  - exists few, [], [text_of "x"], []. eexists. split.
    + split; [|apply nodupb_ok; reflexivity]. split; [constructor|]. split; [reflexivity|]. exists [], []. split; reflexivity.
    + split; [reflexivity|]. split; [vm_compute; reflexivity|]. vm_compute. reflexivity.
Qed.

Theorem spelled_out_refuted : exists c ps args kwargs kwargs' o o',
  declared (sc_sig c) ps /\ sc_inherited c = false /\ make_any c args kwargs = Ok o /\ make_any c args kwargs' = Ok o' /\
  so_got o = so_got o' /\ sobj_eqb o o' = false.
Proof.
  exists join, join_ps, [text_of "-"], [(lit "limit", JInt 3)], [(lit "limit", JInt 3); (lit "keep", JBool true)].
  do 2 eexists. split; [exact join_declared|]. split; [reflexivity|]. split; [vm_compute; reflexivity|].
  split; [vm_compute; reflexivity|]. split; vm_compute; reflexivity.
Qed.
