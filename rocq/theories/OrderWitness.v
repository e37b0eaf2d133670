(** Concrete cases for the theorems about the order of sets (C96). *)

From Coq Require Import String.
From Verif Require Import Py Edit SpecEdit SpecLabels SpecSeg SpecScan SpecOps Regex Ops Json Elements Pipe SpecPipe SpecAccept EditWitness Concrete
  PyRe SpecRe ReProofs ReReplace ReWitness SpecOrder OrderProofs AcceptWitness SettleWitness AcceptPipe.
From Coq Require Import List Lia.
Import ListNotations.
Local Open Scope Z_scope.

(** the same python, with sets that are iterated backwards *)
Definition other_env : env := reseed re_env ord_rev ord_rev.

(** Deleting [a] and [b] from [xaby]: the edits of the way back come in another order, the labels
    are the same. *)
Definition back_in (F : env) (s : str) (l : list Z) : res (list Z) :=
  '(_, a) <- transform_op F delete_ab (SStr s) ;; align_inverse F a l.
Example ex_orders_differ :
  inverse (ord_c re_env) (txt "xaby") [mkR 1 2 []; mkR 2 3 []] = Ok [mkR 1 1 (txt "a"); mkR 1 1 (txt "b")] /\
  inverse (ord_c other_env) (txt "xaby") [mkR 1 2 []; mkR 2 3 []] = Ok [mkR 1 1 (txt "b"); mkR 1 1 (txt "a")] /\
  back_in re_env (txt "xaby") [7; 8] = Ok [7; 0; 0; 8] /\ back_in other_env (txt "xaby") [7; 8] = Ok [7; 0; 0; 8].
Proof. repeat split; vm_compute; reflexivity. Qed.

(** A pipe with an operator of the critical kind that always meets a non-empty list here. *)
Definition order_calls : list (str * list (str * jval) * option str) :=
  [(lit "ReplaceAwithB", [(lit "a", JStr (txt "a|b")); (lit "b", JStr [])], None);
   (lit "WhiteSpaceTokenizer", [], None);
   (lit "AddSosEos", [], None)].
Definition order_pipe : pipe := fst (add_calls re_env imported pipe_new order_calls).
Lemma order_reachable : reachable re_env order_pipe.
Proof.
  apply (add_calls_reachable re_env imported order_calls pipe_new);
    [apply Forall_forall; intros c HC; apply PipeLaws.valueb_ok; revert c HC; apply forallb_forall; vm_compute; reflexivity
    |apply r_new|vm_compute; reflexivity].
Qed.
Lemma order_built : Forall (fun o => built re_env (o_op o)) (steps order_pipe).
Proof. apply reachable_built; [exact re_env_regexes|exact order_reachable]. Qed.

Definition outcome (F : env) (x : pseq) (l m : list Z) : res (pseq * list Z * list Z) :=
  '(y, als, _) <- transform_sequence F order_pipe x ;;
  f <- align_all als l ;; b <- align_inverse_all F als m ;; Ok (y, f, b).
Example ex_decided : decided re_env (steps order_pipe) (SStr (txt "xaby c")) /\
  outcome re_env (SStr (txt "xaby c")) [1; 1; 1; 1; 0; 2] [9; 1; 2; 9] =
    Ok (SLst (map ETok [txt "<sos>"; txt "xy"; txt "c"; txt "<eos>"]), [0; 1; 2; 0], [1; 0; 0; 1; 0; 2]) /\
  outcome other_env (SStr (txt "xaby c")) [1; 1; 1; 1; 0; 2] [9; 1; 2; 9] =
    outcome re_env (SStr (txt "xaby c")) [1; 1; 1; 1; 0; 2] [9; 1; 2; 9].
Proof.
  split; [|split; vm_compute; reflexivity].
  intros before o after y als coll EQ HR (sos & eos & Q & -> & _).
  destruct before as [|o1 [|o2 [|o3 before]]].
  - vm_compute in EQ. injection EQ as <- _. discriminate Q.
  - vm_compute in EQ. injection EQ as _ <- _. discriminate Q.
  - assert (E1 : o1 = nth 0 (steps order_pipe) o /\ o2 = nth 1 (steps order_pipe) o) by (rewrite EQ; split; reflexivity).
    destruct E1 as (-> & ->). vm_compute in HR. discriminate.
  - exfalso. apply (f_equal (@List.length opobj)) in EQ. rewrite app_length in EQ. cbn [List.length] in EQ.
    change (List.length (steps order_pipe)) with 3%nat in EQ. lia.
Qed.

(** The same pipe given a text that has no tokens: the order decides. *)
Definition shown (F : env) (x : pseq) : res pseq := '(y, _, _) <- transform_sequence F order_pipe x ;; Ok y.
Lemma order_refuted : exists E oc oe p x y y' als als' coll coll',
  python E /\ ord_ok oc /\ ord_ok oe /\ reachable E p /\
  transform_sequence E p x = Ok (y, als, coll) /\
  transform_sequence (reseed E oc oe) p x = Ok (y', als', coll') /\ y' <> y.
Proof.
  exists re_env, ord_rev, ord_rev, order_pipe, (SStr (txt "ab")). do 6 eexists.
  split; [exact re_env_python|]. split; [exact ord_rev_ok|]. split; [exact ord_rev_ok|]. split; [exact order_reachable|].
  split; [vm_compute; reflexivity|]. split; [vm_compute; reflexivity|]. discriminate.
Qed.

Example ex_undecided : undecided (AddSosEos (ETok START_TOKEN) (ETok END_TOKEN)) (SLst []).
Proof. exists (ETok START_TOKEN), (ETok END_TOKEN). split; [reflexivity|]. split; [reflexivity|discriminate]. Qed.
