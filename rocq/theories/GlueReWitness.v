(** Concrete cases for replacing piece by piece (C97). *)

From Coq Require Import String.
From Verif Require Import Py Edit SpecEdit SpecLabels SpecSeg SpecRuns PyRe SpecRe ReProofs ReTexts ReReplace ReWitness SpecWords SpecScan SpecOps Ops SpecGlue GlueProofs GlueReplace.
From Coq Require Import List Lia.
Import ListNotations.
Local Open Scope Z_scope.

Lemma case_straddled : ~ straddled [txt "ab"; txt "a"] (txt "xaba") (txt "ca b").
Proof.
  intros (u & v & s' & t' & A & B & NU & NV & [Q|[Q|[]]]).
  - destruct u as [|c1 [|c2 u]]; [now apply NU| |].
    + injection Q as <- <-. injection B as B. discriminate.
    + injection Q as _ _ Q. destruct u; [now destruct v|discriminate].
  - destruct u as [|c1 u]; [now apply NU|]. injection Q as _ Q. destruct u; [now destruct v|discriminate].
Qed.
Definition swap_out (s : str) (l : list Z) : res (pseq * list Z) :=
  '(y, a) <- transform_op re_env (ReplaceAwithB (txt "ab|a") (txt "#!")) (SStr s) ;; f <- align a l ;; Ok (y, f).
Example ex_replace_parts :
  words_pattern [txt "ab"; txt "a"] (txt "ab|a") /\ Forall plain [txt "ab"; txt "a"] /\ ~ In [] [txt "ab"; txt "a"] /\
  ~ straddled [txt "ab"; txt "a"] (txt "xaba") (txt "ca b") /\
  swap_out (txt "xaba") [1; 2; 2; 3] = Ok (SStr (txt "x#!#!"), [1; 2; 2; 3; 3]) /\
  swap_out (txt "ca b") [4; 5; 0; 6] = Ok (SStr (txt "c#! b"), [4; 5; 5; 0; 6]) /\
  swap_out (txt "xabaca b") [1; 2; 2; 3; 4; 5; 0; 6] = Ok (SStr (txt "x#!#!c#! b"), [1; 2; 2; 3; 3; 4; 5; 5; 0; 6]).
Proof.
  split; [left; reflexivity|]. split; [repeat constructor; apply plainb_ok; reflexivity|].
  split; [cbn; intuition discriminate|]. split; [exact case_straddled|]. repeat split; vm_compute; reflexivity.
Qed.

(** Runs of capitals, cut after the first one. *)
Example ex_inward : exists r, parse (txt "[A-Z]+") = Read r /\ inward r /\
  (forall i e, (i < 2)%nat -> (2 < e)%nat -> ~ xmatch k0 (txt "xY" ++ txt "zAB") r i e) /\
  ~ xmatch k0 (txt "xY" ++ txt "zAB") r 2 2.
Proof.
  eexists. split; [vm_compute; reflexivity|]. split; [exact Logic.I|]. split.
  - intros i e HI HE HM. assert (E2 : In e (xends k0 (txt "xY" ++ txt "zAB") (XRep 1 None true (XSet false [CRange 65 90])) i)).
    { apply xends_iff; [cbn; repeat split; try (intros ? HH; discriminate HH); auto|cbn; lia|exact HM]. }
    destruct i as [|[|i]]; [| |lia]; vm_compute in E2; [contradiction|]. destruct E2 as [<-|[]]. lia.
  - intros HM. assert (E2 : In 2%nat (xends k0 (txt "xY" ++ txt "zAB") (XRep 1 None true (XSet false [CRange 65 90])) 2%nat)).
    { apply xends_iff; [cbn; repeat split; try (intros ? HH; discriminate HH); auto|cbn; lia|exact HM]. }
    vm_compute in E2. contradiction.
Qed.

Ltac run_part s :=
  let y := fresh "y" in let a := fresh "a" in let T := fresh "T" in
  match goal with |- ~ glued ?E ?o _ _ =>
    destruct (transform_op E o (SStr s)) as [[y a]|] eqn:T; [|vm_compute in T; discriminate] end.

(** A pattern that looks at what is around the match: [^a] finds nothing in [ba], but in the part [a]. *)
Theorem replace_anchored_refuted : exists E w p r b s t, python E /\ python_re E w p /\ parse p = Read r /\ b <> [] /\
  (forall i e, i < length s -> length s < e -> ~ xmatch (classes_of E w) (s ++ t) r i e)%nat /\
  ~ xmatch (classes_of E w) (s ++ t) r (length s) (length s) /\ ~ glued E (ReplaceAwithB p b) (SStr s) (SStr t).
Proof.
  exists re_env, word0, (txt "^a"), (XSeq XBegin (XSet false [CRange 97 97])), (txt "#"), (txt "b"), (txt "a").
  split; [exact re_env_python|]. split; [apply re_env_re|]. split; [vm_compute; reflexivity|]. split; [discriminate|].
  assert (Q : forall i e, (i <= 1)%nat -> ~ xmatch (classes_of re_env word0) (txt "b" ++ txt "a") (XSeq XBegin (XSet false [CRange 97 97])) i e).
  { intros i e HI HM. apply xends_iff in HM; [|cbn; repeat split; auto|cbn; lia].
    destruct i as [|[|i]]; [| |lia]; vm_compute in HM; contradiction. }
  split; [intros i e HI _; apply Q; cbn in HI; lia|]. split; [apply Q; cbn; lia|].
  run_part (txt "b"). run_part (txt "a"). intros H. destruct (H _ _ _ _ T T0) as (a' & T' & _).
  vm_compute in T, T0. injection T as <- _. injection T0 as <- _. vm_compute in T'. discriminate.
Qed.

(** With the empty replacement: deleting [a] in [a] and [a] can be undone, in [aa] it cannot. *)
Theorem replace_empty_refuted : exists E w p s t, python E /\ python_re E w p /\ text_pattern [97%Z] p /\
  ~ straddled [[97%Z]] s t /\ ~ glued E (ReplaceAwithB p []) (SStr s) (SStr t).
Proof.
  exists re_env, word0, (txt "a"), (txt "a"), (txt "a").
  split; [exact re_env_python|]. split; [apply re_env_re|]. split; [left; split; [apply plainb_ok; reflexivity|reflexivity]|].
  split. { intros (u & v & s' & t' & A & B & NU & NV & [Q|[]]). destruct u as [|c1 u]; [now apply NU|]. injection Q as _ Q. destruct u; [now destruct v|discriminate]. }
  run_part (txt "a"). intros H. destruct (H _ _ _ _ T T) as (a' & T' & HL). destruct (HL [] []) as (_ & HB).
  vm_compute in T. injection T as <- <-. specialize (HB eq_refl eq_refl).
  vm_compute in T'. injection T' as <-. vm_compute in HB. discriminate.
Qed.
