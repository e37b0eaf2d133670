(** Concrete cases of the grammar of patterns. *)

From Coq Require Import String.
From Verif Require Import Py SpecOps PyRe SpecRe SpecReGrammar ReProofs ReParse ReReplace ReGrammar Ops ReWitness.
From Coq Require Import List Lia.
Local Open Scope nat_scope.

(** a range and a final hyphen; hexadecimal and named characters; a count without a lower bound and
    a brace that is a character; a lazy repeat in a group that is repeated, with lookarounds *)
Example ex_grammar :
  pattern (txt "[a-f-]") (XSet false [CRange 97 102; CRange 45 45]) /\
  pattern (txt "\x4a|\n") (XAlt (xchar 74) (xchar 10)) /\
  pattern (txt "a{,3}b{") (XSeq (XRep 0 (Some 3) true (xchar 97)) (XSeq (xchar 98) (xchar 123))) /\
  pattern (txt "(?:a|b*?)+(?=c)(?<!ab)$")
    (XSeq (XRep 1 None true (XAlt (xchar 97) (XRep 0 None false (xchar 98))))
      (XSeq (XLook true true (xchar 99)) (XSeq (XLook false false (XSeq (xchar 97) (xchar 98))) XDollar))).
Proof. split; [|split; [|split]]; apply parse_pattern; vm_compute; reflexivity. Qed.

(** texts that are no pattern: a repeat of nothing, a group that is left open, a lookbehind without a fixed width *)
Example ex_no_pattern : Forall (fun p => parse p <> Beyond /\ ~ exists r, pattern p r) [txt "*a"; txt "a|(b"; txt "(?<=a+)b"; txt "[b-a]"; txt "\x4g"].
Proof.
  repeat constructor; try (vm_compute; discriminate); intros (r & H); apply parse_pattern in H; vm_compute in H; discriminate.
Qed.

(** one of each is made and not made by the constructor *)
Example ex_constructor : make_replace re_env (txt "[a-f-]") (txt "x") = Ok (ReplaceAwithB (txt "[a-f-]") (txt "x")) /\
  make_replace re_env (txt "*a") (txt "x") = Err ReErr.
Proof. split; vm_compute; reflexivity. Qed.
