(** Concrete cases for the theorems about patterns and [ReplaceAwithB]. *)

From Coq Require Import String Ascii.
From Verif Require Import Py SpecEdit SpecLabels SpecSeg SpecScan SpecOps Regex Ops EditWitness Concrete
  PyRe SpecRe ReProofs ReParse ReShape ReWritten ReTexts ReGroups ReReplace.
From Coq Require Import List Lia.
Local Open Scope Z_scope.

(** ** A runtime whose [re.compile] is [parse] *)

Definition word0 (c : Z) : bool :=
  in_table digit_table c || ascii_letter c || (c =? 95).
Definition re_env : env :=
  mkEnv (fun l => l) (fun l => l) (in_table space_table) (in_table digit_table)
    (in_table punct_table) (in_table mn_table) nfd0
    (compile (mkClasses (in_table digit_table) (in_table space_table) word0)).
Definition k0 : classes := classes_of re_env word0.

Lemma re_env_python : python re_env.
Proof. split; [exact ord_id_ok|]. split; [exact ord_id_ok|reflexivity]. Qed.
Lemma re_env_re p : python_re re_env word0 p.
Proof.
  unfold python_re. cbn [re_compile re_env]. unfold compile.
  destruct (parse p); [|reflexivity|exact I|exact I]. eexists. split; [reflexivity|]. reflexivity.
Qed.

(** ** A comparison with CPython *)

(** What [re] of CPython 3.11.10 answers: [None] for re.error, otherwise the spans that
    [search(s, 0)] and, for longer texts, [search(s, 2)] give on the eight texts. *)
Definition case_texts : list str := [
  [];
  [97];
  [97; 98];
  [97; 98; 99; 97; 98; 32; 97; 97; 98];
  [32; 32; 120; 46; 32; 65; 57; 95; 32; 98; 10];
  [49; 46; 46; 50; 46; 46; 46; 65; 66; 99];
  [120; 120; 32; 97; 120; 120; 98; 10];
  [99; 100; 98; 32; 97; 98; 98; 32; 98]].
Definition cpython_cases : list (str * option (list (option (nat * nat)))) := [
  ([91; 65; 45; 90; 93; 43], Some [None; None; None; None; None; Some (5, 6); Some (5, 6); Some (7, 9); Some (7, 9); None; None; None; None]%nat);
  ([92; 115; 43], Some [None; None; None; Some (5, 6); Some (5, 6); Some (0, 2); Some (4, 5); None; None; Some (2, 3); Some (2, 3); Some (3, 4); Some (3, 4)]%nat);
  ([92; 65; 92; 115; 43; 124; 92; 115; 43; 92; 90], Some [None; None; None; None; None; Some (0, 2); Some (10, 11); None; None; Some (7, 8); Some (7, 8); None; None]%nat);
  ([91; 92; 46; 93; 43], Some [None; None; None; None; None; Some (3, 4); Some (3, 4); Some (1, 3); Some (2, 3); None; None; None; None]%nat);
  ([120; 42], Some [Some (0, 0); Some (0, 0); Some (0, 0); Some (0, 0); Some (2, 2); Some (0, 0); Some (2, 3); Some (0, 0); Some (2, 2); Some (0, 2); Some (2, 2); Some (0, 0); Some (2, 2)]%nat);
  ([120; 43; 63], Some [None; None; None; None; None; Some (2, 3); Some (2, 3); None; None; Some (0, 1); Some (4, 5); None; None]%nat);
  ([120; 63; 63], Some [Some (0, 0); Some (0, 0); Some (0, 0); Some (0, 0); Some (2, 2); Some (0, 0); Some (2, 2); Some (0, 0); Some (2, 2); Some (0, 0); Some (2, 2); Some (0, 0); Some (2, 2)]%nat);
  ([97; 124; 97; 98], Some [None; Some (0, 1); Some (0, 1); Some (0, 1); Some (3, 4); None; None; None; None; Some (3, 4); Some (3, 4); Some (4, 5); Some (4, 5)]%nat);
  ([97; 98; 124; 97], Some [None; Some (0, 1); Some (0, 2); Some (0, 2); Some (3, 5); None; None; None; None; Some (3, 4); Some (3, 4); Some (4, 6); Some (4, 6)]%nat);
  ([40; 97; 124; 98; 41; 42; 99], Some [None; None; None; Some (0, 3); Some (2, 3); None; None; Some (9, 10); Some (9, 10); None; None; Some (0, 1); None]%nat);
  ([40; 63; 58; 97; 124; 98; 41; 43], Some [None; Some (0, 1); Some (0, 2); Some (0, 2); Some (3, 5); Some (9, 10); Some (9, 10); None; None; Some (3, 4); Some (3, 4); Some (2, 3); Some (2, 3)]%nat);
  ([91; 94; 97; 98; 93], Some [None; None; None; Some (2, 3); Some (2, 3); Some (0, 1); Some (2, 3); Some (0, 1); Some (2, 3); Some (0, 1); Some (2, 3); Some (0, 1); Some (3, 4)]%nat);
  ([91; 93; 97; 93], Some [None; Some (0, 1); Some (0, 1); Some (0, 1); Some (3, 4); None; None; None; None; Some (3, 4); Some (3, 4); Some (4, 5); Some (4, 5)]%nat);
  ([91; 94; 93; 97; 93], Some [None; None; Some (1, 2); Some (1, 2); Some (2, 3); Some (0, 1); Some (2, 3); Some (0, 1); Some (2, 3); Some (0, 1); Some (2, 3); Some (0, 1); Some (2, 3)]%nat);
  ([91; 97; 45; 93], Some [None; Some (0, 1); Some (0, 1); Some (0, 1); Some (3, 4); None; None; None; None; Some (3, 4); Some (3, 4); Some (4, 5); Some (4, 5)]%nat);
  ([91; 97; 45; 99; 48; 45; 57; 93; 43], Some [None; Some (0, 1); Some (0, 2); Some (0, 5); Some (2, 5); Some (6, 7); Some (6, 7); Some (0, 1); Some (3, 4); Some (3, 4); Some (3, 4); Some (0, 1); Some (2, 3)]%nat);
  ([97; 123; 50; 125], Some [None; None; None; Some (6, 8); Some (6, 8); None; None; None; None; None; None; None; None]%nat);
  ([97; 123; 50; 44; 125], Some [None; None; None; Some (6, 8); Some (6, 8); None; None; None; None; None; None; None; None]%nat);
  ([97; 123; 44; 50; 125], Some [Some (0, 0); Some (0, 1); Some (0, 1); Some (0, 1); Some (2, 2); Some (0, 0); Some (2, 2); Some (0, 0); Some (2, 2); Some (0, 0); Some (2, 2); Some (0, 0); Some (2, 2)]%nat);
  ([97; 123; 49; 44; 50; 125; 63], Some [None; Some (0, 1); Some (0, 1); Some (0, 1); Some (3, 4); None; None; None; None; Some (3, 4); Some (3, 4); Some (4, 5); Some (4, 5)]%nat);
  ([97; 123], Some [None; None; None; None; None; None; None; None; None; None; None; None; None]%nat);
  ([97; 123; 120; 125], Some [None; None; None; None; None; None; None; None; None; None; None; None; None]%nat);
  ([97; 123; 50; 44; 49; 125], None);
  ([123; 50; 125], None);
  ([94; 97], Some [None; Some (0, 1); Some (0, 1); Some (0, 1); None; None; None; None; None; None; None; None; None]%nat);
  ([97; 36], Some [None; Some (0, 1); None; None; None; None; None; None; None; None; None; None; None]%nat);
  ([36], Some [Some (0, 0); Some (1, 1); Some (2, 2); Some (9, 9); Some (9, 9); Some (10, 10); Some (10, 10); Some (10, 10); Some (10, 10); Some (7, 7); Some (7, 7); Some (9, 9); Some (9, 9)]%nat);
  ([94; 36], Some [Some (0, 0); None; None; None; None; None; None; None; None; None; None; None; None]%nat);
  ([92; 98; 97], Some [None; Some (0, 1); Some (0, 1); Some (0, 1); Some (6, 7); None; None; None; None; Some (3, 4); Some (3, 4); Some (4, 5); Some (4, 5)]%nat);
  ([92; 66; 97], Some [None; None; None; Some (3, 4); Some (3, 4); None; None; None; None; None; None; None; None]%nat);
  ([97; 92; 98], Some [None; Some (0, 1); None; None; None; None; None; None; None; None; None; None; None]%nat);
  ([92; 100; 43], Some [None; None; None; None; None; Some (6, 7); Some (6, 7); Some (0, 1); Some (3, 4); None; None; None; None]%nat);
  ([92; 68; 43], Some [None; Some (0, 1); Some (0, 2); Some (0, 9); Some (2, 9); Some (0, 6); Some (2, 6); Some (1, 3); Some (2, 3); Some (0, 8); Some (2, 8); Some (0, 9); Some (2, 9)]%nat);
  ([92; 119; 43], Some [None; Some (0, 1); Some (0, 2); Some (0, 5); Some (2, 5); Some (2, 3); Some (2, 3); Some (0, 1); Some (3, 4); Some (0, 2); Some (3, 7); Some (0, 3); Some (2, 3)]%nat);
  ([92; 87; 43], Some [None; None; None; Some (5, 6); Some (5, 6); Some (0, 2); Some (3, 5); Some (1, 3); Some (2, 3); Some (2, 3); Some (2, 3); Some (3, 4); Some (3, 4)]%nat);
  ([92; 83; 43], Some [None; Some (0, 1); Some (0, 2); Some (0, 5); Some (2, 5); Some (2, 4); Some (2, 4); Some (0, 10); Some (2, 10); Some (0, 2); Some (3, 7); Some (0, 3); Some (2, 3)]%nat);
  ([97; 46; 98], Some [None; None; None; Some (6, 9); Some (6, 9); None; None; None; None; None; None; Some (4, 7); Some (4, 7)]%nat);
  ([46; 43], Some [None; Some (0, 1); Some (0, 2); Some (0, 9); Some (2, 9); Some (0, 10); Some (2, 10); Some (0, 10); Some (2, 10); Some (0, 7); Some (2, 7); Some (0, 9); Some (2, 9)]%nat);
  ([46; 42; 63; 98], Some [None; None; Some (0, 2); Some (0, 2); Some (2, 5); Some (0, 10); Some (2, 10); None; None; Some (0, 7); Some (2, 7); Some (0, 3); Some (2, 3)]%nat);
  ([40; 63; 61; 97; 41; 98], Some [None; None; None; None; None; None; None; None; None; None; None; None; None]%nat);
  ([40; 63; 61; 97; 98; 41; 97], Some [None; None; Some (0, 1); Some (0, 1); Some (3, 4); None; None; None; None; None; None; Some (4, 5); Some (4, 5)]%nat);
  ([40; 63; 33; 97; 98; 41; 97], Some [None; Some (0, 1); None; Some (6, 7); Some (6, 7); None; None; None; None; Some (3, 4); Some (3, 4); None; None]%nat);
  ([40; 63; 60; 61; 97; 41; 98], Some [None; None; Some (1, 2); Some (1, 2); Some (4, 5); None; None; None; None; None; None; Some (5, 6); Some (5, 6)]%nat);
  ([40; 63; 60; 33; 97; 41; 98], Some [None; None; None; None; None; Some (9, 10); Some (9, 10); None; None; Some (6, 7); Some (6, 7); Some (2, 3); Some (2, 3)]%nat);
  ([40; 63; 60; 61; 97; 43; 41; 98], None);
  ([40; 63; 60; 61; 97; 98; 124; 99; 41; 98], None);
  ([40; 63; 60; 61; 97; 98; 124; 99; 100; 41; 98], Some [None; None; None; None; None; None; None; None; None; None; None; Some (2, 3); Some (2, 3)]%nat);
  ([40; 97], None);
  ([97; 41], None);
  ([91; 97], None);
  ([91; 98; 45; 97; 93], None);
  ([42], None);
  ([97; 42; 42], None);
  ([97; 42; 63], Some [Some (0, 0); Some (0, 0); Some (0, 0); Some (0, 0); Some (2, 2); Some (0, 0); Some (2, 2); Some (0, 0); Some (2, 2); Some (0, 0); Some (2, 2); Some (0, 0); Some (2, 2)]%nat);
  ([97; 124; 42], None);
  ([40; 63], None);
  ([40; 63; 60], None);
  ([40; 63; 60; 97], None);
  ([97; 92], None);
  ([92; 113], None);
  ([92; 120; 54; 49], Some [None; Some (0, 1); Some (0, 1); Some (0, 1); Some (3, 4); None; None; None; None; Some (3, 4); Some (3, 4); Some (4, 5); Some (4, 5)]%nat);
  ([92; 120; 54], None);
  ([91; 92; 100; 45; 97; 93], None);
  ([91; 92; 98; 93], Some [None; None; None; None; None; None; None; None; None; None; None; None; None]%nat);
  ([40; 124; 97; 41; 43; 98], Some [None; None; Some (0, 2); Some (0, 2); Some (3, 5); Some (9, 10); Some (9, 10); None; None; Some (6, 7); Some (6, 7); Some (2, 3); Some (2, 3)]%nat);
  ([40; 97; 42; 41; 42; 98], Some [None; None; Some (0, 2); Some (0, 2); Some (3, 5); Some (9, 10); Some (9, 10); None; None; Some (6, 7); Some (6, 7); Some (2, 3); Some (2, 3)]%nat);
  ([40; 97; 124; 97; 98; 41; 40; 99; 124; 98; 99; 100; 41], Some [None; None; None; Some (0, 3); None; None; None; None; None; None; None; None; None]%nat);
  ([97; 124; 124; 98], Some [Some (0, 0); Some (0, 1); Some (0, 1); Some (0, 1); Some (2, 2); Some (0, 0); Some (2, 2); Some (0, 0); Some (2, 2); Some (0, 0); Some (2, 2); Some (0, 0); Some (2, 2)]%nat);
  ([40; 41], Some [Some (0, 0); Some (0, 0); Some (0, 0); Some (0, 0); Some (2, 2); Some (0, 0); Some (2, 2); Some (0, 0); Some (2, 2); Some (0, 0); Some (2, 2); Some (0, 0); Some (2, 2)]%nat);
  ([40; 63; 58; 41], Some [Some (0, 0); Some (0, 0); Some (0, 0); Some (0, 0); Some (2, 2); Some (0, 0); Some (2, 2); Some (0, 0); Some (2, 2); Some (0, 0); Some (2, 2); Some (0, 0); Some (2, 2)]%nat);
  ([40; 97; 63; 41; 123; 50; 44; 51; 125; 98], Some [None; None; Some (0, 2); Some (0, 2); Some (3, 5); Some (9, 10); Some (9, 10); None; None; Some (6, 7); Some (6, 7); Some (2, 3); Some (2, 3)]%nat);
  ([40; 63; 58; 97; 124; 98; 41; 63; 63; 98], Some [None; None; Some (0, 2); Some (0, 2); Some (3, 5); Some (9, 10); Some (9, 10); None; None; Some (6, 7); Some (6, 7); Some (2, 3); Some (2, 3)]%nat);
  ([91; 46; 93], Some [None; None; None; None; None; Some (3, 4); Some (3, 4); Some (1, 2); Some (2, 3); None; None; None; None]%nat);
  ([125], Some [None; None; None; None; None; None; None; None; None; None; None; None; None]%nat);
  ([93], Some [None; None; None; None; None; None; None; None; None; None; None; None; None]%nat);
  ([92; 93], Some [None; None; None; None; None; None; None; None; None; None; None; None; None]%nat);
  ([92; 32], Some [None; None; None; Some (5, 6); Some (5, 6); Some (0, 1); Some (4, 5); None; None; Some (2, 3); Some (2, 3); Some (3, 4); Some (3, 4)]%nat);
  ([92; 45], Some [None; None; None; None; None; None; None; None; None; None; None; None; None]%nat)].

Definition answers (p : str) : option (list (option (nat * nat))) :=
  match parse p with
  | Read r => Some (flat_map (fun s => xsearch k0 r s 0 ::
                      if (3 <? Z.of_nat (length s)) then [xsearch k0 r s 2] else []) case_texts)
  | _ => None
  end.
Lemma cpython_agrees : map (fun row => answers (fst row)) cpython_cases = map snd cpython_cases.
Proof. vm_compute. reflexivity. Qed.

(** ** Reading and searching *)

Lemma constructor_cases :
  make_replace re_env (txt "[\.]+") (txt " ") = Ok (ReplaceAwithB (txt "[\.]+") (txt " ")) /\
  make_replace re_env (txt "(a") (txt " ") = Err ReErr /\
  python_re re_env word0 (txt "[\.]+") /\ python_re re_env word0 (txt "(a").
Proof. split; [reflexivity|]. split; [reflexivity|]. split; apply re_env_re. Qed.

(** greedy and lazy, of the same text *)
Lemma preference_cases :
  parse (txt "a{1,3}") = Read (XRep 1 (Some 3%nat) true (xchar 97)) /\
  parse (txt "a{1,3}?") = Read (XRep 1 (Some 3%nat) false (xchar 97)) /\
  (forall s x y, xmatch k0 s (xchar 97) x y -> y = S x) /\
  xsearch k0 (XRep 1 (Some 3%nat) true (xchar 97)) (txt "baaaab") 0 = Some (1, 4)%nat /\
  xsearch k0 (XRep 1 (Some 3%nat) false (xchar 97)) (txt "baaaab") 0 = Some (1, 2)%nat /\
  (exists a b, parse (txt "a|ab") = Read (XAlt a b) /\ xsearch k0 (XAlt a b) (txt "cab") 0 = Some (1, 2)%nat) /\
  (exists a b, parse (txt "ab|a") = Read (XAlt a b) /\ xsearch k0 (XAlt a b) (txt "cab") 0 = Some (1, 3)%nat).
Proof.
  split; [reflexivity|]. split; [reflexivity|]. split; [intros s x y; cbn; tauto|].
  split; [reflexivity|]. split; [reflexivity|].
  split; eexists; eexists; (split; [reflexivity|reflexivity]).
Qed.

(** an expression with most of the constructs, written out and read back *)
Lemma written_case :
  exists r, writable r /\ written r = txt "(?:(?:[\U00000061-\U00000061])|(?:.))(?:(?:(?:[^\d]){0001,}?)(?:(?<=[\s])))" /\
    parse (written r) = Read r.
Proof.
  exists (XSeq (XAlt (XSet false [CRange 97 97]) XAny) (XSeq (XRep 1 None false (XSet true [CDigit false])) (XLook false true (XSet false [CSpace false])))).
  assert (W : writable (XSeq (XAlt (XSet false [CRange 97 97]) XAny) (XSeq (XRep 1 None false (XSet true [CDigit false])) (XLook false true (XSet false [CSpace false]))))).
  { cbn. unfold up_to_1000. repeat split; try discriminate; try lia; repeat constructor; cbn; try lia. intros n m. cbn. lia. }
  split; [exact W|]. split; [vm_compute; reflexivity|]. now apply parse_written.
Qed.
Lemma parts_case :
  parse (txt "a|b") = Read (XAlt (xchar 97) (xchar 98)) /\ counts (txt "{0002,0003}") 2 (Some 3%nat) /\
  parse (txt "(?:a|b){0002,0003}") = Read (XRep 2 (Some 3%nat) true (XAlt (xchar 97) (xchar 98))) /\
  parse (txt "(?<=a|b)") = Read (XLook false true (XAlt (xchar 97) (xchar 98))) /\
  one_width (XAlt (xchar 97) (xchar 98)) /\
  parse (txt "a|bc") = Read (XAlt (xchar 97) (XSeq (xchar 98) (xchar 99))) /\ parse (txt "(?<=a|bc)") = Bad /\
  ~ one_width (XAlt (xchar 97) (XSeq (xchar 98) (xchar 99))) /\
  parse (txt "(?:a|b)(?:)(?:.)") = Read (XSeq (XAlt (xchar 97) (xchar 98)) (XSeq XEmpty XAny)) /\
  parse (txt "(a|b") = Bad /\ parse (txt "a|b)") = Bad.
Proof.
  split; [reflexivity|]. split.
  - apply (c_both 2 3); unfold up_to_1000; lia.
  - split; [reflexivity|]. split; [reflexivity|]. split; [intros n m; cbn; lia|]. split; [reflexivity|].
    split; [reflexivity|]. split; [|repeat split].
    intros ONE. specialize (ONE 1%nat 2%nat). cbn in ONE. assert (1 = 2)%nat; [|discriminate].
    apply ONE; [now left|right; exists 1%nat, 1%nat; auto].
Qed.

(** ** Replacing *)

(** the example of the tests *)
Lemma replace_cases :
  (exists r, parse (txt "[\.]+") = Read r /\ forall s i, ~ xmatch k0 s r i i) /\
  (exists a, transform_op re_env (ReplaceAwithB (txt "[\.]+") (txt " ")) (SStr (txt "12.34..56.78.910")) =
             Ok (SStr (txt "12 34 56 78 910"), a)) /\
  (exists a, transform_op re_env (ReplaceAwithB (txt "(?<=\d)\.(?=\d)") (txt ",")) (SStr (txt "1.2. .3")) =
             Ok (SStr (txt "1,2. .3"), a)) /\
  (exists a, transform_op re_env (ReplaceAwithB (txt "$") (txt "!")) (SStr (txt "end")) = Ok (SStr (txt "end!"), a)) /\
  transform_op re_env (ReplaceAwithB (txt "x*") (txt "!")) (SStr (txt "ab")) = Err OutOfFuel.
Proof.
  split.
  { exists (XRep 1 None true (xchar 46)). split; [reflexivity|]. intros s i M.
    pose proof (minw_le k0 s _ i i M) as Q. cbn in Q. specialize (Q ltac:(split; [exact I|discriminate])). lia. }
  split; [eexists; vm_compute; reflexivity|]. split; [eexists; vm_compute; reflexivity|].
  split; [eexists; vm_compute; reflexivity|]. vm_compute. reflexivity.
Qed.
Lemma operator_cases :
  python_re re_env word0 pat_int /\ replaces_pattern IntTokenWithSpace pat_int (txt " _int_ ") /\
  (exists a, transform_op re_env IntTokenWithSpace (SStr (txt "I have 12.3 10 apples")) =
             Ok (SStr (txt "I have 12.3  _int_  apples"), a)) /\
  (exists a, transform_op re_env (ReplaceAwithB pat_int (txt " _int_ ")) (SStr (txt "I have 12.3 10 apples")) =
             Ok (SStr (txt "I have 12.3  _int_  apples"), a)).
Proof.
  split; [apply re_env_re|]. split; [constructor|]. split; eexists; vm_compute; reflexivity.
Qed.

(** ** Texts *)

Lemma text_cases :
  text_pattern (txt "aa") (txt "aa") /\
  (exists a, transform_op re_env (ReplaceAwithB (txt "aa") (txt "b")) (SStr (txt "aaaXaa")) = Ok (SStr (txt "baXb"), a)) /\
  text_pattern (txt "a.b") (txt "a\.b") /\
  (exists a, transform_op re_env (ReplaceAwithB (txt "a\.b") (txt "-")) (SStr (txt "a.b axb")) = Ok (SStr (txt "- axb"), a)).
Proof.
  split; [left; split; [apply plainb_ok; reflexivity|reflexivity]|].
  split; [eexists; vm_compute; reflexivity|]. split; [right; vm_compute; reflexivity|].
  eexists; vm_compute; reflexivity.
Qed.
Lemma words_cases :
  words_pattern [txt "a"; txt "ab"] (txt "(a|ab)") /\ Forall plain [txt "a"; txt "ab"] /\
  (exists a, transform_op re_env (ReplaceAwithB (txt "(a|ab)") (txt "-")) (SStr (txt "ab")) = Ok (SStr (txt "-b"), a)) /\
  (exists a, transform_op re_env (ReplaceAwithB (txt "ab|a") (txt "-")) (SStr (txt "ab")) = Ok (SStr (txt "-"), a)).
Proof.
  split; [right; reflexivity|]. split; [repeat constructor; apply plainb_ok; reflexivity|].
  split; eexists; vm_compute; reflexivity.
Qed.
Lemma back_case :
  (exists a, transform_op re_env (ReplaceAwithB (txt "\.") (txt "#")) (SStr (txt "a.b")) = Ok (SStr (txt "a#b"), a)) /\
  text_pattern (txt ".") (txt "\.") /\ text_pattern (txt "#") (txt "#") /\ ~ In 35 (txt "a.b").
Proof.
  split; [eexists; vm_compute; reflexivity|]. split; [right; reflexivity|].
  split; [left; split; [apply plainb_ok|]; reflexivity|]. cbn. intuition discriminate.
Qed.

(** a text that is not plain is not replaced as a text *)
Lemma not_plain : exists E w p b s out a, python E /\ python_re E w p /\ p <> [] /\
  transform_op E (ReplaceAwithB p b) (SStr s) = Ok (SStr out, a) /\ ~ str_replace p b s out.
Proof.
  exists re_env, word0, (txt "a.b"), (txt "-"), (txt "axb"), (txt "-"). eexists.
  split; [exact re_env_python|]. split; [apply re_env_re|]. split; [discriminate|].
  split; [vm_compute; reflexivity|]. intros H.
  assert (SELF : str_replace (txt "a.b") (txt "-") (txt "axb") (txt "axb")).
  { apply sr_none. intros u v E. assert (L : length u = 0%nat).
    { apply (f_equal (@length Z)) in E. rewrite !app_length in E. cbn in E. lia. }
    destruct u; [|discriminate]. discriminate. }
  pose proof (str_replace_unique _ _ _ _ H _ SELF). discriminate.
Qed.
(** the order of the words matters *)
Lemma order_matters : exists E w s out1 out2 a1 a2, python E /\
  python_re E w (txt "a|ab") /\ python_re E w (txt "ab|a") /\
  transform_op E (ReplaceAwithB (txt "a|ab") (txt "-")) (SStr s) = Ok (SStr out1, a1) /\
  transform_op E (ReplaceAwithB (txt "ab|a") (txt "-")) (SStr s) = Ok (SStr out2, a2) /\ out1 <> out2.
Proof.
  exists re_env, word0, (txt "ab"), (txt "-b"), (txt "-"). eexists. eexists.
  split; [exact re_env_python|]. split; [apply re_env_re|]. split; [apply re_env_re|].
  split; [vm_compute; reflexivity|]. split; [vm_compute; reflexivity|]. discriminate.
Qed.
(** the touching case: an empty replacement twice in a row *)
Lemma touching_text : exists E w s y a l, python E /\ python_re E w (txt "x") /\
  transform_op E (ReplaceAwithB (txt "x") []) (SStr s) = Ok (y, a) /\
  length l = pseq_length y /\ align_inverse E a l = Err AssertionErr.
Proof.
  exists re_env, word0, (txt "xx"). eexists. eexists. exists [].
  split; [exact re_env_python|]. split; [apply re_env_re|]. split; [vm_compute; reflexivity|].
  split; [reflexivity|]. vm_compute. reflexivity.
Qed.

(** Touching pieces are a problem for the way back only if the same text is deleted twice. *)
Definition delete_ab := ReplaceAwithB (txt "a|b") [].
Definition back_from (s : str) (l : list Z) : res (list Z) :=
  match transform_op re_env delete_ab (SStr s) with Ok (_, a) => align_inverse re_env a l | Err e => Err e end.
Example ex_deletes :
  back_from (txt "xaby") [7; 8] = Ok [7; 0; 0; 8] /\
  back_from (txt "axa") [8] = Ok [0; 8; 0] /\
  back_from (txt "xaay") [7; 8] = Err AssertionErr /\
  back_from (txt "aba") [] = Err AssertionErr.
Proof. repeat split; vm_compute; reflexivity. Qed.

Example ex_deletes_twice : deletes_twice re_env delete_ab (SStr (txt "aba")).
Proof.
  split; [reflexivity|].
  assert (F : match re_compile re_env (txt "a|b") with
              | Some find => find (txt "aba") 0%nat = Some (0%nat, 1%nat) /\ find (txt "aba") 1%nat = Some (1%nat, 2%nat) /\
                             find (txt "aba") 2%nat = Some (2%nat, 3%nat)
              | None => False
              end) by (vm_compute; auto).
  destruct (re_compile re_env (txt "a|b")) as [find|] eqn:C; [|contradiction].
  exists find, [([], None); (txt "a", Some []); ([], None); (txt "b", Some []); ([], None); (txt "a", Some []); ([], None)].
  split; [reflexivity|]. split.
  - destruct F as (F0 & F1 & F2).
    apply (rep_match find (fun _ => []) (txt "aba") 0 0 1); [cbn; lia|exact F0|].
    apply (rep_match find (fun _ => []) (txt "aba") 1 1 2); [cbn; lia|exact F1|].
    apply (rep_match find (fun _ => []) (txt "aba") 2 2 3); [cbn; lia|exact F2|].
    apply (rep_end find (fun _ => []) (txt "aba") 3). now left.
  - exists [([], None)], (txt "a"), [([], None); (txt "b", Some []); ([], None)], [([], None)]. split; reflexivity.
Qed.
