(** The unit test vectors of the operators in /repo, evaluated in the model (with the
    concrete runtime of [Concrete.v]).  These are tests of the model, not properties. *)

From Verif Require Import Py Ops Concrete.
Local Open Scope Z_scope.

Definition pseq_eqb (a b : pseq) : bool :=
  match a, b with
  | SStr s, SStr t => eqb s t
  | SLst l, SLst m => eqb l m
  | _, _ => false
  end.

Definition is_labels (r : res (list Z)) (l : list Z) : bool :=
  match r with Ok m => eqb m l | Err _ => false end.

(** common_tests.py:44-61: transform, transform_labels, inverse_transform_labels; run under
    both set orders *)
Definition check1 (E : env) (o : op) (c : pseq * list Z * pseq * list Z) : bool :=
  let '(x, l, y, m) := c in
  match transform_op E o x with
  | Ok (y', a) => pseq_eqb y' y && is_labels (align a l) m && is_labels (align_inverse E a m) l
  | Err _ => false
  end.

Definition check (o : res op) (cs : list (pseq * list Z * pseq * list Z)) : bool :=
  match o with
  | Ok o => forallb (check1 env0 o) cs && forallb (check1 env1 o) cs
  | Err _ => false
  end.

Definition hash5 (s : str) : Z :=
  match consistent_hash s 5 with Ok i => i | Err _ => -1 end.

(** uttut/pipeline/ops/pattern_recognizers/tests/test_float_token.py:9 TestFloatToken *)
Example test_float_token_1 :
  check (Ok FloatToken)
    [(SStr [49; 50; 46; 51; 32; 50; 46; 55; 32; 48; 46; 55; 55; 55; 55], [1; 1; 1; 1; 0; 2; 2; 2; 0; 3; 3; 3; 3; 3; 3], SStr [95; 102; 108; 111; 97; 116; 95; 32; 95; 102; 108; 111; 97; 116; 95; 32; 95; 102; 108; 111; 97; 116; 95], [1; 1; 1; 1; 1; 1; 1; 0; 2; 2; 2; 2; 2; 2; 2; 0; 3; 3; 3; 3; 3; 3; 3]);
     (SStr [65297; 65298; 46; 65299; 32; 65298; 46; 65303; 32; 65296; 46; 65303; 65303; 65303; 65303], [1; 1; 1; 1; 0; 2; 2; 2; 0; 3; 3; 3; 3; 3; 3], SStr [95; 102; 108; 111; 97; 116; 95; 32; 95; 102; 108; 111; 97; 116; 95; 32; 95; 102; 108; 111; 97; 116; 95], [1; 1; 1; 1; 1; 1; 1; 0; 2; 2; 2; 2; 2; 2; 2; 0; 3; 3; 3; 3; 3; 3; 3]);
     (SStr [49; 32; 50; 46; 55; 32; 49; 48; 48; 48], [1; 0; 2; 2; 2; 0; 3; 3; 3; 3], SStr [49; 32; 95; 102; 108; 111; 97; 116; 95; 32; 49; 48; 48; 48], [1; 0; 2; 2; 2; 2; 2; 2; 2; 0; 3; 3; 3; 3]);
     (SStr [65297; 32; 65298; 46; 65303; 32; 65297; 65296; 65296; 65296], [1; 0; 2; 2; 2; 0; 3; 3; 3; 3], SStr [65297; 32; 95; 102; 108; 111; 97; 116; 95; 32; 65297; 65296; 65296; 65296], [1; 0; 2; 2; 2; 2; 2; 2; 2; 0; 3; 3; 3; 3]);
     (SStr [49; 50; 46; 55; 46; 55], [1; 2; 3; 4; 5; 6], SStr [49; 50; 46; 55; 46; 55], [1; 2; 3; 4; 5; 6]);
     (SStr [65297; 65298; 46; 65303; 46; 65303], [1; 2; 3; 4; 5; 6], SStr [65297; 65298; 46; 65303; 46; 65303], [1; 2; 3; 4; 5; 6]);
     (SStr [57; 46; 57; 57], [0; 0; 0; 0], SStr [95; 102; 108; 111; 97; 116; 95], [0; 0; 0; 0; 0; 0; 0]);
     (SStr [65296; 65297; 65298; 65299; 65300; 65301; 65302; 65303; 65304; 46; 65305], [0; 0; 0; 0; 0; 0; 0; 0; 0; 0; 0], SStr [95; 102; 108; 111; 97; 116; 95], [0; 0; 0; 0; 0; 0; 0]);
     (SStr [22855; 21033; 21033; 26377; 49; 50; 46; 51; 20740; 20803], [1; 1; 1; 2; 3; 3; 3; 3; 3; 3], SStr [22855; 21033; 21033; 26377; 95; 102; 108; 111; 97; 116; 95; 20740; 20803], [1; 1; 1; 2; 3; 3; 3; 3; 3; 3; 3; 3; 3]);
     (SStr [22855; 21033; 21033; 26377; 65297; 65298; 46; 65299; 20740; 20803], [1; 1; 1; 2; 3; 3; 3; 3; 3; 3], SStr [22855; 21033; 21033; 26377; 95; 102; 108; 111; 97; 116; 95; 20740; 20803], [1; 1; 1; 2; 3; 3; 3; 3; 3; 3; 3; 3; 3]);
     (SStr [65297; 50; 46; 65299], [1; 1; 1; 1], SStr [95; 102; 108; 111; 97; 116; 95], [1; 1; 1; 1; 1; 1; 1]);
     (SStr [71; 66; 20098; 20837], [1; 1; 2; 2], SStr [71; 66; 20098; 20837], [1; 1; 2; 2])] = true.
Proof. vm_compute. reflexivity. Qed.

(** uttut/pipeline/ops/pattern_recognizers/tests/test_float_token_with_space.py:9 TestFloatTokenWithSpace *)
Example test_float_token_with_space_2 :
  check (Ok FloatTokenWithSpace)
    [(SStr [49; 50; 46; 51; 32; 50; 46; 55; 32; 48; 46; 55; 55; 55; 55], [1; 1; 1; 1; 0; 2; 2; 2; 0; 3; 3; 3; 3; 3; 3], SStr [32; 95; 102; 108; 111; 97; 116; 95; 32; 32; 32; 95; 102; 108; 111; 97; 116; 95; 32; 32; 32; 95; 102; 108; 111; 97; 116; 95; 32], [0; 1; 1; 1; 1; 1; 1; 1; 0; 0; 0; 2; 2; 2; 2; 2; 2; 2; 0; 0; 0; 3; 3; 3; 3; 3; 3; 3; 0]);
     (SStr [65297; 65298; 46; 65299; 32; 65298; 46; 65303; 32; 65296; 46; 65303; 65303; 65303; 65303], [1; 1; 1; 1; 0; 2; 2; 2; 0; 3; 3; 3; 3; 3; 3], SStr [32; 95; 102; 108; 111; 97; 116; 95; 32; 32; 32; 95; 102; 108; 111; 97; 116; 95; 32; 32; 32; 95; 102; 108; 111; 97; 116; 95; 32], [0; 1; 1; 1; 1; 1; 1; 1; 0; 0; 0; 2; 2; 2; 2; 2; 2; 2; 0; 0; 0; 3; 3; 3; 3; 3; 3; 3; 0]);
     (SStr [49; 32; 50; 46; 55; 32; 49; 48; 48; 48], [1; 0; 2; 2; 2; 0; 3; 3; 3; 3], SStr [49; 32; 32; 95; 102; 108; 111; 97; 116; 95; 32; 32; 49; 48; 48; 48], [1; 0; 0; 2; 2; 2; 2; 2; 2; 2; 0; 0; 3; 3; 3; 3]);
     (SStr [65297; 32; 65298; 46; 65303; 32; 65297; 65296; 65296; 65296], [1; 0; 2; 2; 2; 0; 3; 3; 3; 3], SStr [65297; 32; 32; 95; 102; 108; 111; 97; 116; 95; 32; 32; 65297; 65296; 65296; 65296], [1; 0; 0; 2; 2; 2; 2; 2; 2; 2; 0; 0; 3; 3; 3; 3]);
     (SStr [49; 50; 46; 55; 46; 55], [1; 2; 3; 4; 5; 6], SStr [49; 50; 46; 55; 46; 55], [1; 2; 3; 4; 5; 6]);
     (SStr [65297; 65298; 46; 65303; 46; 65303], [1; 2; 3; 4; 5; 6], SStr [65297; 65298; 46; 65303; 46; 65303], [1; 2; 3; 4; 5; 6]);
     (SStr [57; 46; 57; 57], [0; 0; 0; 0], SStr [32; 95; 102; 108; 111; 97; 116; 95; 32], [0; 0; 0; 0; 0; 0; 0; 0; 0]);
     (SStr [65296; 65297; 65298; 65299; 65300; 65301; 65302; 65303; 65304; 46; 65305], [0; 0; 0; 0; 0; 0; 0; 0; 0; 0; 0], SStr [32; 95; 102; 108; 111; 97; 116; 95; 32], [0; 0; 0; 0; 0; 0; 0; 0; 0]);
     (SStr [22855; 21033; 21033; 26377; 49; 50; 46; 51; 20740; 20803], [1; 1; 1; 2; 3; 3; 3; 3; 3; 3], SStr [22855; 21033; 21033; 26377; 32; 95; 102; 108; 111; 97; 116; 95; 32; 20740; 20803], [1; 1; 1; 2; 0; 3; 3; 3; 3; 3; 3; 3; 0; 3; 3]);
     (SStr [22855; 21033; 21033; 26377; 65297; 65298; 46; 65299; 20740; 20803], [1; 1; 1; 2; 3; 3; 3; 3; 3; 3], SStr [22855; 21033; 21033; 26377; 32; 95; 102; 108; 111; 97; 116; 95; 32; 20740; 20803], [1; 1; 1; 2; 0; 3; 3; 3; 3; 3; 3; 3; 0; 3; 3]);
     (SStr [65297; 50; 46; 65299], [1; 1; 1; 1], SStr [32; 95; 102; 108; 111; 97; 116; 95; 32], [0; 1; 1; 1; 1; 1; 1; 1; 0]);
     (SStr [71; 66; 20098; 20837], [1; 1; 2; 2], SStr [71; 66; 20098; 20837], [1; 1; 2; 2])] = true.
Proof. vm_compute. reflexivity. Qed.

(** uttut/pipeline/ops/pattern_recognizers/tests/test_int_token.py:9 TestIntToken *)
Example test_int_token_3 :
  check (Ok IntToken)
    [(SStr [49; 50; 32; 50; 52; 32; 51; 54; 54; 54], [1; 1; 0; 2; 2; 0; 3; 3; 3; 3], SStr [95; 105; 110; 116; 95; 32; 95; 105; 110; 116; 95; 32; 95; 105; 110; 116; 95], [1; 1; 1; 1; 1; 0; 2; 2; 2; 2; 2; 0; 3; 3; 3; 3; 3]);
     (SStr [65297; 65298; 32; 65298; 65300; 32; 65299; 65302; 65302; 65302], [1; 1; 0; 2; 2; 0; 3; 3; 3; 3], SStr [95; 105; 110; 116; 95; 32; 95; 105; 110; 116; 95; 32; 95; 105; 110; 116; 95], [1; 1; 1; 1; 1; 0; 2; 2; 2; 2; 2; 0; 3; 3; 3; 3; 3]);
     (SStr [49; 50; 46; 51; 32; 49; 48; 48; 48; 32; 51; 46; 53], [1; 1; 1; 1; 0; 2; 2; 2; 2; 0; 3; 3; 3], SStr [49; 50; 46; 51; 32; 95; 105; 110; 116; 95; 32; 51; 46; 53], [1; 1; 1; 1; 0; 2; 2; 2; 2; 2; 0; 3; 3; 3]);
     (SStr [65297; 65298; 46; 65299; 32; 65297; 65296; 65296; 65296; 32; 65299; 46; 65301], [1; 1; 1; 1; 0; 2; 2; 2; 2; 0; 3; 3; 3], SStr [65297; 65298; 46; 65299; 32; 95; 105; 110; 116; 95; 32; 65299; 46; 65301], [1; 1; 1; 1; 0; 2; 2; 2; 2; 2; 0; 3; 3; 3]);
     (SStr [57; 57; 57], [0; 0; 0], SStr [95; 105; 110; 116; 95], [0; 0; 0; 0; 0]);
     (SStr [65305; 65305; 65305], [0; 0; 0], SStr [95; 105; 110; 116; 95], [0; 0; 0; 0; 0]);
     (SStr [65296; 65297; 50; 65299; 65300; 53; 65302; 55; 65304; 65305], [3; 3; 3; 3; 3; 3; 3; 3; 3; 3], SStr [95; 105; 110; 116; 95], [3; 3; 3; 3; 3]);
     (SStr [71; 66; 20098; 20837], [1; 1; 2; 2], SStr [71; 66; 20098; 20837], [1; 1; 2; 2]);
     (SStr [71; 66; 20098; 20837; 49; 48; 27425], [1; 1; 2; 2; 3; 3; 4], SStr [71; 66; 20098; 20837; 95; 105; 110; 116; 95; 27425], [1; 1; 2; 2; 3; 3; 3; 3; 3; 4]);
     (SStr [71; 66; 20098; 20837; 65297; 65296; 27425], [1; 1; 2; 2; 3; 3; 4], SStr [71; 66; 20098; 20837; 95; 105; 110; 116; 95; 27425], [1; 1; 2; 2; 3; 3; 3; 3; 3; 4])] = true.
Proof. vm_compute. reflexivity. Qed.

(** uttut/pipeline/ops/pattern_recognizers/tests/test_int_token_with_space.py:9 TestIntTokenWithSpace *)
Example test_int_token_with_space_4 :
  check (Ok IntTokenWithSpace)
    [(SStr [49; 50; 32; 50; 52; 32; 51; 54; 54; 54], [1; 1; 0; 2; 2; 0; 3; 3; 3; 3], SStr [32; 95; 105; 110; 116; 95; 32; 32; 32; 95; 105; 110; 116; 95; 32; 32; 32; 95; 105; 110; 116; 95; 32], [0; 1; 1; 1; 1; 1; 0; 0; 0; 2; 2; 2; 2; 2; 0; 0; 0; 3; 3; 3; 3; 3; 0]);
     (SStr [65297; 65298; 32; 65298; 65300; 32; 65299; 65302; 65302; 65302], [1; 1; 0; 2; 2; 0; 3; 3; 3; 3], SStr [32; 95; 105; 110; 116; 95; 32; 32; 32; 95; 105; 110; 116; 95; 32; 32; 32; 95; 105; 110; 116; 95; 32], [0; 1; 1; 1; 1; 1; 0; 0; 0; 2; 2; 2; 2; 2; 0; 0; 0; 3; 3; 3; 3; 3; 0]);
     (SStr [49; 50; 46; 51; 32; 49; 48; 48; 48; 32; 51; 46; 53], [1; 1; 1; 1; 0; 2; 2; 2; 2; 0; 3; 3; 3], SStr [49; 50; 46; 51; 32; 32; 95; 105; 110; 116; 95; 32; 32; 51; 46; 53], [1; 1; 1; 1; 0; 0; 2; 2; 2; 2; 2; 0; 0; 3; 3; 3]);
     (SStr [65297; 65298; 46; 65299; 32; 65297; 65296; 65296; 65296; 32; 65299; 46; 65301], [1; 1; 1; 1; 0; 2; 2; 2; 2; 0; 3; 3; 3], SStr [65297; 65298; 46; 65299; 32; 32; 95; 105; 110; 116; 95; 32; 32; 65299; 46; 65301], [1; 1; 1; 1; 0; 0; 2; 2; 2; 2; 2; 0; 0; 3; 3; 3]);
     (SStr [57; 57; 57], [0; 0; 0], SStr [32; 95; 105; 110; 116; 95; 32], [0; 0; 0; 0; 0; 0; 0]);
     (SStr [65305; 65305; 65305], [0; 0; 0], SStr [32; 95; 105; 110; 116; 95; 32], [0; 0; 0; 0; 0; 0; 0]);
     (SStr [65296; 65297; 50; 65299; 65300; 53; 65302; 55; 65304; 65305], [3; 3; 3; 3; 3; 3; 3; 3; 3; 3], SStr [32; 95; 105; 110; 116; 95; 32], [0; 3; 3; 3; 3; 3; 0]);
     (SStr [71; 66; 20098; 20837], [1; 1; 2; 2], SStr [71; 66; 20098; 20837], [1; 1; 2; 2]);
     (SStr [71; 66; 20098; 20837; 49; 48; 27425], [1; 1; 2; 2; 3; 3; 4], SStr [71; 66; 20098; 20837; 32; 95; 105; 110; 116; 95; 32; 27425], [1; 1; 2; 2; 0; 3; 3; 3; 3; 3; 0; 4]);
     (SStr [71; 66; 20098; 20837; 65297; 65296; 27425], [1; 1; 2; 2; 3; 3; 4], SStr [71; 66; 20098; 20837; 32; 95; 105; 110; 116; 95; 32; 27425], [1; 1; 2; 2; 0; 3; 3; 3; 3; 3; 0; 4])] = true.
Proof. vm_compute. reflexivity. Qed.

(** uttut/pipeline/ops/pattern_recognizers/tests/test_merge_whitespace_characters.py:9 TestMergeWhiteSpaceCharacters *)
Example test_merge_whitespace_characters_5 :
  check (Ok MergeWhiteSpaceCharacters)
    [(SStr [32; 9; 10; 13; 11; 12; 32], [0; 0; 0; 0; 0; 0; 0], SStr [32], [0]);
     (SStr [32; 95; 105; 110; 116; 95; 32; 32; 32; 95; 105; 110; 116; 95; 32; 32; 32; 95; 105; 110; 116; 95; 32], [0; 1; 1; 1; 1; 1; 0; 0; 0; 1; 1; 1; 1; 1; 0; 0; 0; 1; 1; 1; 1; 1; 0], SStr [32; 95; 105; 110; 116; 95; 32; 95; 105; 110; 116; 95; 32; 95; 105; 110; 116; 95; 32], [0; 1; 1; 1; 1; 1; 0; 1; 1; 1; 1; 1; 0; 1; 1; 1; 1; 1; 0]);
     (SStr [71; 66; 20098; 20837; 32; 32; 95; 105; 110; 116; 95; 32; 32; 27425], [1; 1; 2; 2; 0; 0; 3; 3; 3; 3; 3; 0; 0; 4], SStr [71; 66; 20098; 20837; 32; 95; 105; 110; 116; 95; 32; 27425], [1; 1; 2; 2; 0; 3; 3; 3; 3; 3; 0; 4]);
     (SStr [25105; 24819; 35201; 21917; 22810; 32; 22810; 32; 32160], [0; 0; 0; 0; 1; 1; 1; 1; 1], SStr [25105; 24819; 35201; 21917; 22810; 32; 22810; 32; 32160], [0; 0; 0; 0; 1; 1; 1; 1; 1]);
     (SStr [71; 66; 20098; 20837], [1; 1; 2; 2], SStr [71; 66; 20098; 20837], [1; 1; 2; 2])] = true.
Proof. vm_compute. reflexivity. Qed.

(** uttut/pipeline/ops/pattern_recognizers/tests/test_num_token_with_space.py:9 TestNumTokenWithSpace *)
Example test_num_token_with_space_6 :
  check (Ok NumTokenWithSpace)
    [(SStr [49; 50; 32; 50; 52; 32; 51; 54; 54; 54], [1; 1; 0; 2; 2; 0; 3; 3; 3; 3], SStr [32; 95; 110; 117; 109; 95; 32; 32; 32; 95; 110; 117; 109; 95; 32; 32; 32; 95; 110; 117; 109; 95; 32], [0; 1; 1; 1; 1; 1; 0; 0; 0; 2; 2; 2; 2; 2; 0; 0; 0; 3; 3; 3; 3; 3; 0]);
     (SStr [65297; 65298; 32; 65298; 65300; 32; 65299; 65302; 65302; 65302], [1; 1; 0; 2; 2; 0; 3; 3; 3; 3], SStr [32; 95; 110; 117; 109; 95; 32; 32; 32; 95; 110; 117; 109; 95; 32; 32; 32; 95; 110; 117; 109; 95; 32], [0; 1; 1; 1; 1; 1; 0; 0; 0; 2; 2; 2; 2; 2; 0; 0; 0; 3; 3; 3; 3; 3; 0]);
     (SStr [49; 50; 46; 51; 32; 49; 48; 48; 48; 32; 51; 46; 53], [1; 1; 1; 1; 0; 2; 2; 2; 2; 0; 3; 3; 3], SStr [49; 50; 46; 51; 32; 32; 95; 110; 117; 109; 95; 32; 32; 51; 46; 53], [1; 1; 1; 1; 0; 0; 2; 2; 2; 2; 2; 0; 0; 3; 3; 3]);
     (SStr [65297; 65298; 46; 65299; 32; 65297; 65296; 65296; 65296; 32; 65299; 46; 65301], [1; 1; 1; 1; 0; 2; 2; 2; 2; 0; 3; 3; 3], SStr [65297; 65298; 46; 65299; 32; 32; 95; 110; 117; 109; 95; 32; 32; 65299; 46; 65301], [1; 1; 1; 1; 0; 0; 2; 2; 2; 2; 2; 0; 0; 3; 3; 3]);
     (SStr [57; 57; 57], [0; 0; 0], SStr [32; 95; 110; 117; 109; 95; 32], [0; 0; 0; 0; 0; 0; 0]);
     (SStr [65305; 65305; 65305], [0; 0; 0], SStr [32; 95; 110; 117; 109; 95; 32], [0; 0; 0; 0; 0; 0; 0]);
     (SStr [65296; 65297; 50; 65299; 65300; 53; 65302; 55; 65304; 65305], [3; 3; 3; 3; 3; 3; 3; 3; 3; 3], SStr [32; 95; 110; 117; 109; 95; 32], [0; 3; 3; 3; 3; 3; 0]);
     (SStr [71; 66; 20098; 20837], [1; 1; 2; 2], SStr [71; 66; 20098; 20837], [1; 1; 2; 2]);
     (SStr [71; 66; 20098; 20837; 49; 48; 27425], [1; 1; 2; 2; 3; 3; 4], SStr [71; 66; 20098; 20837; 32; 95; 110; 117; 109; 95; 32; 27425], [1; 1; 2; 2; 0; 3; 3; 3; 3; 3; 0; 4]);
     (SStr [71; 66; 20098; 20837; 65297; 65296; 27425], [1; 1; 2; 2; 3; 3; 4], SStr [71; 66; 20098; 20837; 32; 95; 110; 117; 109; 95; 32; 27425], [1; 1; 2; 2; 0; 3; 3; 3; 3; 3; 0; 4])] = true.
Proof. vm_compute. reflexivity. Qed.

(** uttut/pipeline/ops/pattern_recognizers/tests/test_replace_a_with_b.py:9 TestFloatToken *)
Example test_replace_a_with_b_7 :
  check (make_replace env0 [91; 92; 46; 93; 43] [32])
    [(SStr [49; 50; 46; 51; 52; 46; 53; 54; 46; 55; 56; 46; 57; 49; 48], [1; 2; 3; 4; 5; 6; 7; 8; 9; 10; 11; 12; 13; 14; 15], SStr [49; 50; 32; 51; 52; 32; 53; 54; 32; 55; 56; 32; 57; 49; 48], [1; 2; 3; 4; 5; 6; 7; 8; 9; 10; 11; 12; 13; 14; 15]);
     (SStr [71; 66; 20098; 20837], [1; 1; 2; 2], SStr [71; 66; 20098; 20837], [1; 1; 2; 2])] = true.
Proof. vm_compute. reflexivity. Qed.

(** uttut/pipeline/ops/pattern_recognizers/tests/test_stopwords_to_whitespace.py:18 TestStopwordsToWhitespace *)
Example test_stopwords_to_whitespace_8 :
  check (Ok StopwordsToWhitespace)
    [(SStr [21543; 22112; 21978; 21628; 21628; 21735; 21710; 21568; 21710; 21938; 21756; 21815; 21866; 36948; 21908; 21815; 21985; 21985; 22030; 30331; 21543; 21568; 21834; 21602; 21966; 21703; 21862; 21738; 21938; 22217; 21815; 21737; 21553; 21568; 21571; 22036; 21764; 21978; 21602; 21621; 21624; 21643; 21658; 21670; 21683; 21703; 21705; 21710; 22057; 21938; 21734; 21737; 21756; 21769; 21834; 21840; 21861; 21862; 21890; 21903; 21621; 21999; 22127; 22030; 22099; 22075; 22079], [0; 0; 0; 0; 0; 0; 0; 0; 0; 0; 0; 0; 0; 0; 0; 0; 0; 0; 0; 0; 0; 0; 0; 0; 0; 0; 0; 0; 0; 0; 0; 0; 0; 0; 0; 0; 0; 0; 0; 0; 0; 0; 0; 0; 0; 0; 0; 0; 0; 0; 0; 0; 0; 0; 0; 0; 0; 0; 0; 0; 0; 0; 0; 0; 0; 0; 0], SStr [32; 32; 32; 32; 32; 32; 32; 32; 32; 32; 32; 32; 32; 32; 32; 32; 32; 32; 32; 32; 32; 32; 32; 32; 32; 32; 32; 32; 32; 32; 32; 32; 32; 32; 32; 32; 32; 32; 32; 32; 32; 32; 32; 32; 32; 32; 32; 32; 32; 32; 32; 32; 32; 32; 32; 32; 32], [0; 0; 0; 0; 0; 0; 0; 0; 0; 0; 0; 0; 0; 0; 0; 0; 0; 0; 0; 0; 0; 0; 0; 0; 0; 0; 0; 0; 0; 0; 0; 0; 0; 0; 0; 0; 0; 0; 0; 0; 0; 0; 0; 0; 0; 0; 0; 0; 0; 0; 0; 0; 0; 0; 0; 0; 0]);
     (SStr [20320; 22909; 21966], [1; 2; 0], SStr [20320; 22909; 32], [1; 2; 0])] = true.
Proof. vm_compute. reflexivity. Qed.

(** uttut/pipeline/ops/pattern_recognizers/tests/test_strip_whitespace_characters.py:9 TestStripWhiteSpaceCharacters *)
Example test_strip_whitespace_characters_9 :
  check (Ok StripWhiteSpaceCharacters)
    [(SStr [32; 9; 10; 13; 11; 12; 32], [0; 0; 0; 0; 0; 0; 0], SStr [], []);
     (SStr [32; 97; 98; 99; 32; 10; 9; 32], [0; 1; 1; 1; 0; 0; 0; 0], SStr [97; 98; 99], [1; 1; 1]);
     (SStr [25105; 24819; 35201; 21917; 22810; 32; 22810; 32; 32160], [0; 0; 0; 0; 1; 1; 1; 1; 1], SStr [25105; 24819; 35201; 21917; 22810; 32; 22810; 32; 32160], [0; 0; 0; 0; 1; 1; 1; 1; 1]);
     (SStr [71; 66; 20098; 20837], [1; 1; 2; 2], SStr [71; 66; 20098; 20837], [1; 1; 2; 2]);
     (SStr [], [], SStr [], [])] = true.
Proof. vm_compute. reflexivity. Qed.

(** uttut/pipeline/ops/tests/test_add_end_token.py:10 TestAddEndToken *)
Example test_add_end_token_10 :
  check (make_end END_TOKEN)
    [(SLst [ETok [97; 108; 118; 105; 110]; ETok [21916; 27489]; ETok [21507]; ETok [27060; 27108]], [1; 2; 3; 4], SLst [ETok [97; 108; 118; 105; 110]; ETok [21916; 27489]; ETok [21507]; ETok [27060; 27108]; ETok [60; 101; 111; 115; 62]], [1; 2; 3; 4; 0])] = true.
Proof. vm_compute. reflexivity. Qed.

(** uttut/pipeline/ops/tests/test_add_sos_eos.py:10 TestAddSosEos *)
Example test_add_sos_eos_11 :
  check (Ok (AddSosEos (ETok START_TOKEN) (ETok END_TOKEN)))
    [(SLst [ETok [97; 108; 118; 105; 110]; ETok [21916; 27489]; ETok [21507]; ETok [27060; 27108]], [1; 2; 3; 4], SLst [ETok [60; 115; 111; 115; 62]; ETok [97; 108; 118; 105; 110]; ETok [21916; 27489]; ETok [21507]; ETok [27060; 27108]; ETok [60; 101; 111; 115; 62]], [0; 1; 2; 3; 4; 0])] = true.
Proof. vm_compute. reflexivity. Qed.

(** uttut/pipeline/ops/tests/test_add_whitespace_around_cjk.py:9 TestAddWhitespaceAroundCJK *)
Example test_add_whitespace_around_cjk_12 :
  check (Ok AddWhitespaceAroundCJK)
    [(SStr [97; 108; 118; 105; 110; 21916; 27489; 21507; 27060; 27108], [1; 1; 1; 1; 1; 2; 3; 4; 5; 6], SStr [97; 108; 118; 105; 110; 32; 21916; 32; 32; 27489; 32; 32; 21507; 32; 32; 27060; 32; 32; 27108; 32], [1; 1; 1; 1; 1; 0; 2; 0; 0; 3; 0; 0; 4; 0; 0; 5; 0; 0; 6; 0]);
     (SStr [104; 101; 108; 108; 111; 33; 32; 104; 111; 119; 32; 97; 114; 101; 32; 121; 111; 117; 63], [1; 1; 1; 1; 1; 2; 0; 3; 3; 3; 0; 4; 4; 4; 0; 5; 5; 5; 6], SStr [104; 101; 108; 108; 111; 33; 32; 104; 111; 119; 32; 97; 114; 101; 32; 121; 111; 117; 63], [1; 1; 1; 1; 1; 2; 0; 3; 3; 3; 0; 4; 4; 4; 0; 5; 5; 5; 6])] = true.
Proof. vm_compute. reflexivity. Qed.

(** uttut/pipeline/ops/tests/test_add_whitespace_around_punctuation.py:9 TestAddWhitespaceAroundPunctuation *)
Example test_add_whitespace_around_punctuation_13 :
  check (Ok AddWhitespaceAroundPunctuation)
    [(SStr [94; 36; 96], [1; 2; 3], SStr [32; 94; 32; 32; 36; 32; 32; 96; 32], [0; 1; 0; 0; 2; 0; 0; 3; 0]);
     (SStr [8277; 8263; 8251; 2142], [1; 2; 3; 4], SStr [32; 8277; 32; 32; 8263; 32; 32; 8251; 32; 32; 2142; 32], [0; 1; 0; 0; 2; 0; 0; 3; 0; 0; 4; 0]);
     (SStr [97; 44; 98], [1; 2; 3], SStr [97; 32; 44; 32; 98], [1; 0; 2; 0; 3]);
     (SStr [38588; 33288; 20098; 20837], [2; 3; 4; 5], SStr [38588; 33288; 20098; 20837], [2; 3; 4; 5])] = true.
Proof. vm_compute. reflexivity. Qed.

(** uttut/pipeline/ops/tests/test_add_whitespace_around_word_n_zhchar.py:9 TestAddWhitespaceAroundWord *)
Example test_add_whitespace_around_word_n_zhchar_14 :
  check (make_wordn (Some [[97; 108; 118; 105; 110]; [29645; 29664]; [22902; 33590]; [29645; 29664; 22902; 33590]; [31934; 32251]]) false)
    [(SStr [72; 83; 66; 53; 25913; 25104; 72; 83; 65; 53; 65292; 22914; 20309; 36774; 29702; 65311], [1; 2; 3; 4; 5; 6; 7; 8; 9; 10; 11; 12; 13; 14; 15; 16], SStr [72; 83; 66; 53; 32; 25913; 32; 32; 25104; 32; 72; 83; 65; 53; 65292; 32; 22914; 32; 32; 20309; 32; 32; 36774; 32; 32; 29702; 32; 65311], [1; 2; 3; 4; 0; 5; 0; 0; 6; 0; 7; 8; 9; 10; 11; 0; 12; 0; 0; 13; 0; 0; 14; 0; 0; 15; 0; 16]);
     (SStr [34180; 39201; 22312; 21917; 29645; 29664; 26928; 26524; 22902; 33590], [1; 2; 3; 4; 5; 6; 7; 8; 9; 10], SStr [32; 34180; 32; 32; 39201; 32; 32; 22312; 32; 32; 21917; 32; 32; 29645; 29664; 32; 32; 26928; 32; 32; 26524; 32; 32; 22902; 33590; 32], [0; 1; 0; 0; 2; 0; 0; 3; 0; 0; 4; 0; 0; 5; 6; 0; 0; 7; 0; 0; 8; 0; 0; 9; 10; 0]);
     (SStr [29645; 29664; 26159; 31934; 32251; 28593; 31881], [1; 2; 3; 4; 5; 6; 7], SStr [32; 29645; 29664; 32; 32; 26159; 32; 32; 31934; 32251; 32; 32; 28593; 32; 32; 31881; 32], [0; 1; 2; 0; 0; 3; 0; 0; 4; 5; 0; 0; 6; 0; 0; 7; 0]);
     (SStr [71; 66; 20098; 20837], [1; 2; 3; 4], SStr [71; 66; 32; 20098; 32; 32; 20837; 32], [1; 2; 0; 3; 0; 0; 4; 0]);
     (SStr [49; 50; 51; 52; 53; 54; 55; 56; 57; 48], [1; 2; 3; 4; 5; 6; 7; 8; 9; 10], SStr [49; 50; 51; 52; 53; 54; 55; 56; 57; 48], [1; 2; 3; 4; 5; 6; 7; 8; 9; 10]);
     (SStr [116; 104; 97; 116; 39; 115; 32; 97; 119; 101; 115; 111; 109; 101; 33], [1; 2; 3; 4; 5; 6; 7; 8; 9; 10; 11; 12; 13; 14; 15], SStr [116; 104; 97; 116; 39; 115; 32; 97; 119; 101; 115; 111; 109; 101; 33], [1; 2; 3; 4; 5; 6; 7; 8; 9; 10; 11; 12; 13; 14; 15])] = true.
Proof. vm_compute. reflexivity. Qed.

(** uttut/pipeline/ops/tests/test_lowercase.py:9 TestLowercase *)
Example test_lowercase_15 :
  check (Ok Lowercase)
    [(SStr [65; 66; 67; 68; 69; 70; 71; 72; 73; 74; 75; 76; 77; 78; 79; 80; 81; 82; 83; 84; 85; 86; 87; 88; 89; 90], [0; 1; 2; 3; 4; 5; 6; 7; 8; 9; 10; 11; 12; 13; 14; 15; 16; 17; 18; 19; 20; 21; 22; 23; 24; 25], SStr [97; 98; 99; 100; 101; 102; 103; 104; 105; 106; 107; 108; 109; 110; 111; 112; 113; 114; 115; 116; 117; 118; 119; 120; 121; 122], [0; 1; 2; 3; 4; 5; 6; 7; 8; 9; 10; 11; 12; 13; 14; 15; 16; 17; 18; 19; 20; 21; 22; 23; 24; 25]);
     (SStr [72; 101; 108; 108; 111; 32; 104; 111; 87; 32; 97; 114; 101; 32; 85], [1; 2; 3; 4; 5; 0; 6; 7; 8; 0; 9; 10; 11; 0; 12], SStr [104; 101; 108; 108; 111; 32; 104; 111; 119; 32; 97; 114; 101; 32; 117], [1; 2; 3; 4; 5; 0; 6; 7; 8; 0; 9; 10; 11; 0; 12]);
     (SStr [34180; 39201; 20098; 20837], [0; 1; 2; 3], SStr [34180; 39201; 20098; 20837], [0; 1; 2; 3]);
     (SStr [48; 49; 50; 51; 52; 53; 54; 55; 56; 57], [0; 1; 2; 3; 4; 5; 6; 7; 8; 9], SStr [48; 49; 50; 51; 52; 53; 54; 55; 56; 57], [0; 1; 2; 3; 4; 5; 6; 7; 8; 9])] = true.
Proof. vm_compute. reflexivity. Qed.

(** uttut/pipeline/ops/tests/test_pad.py:10 TestPad *)
Example test_pad_16 :
  check (Ok (Pad 5 (ETok PAD_TOKEN)))
    [(SLst [ETok [97; 108; 118; 105; 110]; ETok [21916; 27489]; ETok [21507]; ETok [27060; 27108]; ETok [33]], [1; 2; 3; 4; 5], SLst [ETok [97; 108; 118; 105; 110]; ETok [21916; 27489]; ETok [21507]; ETok [27060; 27108]; ETok [33]], [1; 2; 3; 4; 5]);
     (SLst [ETok [97; 108; 118; 105; 110]], [1], SLst [ETok [97; 108; 118; 105; 110]; ETok [60; 112; 97; 100; 62]; ETok [60; 112; 97; 100; 62]; ETok [60; 112; 97; 100; 62]; ETok [60; 112; 97; 100; 62]], [1; 0; 0; 0; 0]);
     (SLst [], [], SLst [ETok [60; 112; 97; 100; 62]; ETok [60; 112; 97; 100; 62]; ETok [60; 112; 97; 100; 62]; ETok [60; 112; 97; 100; 62]; ETok [60; 112; 97; 100; 62]], [0; 0; 0; 0; 0])] = true.
Proof. vm_compute. reflexivity. Qed.

(** uttut/pipeline/ops/tests/test_punctuations_except_endpoint_to_whitespace.py:14 TestPunctuationExceptEndpointToWhitespace *)
Example test_punctuations_except_endpoint_to_whitespace_17 :
  check (Ok PunctuationExceptEndpointToWhitespace)
    [(SStr [48; 46; 51], [1; 2; 3], SStr [48; 46; 51], [1; 2; 3]);
     (SStr [79; 46; 79], [2; 3; 4], SStr [79; 46; 79], [2; 3; 4]);
     (SStr [97; 98; 99; 32; 100; 101; 102], [2; 3; 4; 5; 6; 7; 8], SStr [97; 98; 99; 32; 100; 101; 102], [2; 3; 4; 5; 6; 7; 8]);
     (SStr [38588; 33288; 20098; 20837], [2; 3; 4; 5], SStr [38588; 33288; 20098; 20837], [2; 3; 4; 5])] = true.
Proof. vm_compute. reflexivity. Qed.

(** uttut/pipeline/ops/tests/test_pure_num_to_token.py:10 TestPureNum2TokenDefault *)
Example test_pure_num_to_token_18 :
  check (Ok (PureNum2Token (ETok NUM_TOKEN)))
    [(SLst [ETok [49; 48; 48]; ETok [87; 57]; ETok [51; 48; 48; 103]; ETok [49; 50; 51]; ETok [51; 55; 46; 54]], [1; 2; 3; 4; 5], SLst [ETok [95; 110; 117; 109; 95]; ETok [87; 57]; ETok [51; 48; 48; 103]; ETok [95; 110; 117; 109; 95]; ETok [51; 55; 46; 54]], [1; 2; 3; 4; 5]);
     (SLst [ETok [65297; 65296; 65296]; ETok [87; 65305]; ETok [65299; 65296; 65296; 103]; ETok [65297; 65298; 65299]; ETok [65299; 65303; 46; 65302]], [1; 2; 3; 4; 5], SLst [ETok [95; 110; 117; 109; 95]; ETok [87; 65305]; ETok [65299; 65296; 65296; 103]; ETok [95; 110; 117; 109; 95]; ETok [65299; 65303; 46; 65302]], [1; 2; 3; 4; 5]);
     (SLst [ETok [32380; 33391]; ETok [26377]; ETok [49; 50; 51; 52; 53; 54; 55; 56; 57; 48]; ETok [20740]; ETok [20803]], [1; 2; 3; 4; 5], SLst [ETok [32380; 33391]; ETok [26377]; ETok [95; 110; 117; 109; 95]; ETok [20740]; ETok [20803]], [1; 2; 3; 4; 5]);
     (SLst [ETok [32380; 33391]; ETok [26377]; ETok [65297; 65298; 65299; 65300; 65301; 65302; 65303; 65304; 65305; 65296]; ETok [20740]; ETok [20803]], [1; 2; 3; 4; 5], SLst [ETok [32380; 33391]; ETok [26377]; ETok [95; 110; 117; 109; 95]; ETok [20740]; ETok [20803]], [1; 2; 3; 4; 5]);
     (SLst [ETok [21462; 28040]; ETok [72; 83; 67; 53]; ETok [25913]; ETok [72; 83; 65; 53]], [1; 2; 3; 4], SLst [ETok [21462; 28040]; ETok [72; 83; 67; 53]; ETok [25913]; ETok [72; 83; 65; 53]], [1; 2; 3; 4]);
     (SLst [ETok [21462; 28040]; ETok [72; 83; 67; 65301]; ETok [25913]; ETok [72; 83; 65; 65301]], [1; 2; 3; 4], SLst [ETok [21462; 28040]; ETok [72; 83; 67; 65301]; ETok [25913]; ETok [72; 83; 65; 65301]], [1; 2; 3; 4]);
     (SLst [ETok [49; 65298; 51; 65300; 65301; 65302; 55; 56; 65305; 65296]], [1], SLst [ETok [95; 110; 117; 109; 95]], [1]);
     (SLst [ETok [71; 66]; ETok [20098; 20837]], [3; 4], SLst [ETok [71; 66]; ETok [20098; 20837]], [3; 4])] = true.
Proof. vm_compute. reflexivity. Qed.

(** uttut/pipeline/ops/tests/test_pure_num_to_token.py:76 TestPureNum2TokenCustom *)
Example test_pure_num_to_token_19 :
  check (Ok (PureNum2Token (ETok [49; 50; 51])))
    [(SLst [ETok [49; 48; 48]; ETok [87; 57]; ETok [51; 48; 48; 103]; ETok [49; 50; 51]], [1; 2; 3; 4], SLst [ETok [49; 50; 51]; ETok [87; 57]; ETok [51; 48; 48; 103]; ETok [49; 50; 51]], [1; 2; 3; 4]);
     (SLst [ETok [32380; 33391]; ETok [26377]; ETok [49; 48; 48]; ETok [20740]; ETok [20803]], [1; 2; 3; 4; 5], SLst [ETok [32380; 33391]; ETok [26377]; ETok [49; 50; 51]; ETok [20740]; ETok [20803]], [1; 2; 3; 4; 5]);
     (SLst [ETok [21462; 28040]; ETok [72; 83; 67; 53]; ETok [25913]; ETok [72; 83; 65; 53]], [1; 2; 3; 4], SLst [ETok [21462; 28040]; ETok [72; 83; 67; 53]; ETok [25913]; ETok [72; 83; 65; 53]], [1; 2; 3; 4]);
     (SLst [ETok [71; 66]; ETok [20098; 20837]], [3; 4], SLst [ETok [71; 66]; ETok [20098; 20837]], [3; 4])] = true.
Proof. vm_compute. reflexivity. Qed.

(** uttut/pipeline/ops/tests/test_span_subwords.py:16 TestSpanSubwordsNoSubwords *)
Example test_span_subwords_20 :
  check (Ok (SpanSubwords [[73]; [108; 105; 107; 101]; [97; 112; 112; 108; 101; 115]] (ETok [60; 117; 110; 107; 62]) 10))
    [(SLst [ETok [73]; ETok [108; 105; 107; 101]; ETok [97; 112; 112; 108; 101; 115]], [1; 2; 3], SLst [ETok [73]; ETok [108; 105; 107; 101]; ETok [97; 112; 112; 108; 101; 115]], [1; 2; 3]);
     (SLst [ETok [73]; ETok [108; 105; 107; 101]; ETok [98; 97; 110; 97; 110; 97; 115]], [1; 2; 3], SLst [ETok [73]; ETok [108; 105; 107; 101]; ETok [60; 117; 110; 107; 62]], [1; 2; 3]);
     (SLst [ETok [73; 108; 105; 107; 101; 98; 97; 110; 97; 110; 97; 115]], [3], SLst [ETok [60; 117; 110; 107; 62]], [3])] = true.
Proof. vm_compute. reflexivity. Qed.

(** uttut/pipeline/ops/tests/test_span_subwords.py:51 TestSpanSubwordsHasSubwords *)
Example test_span_subwords_21 :
  check (Ok (SpanSubwords [[91; 85; 78; 75; 93]; [91; 67; 76; 83; 93]; [91; 83; 69; 80; 93]; [119; 97; 110; 116]; [35; 35; 119; 97; 110; 116]; [35; 35; 101; 100]; [119; 97]; [117; 110]; [114; 117; 110; 110]; [35; 35; 105; 110; 103]] (ETok [91; 85; 78; 75; 93]) 200))
    [(SLst [ETok [117; 110; 119; 97; 110; 116; 101; 100]; ETok [114; 117; 110; 110; 105; 110; 103]], [1; 2], SLst [ETok [117; 110]; ETok [35; 35; 119; 97; 110; 116]; ETok [35; 35; 101; 100]; ETok [114; 117; 110; 110]; ETok [35; 35; 105; 110; 103]], [1; 1; 1; 2; 2]);
     (SLst [ETok [117; 110; 119; 97; 110; 116; 101; 100; 88]; ETok [114; 117; 110; 110; 105; 110; 103]], [1; 2], SLst [ETok [91; 85; 78; 75; 93]; ETok [114; 117; 110; 110]; ETok [35; 35; 105; 110; 103]], [1; 2; 2])] = true.
Proof. vm_compute. reflexivity. Qed.

(** uttut/pipeline/ops/tests/test_strip_accent_token.py:9 TestStripAccentToken *)
Example test_strip_accent_token_22 :
  check (Ok StripAccentToken)
    [(SStr [72; 233; 108; 108; 111], [1; 2; 3; 4; 5], SStr [72; 101; 108; 108; 111], [1; 2; 3; 4; 5])] = true.
Proof. vm_compute. reflexivity. Qed.

(** uttut/pipeline/ops/tests/test_token_to_index.py:10 TestToken2Index *)
Example test_token_to_index_23 :
  check (make_token2index [([60; 117; 110; 107; 62], 0); ([34180; 39201], 1); ([35201], 2); ([24118], 3); ([22969], 4)] UNK_TOKEN)
    [(SLst [ETok [34180; 39201]; ETok [35201]; ETok [24118]; ETok [27387; 33457]; ETok [22969]; ETok [22238; 20358]], [1; 2; 3; 4; 5; 6], SLst [EIdx 1; EIdx 2; EIdx 3; EIdx 0; EIdx 4; EIdx 0], [1; 2; 3; 4; 5; 6])] = true.
Proof. vm_compute. reflexivity. Qed.

(** uttut/pipeline/ops/tests/test_token_to_index_with_hash.py:14 TestToken2IndexwithHash *)
Example test_token_to_index_with_hash_24 :
  check (make_hash [([111; 104], 0); ([34180; 39201], 1); ([35201], 2); ([24118], 3); ([22969], 4)])
    [(SLst [ETok [34180; 39201]; ETok [35201]; ETok [24118]; ETok [27387; 33457]; ETok [22969]; ETok [22238; 20358]], [1; 2; 3; 4; 5; 6], SLst [EIdx 1; EIdx 2; EIdx 3; EIdx (hash5 [27387; 33457]); EIdx 4; EIdx (hash5 [22238; 20358])], [1; 2; 3; 4; 5; 6])] = true.
Proof. vm_compute. reflexivity. Qed.

(** uttut/pipeline/ops/tokenizers/tests/test_char_tokenizer.py:9 TestCharTokenizer *)
Example test_char_tokenizer_25 :
  check (Ok CharTokenizer)
    [(SStr [71; 66; 20098; 20837], [1; 1; 2; 2], SLst [ETok [71]; ETok [66]; ETok [20098]; ETok [20837]], [1; 1; 2; 2])] = true.
Proof. vm_compute. reflexivity. Qed.

(** uttut/pipeline/ops/tokenizers/tests/test_custom_word_tokenizer.py:19 TestCustomWordTokenizer *)
Example test_custom_word_tokenizer_26 :
  check (make_custom (Some [[29645; 22902]; [29645; 22902; 21435; 20912]; [21435; 20912]]) false)
    [(SStr [29645; 22902], [1; 1], SLst [ETok [29645; 22902]], [1]);
     (SStr [21435; 20912; 29645; 22902; 35613; 35613], [1; 1; 2; 2; 3; 4], SLst [ETok [21435; 20912]; ETok [29645; 22902]; ETok [35613]; ETok [35613]], [1; 2; 3; 4]);
     (SStr [25105; 24819; 35201; 29645; 22902; 21435; 20912], [1; 2; 3; 4; 4; 4; 4], SLst [ETok [25105]; ETok [24819]; ETok [35201]; ETok [29645; 22902; 21435; 20912]], [1; 2; 3; 4]);
     (SStr [71; 66; 20098; 20837], [1; 2; 3; 4], SLst [ETok [71]; ETok [66]; ETok [20098]; ETok [20837]], [1; 2; 3; 4])] = true.
Proof. vm_compute. reflexivity. Qed.

(** uttut/pipeline/ops/tokenizers/tests/test_eng_tokenizer.py:14 TestEngTokenizer *)
Example test_eng_tokenizer_27 :
  check (Ok EngTokenizer)
    [(SStr [72; 111; 119; 39; 115; 32; 105; 116; 32; 103; 111; 105; 110; 103; 32; 116; 111; 100; 97; 121; 44; 32; 77; 114; 46; 83; 109; 105; 116; 104; 63], [1; 1; 1; 1; 1; 0; 2; 2; 0; 3; 3; 3; 3; 3; 0; 4; 4; 4; 4; 4; 5; 0; 6; 6; 6; 6; 6; 6; 6; 6; 7], SLst [ETok [72; 111; 119]; ETok [39]; ETok [115]; ETok [105; 116]; ETok [103; 111; 105; 110; 103]; ETok [116; 111; 100; 97; 121]; ETok [44]; ETok [77; 114]; ETok [46]; ETok [83; 109; 105; 116; 104]; ETok [63]], [1; 1; 1; 2; 3; 4; 5; 6; 6; 6; 7]);
     (SStr [97; 32; 9; 32; 9; 32; 10; 98], [1; 0; 0; 0; 0; 0; 0; 2], SLst [ETok [97]; ETok [98]], [1; 2]);
     (SStr [71; 66; 20098; 20837], [2; 2; 2; 2], SLst [ETok [71; 66; 20098; 20837]], [2]);
     (SStr [], [], SLst [], [])] = true.
Proof. vm_compute. reflexivity. Qed.

(** uttut/pipeline/ops/tokenizers/tests/test_whitespace_tokenizer.py:9 TestWhiteSpaceTokenizer *)
Example test_whitespace_tokenizer_28 :
  check (Ok WhiteSpaceTokenizer)
    [(SStr [97; 32; 9; 32; 9; 32; 10; 98; 32; 99], [1; 0; 0; 0; 0; 0; 0; 2; 0; 3], SLst [ETok [97]; ETok [98]; ETok [99]], [1; 2; 3]);
     (SStr [32; 32; 97; 32; 9; 32; 9; 32; 10; 98; 32; 99; 10; 13], [0; 0; 1; 0; 0; 0; 0; 0; 0; 2; 0; 3; 0; 0], SLst [ETok [97]; ETok [98]; ETok [99]], [1; 2; 3]);
     (SStr [71; 66; 20098; 20837], [2; 2; 2; 2], SLst [ETok [71; 66; 20098; 20837]], [2]);
     (SStr [], [], SLst [], [])] = true.
Proof. vm_compute. reflexivity. Qed.

(** uttut/pipeline/ops/tokenizers/tests/test_zh_char_tokenizer.py:9 TestZhCharTokenizer *)
Example test_zh_char_tokenizer_29 :
  check (Ok ZhCharTokenizer)
    [(SStr [72; 111; 119; 39; 115; 32; 105; 116; 32; 103; 111; 105; 110; 103; 32; 116; 111; 100; 97; 121; 44; 32; 77; 114; 46; 83; 109; 105; 116; 104; 63], [1; 1; 1; 1; 1; 0; 2; 2; 0; 3; 3; 3; 3; 3; 0; 4; 4; 4; 4; 4; 5; 0; 6; 6; 6; 6; 6; 6; 6; 6; 7], SLst [ETok [72; 111; 119]; ETok [39]; ETok [115]; ETok [105; 116]; ETok [103; 111; 105; 110; 103]; ETok [116; 111; 100; 97; 121]; ETok [44]; ETok [77; 114]; ETok [46]; ETok [83; 109; 105; 116; 104]; ETok [63]], [1; 1; 1; 2; 3; 4; 5; 6; 6; 6; 7]);
     (SStr [34180; 39201; 30340; 27387; 33457; 22969; 21602; 65311], [1; 1; 0; 2; 2; 2; 3; 4], SLst [ETok [34180]; ETok [39201]; ETok [30340]; ETok [27387]; ETok [33457]; ETok [22969]; ETok [21602]; ETok [65311]], [1; 1; 0; 2; 2; 2; 3; 4]);
     (SStr [71; 66; 20098; 20837], [1; 1; 2; 2], SLst [ETok [71; 66]; ETok [20098]; ETok [20837]], [1; 2; 2]);
     (SStr [71; 66; 20098; 20837; 33; 33; 33], [1; 1; 2; 2; 3; 4; 5], SLst [ETok [71; 66]; ETok [20098]; ETok [20837]; ETok [33]; ETok [33]; ETok [33]], [1; 2; 2; 3; 4; 5])] = true.
Proof. vm_compute. reflexivity. Qed.

(** utils/tests/test_consistent_hash.py *)
Example hash_1 : consistent_hash [38588; 33288] 100 = Ok 15.
Proof. vm_compute. reflexivity. Qed.
Example hash_2 : consistent_hash [24076; 33240; 20778; 26684] 100 = Ok 51.
Proof. vm_compute. reflexivity. Qed.
