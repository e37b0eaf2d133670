(** The texts of python 3 (computed by python) against the model.  Generated. *)

From Verif Require Import Py Json Elements Pipe TextForms.
From Coq Require Import List.
Local Open Scope Z_scope.

Definition table : list Z := [233; 769; 1092; 20013; 25991; 128512].
Definition is_printable (c : Z) : bool := memb c table.
Definition agrees (t : jval * str * str * str) : bool :=
  let '(v, r, s, c) := t in
  eqb (repr is_printable v) r && eqb (short is_printable 6 v) s && eqb (custom_repr is_printable v) c.

Example texts_0 : forallb agrees
 [((JBool true), [84; 114; 117; 101], [84; 114; 117; 101], [84; 114; 117; 101]);
  ((JList [(JBool true); (JBool true); (JDict [([27; 39; 92], JNone); ([0; 9], (JStr [128512; 1114111; 9])); ([97], JNone); ([99], (JInt (-4))); ([8203], (JInt (78814607390061563835090242291369541308525))); ([], JNone)]); (JStr [101; 101]); (JStr [98; 101; 101; 32; 32; 1092; 32; 97; 32; 101; 99; 1092; 97]); (JList [(JBool false); (JInt (1000000000000000000000000000000000000))]); (JTuple [(JBool false); (JInt (14842143028633890241848254560970651275491)); (JBool false); (JStr [41; 27; 65535; 917505; 160; 128; 127; 233; 10; 34; 40; 39; 0; 39; 128; 173; 34; 20013; 1114111; 9; 160; 128; 1114111; 27; 173; 39; 41; 128512; 769; 9; 128; 20013]); (JStr [100; 98; 99; 1092; 99; 32; 99; 1092; 1092; 100; 97; 100; 98; 32; 1092])]); (JDict [([98], (JStr [99; 101; 99; 98; 32; 98; 98; 98; 98; 98; 99; 100; 98; 99])); ([101; 1092; 97; 101; 32; 97; 97; 97; 32; 1092; 98; 1092; 32; 99; 97; 99; 98; 97; 97; 98; 100; 1092; 100; 98; 97; 99; 100; 1092; 98; 32; 100; 99; 1092; 1092; 101], (JStr [98; 97; 98; 99; 97; 100; 101; 101; 98; 1092; 97; 1092; 99; 32; 101; 99; 98; 100; 99; 97; 98; 97; 1092; 32; 100; 32; 97])); ([97], (JInt (10000000000000000000000000000000000000000))); ([], (JInt (-100000000000000000000000000000000000000000))); ([49], (JBool true)); ([1114111; 13; 160; 57344; 20013; 65535; 32; 40; 25991; 1114111; 27; 13; 40; 0; 13; 55296; 39; 13; 10; 57; 160; 91; 92; 917505; 48; 39; 20013; 40; 34; 1114111; 65535; 92; 97; 122; 91], JNone)])]), [91; 84; 114; 117; 101; 44; 32; 84; 114; 117; 101; 44; 32; 123; 34; 92; 120; 49; 98; 39; 92; 92; 34; 58; 32; 78; 111; 110; 101; 44; 32; 39; 92; 120; 48; 48; 92; 116; 39; 58; 32; 39; 128512; 92; 85; 48; 48; 49; 48; 102; 102; 102; 102; 92; 116; 39; 44; 32; 39; 97; 39; 58; 32; 78; 111; 110; 101; 44; 32; 39; 99; 39; 58; 32; 45; 52; 44; 32; 39; 92; 117; 50; 48; 48; 98; 39; 58; 32; 55; 56; 56; 49; 52; 54; 48; 55; 51; 57; 48; 48; 54; 49; 53; 54; 51; 56; 51; 53; 48; 57; 48; 50; 52; 50; 50; 57; 49; 51; 54; 57; 53; 52; 49; 51; 48; 56; 53; 50; 53; 44; 32; 39; 39; 58; 32; 78; 111; 110; 101; 125; 44; 32; 39; 101; 101; 39; 44; 32; 39; 98; 101; 101; 32; 32; 1092; 32; 97; 32; 101; 99; 1092; 97; 39; 44; 32; 91; 70; 97; 108; 115; 101; 44; 32; 49; 48; 48; 48; 48; 48; 48; 48; 48; 48; 48; 48; 48; 48; 48; 48; 48; 48; 48; 48; 48; 48; 48; 48; 48; 48; 48; 48; 48; 48; 48; 48; 48; 48; 48; 48; 48; 93; 44; 32; 40; 70; 97; 108; 115; 101; 44; 32; 49; 52; 56; 52; 50; 49; 52; 51; 48; 50; 56; 54; 51; 51; 56; 57; 48; 50; 52; 49; 56; 52; 56; 50; 53; 52; 53; 54; 48; 57; 55; 48; 54; 53; 49; 50; 55; 53; 52; 57; 49; 44; 32; 70; 97; 108; 115; 101; 44; 32; 39; 41; 92; 120; 49; 98; 92; 117; 102; 102; 102; 102; 92; 85; 48; 48; 48; 101; 48; 48; 48; 49; 92; 120; 97; 48; 92; 120; 56; 48; 92; 120; 55; 102; 233; 92; 110; 34; 40; 92; 39; 92; 120; 48; 48; 92; 39; 92; 120; 56; 48; 92; 120; 97; 100; 34; 20013; 92; 85; 48; 48; 49; 48; 102; 102; 102; 102; 92; 116; 92; 120; 97; 48; 92; 120; 56; 48; 92; 85; 48; 48; 49; 48; 102; 102; 102; 102; 92; 120; 49; 98; 92; 120; 97; 100; 92; 39; 41; 128512; 769; 92; 116; 92; 120; 56; 48; 20013; 39; 44; 32; 39; 100; 98; 99; 1092; 99; 32; 99; 1092; 1092; 100; 97; 100; 98; 32; 1092; 39; 41; 44; 32; 123; 39; 98; 39; 58; 32; 39; 99; 101; 99; 98; 32; 98; 98; 98; 98; 98; 99; 100; 98; 99; 39; 44; 32; 39; 101; 1092; 97; 101; 32; 97; 97; 97; 32; 1092; 98; 1092; 32; 99; 97; 99; 98; 97; 97; 98; 100; 1092; 100; 98; 97; 99; 100; 1092; 98; 32; 100; 99; 1092; 1092; 101; 39; 58; 32; 39; 98; 97; 98; 99; 97; 100; 101; 101; 98; 1092; 97; 1092; 99; 32; 101; 99; 98; 100; 99; 97; 98; 97; 1092; 32; 100; 32; 97; 39; 44; 32; 39; 97; 39; 58; 32; 49; 48; 48; 48; 48; 48; 48; 48; 48; 48; 48; 48; 48; 48; 48; 48; 48; 48; 48; 48; 48; 48; 48; 48; 48; 48; 48; 48; 48; 48; 48; 48; 48; 48; 48; 48; 48; 48; 48; 48; 48; 44; 32; 39; 39; 58; 32; 45; 49; 48; 48; 48; 48; 48; 48; 48; 48; 48; 48; 48; 48; 48; 48; 48; 48; 48; 48; 48; 48; 48; 48; 48; 48; 48; 48; 48; 48; 48; 48; 48; 48; 48; 48; 48; 48; 48; 48; 48; 48; 48; 44; 32; 39; 49; 39; 58; 32; 84; 114; 117; 101; 44; 32; 39; 92; 85; 48; 48; 49; 48; 102; 102; 102; 102; 92; 114; 92; 120; 97; 48; 92; 117; 101; 48; 48; 48; 20013; 92; 117; 102; 102; 102; 102; 32; 40; 25991; 92; 85; 48; 48; 49; 48; 102; 102; 102; 102; 92; 120; 49; 98; 92; 114; 40; 92; 120; 48; 48; 92; 114; 92; 117; 100; 56; 48; 48; 92; 39; 92; 114; 92; 110; 57; 92; 120; 97; 48; 91; 92; 92; 92; 85; 48; 48; 48; 101; 48; 48; 48; 49; 48; 92; 39; 20013; 40; 34; 92; 85; 48; 48; 49; 48; 102; 102; 102; 102; 92; 117; 102; 102; 102; 102; 92; 92; 97; 122; 91; 39; 58; 32; 78; 111; 110; 101; 125; 93], [91; 84; 114; 117; 101; 44; 32; 84; 114; 117; 101; 44; 32; 123; 39; 39; 58; 32; 78; 111; 110; 101; 44; 32; 39; 92; 120; 48; 48; 92; 116; 39; 58; 32; 39; 128512; 92; 85; 48; 48; 49; 48; 102; 102; 102; 102; 92; 116; 39; 44; 32; 34; 92; 120; 49; 98; 39; 92; 92; 34; 58; 32; 78; 111; 110; 101; 44; 32; 39; 97; 39; 58; 32; 78; 111; 110; 101; 44; 32; 46; 46; 46; 125; 44; 32; 39; 101; 101; 39; 44; 32; 39; 98; 101; 101; 32; 32; 1092; 32; 97; 32; 101; 99; 1092; 97; 39; 44; 32; 91; 70; 97; 108; 115; 101; 44; 32; 49; 48; 48; 48; 48; 48; 48; 48; 48; 48; 48; 48; 48; 48; 48; 48; 48; 48; 48; 48; 48; 48; 48; 48; 48; 48; 48; 48; 48; 48; 48; 48; 48; 48; 48; 48; 48; 93; 44; 32; 46; 46; 46; 93], [91; 84; 114; 117; 101; 44; 32; 84; 114; 117; 101; 44; 32; 123; 39; 39; 58; 32; 78; 111; 110; 101; 44; 32; 39; 92; 120; 48; 48; 92; 116; 39; 58; 32; 39; 128512; 92; 85; 48; 48; 49; 48; 102; 102; 102; 102; 92; 116; 39; 44; 32; 34; 92; 120; 49; 98; 39; 92; 92; 34; 58; 32; 78; 111; 110; 101; 44; 32; 39; 97; 39; 58; 32; 78; 111; 110; 101; 44; 32; 46; 46; 46; 125; 44; 32; 39; 101; 101; 39; 44; 32; 39; 98; 101; 101; 32; 32; 1092; 32; 97; 32; 101; 99; 1092; 97; 39; 44; 32; 91; 70; 97; 108; 115; 101; 44; 32; 49; 48; 48; 48; 48; 48; 48; 48; 48; 48; 48; 48; 48; 48; 48; 48; 48; 48; 48; 48; 48; 48; 48; 48; 48; 48; 48; 48; 48; 48; 48; 48; 48; 48; 48; 48; 48; 93; 44; 32; 46; 46; 46; 93]);
  ((JBool true), [84; 114; 117; 101], [84; 114; 117; 101], [84; 114; 117; 101]);
  ((JTuple [(JDict [([0], (JBool false)); ([1092; 100; 99], (JInt (-100000000000000000000000000000000000000))); ([32], (JStr [1092; 32; 32; 32; 97; 100; 1092; 32])); ([917505; 233], (JStr [101; 32; 100; 98; 1092; 32; 32; 98; 98; 98; 1092; 97; 1092]))])]), [40; 123; 39; 92; 120; 48; 48; 39; 58; 32; 70; 97; 108; 115; 101; 44; 32; 39; 1092; 100; 99; 39; 58; 32; 45; 49; 48; 48; 48; 48; 48; 48; 48; 48; 48; 48; 48; 48; 48; 48; 48; 48; 48; 48; 48; 48; 48; 48; 48; 48; 48; 48; 48; 48; 48; 48; 48; 48; 48; 48; 48; 48; 48; 48; 44; 32; 39; 32; 39; 58; 32; 39; 1092; 32; 32; 32; 97; 100; 1092; 32; 39; 44; 32; 39; 92; 85; 48; 48; 48; 101; 48; 48; 48; 49; 233; 39; 58; 32; 39; 101; 32; 100; 98; 1092; 32; 32; 98; 98; 98; 1092; 97; 1092; 39; 125; 44; 41], [40; 123; 39; 92; 120; 48; 48; 39; 58; 32; 70; 97; 108; 115; 101; 44; 32; 39; 32; 39; 58; 32; 39; 1092; 32; 32; 32; 97; 100; 1092; 32; 39; 44; 32; 39; 1092; 100; 99; 39; 58; 32; 45; 49; 48; 48; 48; 48; 48; 48; 48; 48; 48; 48; 48; 48; 48; 48; 48; 48; 48; 48; 48; 48; 48; 48; 48; 48; 48; 48; 48; 48; 48; 48; 48; 48; 48; 48; 48; 48; 48; 48; 44; 32; 39; 92; 85; 48; 48; 48; 101; 48; 48; 48; 49; 233; 39; 58; 32; 39; 101; 32; 100; 98; 1092; 32; 32; 98; 98; 98; 1092; 97; 1092; 39; 125; 44; 41], [40; 123; 39; 92; 120; 48; 48; 39; 58; 32; 70; 97; 108; 115; 101; 44; 32; 39; 32; 39; 58; 32; 39; 1092; 32; 32; 32; 97; 100; 1092; 32; 39; 44; 32; 39; 1092; 100; 99; 39; 58; 32; 45; 49; 48; 48; 48; 48; 48; 48; 48; 48; 48; 48; 48; 48; 48; 48; 48; 48; 48; 48; 48; 48; 48; 48; 48; 48; 48; 48; 48; 48; 48; 48; 48; 48; 48; 48; 48; 48; 48; 48; 44; 32; 39; 92; 85; 48; 48; 48; 101; 48; 48; 48; 49; 233; 39; 58; 32; 39; 101; 32; 100; 98; 1092; 32; 32; 98; 98; 98; 1092; 97; 1092; 39; 125; 44; 41]);
  ((JList [(JStr [128; 92; 9; 160; 20013; 10; 57344; 128512]); (JDict [([98; 32; 101; 98; 100; 97; 101; 1092; 32; 101; 97; 100; 97; 99; 32; 98; 1092; 98; 32; 32; 100; 97; 32; 32; 98; 101; 32; 98; 32; 98; 100; 100; 1092; 101; 97], (JBool true))]); (JList [(JStr [32; 99; 32; 99; 100; 97; 1092; 99; 99; 99; 1092; 32]); (JBool false); (JBool false); (JInt (1000000000000000000000000000000000000000)); (JInt (-10000000000000000000000000000000000000000)); (JInt (-1000000000000000000000000000000000000))]); (JStr [100]); (JStr [128512; 769]); (JBool false)]), [91; 39; 92; 120; 56; 48; 92; 92; 92; 116; 92; 120; 97; 48; 20013; 92; 110; 92; 117; 101; 48; 48; 48; 128512; 39; 44; 32; 123; 39; 98; 32; 101; 98; 100; 97; 101; 1092; 32; 101; 97; 100; 97; 99; 32; 98; 1092; 98; 32; 32; 100; 97; 32; 32; 98; 101; 32; 98; 32; 98; 100; 100; 1092; 101; 97; 39; 58; 32; 84; 114; 117; 101; 125; 44; 32; 91; 39; 32; 99; 32; 99; 100; 97; 1092; 99; 99; 99; 1092; 32; 39; 44; 32; 70; 97; 108; 115; 101; 44; 32; 70; 97; 108; 115; 101; 44; 32; 49; 48; 48; 48; 48; 48; 48; 48; 48; 48; 48; 48; 48; 48; 48; 48; 48; 48; 48; 48; 48; 48; 48; 48; 48; 48; 48; 48; 48; 48; 48; 48; 48; 48; 48; 48; 48; 48; 48; 48; 44; 32; 45; 49; 48; 48; 48; 48; 48; 48; 48; 48; 48; 48; 48; 48; 48; 48; 48; 48; 48; 48; 48; 48; 48; 48; 48; 48; 48; 48; 48; 48; 48; 48; 48; 48; 48; 48; 48; 48; 48; 48; 48; 48; 44; 32; 45; 49; 48; 48; 48; 48; 48; 48; 48; 48; 48; 48; 48; 48; 48; 48; 48; 48; 48; 48; 48; 48; 48; 48; 48; 48; 48; 48; 48; 48; 48; 48; 48; 48; 48; 48; 48; 48; 93; 44; 32; 39; 100; 39; 44; 32; 39; 128512; 769; 39; 44; 32; 70; 97; 108; 115; 101; 93], [91; 39; 92; 120; 56; 48; 92; 92; 92; 116; 92; 120; 97; 48; 20013; 92; 110; 92; 117; 101; 48; 48; 48; 128512; 39; 44; 32; 123; 39; 98; 32; 101; 98; 100; 97; 101; 1092; 32; 101; 97; 100; 46; 46; 46; 32; 32; 98; 101; 32; 98; 32; 98; 100; 100; 1092; 101; 97; 39; 58; 32; 84; 114; 117; 101; 125; 44; 32; 91; 39; 32; 99; 32; 99; 100; 97; 1092; 99; 99; 99; 1092; 32; 39; 44; 32; 70; 97; 108; 115; 101; 44; 32; 70; 97; 108; 115; 101; 44; 32; 49; 48; 48; 48; 48; 48; 48; 48; 48; 48; 48; 48; 48; 48; 48; 48; 48; 48; 48; 48; 48; 48; 48; 48; 48; 48; 48; 48; 48; 48; 48; 48; 48; 48; 48; 48; 48; 48; 48; 48; 44; 32; 45; 49; 48; 48; 48; 48; 48; 48; 48; 48; 48; 48; 48; 48; 48; 48; 48; 48; 46; 46; 46; 48; 48; 48; 48; 48; 48; 48; 48; 48; 48; 48; 48; 48; 48; 48; 48; 48; 48; 48; 44; 32; 45; 49; 48; 48; 48; 48; 48; 48; 48; 48; 48; 48; 48; 48; 48; 48; 48; 48; 48; 48; 48; 48; 48; 48; 48; 48; 48; 48; 48; 48; 48; 48; 48; 48; 48; 48; 48; 48; 93; 44; 32; 39; 100; 39; 44; 32; 39; 128512; 769; 39; 44; 32; 70; 97; 108; 115; 101; 93], [91; 39; 92; 120; 56; 48; 92; 92; 92; 116; 92; 120; 97; 48; 20013; 92; 110; 92; 117; 101; 48; 48; 48; 128512; 39; 44; 32; 123; 39; 98; 32; 101; 98; 100; 97; 101; 1092; 32; 101; 97; 100; 46; 46; 46; 32; 32; 98; 101; 32; 98; 32; 98; 100; 100; 1092; 101; 97; 39; 58; 32; 84; 114; 117; 101; 125; 44; 32; 91; 39; 32; 99; 32; 99; 100; 97; 1092; 99; 99; 99; 1092; 32; 39; 44; 32; 70; 97; 108; 115; 101; 44; 32; 70; 97; 108; 115; 101; 44; 32; 49; 48; 48; 48; 48; 48; 48; 48; 48; 48; 48; 48; 48; 48; 48; 48; 48; 48; 48; 48; 48; 48; 48; 48; 48; 48; 48; 48; 48; 48; 48; 48; 48; 48; 48; 48; 48; 48; 48; 48; 44; 32; 45; 49; 48; 48; 48; 48; 48; 48; 48; 48; 48; 48; 48; 48; 48; 48; 48; 48; 46; 46; 46; 48; 48; 48; 48; 48; 48; 48; 48; 48; 48; 48; 48; 48; 48; 48; 48; 48; 48; 48; 44; 32; 45; 49; 48; 48; 48; 48; 48; 48; 48; 48; 48; 48; 48; 48; 48; 48; 48; 48; 48; 48; 48; 48; 48; 48; 48; 48; 48; 48; 48; 48; 48; 48; 48; 48; 48; 48; 48; 48; 93; 44; 32; 39; 100; 39; 44; 32; 39; 128512; 769; 39; 44; 32; 70; 97; 108; 115; 101; 93]);
  ((JList [(JTuple [(JInt (72396820355155301768364594436446863314498))]); (JDict [([917505; 32], (JStr [1092; 32])); ([101; 32; 98; 100; 101; 99; 32; 100; 99; 100; 32; 32; 1092; 99; 97; 98; 99; 98; 98; 100; 100; 32; 100; 32; 97; 99; 98; 1092; 98; 99; 100; 99; 32; 99; 99], (JInt (10000000000000000000000000000000000000000))); ([99; 98], JNone); ([34; 27], (JInt (-1000000000000000000000000000000000000000000))); ([128512; 769], (JInt (-2))); ([101; 99; 100], (JInt (10000000000000000000000000000000000000000))); ([173; 93; 27], (JStr [27; 122; 128512; 34; 128; 123; 34; 39; 0; 122; 57344; 34; 1114111])); ([125; 128; 8203; 44; 769; 123; 122; 57344; 40; 92; 25991; 34; 1114111; 93; 25991; 40; 93; 48; 34; 9; 9; 127; 57; 123; 1114111; 34; 44; 44; 769; 233; 93; 93; 97; 8203; 160], (JStr [1114111; 10; 65535]))]); (JList [(JBool false); (JInt (-1000000000000000000000000000000000000)); (JStr [127; 49; 160])]); (JStr [13]); (JStr [99; 101; 1092; 99; 1092; 1092; 101; 101; 97; 1092; 99; 97; 98; 99; 100; 101; 100; 99; 101; 32; 97; 1092; 100; 99; 97; 99; 100]); (JStr [])]), [91; 40; 55; 50; 51; 57; 54; 56; 50; 48; 51; 53; 53; 49; 53; 53; 51; 48; 49; 55; 54; 56; 51; 54; 52; 53; 57; 52; 52; 51; 54; 52; 52; 54; 56; 54; 51; 51; 49; 52; 52; 57; 56; 44; 41; 44; 32; 123; 39; 92; 85; 48; 48; 48; 101; 48; 48; 48; 49; 32; 39; 58; 32; 39; 1092; 32; 39; 44; 32; 39; 101; 32; 98; 100; 101; 99; 32; 100; 99; 100; 32; 32; 1092; 99; 97; 98; 99; 98; 98; 100; 100; 32; 100; 32; 97; 99; 98; 1092; 98; 99; 100; 99; 32; 99; 99; 39; 58; 32; 49; 48; 48; 48; 48; 48; 48; 48; 48; 48; 48; 48; 48; 48; 48; 48; 48; 48; 48; 48; 48; 48; 48; 48; 48; 48; 48; 48; 48; 48; 48; 48; 48; 48; 48; 48; 48; 48; 48; 48; 48; 44; 32; 39; 99; 98; 39; 58; 32; 78; 111; 110; 101; 44; 32; 39; 34; 92; 120; 49; 98; 39; 58; 32; 45; 49; 48; 48; 48; 48; 48; 48; 48; 48; 48; 48; 48; 48; 48; 48; 48; 48; 48; 48; 48; 48; 48; 48; 48; 48; 48; 48; 48; 48; 48; 48; 48; 48; 48; 48; 48; 48; 48; 48; 48; 48; 48; 48; 44; 32; 39; 128512; 769; 39; 58; 32; 45; 50; 44; 32; 39; 101; 99; 100; 39; 58; 32; 49; 48; 48; 48; 48; 48; 48; 48; 48; 48; 48; 48; 48; 48; 48; 48; 48; 48; 48; 48; 48; 48; 48; 48; 48; 48; 48; 48; 48; 48; 48; 48; 48; 48; 48; 48; 48; 48; 48; 48; 48; 44; 32; 39; 92; 120; 97; 100; 93; 92; 120; 49; 98; 39; 58; 32; 39; 92; 120; 49; 98; 122; 128512; 34; 92; 120; 56; 48; 123; 34; 92; 39; 92; 120; 48; 48; 122; 92; 117; 101; 48; 48; 48; 34; 92; 85; 48; 48; 49; 48; 102; 102; 102; 102; 39; 44; 32; 39; 125; 92; 120; 56; 48; 92; 117; 50; 48; 48; 98; 44; 769; 123; 122; 92; 117; 101; 48; 48; 48; 40; 92; 92; 25991; 34; 92; 85; 48; 48; 49; 48; 102; 102; 102; 102; 93; 25991; 40; 93; 48; 34; 92; 116; 92; 116; 92; 120; 55; 102; 57; 123; 92; 85; 48; 48; 49; 48; 102; 102; 102; 102; 34; 44; 44; 769; 233; 93; 93; 97; 92; 117; 50; 48; 48; 98; 92; 120; 97; 48; 39; 58; 32; 39; 92; 85; 48; 48; 49; 48; 102; 102; 102; 102; 92; 110; 92; 117; 102; 102; 102; 102; 39; 125; 44; 32; 91; 70; 97; 108; 115; 101; 44; 32; 45; 49; 48; 48; 48; 48; 48; 48; 48; 48; 48; 48; 48; 48; 48; 48; 48; 48; 48; 48; 48; 48; 48; 48; 48; 48; 48; 48; 48; 48; 48; 48; 48; 48; 48; 48; 48; 48; 44; 32; 39; 92; 120; 55; 102; 49; 92; 120; 97; 48; 39; 93; 44; 32; 39; 92; 114; 39; 44; 32; 39; 99; 101; 1092; 99; 1092; 1092; 101; 101; 97; 1092; 99; 97; 98; 99; 100; 101; 100; 99; 101; 32; 97; 1092; 100; 99; 97; 99; 100; 39; 44; 32; 39; 39; 93], [91; 40; 55; 50; 51; 57; 54; 56; 50; 48; 51; 53; 53; 49; 53; 53; 51; 48; 49; 55; 46; 46; 46; 52; 53; 57; 52; 52; 51; 54; 52; 52; 54; 56; 54; 51; 51; 49; 52; 52; 57; 56; 44; 41; 44; 32; 123; 39; 34; 92; 120; 49; 98; 39; 58; 32; 45; 49; 48; 48; 48; 48; 48; 48; 48; 48; 48; 48; 48; 48; 48; 48; 48; 48; 46; 46; 46; 48; 48; 48; 48; 48; 48; 48; 48; 48; 48; 48; 48; 48; 48; 48; 48; 48; 48; 48; 44; 32; 39; 99; 98; 39; 58; 32; 78; 111; 110; 101; 44; 32; 39; 101; 32; 98; 100; 101; 99; 32; 100; 99; 100; 32; 32; 46; 46; 46; 100; 32; 97; 99; 98; 1092; 98; 99; 100; 99; 32; 99; 99; 39; 58; 32; 49; 48; 48; 48; 48; 48; 48; 48; 48; 48; 48; 48; 48; 48; 48; 48; 48; 48; 46; 46; 46; 48; 48; 48; 48; 48; 48; 48; 48; 48; 48; 48; 48; 48; 48; 48; 48; 48; 48; 48; 44; 32; 39; 101; 99; 100; 39; 58; 32; 49; 48; 48; 48; 48; 48; 48; 48; 48; 48; 48; 48; 48; 48; 48; 48; 48; 48; 46; 46; 46; 48; 48; 48; 48; 48; 48; 48; 48; 48; 48; 48; 48; 48; 48; 48; 48; 48; 48; 48; 44; 32; 46; 46; 46; 125; 44; 32; 91; 70; 97; 108; 115; 101; 44; 32; 45; 49; 48; 48; 48; 48; 48; 48; 48; 48; 48; 48; 48; 48; 48; 48; 48; 48; 48; 48; 48; 48; 48; 48; 48; 48; 48; 48; 48; 48; 48; 48; 48; 48; 48; 48; 48; 48; 44; 32; 39; 92; 120; 55; 102; 49; 92; 120; 97; 48; 39; 93; 44; 32; 39; 92; 114; 39; 44; 32; 39; 99; 101; 1092; 99; 1092; 1092; 101; 101; 97; 1092; 99; 97; 98; 99; 100; 101; 100; 99; 101; 32; 97; 1092; 100; 99; 97; 99; 100; 39; 44; 32; 39; 39; 93], [91; 40; 55; 50; 51; 57; 54; 56; 50; 48; 51; 53; 53; 49; 53; 53; 51; 48; 49; 55; 46; 46; 46; 52; 53; 57; 52; 52; 51; 54; 52; 52; 54; 56; 54; 51; 51; 49; 52; 52; 57; 56; 44; 41; 44; 32; 123; 39; 34; 92; 120; 49; 98; 39; 58; 32; 45; 49; 48; 48; 48; 48; 48; 48; 48; 48; 48; 48; 48; 48; 48; 48; 48; 48; 46; 46; 46; 48; 48; 48; 48; 48; 48; 48; 48; 48; 48; 48; 48; 48; 48; 48; 48; 48; 48; 48; 44; 32; 39; 99; 98; 39; 58; 32; 78; 111; 110; 101; 44; 32; 39; 101; 32; 98; 100; 101; 99; 32; 100; 99; 100; 32; 32; 46; 46; 46; 100; 32; 97; 99; 98; 1092; 98; 99; 100; 99; 32; 99; 99; 39; 58; 32; 49; 48; 48; 48; 48; 48; 48; 48; 48; 48; 48; 48; 48; 48; 48; 48; 48; 48; 46; 46; 46; 48; 48; 48; 48; 48; 48; 48; 48; 48; 48; 48; 48; 48; 48; 48; 48; 48; 48; 48; 44; 32; 39; 101; 99; 100; 39; 58; 32; 49; 48; 48; 48; 48; 48; 48; 48; 48; 48; 48; 48; 48; 48; 48; 48; 48; 48; 46; 46; 46; 48; 48; 48; 48; 48; 48; 48; 48; 48; 48; 48; 48; 48; 48; 48; 48; 48; 48; 48; 44; 32; 46; 46; 46; 125; 44; 32; 91; 70; 97; 108; 115; 101; 44; 32; 45; 49; 48; 48; 48; 48; 48; 48; 48; 48; 48; 48; 48; 48; 48; 48; 48; 48; 48; 48; 48; 48; 48; 48; 48; 48; 48; 48; 48; 48; 48; 48; 48; 48; 48; 48; 48; 48; 44; 32; 39; 92; 120; 55; 102; 49; 92; 120; 97; 48; 39; 93; 44; 32; 39; 92; 114; 39; 44; 32; 39; 99; 101; 1092; 99; 1092; 1092; 101; 101; 97; 1092; 99; 97; 98; 99; 100; 101; 100; 99; 101; 32; 97; 1092; 100; 99; 97; 99; 100; 39; 44; 32; 39; 39; 93]);
  ((JStr [1092; 99; 1092]), [39; 1092; 99; 1092; 39], [39; 1092; 99; 1092; 39], [39; 1092; 99; 1092; 39]);
  ((JTuple [(JStr [99; 100]); (JList [(JStr [127; 917505; 10; 34; 57; 98; 39; 125; 39; 20013; 57; 9; 13; 128; 9; 25991; 65535; 57344; 39; 128512]); (JInt (-100000000000000000000000000000000000000))]); JNone; (JTuple [(JInt (-1000000000000000000000000000000000000)); (JStr []); (JStr [1114111; 160; 173; 92; 55296]); JNone; (JStr [97; 101; 98; 99; 32; 100; 101; 98]); (JInt (10000000000000000000000000000000000000))])]), [40; 39; 99; 100; 39; 44; 32; 91; 39; 92; 120; 55; 102; 92; 85; 48; 48; 48; 101; 48; 48; 48; 49; 92; 110; 34; 57; 98; 92; 39; 125; 92; 39; 20013; 57; 92; 116; 92; 114; 92; 120; 56; 48; 92; 116; 25991; 92; 117; 102; 102; 102; 102; 92; 117; 101; 48; 48; 48; 92; 39; 128512; 39; 44; 32; 45; 49; 48; 48; 48; 48; 48; 48; 48; 48; 48; 48; 48; 48; 48; 48; 48; 48; 48; 48; 48; 48; 48; 48; 48; 48; 48; 48; 48; 48; 48; 48; 48; 48; 48; 48; 48; 48; 48; 48; 93; 44; 32; 78; 111; 110; 101; 44; 32; 40; 45; 49; 48; 48; 48; 48; 48; 48; 48; 48; 48; 48; 48; 48; 48; 48; 48; 48; 48; 48; 48; 48; 48; 48; 48; 48; 48; 48; 48; 48; 48; 48; 48; 48; 48; 48; 48; 48; 44; 32; 39; 39; 44; 32; 39; 92; 85; 48; 48; 49; 48; 102; 102; 102; 102; 92; 120; 97; 48; 92; 120; 97; 100; 92; 92; 92; 117; 100; 56; 48; 48; 39; 44; 32; 78; 111; 110; 101; 44; 32; 39; 97; 101; 98; 99; 32; 100; 101; 98; 39; 44; 32; 49; 48; 48; 48; 48; 48; 48; 48; 48; 48; 48; 48; 48; 48; 48; 48; 48; 48; 48; 48; 48; 48; 48; 48; 48; 48; 48; 48; 48; 48; 48; 48; 48; 48; 48; 48; 48; 48; 41; 41], [40; 39; 99; 100; 39; 44; 32; 91; 39; 92; 120; 55; 102; 92; 85; 48; 48; 48; 101; 48; 48; 46; 46; 46; 102; 102; 102; 102; 92; 117; 101; 48; 48; 48; 92; 39; 128512; 39; 44; 32; 45; 49; 48; 48; 48; 48; 48; 48; 48; 48; 48; 48; 48; 48; 48; 48; 48; 48; 48; 48; 48; 48; 48; 48; 48; 48; 48; 48; 48; 48; 48; 48; 48; 48; 48; 48; 48; 48; 48; 48; 93; 44; 32; 78; 111; 110; 101; 44; 32; 40; 45; 49; 48; 48; 48; 48; 48; 48; 48; 48; 48; 48; 48; 48; 48; 48; 48; 48; 48; 48; 48; 48; 48; 48; 48; 48; 48; 48; 48; 48; 48; 48; 48; 48; 48; 48; 48; 48; 44; 32; 39; 39; 44; 32; 39; 92; 85; 48; 48; 49; 48; 102; 102; 102; 102; 92; 120; 97; 48; 92; 120; 97; 100; 92; 92; 92; 117; 100; 56; 48; 48; 39; 44; 32; 78; 111; 110; 101; 44; 32; 39; 97; 101; 98; 99; 32; 100; 101; 98; 39; 44; 32; 49; 48; 48; 48; 48; 48; 48; 48; 48; 48; 48; 48; 48; 48; 48; 48; 48; 48; 48; 48; 48; 48; 48; 48; 48; 48; 48; 48; 48; 48; 48; 48; 48; 48; 48; 48; 48; 48; 41; 41], [40; 39; 99; 100; 39; 44; 32; 91; 39; 92; 120; 55; 102; 92; 85; 48; 48; 48; 101; 48; 48; 46; 46; 46; 102; 102; 102; 102; 92; 117; 101; 48; 48; 48; 92; 39; 128512; 39; 44; 32; 45; 49; 48; 48; 48; 48; 48; 48; 48; 48; 48; 48; 48; 48; 48; 48; 48; 48; 48; 48; 48; 48; 48; 48; 48; 48; 48; 48; 48; 48; 48; 48; 48; 48; 48; 48; 48; 48; 48; 48; 93; 44; 32; 78; 111; 110; 101; 44; 32; 40; 45; 49; 48; 48; 48; 48; 48; 48; 48; 48; 48; 48; 48; 48; 48; 48; 48; 48; 48; 48; 48; 48; 48; 48; 48; 48; 48; 48; 48; 48; 48; 48; 48; 48; 48; 48; 48; 48; 44; 32; 39; 39; 44; 32; 39; 92; 85; 48; 48; 49; 48; 102; 102; 102; 102; 92; 120; 97; 48; 92; 120; 97; 100; 92; 92; 92; 117; 100; 56; 48; 48; 39; 44; 32; 78; 111; 110; 101; 44; 32; 39; 97; 101; 98; 99; 32; 100; 101; 98; 39; 44; 32; 49; 48; 48; 48; 48; 48; 48; 48; 48; 48; 48; 48; 48; 48; 48; 48; 48; 48; 48; 48; 48; 48; 48; 48; 48; 48; 48; 48; 48; 48; 48; 48; 48; 48; 48; 48; 48; 48; 41; 41]);
  ((JInt (4)), [52], [52], [52]);
  ((JDict [([], (JInt (4))); ([65535; 173], JNone); ([125; 20013], (JList [(JBool false); (JInt (51907186498213123931443071492266688196799)); (JStr [93; 49; 128512; 10; 32; 122; 125; 917505; 92; 34; 10; 57; 173; 65535; 92; 97; 92; 127; 127; 122; 57; 93; 39; 8203; 34; 39; 9; 44; 125; 123; 91; 10])])); ([32; 32; 1092; 101; 1092; 1092; 100; 99; 101; 100; 100; 101; 101; 97; 97; 1092; 1092; 1092; 99; 1092; 1092; 1092; 98; 98; 98; 100; 32; 100; 98; 32; 100; 101; 101; 97; 32], (JList [(JInt (-1000000000000000000000000000000000000)); (JInt (-996917542491513985733087799408825280477)); (JInt (1000000000000000000000000000000000000000)); (JBool false); (JInt (1000000000000000000000000000000000000000))])); ([98; 100], (JTuple [(JInt (4)); (JInt (3))])); ([40; 40; 39; 233; 1114111; 41; 9; 25991; 20013; 39; 127; 127; 57344; 20013; 233; 769; 1114111; 55296; 9; 40; 13; 9; 128; 160; 34; 34; 25991; 92; 9; 233; 233; 25991; 25991; 55296; 65535], (JTuple [(JInt (4)); (JStr [98; 32; 100; 100; 99; 1092; 98; 97; 97; 97; 97; 97; 101; 101; 1092]); (JInt (1)); (JBool false); (JInt (-100000000000000000000000000000000000000000)); JNone])); ([233; 122; 25991; 91; 769; 128512; 44; 13; 39; 0; 92; 122; 13; 92; 91; 98; 128512; 173; 57; 160; 125; 122; 39; 160; 44; 123; 34; 92; 65535; 123; 49; 27; 98; 34; 97], (JInt (87940865506651434870028585220153134579444)))]), [123; 39; 39; 58; 32; 52; 44; 32; 39; 92; 117; 102; 102; 102; 102; 92; 120; 97; 100; 39; 58; 32; 78; 111; 110; 101; 44; 32; 39; 125; 20013; 39; 58; 32; 91; 70; 97; 108; 115; 101; 44; 32; 53; 49; 57; 48; 55; 49; 56; 54; 52; 57; 56; 50; 49; 51; 49; 50; 51; 57; 51; 49; 52; 52; 51; 48; 55; 49; 52; 57; 50; 50; 54; 54; 54; 56; 56; 49; 57; 54; 55; 57; 57; 44; 32; 39; 93; 49; 128512; 92; 110; 32; 122; 125; 92; 85; 48; 48; 48; 101; 48; 48; 48; 49; 92; 92; 34; 92; 110; 57; 92; 120; 97; 100; 92; 117; 102; 102; 102; 102; 92; 92; 97; 92; 92; 92; 120; 55; 102; 92; 120; 55; 102; 122; 57; 93; 92; 39; 92; 117; 50; 48; 48; 98; 34; 92; 39; 92; 116; 44; 125; 123; 91; 92; 110; 39; 93; 44; 32; 39; 32; 32; 1092; 101; 1092; 1092; 100; 99; 101; 100; 100; 101; 101; 97; 97; 1092; 1092; 1092; 99; 1092; 1092; 1092; 98; 98; 98; 100; 32; 100; 98; 32; 100; 101; 101; 97; 32; 39; 58; 32; 91; 45; 49; 48; 48; 48; 48; 48; 48; 48; 48; 48; 48; 48; 48; 48; 48; 48; 48; 48; 48; 48; 48; 48; 48; 48; 48; 48; 48; 48; 48; 48; 48; 48; 48; 48; 48; 48; 48; 44; 32; 45; 57; 57; 54; 57; 49; 55; 53; 52; 50; 52; 57; 49; 53; 49; 51; 57; 56; 53; 55; 51; 51; 48; 56; 55; 55; 57; 57; 52; 48; 56; 56; 50; 53; 50; 56; 48; 52; 55; 55; 44; 32; 49; 48; 48; 48; 48; 48; 48; 48; 48; 48; 48; 48; 48; 48; 48; 48; 48; 48; 48; 48; 48; 48; 48; 48; 48; 48; 48; 48; 48; 48; 48; 48; 48; 48; 48; 48; 48; 48; 48; 48; 44; 32; 70; 97; 108; 115; 101; 44; 32; 49; 48; 48; 48; 48; 48; 48; 48; 48; 48; 48; 48; 48; 48; 48; 48; 48; 48; 48; 48; 48; 48; 48; 48; 48; 48; 48; 48; 48; 48; 48; 48; 48; 48; 48; 48; 48; 48; 48; 48; 93; 44; 32; 39; 98; 100; 39; 58; 32; 40; 52; 44; 32; 51; 41; 44; 32; 39; 40; 40; 92; 39; 233; 92; 85; 48; 48; 49; 48; 102; 102; 102; 102; 41; 92; 116; 25991; 20013; 92; 39; 92; 120; 55; 102; 92; 120; 55; 102; 92; 117; 101; 48; 48; 48; 20013; 233; 769; 92; 85; 48; 48; 49; 48; 102; 102; 102; 102; 92; 117; 100; 56; 48; 48; 92; 116; 40; 92; 114; 92; 116; 92; 120; 56; 48; 92; 120; 97; 48; 34; 34; 25991; 92; 92; 92; 116; 233; 233; 25991; 25991; 92; 117; 100; 56; 48; 48; 92; 117; 102; 102; 102; 102; 39; 58; 32; 40; 52; 44; 32; 39; 98; 32; 100; 100; 99; 1092; 98; 97; 97; 97; 97; 97; 101; 101; 1092; 39; 44; 32; 49; 44; 32; 70; 97; 108; 115; 101; 44; 32; 45; 49; 48; 48; 48; 48; 48; 48; 48; 48; 48; 48; 48; 48; 48; 48; 48; 48; 48; 48; 48; 48; 48; 48; 48; 48; 48; 48; 48; 48; 48; 48; 48; 48; 48; 48; 48; 48; 48; 48; 48; 48; 48; 44; 32; 78; 111; 110; 101; 41; 44; 32; 39; 233; 122; 25991; 91; 769; 128512; 44; 92; 114; 92; 39; 92; 120; 48; 48; 92; 92; 122; 92; 114; 92; 92; 91; 98; 128512; 92; 120; 97; 100; 57; 92; 120; 97; 48; 125; 122; 92; 39; 92; 120; 97; 48; 44; 123; 34; 92; 92; 92; 117; 102; 102; 102; 102; 123; 49; 92; 120; 49; 98; 98; 34; 97; 39; 58; 32; 56; 55; 57; 52; 48; 56; 54; 53; 53; 48; 54; 54; 53; 49; 52; 51; 52; 56; 55; 48; 48; 50; 56; 53; 56; 53; 50; 50; 48; 49; 53; 51; 49; 51; 52; 53; 55; 57; 52; 52; 52; 125], [123; 39; 39; 58; 32; 52; 44; 32; 39; 32; 32; 1092; 101; 1092; 1092; 100; 99; 101; 100; 100; 101; 46; 46; 46; 98; 98; 98; 100; 32; 100; 98; 32; 100; 101; 101; 97; 32; 39; 58; 32; 91; 45; 49; 48; 48; 48; 48; 48; 48; 48; 48; 48; 48; 48; 48; 48; 48; 48; 48; 48; 48; 48; 48; 48; 48; 48; 48; 48; 48; 48; 48; 48; 48; 48; 48; 48; 48; 48; 48; 44; 32; 45; 57; 57; 54; 57; 49; 55; 53; 52; 50; 52; 57; 49; 53; 49; 51; 57; 56; 53; 55; 51; 51; 48; 56; 55; 55; 57; 57; 52; 48; 56; 56; 50; 53; 50; 56; 48; 52; 55; 55; 44; 32; 49; 48; 48; 48; 48; 48; 48; 48; 48; 48; 48; 48; 48; 48; 48; 48; 48; 48; 48; 48; 48; 48; 48; 48; 48; 48; 48; 48; 48; 48; 48; 48; 48; 48; 48; 48; 48; 48; 48; 48; 44; 32; 70; 97; 108; 115; 101; 44; 32; 49; 48; 48; 48; 48; 48; 48; 48; 48; 48; 48; 48; 48; 48; 48; 48; 48; 48; 48; 48; 48; 48; 48; 48; 48; 48; 48; 48; 48; 48; 48; 48; 48; 48; 48; 48; 48; 48; 48; 48; 93; 44; 32; 39; 40; 40; 92; 39; 233; 92; 85; 48; 48; 49; 48; 102; 46; 46; 46; 25991; 92; 117; 100; 56; 48; 48; 92; 117; 102; 102; 102; 102; 39; 58; 32; 40; 52; 44; 32; 39; 98; 32; 100; 100; 99; 1092; 98; 97; 97; 97; 97; 97; 101; 101; 1092; 39; 44; 32; 49; 44; 32; 70; 97; 108; 115; 101; 44; 32; 45; 49; 48; 48; 48; 48; 48; 48; 48; 48; 48; 48; 48; 48; 48; 48; 48; 48; 46; 46; 46; 48; 48; 48; 48; 48; 48; 48; 48; 48; 48; 48; 48; 48; 48; 48; 48; 48; 48; 48; 44; 32; 78; 111; 110; 101; 41; 44; 32; 39; 98; 100; 39; 58; 32; 40; 52; 44; 32; 51; 41; 44; 32; 46; 46; 46; 125], [123; 39; 39; 58; 32; 52; 44; 32; 39; 92; 117; 102; 102; 102; 102; 92; 120; 97; 100; 39; 58; 32; 78; 111; 110; 101; 44; 32; 46; 46; 46; 125]);
  ((JTuple [(JDict [([], JNone); ([100], (JInt (38823553264773074532943462750660003621483)))])]), [40; 123; 39; 39; 58; 32; 78; 111; 110; 101; 44; 32; 39; 100; 39; 58; 32; 51; 56; 56; 50; 51; 53; 53; 51; 50; 54; 52; 55; 55; 51; 48; 55; 52; 53; 51; 50; 57; 52; 51; 52; 54; 50; 55; 53; 48; 54; 54; 48; 48; 48; 51; 54; 50; 49; 52; 56; 51; 125; 44; 41], [40; 123; 39; 39; 58; 32; 78; 111; 110; 101; 44; 32; 39; 100; 39; 58; 32; 51; 56; 56; 50; 51; 53; 53; 51; 50; 54; 52; 55; 55; 51; 48; 55; 52; 53; 46; 46; 46; 51; 52; 54; 50; 55; 53; 48; 54; 54; 48; 48; 48; 51; 54; 50; 49; 52; 56; 51; 125; 44; 41], [40; 123; 39; 39; 58; 32; 78; 111; 110; 101; 44; 32; 39; 100; 39; 58; 32; 51; 56; 56; 50; 51; 53; 53; 51; 50; 54; 52; 55; 55; 51; 48; 55; 52; 53; 46; 46; 46; 51; 52; 54; 50; 55; 53; 48; 54; 54; 48; 48; 48; 51; 54; 50; 49; 52; 56; 51; 125; 44; 41]);
  ((JDict [([173], (JList [])); ([10; 128], (JList [(JStr [98; 98; 32; 1092; 1092; 32; 101; 99; 99; 97; 98; 32; 100; 97; 97; 99; 101; 101; 32; 32; 98; 98; 100; 1092; 99; 1092; 32; 32; 101])])); ([1092; 100; 99], (JBool false)); ([1092; 101], (JDict [([], (JInt (-100000000000000000000000000000000000000000))); ([100], (JStr [32; 100; 98; 32; 100; 100; 98; 100; 98; 98; 97; 99; 101; 32; 97; 32; 97; 99; 101; 32; 99; 99; 101; 101; 1092; 32; 101; 98; 32; 1092; 1092])); ([122; 233; 9; 8203; 1114111; 27; 128; 917505; 34; 34; 57344; 97; 39; 1114111; 13; 27; 92; 65535; 55296; 91; 10; 34; 57344; 57344; 27; 92; 39; 46; 44; 98; 917505; 92; 233; 160; 769], (JBool true)); ([9], (JBool false)); ([122; 39; 39], (JStr [99; 1092; 100; 97; 32; 32; 97; 97; 97; 1092; 1092; 97; 98; 32; 100; 32; 101; 97; 101; 99; 99; 1092; 100; 98; 98; 101; 1092; 1092]))])); ([127], (JDict [([], (JBool false)); ([99; 98; 100; 98; 99; 99; 101; 98; 101; 100; 97; 32; 97; 98; 100; 97; 98; 100; 100; 101; 97; 1092; 1092; 98; 101; 97; 101; 99; 97; 98; 101; 100; 101; 101; 97], (JBool true)); ([128; 34], (JInt (2)))])); ([46; 0], JNone); ([127; 917505], (JList [(JInt (61868770950324438712160901359669761261698)); (JStr [46; 41; 160; 8203; 27; 128512; 40; 98; 27; 0; 92; 0; 97; 13; 46; 92; 10; 44; 122; 917505; 123; 125; 98; 65535; 55296; 917505; 91]); (JInt (-1000000000000000000000000000000000000000)); (JInt (100000000000000000000000000000000000000000)); (JStr [101; 32; 101; 1092; 99; 100; 98; 1092; 1092; 99; 32; 32; 100; 98; 1092; 97; 101; 97; 97; 100; 100; 97; 100; 101; 100; 101; 98; 99; 1092; 1092; 97; 98; 1092; 100; 97; 97; 100; 98; 32; 97]); (JInt (52320556243655974940166609473896526603947))]))]), [123; 39; 92; 120; 97; 100; 39; 58; 32; 91; 93; 44; 32; 39; 92; 110; 92; 120; 56; 48; 39; 58; 32; 91; 39; 98; 98; 32; 1092; 1092; 32; 101; 99; 99; 97; 98; 32; 100; 97; 97; 99; 101; 101; 32; 32; 98; 98; 100; 1092; 99; 1092; 32; 32; 101; 39; 93; 44; 32; 39; 1092; 100; 99; 39; 58; 32; 70; 97; 108; 115; 101; 44; 32; 39; 1092; 101; 39; 58; 32; 123; 39; 39; 58; 32; 45; 49; 48; 48; 48; 48; 48; 48; 48; 48; 48; 48; 48; 48; 48; 48; 48; 48; 48; 48; 48; 48; 48; 48; 48; 48; 48; 48; 48; 48; 48; 48; 48; 48; 48; 48; 48; 48; 48; 48; 48; 48; 48; 44; 32; 39; 100; 39; 58; 32; 39; 32; 100; 98; 32; 100; 100; 98; 100; 98; 98; 97; 99; 101; 32; 97; 32; 97; 99; 101; 32; 99; 99; 101; 101; 1092; 32; 101; 98; 32; 1092; 1092; 39; 44; 32; 39; 122; 233; 92; 116; 92; 117; 50; 48; 48; 98; 92; 85; 48; 48; 49; 48; 102; 102; 102; 102; 92; 120; 49; 98; 92; 120; 56; 48; 92; 85; 48; 48; 48; 101; 48; 48; 48; 49; 34; 34; 92; 117; 101; 48; 48; 48; 97; 92; 39; 92; 85; 48; 48; 49; 48; 102; 102; 102; 102; 92; 114; 92; 120; 49; 98; 92; 92; 92; 117; 102; 102; 102; 102; 92; 117; 100; 56; 48; 48; 91; 92; 110; 34; 92; 117; 101; 48; 48; 48; 92; 117; 101; 48; 48; 48; 92; 120; 49; 98; 92; 92; 92; 39; 46; 44; 98; 92; 85; 48; 48; 48; 101; 48; 48; 48; 49; 92; 92; 233; 92; 120; 97; 48; 769; 39; 58; 32; 84; 114; 117; 101; 44; 32; 39; 92; 116; 39; 58; 32; 70; 97; 108; 115; 101; 44; 32; 34; 122; 39; 39; 34; 58; 32; 39; 99; 1092; 100; 97; 32; 32; 97; 97; 97; 1092; 1092; 97; 98; 32; 100; 32; 101; 97; 101; 99; 99; 1092; 100; 98; 98; 101; 1092; 1092; 39; 125; 44; 32; 39; 92; 120; 55; 102; 39; 58; 32; 123; 39; 39; 58; 32; 70; 97; 108; 115; 101; 44; 32; 39; 99; 98; 100; 98; 99; 99; 101; 98; 101; 100; 97; 32; 97; 98; 100; 97; 98; 100; 100; 101; 97; 1092; 1092; 98; 101; 97; 101; 99; 97; 98; 101; 100; 101; 101; 97; 39; 58; 32; 84; 114; 117; 101; 44; 32; 39; 92; 120; 56; 48; 34; 39; 58; 32; 50; 125; 44; 32; 39; 46; 92; 120; 48; 48; 39; 58; 32; 78; 111; 110; 101; 44; 32; 39; 92; 120; 55; 102; 92; 85; 48; 48; 48; 101; 48; 48; 48; 49; 39; 58; 32; 91; 54; 49; 56; 54; 56; 55; 55; 48; 57; 53; 48; 51; 50; 52; 52; 51; 56; 55; 49; 50; 49; 54; 48; 57; 48; 49; 51; 53; 57; 54; 54; 57; 55; 54; 49; 50; 54; 49; 54; 57; 56; 44; 32; 39; 46; 41; 92; 120; 97; 48; 92; 117; 50; 48; 48; 98; 92; 120; 49; 98; 128512; 40; 98; 92; 120; 49; 98; 92; 120; 48; 48; 92; 92; 92; 120; 48; 48; 97; 92; 114; 46; 92; 92; 92; 110; 44; 122; 92; 85; 48; 48; 48; 101; 48; 48; 48; 49; 123; 125; 98; 92; 117; 102; 102; 102; 102; 92; 117; 100; 56; 48; 48; 92; 85; 48; 48; 48; 101; 48; 48; 48; 49; 91; 39; 44; 32; 45; 49; 48; 48; 48; 48; 48; 48; 48; 48; 48; 48; 48; 48; 48; 48; 48; 48; 48; 48; 48; 48; 48; 48; 48; 48; 48; 48; 48; 48; 48; 48; 48; 48; 48; 48; 48; 48; 48; 48; 48; 44; 32; 49; 48; 48; 48; 48; 48; 48; 48; 48; 48; 48; 48; 48; 48; 48; 48; 48; 48; 48; 48; 48; 48; 48; 48; 48; 48; 48; 48; 48; 48; 48; 48; 48; 48; 48; 48; 48; 48; 48; 48; 48; 48; 44; 32; 39; 101; 32; 101; 1092; 99; 100; 98; 1092; 1092; 99; 32; 32; 100; 98; 1092; 97; 101; 97; 97; 100; 100; 97; 100; 101; 100; 101; 98; 99; 1092; 1092; 97; 98; 1092; 100; 97; 97; 100; 98; 32; 97; 39; 44; 32; 53; 50; 51; 50; 48; 53; 53; 54; 50; 52; 51; 54; 53; 53; 57; 55; 52; 57; 52; 48; 49; 54; 54; 54; 48; 57; 52; 55; 51; 56; 57; 54; 53; 50; 54; 54; 48; 51; 57; 52; 55; 93; 125], [123; 39; 92; 110; 92; 120; 56; 48; 39; 58; 32; 91; 39; 98; 98; 32; 1092; 1092; 32; 101; 99; 99; 97; 98; 32; 46; 46; 46; 101; 101; 32; 32; 98; 98; 100; 1092; 99; 1092; 32; 32; 101; 39; 93; 44; 32; 39; 46; 92; 120; 48; 48; 39; 58; 32; 78; 111; 110; 101; 44; 32; 39; 92; 120; 55; 102; 39; 58; 32; 123; 39; 39; 58; 32; 70; 97; 108; 115; 101; 44; 32; 39; 99; 98; 100; 98; 99; 99; 101; 98; 101; 100; 97; 32; 46; 46; 46; 1092; 98; 101; 97; 101; 99; 97; 98; 101; 100; 101; 101; 97; 39; 58; 32; 84; 114; 117; 101; 44; 32; 39; 92; 120; 56; 48; 34; 39; 58; 32; 50; 125; 44; 32; 39; 92; 120; 55; 102; 92; 85; 48; 48; 48; 101; 48; 48; 48; 49; 39; 58; 32; 91; 54; 49; 56; 54; 56; 55; 55; 48; 57; 53; 48; 51; 50; 52; 52; 51; 56; 55; 46; 46; 46; 48; 57; 48; 49; 51; 53; 57; 54; 54; 57; 55; 54; 49; 50; 54; 49; 54; 57; 56; 44; 32; 39; 46; 41; 92; 120; 97; 48; 92; 117; 50; 48; 48; 98; 46; 46; 46; 48; 48; 92; 85; 48; 48; 48; 101; 48; 48; 48; 49; 91; 39; 44; 32; 45; 49; 48; 48; 48; 48; 48; 48; 48; 48; 48; 48; 48; 48; 48; 48; 48; 48; 46; 46; 46; 48; 48; 48; 48; 48; 48; 48; 48; 48; 48; 48; 48; 48; 48; 48; 48; 48; 48; 48; 44; 32; 49; 48; 48; 48; 48; 48; 48; 48; 48; 48; 48; 48; 48; 48; 48; 48; 48; 48; 46; 46; 46; 48; 48; 48; 48; 48; 48; 48; 48; 48; 48; 48; 48; 48; 48; 48; 48; 48; 48; 48; 44; 32; 39; 101; 32; 101; 1092; 99; 100; 98; 1092; 1092; 99; 32; 32; 46; 46; 46; 99; 1092; 1092; 97; 98; 1092; 100; 97; 97; 100; 98; 32; 97; 39; 44; 32; 53; 50; 51; 50; 48; 53; 53; 54; 50; 52; 51; 54; 53; 53; 57; 55; 52; 57; 46; 46; 46; 54; 54; 48; 57; 52; 55; 51; 56; 57; 54; 53; 50; 54; 54; 48; 51; 57; 52; 55; 93; 44; 32; 46; 46; 46; 125], [123; 39; 92; 120; 97; 100; 39; 58; 32; 91; 93; 44; 32; 39; 92; 110; 92; 120; 56; 48; 39; 58; 32; 91; 39; 98; 98; 32; 1092; 1092; 32; 101; 99; 99; 97; 98; 32; 100; 97; 97; 99; 101; 101; 32; 32; 98; 98; 100; 1092; 99; 1092; 32; 32; 101; 39; 93; 44; 32; 46; 46; 46; 125]);
  ((JInt (-3)), [45; 51], [45; 51], [45; 51]);
  ((JBool true), [84; 114; 117; 101], [84; 114; 117; 101], [84; 114; 117; 101]);
  ((JTuple [(JDict [([], (JInt (-1000000000000000000000000000000000000))); ([100; 98; 99], (JStr [99; 100; 99; 101; 101; 100; 97; 97; 1092; 100; 32; 99; 98; 99; 97; 99; 100; 1092; 100; 99; 101; 99; 99; 98; 32; 100; 99; 100; 100; 98])); ([123; 27; 27], (JInt (1000000000000000000000000000000000000000)))])]), [40; 123; 39; 39; 58; 32; 45; 49; 48; 48; 48; 48; 48; 48; 48; 48; 48; 48; 48; 48; 48; 48; 48; 48; 48; 48; 48; 48; 48; 48; 48; 48; 48; 48; 48; 48; 48; 48; 48; 48; 48; 48; 48; 48; 44; 32; 39; 100; 98; 99; 39; 58; 32; 39; 99; 100; 99; 101; 101; 100; 97; 97; 1092; 100; 32; 99; 98; 99; 97; 99; 100; 1092; 100; 99; 101; 99; 99; 98; 32; 100; 99; 100; 100; 98; 39; 44; 32; 39; 123; 92; 120; 49; 98; 92; 120; 49; 98; 39; 58; 32; 49; 48; 48; 48; 48; 48; 48; 48; 48; 48; 48; 48; 48; 48; 48; 48; 48; 48; 48; 48; 48; 48; 48; 48; 48; 48; 48; 48; 48; 48; 48; 48; 48; 48; 48; 48; 48; 48; 48; 48; 125; 44; 41], [40; 123; 39; 39; 58; 32; 45; 49; 48; 48; 48; 48; 48; 48; 48; 48; 48; 48; 48; 48; 48; 48; 48; 48; 48; 48; 48; 48; 48; 48; 48; 48; 48; 48; 48; 48; 48; 48; 48; 48; 48; 48; 48; 48; 44; 32; 39; 100; 98; 99; 39; 58; 32; 39; 99; 100; 99; 101; 101; 100; 97; 97; 1092; 100; 32; 99; 46; 46; 46; 1092; 100; 99; 101; 99; 99; 98; 32; 100; 99; 100; 100; 98; 39; 44; 32; 39; 123; 92; 120; 49; 98; 92; 120; 49; 98; 39; 58; 32; 49; 48; 48; 48; 48; 48; 48; 48; 48; 48; 48; 48; 48; 48; 48; 48; 48; 48; 48; 48; 48; 48; 48; 48; 48; 48; 48; 48; 48; 48; 48; 48; 48; 48; 48; 48; 48; 48; 48; 48; 125; 44; 41], [40; 123; 39; 39; 58; 32; 45; 49; 48; 48; 48; 48; 48; 48; 48; 48; 48; 48; 48; 48; 48; 48; 48; 48; 48; 48; 48; 48; 48; 48; 48; 48; 48; 48; 48; 48; 48; 48; 48; 48; 48; 48; 48; 48; 44; 32; 39; 100; 98; 99; 39; 58; 32; 39; 99; 100; 99; 101; 101; 100; 97; 97; 1092; 100; 32; 99; 46; 46; 46; 1092; 100; 99; 101; 99; 99; 98; 32; 100; 99; 100; 100; 98; 39; 44; 32; 39; 123; 92; 120; 49; 98; 92; 120; 49; 98; 39; 58; 32; 49; 48; 48; 48; 48; 48; 48; 48; 48; 48; 48; 48; 48; 48; 48; 48; 48; 48; 48; 48; 48; 48; 48; 48; 48; 48; 48; 48; 48; 48; 48; 48; 48; 48; 48; 48; 48; 48; 48; 48; 125; 44; 41]);
  ((JDict [([41; 125], (JInt (80116477817259870528853595598151260848938))); ([1114111; 8203], (JStr [1092; 97; 100; 32; 100; 99; 97; 32; 101; 99; 32; 100; 97; 32; 100; 100; 32; 97; 32; 97; 32; 101; 97; 32; 101; 32; 1092; 100; 100; 97; 97])); ([97; 100; 32], (JList [(JBool false); JNone; (JInt (1000000000000000000000000000000000000000))]))]), [123; 39; 41; 125; 39; 58; 32; 56; 48; 49; 49; 54; 52; 55; 55; 56; 49; 55; 50; 53; 57; 56; 55; 48; 53; 50; 56; 56; 53; 51; 53; 57; 53; 53; 57; 56; 49; 53; 49; 50; 54; 48; 56; 52; 56; 57; 51; 56; 44; 32; 39; 92; 85; 48; 48; 49; 48; 102; 102; 102; 102; 92; 117; 50; 48; 48; 98; 39; 58; 32; 39; 1092; 97; 100; 32; 100; 99; 97; 32; 101; 99; 32; 100; 97; 32; 100; 100; 32; 97; 32; 97; 32; 101; 97; 32; 101; 32; 1092; 100; 100; 97; 97; 39; 44; 32; 39; 97; 100; 32; 39; 58; 32; 91; 70; 97; 108; 115; 101; 44; 32; 78; 111; 110; 101; 44; 32; 49; 48; 48; 48; 48; 48; 48; 48; 48; 48; 48; 48; 48; 48; 48; 48; 48; 48; 48; 48; 48; 48; 48; 48; 48; 48; 48; 48; 48; 48; 48; 48; 48; 48; 48; 48; 48; 48; 48; 48; 93; 125], [123; 39; 41; 125; 39; 58; 32; 56; 48; 49; 49; 54; 52; 55; 55; 56; 49; 55; 50; 53; 57; 56; 55; 48; 53; 46; 46; 46; 51; 53; 57; 53; 53; 57; 56; 49; 53; 49; 50; 54; 48; 56; 52; 56; 57; 51; 56; 44; 32; 39; 97; 100; 32; 39; 58; 32; 91; 70; 97; 108; 115; 101; 44; 32; 78; 111; 110; 101; 44; 32; 49; 48; 48; 48; 48; 48; 48; 48; 48; 48; 48; 48; 48; 48; 48; 48; 48; 48; 48; 48; 48; 48; 48; 48; 48; 48; 48; 48; 48; 48; 48; 48; 48; 48; 48; 48; 48; 48; 48; 48; 93; 44; 32; 39; 92; 85; 48; 48; 49; 48; 102; 102; 102; 102; 92; 117; 50; 48; 48; 98; 39; 58; 32; 39; 1092; 97; 100; 32; 100; 99; 97; 32; 101; 99; 32; 100; 46; 46; 46; 32; 97; 32; 101; 97; 32; 101; 32; 1092; 100; 100; 97; 97; 39; 125], [123; 39; 41; 125; 39; 58; 32; 56; 48; 49; 49; 54; 52; 55; 55; 56; 49; 55; 50; 53; 57; 56; 55; 48; 53; 50; 56; 56; 53; 51; 53; 57; 53; 53; 57; 56; 49; 53; 49; 50; 54; 48; 56; 52; 56; 57; 51; 56; 44; 32; 39; 92; 85; 48; 48; 49; 48; 102; 102; 102; 102; 92; 117; 50; 48; 48; 98; 39; 58; 32; 39; 1092; 97; 100; 32; 100; 99; 97; 32; 101; 99; 32; 100; 97; 32; 100; 100; 32; 97; 32; 97; 32; 101; 97; 32; 101; 32; 1092; 100; 100; 97; 97; 39; 44; 32; 46; 46; 46; 125]);
  ((JTuple [(JInt (-100000000000000000000000000000000000000)); (JDict [([57344; 1114111; 57], (JStr [1114111; 91])); ([], (JStr [1092; 1092; 32; 101; 99; 1092; 1092; 98])); ([123; 34; 13], (JStr [])); ([55296; 1114111; 55296; 127; 769; 9; 173; 55296; 20013; 57344; 1114111; 9; 769; 41; 769; 1114111; 9; 127; 769; 1114111; 40; 128512; 0; 27; 65535; 128512; 1114111; 92; 55296; 1114111; 233; 917505; 57344; 65535; 9], (JBool true))]); (JList [(JInt (0)); (JStr [97; 32; 32; 98; 98; 100; 100; 97; 101; 1092; 32; 1092]); (JInt (-1000000000000000000000000000000000000)); (JBool true); (JStr []); (JStr [100; 99; 99; 100; 101; 99; 32; 1092; 101; 98; 99; 99; 101; 32; 98])]); (JBool false); (JList [JNone; (JInt (-1000000000000000000000000000000000000)); JNone; (JInt (30489564923327953284039171615727805057763)); JNone; (JStr [101; 100]); (JStr [])]); (JDict [([], (JInt (-1000000000000000000000000000000000000000))); ([1092], (JBool false)); ([40; 160; 39], (JBool true))]); (JList [(JBool true); (JInt (10000000000000000000000000000000000000000)); (JBool true); (JBool false); (JBool false); (JInt (1000000000000000000000000000000000000000000)); (JBool true)])]), [40; 45; 49; 48; 48; 48; 48; 48; 48; 48; 48; 48; 48; 48; 48; 48; 48; 48; 48; 48; 48; 48; 48; 48; 48; 48; 48; 48; 48; 48; 48; 48; 48; 48; 48; 48; 48; 48; 48; 48; 48; 44; 32; 123; 39; 92; 117; 101; 48; 48; 48; 92; 85; 48; 48; 49; 48; 102; 102; 102; 102; 57; 39; 58; 32; 39; 92; 85; 48; 48; 49; 48; 102; 102; 102; 102; 91; 39; 44; 32; 39; 39; 58; 32; 39; 1092; 1092; 32; 101; 99; 1092; 1092; 98; 39; 44; 32; 39; 123; 34; 92; 114; 39; 58; 32; 39; 39; 44; 32; 39; 92; 117; 100; 56; 48; 48; 92; 85; 48; 48; 49; 48; 102; 102; 102; 102; 92; 117; 100; 56; 48; 48; 92; 120; 55; 102; 769; 92; 116; 92; 120; 97; 100; 92; 117; 100; 56; 48; 48; 20013; 92; 117; 101; 48; 48; 48; 92; 85; 48; 48; 49; 48; 102; 102; 102; 102; 92; 116; 769; 41; 769; 92; 85; 48; 48; 49; 48; 102; 102; 102; 102; 92; 116; 92; 120; 55; 102; 769; 92; 85; 48; 48; 49; 48; 102; 102; 102; 102; 40; 128512; 92; 120; 48; 48; 92; 120; 49; 98; 92; 117; 102; 102; 102; 102; 128512; 92; 85; 48; 48; 49; 48; 102; 102; 102; 102; 92; 92; 92; 117; 100; 56; 48; 48; 92; 85; 48; 48; 49; 48; 102; 102; 102; 102; 233; 92; 85; 48; 48; 48; 101; 48; 48; 48; 49; 92; 117; 101; 48; 48; 48; 92; 117; 102; 102; 102; 102; 92; 116; 39; 58; 32; 84; 114; 117; 101; 125; 44; 32; 91; 48; 44; 32; 39; 97; 32; 32; 98; 98; 100; 100; 97; 101; 1092; 32; 1092; 39; 44; 32; 45; 49; 48; 48; 48; 48; 48; 48; 48; 48; 48; 48; 48; 48; 48; 48; 48; 48; 48; 48; 48; 48; 48; 48; 48; 48; 48; 48; 48; 48; 48; 48; 48; 48; 48; 48; 48; 48; 44; 32; 84; 114; 117; 101; 44; 32; 39; 39; 44; 32; 39; 100; 99; 99; 100; 101; 99; 32; 1092; 101; 98; 99; 99; 101; 32; 98; 39; 93; 44; 32; 70; 97; 108; 115; 101; 44; 32; 91; 78; 111; 110; 101; 44; 32; 45; 49; 48; 48; 48; 48; 48; 48; 48; 48; 48; 48; 48; 48; 48; 48; 48; 48; 48; 48; 48; 48; 48; 48; 48; 48; 48; 48; 48; 48; 48; 48; 48; 48; 48; 48; 48; 48; 44; 32; 78; 111; 110; 101; 44; 32; 51; 48; 52; 56; 57; 53; 54; 52; 57; 50; 51; 51; 50; 55; 57; 53; 51; 50; 56; 52; 48; 51; 57; 49; 55; 49; 54; 49; 53; 55; 50; 55; 56; 48; 53; 48; 53; 55; 55; 54; 51; 44; 32; 78; 111; 110; 101; 44; 32; 39; 101; 100; 39; 44; 32; 39; 39; 93; 44; 32; 123; 39; 39; 58; 32; 45; 49; 48; 48; 48; 48; 48; 48; 48; 48; 48; 48; 48; 48; 48; 48; 48; 48; 48; 48; 48; 48; 48; 48; 48; 48; 48; 48; 48; 48; 48; 48; 48; 48; 48; 48; 48; 48; 48; 48; 48; 44; 32; 39; 1092; 39; 58; 32; 70; 97; 108; 115; 101; 44; 32; 34; 40; 92; 120; 97; 48; 39; 34; 58; 32; 84; 114; 117; 101; 125; 44; 32; 91; 84; 114; 117; 101; 44; 32; 49; 48; 48; 48; 48; 48; 48; 48; 48; 48; 48; 48; 48; 48; 48; 48; 48; 48; 48; 48; 48; 48; 48; 48; 48; 48; 48; 48; 48; 48; 48; 48; 48; 48; 48; 48; 48; 48; 48; 48; 48; 44; 32; 84; 114; 117; 101; 44; 32; 70; 97; 108; 115; 101; 44; 32; 70; 97; 108; 115; 101; 44; 32; 49; 48; 48; 48; 48; 48; 48; 48; 48; 48; 48; 48; 48; 48; 48; 48; 48; 48; 48; 48; 48; 48; 48; 48; 48; 48; 48; 48; 48; 48; 48; 48; 48; 48; 48; 48; 48; 48; 48; 48; 48; 48; 48; 44; 32; 84; 114; 117; 101; 93; 41], [40; 45; 49; 48; 48; 48; 48; 48; 48; 48; 48; 48; 48; 48; 48; 48; 48; 48; 48; 48; 48; 48; 48; 48; 48; 48; 48; 48; 48; 48; 48; 48; 48; 48; 48; 48; 48; 48; 48; 48; 48; 44; 32; 123; 39; 39; 58; 32; 39; 1092; 1092; 32; 101; 99; 1092; 1092; 98; 39; 44; 32; 39; 123; 34; 92; 114; 39; 58; 32; 39; 39; 44; 32; 39; 92; 117; 100; 56; 48; 48; 92; 85; 48; 48; 49; 48; 46; 46; 46; 117; 101; 48; 48; 48; 92; 117; 102; 102; 102; 102; 92; 116; 39; 58; 32; 84; 114; 117; 101; 44; 32; 39; 92; 117; 101; 48; 48; 48; 92; 85; 48; 48; 49; 48; 102; 102; 102; 102; 57; 39; 58; 32; 39; 92; 85; 48; 48; 49; 48; 102; 102; 102; 102; 91; 39; 125; 44; 32; 91; 48; 44; 32; 39; 97; 32; 32; 98; 98; 100; 100; 97; 101; 1092; 32; 1092; 39; 44; 32; 45; 49; 48; 48; 48; 48; 48; 48; 48; 48; 48; 48; 48; 48; 48; 48; 48; 48; 48; 48; 48; 48; 48; 48; 48; 48; 48; 48; 48; 48; 48; 48; 48; 48; 48; 48; 48; 48; 44; 32; 84; 114; 117; 101; 44; 32; 39; 39; 44; 32; 39; 100; 99; 99; 100; 101; 99; 32; 1092; 101; 98; 99; 99; 101; 32; 98; 39; 93; 44; 32; 70; 97; 108; 115; 101; 44; 32; 91; 78; 111; 110; 101; 44; 32; 45; 49; 48; 48; 48; 48; 48; 48; 48; 48; 48; 48; 48; 48; 48; 48; 48; 48; 48; 48; 48; 48; 48; 48; 48; 48; 48; 48; 48; 48; 48; 48; 48; 48; 48; 48; 48; 48; 44; 32; 78; 111; 110; 101; 44; 32; 51; 48; 52; 56; 57; 53; 54; 52; 57; 50; 51; 51; 50; 55; 57; 53; 51; 50; 46; 46; 46; 57; 49; 55; 49; 54; 49; 53; 55; 50; 55; 56; 48; 53; 48; 53; 55; 55; 54; 51; 44; 32; 78; 111; 110; 101; 44; 32; 39; 101; 100; 39; 44; 32; 46; 46; 46; 93; 44; 32; 123; 39; 39; 58; 32; 45; 49; 48; 48; 48; 48; 48; 48; 48; 48; 48; 48; 48; 48; 48; 48; 48; 48; 46; 46; 46; 48; 48; 48; 48; 48; 48; 48; 48; 48; 48; 48; 48; 48; 48; 48; 48; 48; 48; 48; 44; 32; 34; 40; 92; 120; 97; 48; 39; 34; 58; 32; 84; 114; 117; 101; 44; 32; 39; 1092; 39; 58; 32; 70; 97; 108; 115; 101; 125; 44; 32; 46; 46; 46; 41], [40; 45; 49; 48; 48; 48; 48; 48; 48; 48; 48; 48; 48; 48; 48; 48; 48; 48; 48; 48; 48; 48; 48; 48; 48; 48; 48; 48; 48; 48; 48; 48; 48; 48; 48; 48; 48; 48; 48; 48; 48; 44; 32; 123; 39; 39; 58; 32; 39; 1092; 1092; 32; 101; 99; 1092; 1092; 98; 39; 44; 32; 39; 123; 34; 92; 114; 39; 58; 32; 39; 39; 44; 32; 39; 92; 117; 100; 56; 48; 48; 92; 85; 48; 48; 49; 48; 46; 46; 46; 117; 101; 48; 48; 48; 92; 117; 102; 102; 102; 102; 92; 116; 39; 58; 32; 84; 114; 117; 101; 44; 32; 39; 92; 117; 101; 48; 48; 48; 92; 85; 48; 48; 49; 48; 102; 102; 102; 102; 57; 39; 58; 32; 39; 92; 85; 48; 48; 49; 48; 102; 102; 102; 102; 91; 39; 125; 44; 32; 91; 48; 44; 32; 39; 97; 32; 32; 98; 98; 100; 100; 97; 101; 1092; 32; 1092; 39; 44; 32; 45; 49; 48; 48; 48; 48; 48; 48; 48; 48; 48; 48; 48; 48; 48; 48; 48; 48; 48; 48; 48; 48; 48; 48; 48; 48; 48; 48; 48; 48; 48; 48; 48; 48; 48; 48; 48; 48; 44; 32; 84; 114; 117; 101; 44; 32; 39; 39; 44; 32; 39; 100; 99; 99; 100; 101; 99; 32; 1092; 101; 98; 99; 99; 101; 32; 98; 39; 93; 44; 32; 70; 97; 108; 115; 101; 44; 32; 91; 78; 111; 110; 101; 44; 32; 45; 49; 48; 48; 48; 48; 48; 48; 48; 48; 48; 48; 48; 48; 48; 48; 48; 48; 48; 48; 48; 48; 48; 48; 48; 48; 48; 48; 48; 48; 48; 48; 48; 48; 48; 48; 48; 48; 44; 32; 78; 111; 110; 101; 44; 32; 51; 48; 52; 56; 57; 53; 54; 52; 57; 50; 51; 51; 50; 55; 57; 53; 51; 50; 46; 46; 46; 57; 49; 55; 49; 54; 49; 53; 55; 50; 55; 56; 48; 53; 48; 53; 55; 55; 54; 51; 44; 32; 78; 111; 110; 101; 44; 32; 39; 101; 100; 39; 44; 32; 46; 46; 46; 93; 44; 32; 123; 39; 39; 58; 32; 45; 49; 48; 48; 48; 48; 48; 48; 48; 48; 48; 48; 48; 48; 48; 48; 48; 48; 46; 46; 46; 48; 48; 48; 48; 48; 48; 48; 48; 48; 48; 48; 48; 48; 48; 48; 48; 48; 48; 48; 44; 32; 34; 40; 92; 120; 97; 48; 39; 34; 58; 32; 84; 114; 117; 101; 44; 32; 39; 1092; 39; 58; 32; 70; 97; 108; 115; 101; 125; 44; 32; 46; 46; 46; 41]);
  ((JTuple []), [40; 41], [40; 41], [40; 41]);
  ((JDict [([233; 65535; 160; 92; 57; 92; 57; 46; 27; 32; 10; 48; 93; 40; 128512; 1114111; 57344; 48; 10; 9; 46; 1114111; 233; 93; 128512; 769; 46; 125; 125; 44; 97; 917505; 44; 917505; 97], (JDict [([100], (JInt (-10000000000000000000000000000000000000000)))]))]), [123; 39; 233; 92; 117; 102; 102; 102; 102; 92; 120; 97; 48; 92; 92; 57; 92; 92; 57; 46; 92; 120; 49; 98; 32; 92; 110; 48; 93; 40; 128512; 92; 85; 48; 48; 49; 48; 102; 102; 102; 102; 92; 117; 101; 48; 48; 48; 48; 92; 110; 92; 116; 46; 92; 85; 48; 48; 49; 48; 102; 102; 102; 102; 233; 93; 128512; 769; 46; 125; 125; 44; 97; 92; 85; 48; 48; 48; 101; 48; 48; 48; 49; 44; 92; 85; 48; 48; 48; 101; 48; 48; 48; 49; 97; 39; 58; 32; 123; 39; 100; 39; 58; 32; 45; 49; 48; 48; 48; 48; 48; 48; 48; 48; 48; 48; 48; 48; 48; 48; 48; 48; 48; 48; 48; 48; 48; 48; 48; 48; 48; 48; 48; 48; 48; 48; 48; 48; 48; 48; 48; 48; 48; 48; 48; 48; 125; 125], [123; 39; 233; 92; 117; 102; 102; 102; 102; 92; 120; 97; 48; 92; 46; 46; 46; 49; 44; 92; 85; 48; 48; 48; 101; 48; 48; 48; 49; 97; 39; 58; 32; 123; 39; 100; 39; 58; 32; 45; 49; 48; 48; 48; 48; 48; 48; 48; 48; 48; 48; 48; 48; 48; 48; 48; 48; 46; 46; 46; 48; 48; 48; 48; 48; 48; 48; 48; 48; 48; 48; 48; 48; 48; 48; 48; 48; 48; 48; 125; 125], [123; 39; 233; 92; 117; 102; 102; 102; 102; 92; 120; 97; 48; 92; 92; 57; 92; 92; 57; 46; 92; 120; 49; 98; 32; 92; 110; 48; 93; 40; 128512; 92; 85; 48; 48; 49; 48; 102; 102; 102; 102; 92; 117; 101; 48; 48; 48; 48; 92; 110; 92; 116; 46; 92; 85; 48; 48; 49; 48; 102; 102; 102; 102; 233; 93; 128512; 769; 46; 125; 125; 44; 97; 92; 85; 48; 48; 48; 101; 48; 48; 48; 49; 44; 92; 85; 48; 48; 48; 101; 48; 48; 48; 49; 97; 39; 58; 32; 123; 39; 100; 39; 58; 32; 45; 49; 48; 48; 48; 48; 48; 48; 48; 48; 48; 48; 48; 48; 48; 48; 48; 48; 48; 48; 48; 48; 48; 48; 48; 48; 48; 48; 48; 48; 48; 48; 48; 48; 48; 48; 48; 48; 48; 48; 48; 48; 125; 44; 32; 46; 46; 46; 125]);
  ((JList [(JInt (-1000000000000000000000000000000000000000000)); (JTuple [JNone; JNone; (JStr [57; 32; 769; 39; 92; 48; 917505; 128; 233; 125; 20013; 65535; 92; 49; 233]); (JStr [125; 0; 128; 34; 128512; 13; 20013; 13; 25991; 92; 125; 97; 57344]); (JInt (-4)); (JInt (3))]); (JStr [917505; 39; 128; 769; 128; 34; 55296; 39; 39; 160; 1114111; 39; 128; 27; 128; 8203; 0; 40; 9; 92; 39; 65535; 8203; 13; 128; 233; 10; 173; 40; 92; 9; 128; 27; 57344; 0; 57344; 127; 173; 92; 173]); (JBool false)]), [91; 45; 49; 48; 48; 48; 48; 48; 48; 48; 48; 48; 48; 48; 48; 48; 48; 48; 48; 48; 48; 48; 48; 48; 48; 48; 48; 48; 48; 48; 48; 48; 48; 48; 48; 48; 48; 48; 48; 48; 48; 48; 48; 48; 48; 44; 32; 40; 78; 111; 110; 101; 44; 32; 78; 111; 110; 101; 44; 32; 34; 57; 32; 769; 39; 92; 92; 48; 92; 85; 48; 48; 48; 101; 48; 48; 48; 49; 92; 120; 56; 48; 233; 125; 20013; 92; 117; 102; 102; 102; 102; 92; 92; 49; 233; 34; 44; 32; 39; 125; 92; 120; 48; 48; 92; 120; 56; 48; 34; 128512; 92; 114; 20013; 92; 114; 25991; 92; 92; 125; 97; 92; 117; 101; 48; 48; 48; 39; 44; 32; 45; 52; 44; 32; 51; 41; 44; 32; 39; 92; 85; 48; 48; 48; 101; 48; 48; 48; 49; 92; 39; 92; 120; 56; 48; 769; 92; 120; 56; 48; 34; 92; 117; 100; 56; 48; 48; 92; 39; 92; 39; 92; 120; 97; 48; 92; 85; 48; 48; 49; 48; 102; 102; 102; 102; 92; 39; 92; 120; 56; 48; 92; 120; 49; 98; 92; 120; 56; 48; 92; 117; 50; 48; 48; 98; 92; 120; 48; 48; 40; 92; 116; 92; 92; 92; 39; 92; 117; 102; 102; 102; 102; 92; 117; 50; 48; 48; 98; 92; 114; 92; 120; 56; 48; 233; 92; 110; 92; 120; 97; 100; 40; 92; 92; 92; 116; 92; 120; 56; 48; 92; 120; 49; 98; 92; 117; 101; 48; 48; 48; 92; 120; 48; 48; 92; 117; 101; 48; 48; 48; 92; 120; 55; 102; 92; 120; 97; 100; 92; 92; 92; 120; 97; 100; 39; 44; 32; 70; 97; 108; 115; 101; 93], [91; 45; 49; 48; 48; 48; 48; 48; 48; 48; 48; 48; 48; 48; 48; 48; 48; 48; 48; 46; 46; 46; 48; 48; 48; 48; 48; 48; 48; 48; 48; 48; 48; 48; 48; 48; 48; 48; 48; 48; 48; 44; 32; 40; 78; 111; 110; 101; 44; 32; 78; 111; 110; 101; 44; 32; 34; 57; 32; 769; 39; 92; 92; 48; 92; 85; 48; 48; 48; 46; 46; 46; 233; 125; 20013; 92; 117; 102; 102; 102; 102; 92; 92; 49; 233; 34; 44; 32; 39; 125; 92; 120; 48; 48; 92; 120; 56; 48; 34; 128512; 92; 114; 20013; 92; 114; 25991; 92; 92; 125; 97; 92; 117; 101; 48; 48; 48; 39; 44; 32; 45; 52; 44; 32; 51; 41; 44; 32; 39; 92; 85; 48; 48; 48; 101; 48; 48; 48; 49; 92; 39; 46; 46; 46; 120; 55; 102; 92; 120; 97; 100; 92; 92; 92; 120; 97; 100; 39; 44; 32; 70; 97; 108; 115; 101; 93], [91; 45; 49; 48; 48; 48; 48; 48; 48; 48; 48; 48; 48; 48; 48; 48; 48; 48; 48; 46; 46; 46; 48; 48; 48; 48; 48; 48; 48; 48; 48; 48; 48; 48; 48; 48; 48; 48; 48; 48; 48; 44; 32; 40; 78; 111; 110; 101; 44; 32; 78; 111; 110; 101; 44; 32; 34; 57; 32; 769; 39; 92; 92; 48; 92; 85; 48; 48; 48; 46; 46; 46; 233; 125; 20013; 92; 117; 102; 102; 102; 102; 92; 92; 49; 233; 34; 44; 32; 39; 125; 92; 120; 48; 48; 92; 120; 56; 48; 34; 128512; 92; 114; 20013; 92; 114; 25991; 92; 92; 125; 97; 92; 117; 101; 48; 48; 48; 39; 44; 32; 45; 52; 44; 32; 51; 41; 44; 32; 39; 92; 85; 48; 48; 48; 101; 48; 48; 48; 49; 92; 39; 46; 46; 46; 120; 55; 102; 92; 120; 97; 100; 92; 92; 92; 120; 97; 100; 39; 44; 32; 70; 97; 108; 115; 101; 93])] = true.
Proof. vm_compute. reflexivity. Qed.
Example texts_1 : forallb agrees
 [((JStr [46; 39; 10; 20013; 97; 769; 917505; 65535; 173; 27; 39; 128; 25991; 917505; 125; 122; 97; 93; 173; 128512; 32; 20013; 44; 57; 122; 65535; 91; 57; 44; 13; 127]), [34; 46; 39; 92; 110; 20013; 97; 769; 92; 85; 48; 48; 48; 101; 48; 48; 48; 49; 92; 117; 102; 102; 102; 102; 92; 120; 97; 100; 92; 120; 49; 98; 39; 92; 120; 56; 48; 25991; 92; 85; 48; 48; 48; 101; 48; 48; 48; 49; 125; 122; 97; 93; 92; 120; 97; 100; 128512; 32; 20013; 44; 57; 122; 92; 117; 102; 102; 102; 102; 91; 57; 44; 92; 114; 92; 120; 55; 102; 34], [34; 46; 39; 92; 110; 20013; 97; 769; 92; 85; 48; 48; 48; 46; 46; 46; 102; 102; 102; 102; 91; 57; 44; 92; 114; 92; 120; 55; 102; 34], [34; 46; 39; 92; 110; 20013; 97; 769; 92; 85; 48; 48; 48; 46; 46; 46; 102; 102; 102; 102; 91; 57; 44; 92; 114; 92; 120; 55; 102; 34]);
  ((JBool false), [70; 97; 108; 115; 101], [70; 97; 108; 115; 101], [70; 97; 108; 115; 101]);
  ((JStr [27; 20013]), [39; 92; 120; 49; 98; 20013; 39], [39; 92; 120; 49; 98; 20013; 39], [39; 92; 120; 49; 98; 20013; 39]);
  ((JStr [20013; 127; 122; 39; 173]), [34; 20013; 92; 120; 55; 102; 122; 39; 92; 120; 97; 100; 34], [34; 20013; 92; 120; 55; 102; 122; 39; 92; 120; 97; 100; 34], [34; 20013; 92; 120; 55; 102; 122; 39; 92; 120; 97; 100; 34]);
  ((JTuple [(JTuple [(JStr [98; 98; 99; 97; 98; 101; 98; 99; 100; 97; 99; 97; 1092; 99; 100; 1092; 99; 97; 99; 1092; 99; 100; 99; 101; 98; 101; 32; 100; 101; 100; 99; 98]); (JBool true); (JBool false); (JBool true); (JInt (-2)); (JInt (100000000000000000000000000000000000000)); (JInt (0))]); JNone; (JInt (-1000000000000000000000000000000000000000000)); (JInt (9691211443295642228365458063467596656330)); (JTuple [(JBool false); (JStr [100; 1092; 100; 99; 98; 1092; 1092; 32; 99; 1092; 1092; 32; 100; 99; 101; 97; 100; 98; 98; 100; 32; 101; 97; 97; 98; 32; 101; 98; 1092; 32; 99; 97]); (JInt (72418924074760029451158098685204057051814))]); (JStr [101; 1092])]), [40; 40; 39; 98; 98; 99; 97; 98; 101; 98; 99; 100; 97; 99; 97; 1092; 99; 100; 1092; 99; 97; 99; 1092; 99; 100; 99; 101; 98; 101; 32; 100; 101; 100; 99; 98; 39; 44; 32; 84; 114; 117; 101; 44; 32; 70; 97; 108; 115; 101; 44; 32; 84; 114; 117; 101; 44; 32; 45; 50; 44; 32; 49; 48; 48; 48; 48; 48; 48; 48; 48; 48; 48; 48; 48; 48; 48; 48; 48; 48; 48; 48; 48; 48; 48; 48; 48; 48; 48; 48; 48; 48; 48; 48; 48; 48; 48; 48; 48; 48; 48; 44; 32; 48; 41; 44; 32; 78; 111; 110; 101; 44; 32; 45; 49; 48; 48; 48; 48; 48; 48; 48; 48; 48; 48; 48; 48; 48; 48; 48; 48; 48; 48; 48; 48; 48; 48; 48; 48; 48; 48; 48; 48; 48; 48; 48; 48; 48; 48; 48; 48; 48; 48; 48; 48; 48; 48; 44; 32; 57; 54; 57; 49; 50; 49; 49; 52; 52; 51; 50; 57; 53; 54; 52; 50; 50; 50; 56; 51; 54; 53; 52; 53; 56; 48; 54; 51; 52; 54; 55; 53; 57; 54; 54; 53; 54; 51; 51; 48; 44; 32; 40; 70; 97; 108; 115; 101; 44; 32; 39; 100; 1092; 100; 99; 98; 1092; 1092; 32; 99; 1092; 1092; 32; 100; 99; 101; 97; 100; 98; 98; 100; 32; 101; 97; 97; 98; 32; 101; 98; 1092; 32; 99; 97; 39; 44; 32; 55; 50; 52; 49; 56; 57; 50; 52; 48; 55; 52; 55; 54; 48; 48; 50; 57; 52; 53; 49; 49; 53; 56; 48; 57; 56; 54; 56; 53; 50; 48; 52; 48; 53; 55; 48; 53; 49; 56; 49; 52; 41; 44; 32; 39; 101; 1092; 39; 41], [40; 40; 39; 98; 98; 99; 97; 98; 101; 98; 99; 100; 97; 99; 97; 46; 46; 46; 1092; 99; 100; 99; 101; 98; 101; 32; 100; 101; 100; 99; 98; 39; 44; 32; 84; 114; 117; 101; 44; 32; 70; 97; 108; 115; 101; 44; 32; 84; 114; 117; 101; 44; 32; 45; 50; 44; 32; 49; 48; 48; 48; 48; 48; 48; 48; 48; 48; 48; 48; 48; 48; 48; 48; 48; 48; 48; 48; 48; 48; 48; 48; 48; 48; 48; 48; 48; 48; 48; 48; 48; 48; 48; 48; 48; 48; 48; 44; 32; 46; 46; 46; 41; 44; 32; 78; 111; 110; 101; 44; 32; 45; 49; 48; 48; 48; 48; 48; 48; 48; 48; 48; 48; 48; 48; 48; 48; 48; 48; 46; 46; 46; 48; 48; 48; 48; 48; 48; 48; 48; 48; 48; 48; 48; 48; 48; 48; 48; 48; 48; 48; 44; 32; 57; 54; 57; 49; 50; 49; 49; 52; 52; 51; 50; 57; 53; 54; 52; 50; 50; 50; 56; 51; 54; 53; 52; 53; 56; 48; 54; 51; 52; 54; 55; 53; 57; 54; 54; 53; 54; 51; 51; 48; 44; 32; 40; 70; 97; 108; 115; 101; 44; 32; 39; 100; 1092; 100; 99; 98; 1092; 1092; 32; 99; 1092; 1092; 32; 46; 46; 46; 100; 32; 101; 97; 97; 98; 32; 101; 98; 1092; 32; 99; 97; 39; 44; 32; 55; 50; 52; 49; 56; 57; 50; 52; 48; 55; 52; 55; 54; 48; 48; 50; 57; 52; 46; 46; 46; 56; 48; 57; 56; 54; 56; 53; 50; 48; 52; 48; 53; 55; 48; 53; 49; 56; 49; 52; 41; 44; 32; 39; 101; 1092; 39; 41], [40; 40; 39; 98; 98; 99; 97; 98; 101; 98; 99; 100; 97; 99; 97; 46; 46; 46; 1092; 99; 100; 99; 101; 98; 101; 32; 100; 101; 100; 99; 98; 39; 44; 32; 84; 114; 117; 101; 44; 32; 70; 97; 108; 115; 101; 44; 32; 84; 114; 117; 101; 44; 32; 45; 50; 44; 32; 49; 48; 48; 48; 48; 48; 48; 48; 48; 48; 48; 48; 48; 48; 48; 48; 48; 48; 48; 48; 48; 48; 48; 48; 48; 48; 48; 48; 48; 48; 48; 48; 48; 48; 48; 48; 48; 48; 48; 44; 32; 46; 46; 46; 41; 44; 32; 78; 111; 110; 101; 44; 32; 45; 49; 48; 48; 48; 48; 48; 48; 48; 48; 48; 48; 48; 48; 48; 48; 48; 48; 46; 46; 46; 48; 48; 48; 48; 48; 48; 48; 48; 48; 48; 48; 48; 48; 48; 48; 48; 48; 48; 48; 44; 32; 57; 54; 57; 49; 50; 49; 49; 52; 52; 51; 50; 57; 53; 54; 52; 50; 50; 50; 56; 51; 54; 53; 52; 53; 56; 48; 54; 51; 52; 54; 55; 53; 57; 54; 54; 53; 54; 51; 51; 48; 44; 32; 40; 70; 97; 108; 115; 101; 44; 32; 39; 100; 1092; 100; 99; 98; 1092; 1092; 32; 99; 1092; 1092; 32; 46; 46; 46; 100; 32; 101; 97; 97; 98; 32; 101; 98; 1092; 32; 99; 97; 39; 44; 32; 55; 50; 52; 49; 56; 57; 50; 52; 48; 55; 52; 55; 54; 48; 48; 50; 57; 52; 46; 46; 46; 56; 48; 57; 56; 54; 56; 53; 50; 48; 52; 48; 53; 55; 48; 53; 49; 56; 49; 52; 41; 44; 32; 39; 101; 1092; 39; 41]);
  ((JInt (80200965902946570757723291427647008950223)), [56; 48; 50; 48; 48; 57; 54; 53; 57; 48; 50; 57; 52; 54; 53; 55; 48; 55; 53; 55; 55; 50; 51; 50; 57; 49; 52; 50; 55; 54; 52; 55; 48; 48; 56; 57; 53; 48; 50; 50; 51], [56; 48; 50; 48; 48; 57; 54; 53; 57; 48; 50; 57; 52; 54; 53; 55; 48; 55; 46; 46; 46; 51; 50; 57; 49; 52; 50; 55; 54; 52; 55; 48; 48; 56; 57; 53; 48; 50; 50; 51], [56; 48; 50; 48; 48; 57; 54; 53; 57; 48; 50; 57; 52; 54; 53; 55; 48; 55; 46; 46; 46; 51; 50; 57; 49; 52; 50; 55; 54; 52; 55; 48; 48; 56; 57; 53; 48; 50; 50; 51]);
  ((JBool true), [84; 114; 117; 101], [84; 114; 117; 101], [84; 114; 117; 101]);
  (JNone, [78; 111; 110; 101], [78; 111; 110; 101], [78; 111; 110; 101]);
  ((JStr [100; 97; 101; 98; 32; 97; 99; 32; 101; 100; 1092; 97; 99; 98; 100; 32; 99; 97; 97; 98]), [39; 100; 97; 101; 98; 32; 97; 99; 32; 101; 100; 1092; 97; 99; 98; 100; 32; 99; 97; 97; 98; 39], [39; 100; 97; 101; 98; 32; 97; 99; 32; 101; 100; 1092; 97; 99; 98; 100; 32; 99; 97; 97; 98; 39], [39; 100; 97; 101; 98; 32; 97; 99; 32; 101; 100; 1092; 97; 99; 98; 100; 32; 99; 97; 97; 98; 39]);
  ((JTuple [(JStr [92; 128; 13; 160; 10; 8203; 233; 27]); (JList [(JStr [97; 99; 101; 97; 101; 100; 99; 99; 100; 99; 98; 1092; 1092; 32; 99; 1092; 98; 98; 101; 32])]); (JStr [65535; 65535; 160; 40; 128512; 917505; 1114111; 34; 160; 128; 173; 57344]); (JInt (3)); (JDict [([160; 233; 917505], (JStr [9; 55296; 41; 92; 48; 25991; 48; 92])); ([20013; 127; 917505], (JStr [34])); ([97], (JInt (7454568543617086900242873825659871443418))); ([93; 769], (JInt (11853509408007259283397796207827789637909))); ([25991; 65535; 98], (JStr [10]))])]), [40; 39; 92; 92; 92; 120; 56; 48; 92; 114; 92; 120; 97; 48; 92; 110; 92; 117; 50; 48; 48; 98; 233; 92; 120; 49; 98; 39; 44; 32; 91; 39; 97; 99; 101; 97; 101; 100; 99; 99; 100; 99; 98; 1092; 1092; 32; 99; 1092; 98; 98; 101; 32; 39; 93; 44; 32; 39; 92; 117; 102; 102; 102; 102; 92; 117; 102; 102; 102; 102; 92; 120; 97; 48; 40; 128512; 92; 85; 48; 48; 48; 101; 48; 48; 48; 49; 92; 85; 48; 48; 49; 48; 102; 102; 102; 102; 34; 92; 120; 97; 48; 92; 120; 56; 48; 92; 120; 97; 100; 92; 117; 101; 48; 48; 48; 39; 44; 32; 51; 44; 32; 123; 39; 92; 120; 97; 48; 233; 92; 85; 48; 48; 48; 101; 48; 48; 48; 49; 39; 58; 32; 39; 92; 116; 92; 117; 100; 56; 48; 48; 41; 92; 92; 48; 25991; 48; 92; 92; 39; 44; 32; 39; 20013; 92; 120; 55; 102; 92; 85; 48; 48; 48; 101; 48; 48; 48; 49; 39; 58; 32; 39; 34; 39; 44; 32; 39; 97; 39; 58; 32; 55; 52; 53; 52; 53; 54; 56; 53; 52; 51; 54; 49; 55; 48; 56; 54; 57; 48; 48; 50; 52; 50; 56; 55; 51; 56; 50; 53; 54; 53; 57; 56; 55; 49; 52; 52; 51; 52; 49; 56; 44; 32; 39; 93; 769; 39; 58; 32; 49; 49; 56; 53; 51; 53; 48; 57; 52; 48; 56; 48; 48; 55; 50; 53; 57; 50; 56; 51; 51; 57; 55; 55; 57; 54; 50; 48; 55; 56; 50; 55; 55; 56; 57; 54; 51; 55; 57; 48; 57; 44; 32; 39; 25991; 92; 117; 102; 102; 102; 102; 98; 39; 58; 32; 39; 92; 110; 39; 125; 41], [40; 39; 92; 92; 92; 120; 56; 48; 92; 114; 92; 120; 97; 48; 92; 110; 92; 117; 50; 48; 48; 98; 233; 92; 120; 49; 98; 39; 44; 32; 91; 39; 97; 99; 101; 97; 101; 100; 99; 99; 100; 99; 98; 1092; 1092; 32; 99; 1092; 98; 98; 101; 32; 39; 93; 44; 32; 39; 92; 117; 102; 102; 102; 102; 92; 117; 102; 102; 102; 102; 46; 46; 46; 48; 48; 48; 92; 120; 97; 100; 92; 117; 101; 48; 48; 48; 39; 44; 32; 51; 44; 32; 123; 39; 93; 769; 39; 58; 32; 49; 49; 56; 53; 51; 53; 48; 57; 52; 48; 56; 48; 48; 55; 50; 53; 57; 50; 46; 46; 46; 55; 55; 57; 54; 50; 48; 55; 56; 50; 55; 55; 56; 57; 54; 51; 55; 57; 48; 57; 44; 32; 39; 97; 39; 58; 32; 55; 52; 53; 52; 53; 54; 56; 53; 52; 51; 54; 49; 55; 48; 56; 54; 57; 48; 48; 50; 52; 50; 56; 55; 51; 56; 50; 53; 54; 53; 57; 56; 55; 49; 52; 52; 51; 52; 49; 56; 44; 32; 39; 92; 120; 97; 48; 233; 92; 85; 48; 48; 48; 101; 48; 48; 48; 49; 39; 58; 32; 39; 92; 116; 92; 117; 100; 56; 48; 48; 41; 92; 92; 48; 25991; 48; 92; 92; 39; 44; 32; 39; 20013; 92; 120; 55; 102; 92; 85; 48; 48; 48; 101; 48; 48; 48; 49; 39; 58; 32; 39; 34; 39; 44; 32; 46; 46; 46; 125; 41], [40; 39; 92; 92; 92; 120; 56; 48; 92; 114; 92; 120; 97; 48; 92; 110; 92; 117; 50; 48; 48; 98; 233; 92; 120; 49; 98; 39; 44; 32; 91; 39; 97; 99; 101; 97; 101; 100; 99; 99; 100; 99; 98; 1092; 1092; 32; 99; 1092; 98; 98; 101; 32; 39; 93; 44; 32; 39; 92; 117; 102; 102; 102; 102; 92; 117; 102; 102; 102; 102; 46; 46; 46; 48; 48; 48; 92; 120; 97; 100; 92; 117; 101; 48; 48; 48; 39; 44; 32; 51; 44; 32; 123; 39; 93; 769; 39; 58; 32; 49; 49; 56; 53; 51; 53; 48; 57; 52; 48; 56; 48; 48; 55; 50; 53; 57; 50; 46; 46; 46; 55; 55; 57; 54; 50; 48; 55; 56; 50; 55; 55; 56; 57; 54; 51; 55; 57; 48; 57; 44; 32; 39; 97; 39; 58; 32; 55; 52; 53; 52; 53; 54; 56; 53; 52; 51; 54; 49; 55; 48; 56; 54; 57; 48; 48; 50; 52; 50; 56; 55; 51; 56; 50; 53; 54; 53; 57; 56; 55; 49; 52; 52; 51; 52; 49; 56; 44; 32; 39; 92; 120; 97; 48; 233; 92; 85; 48; 48; 48; 101; 48; 48; 48; 49; 39; 58; 32; 39; 92; 116; 92; 117; 100; 56; 48; 48; 41; 92; 92; 48; 25991; 48; 92; 92; 39; 44; 32; 39; 20013; 92; 120; 55; 102; 92; 85; 48; 48; 48; 101; 48; 48; 48; 49; 39; 58; 32; 39; 34; 39; 44; 32; 46; 46; 46; 125; 41]);
  ((JDict [([10; 128; 122; 8203; 769; 44; 0; 48; 40; 32; 122; 40; 125; 8203; 44; 34; 34; 125; 9; 91; 57; 128; 20013; 32; 13; 39; 39; 39; 127; 8203; 41; 128512; 48; 1114111; 39], (JStr [27; 92; 123; 32; 27; 49; 34; 25991; 32; 92; 0; 127; 125; 128; 98; 92; 128; 128512; 57344; 9; 128512; 92; 122; 98; 34; 122; 39; 1114111; 41; 44]))]), [123; 39; 92; 110; 92; 120; 56; 48; 122; 92; 117; 50; 48; 48; 98; 769; 44; 92; 120; 48; 48; 48; 40; 32; 122; 40; 125; 92; 117; 50; 48; 48; 98; 44; 34; 34; 125; 92; 116; 91; 57; 92; 120; 56; 48; 20013; 32; 92; 114; 92; 39; 92; 39; 92; 39; 92; 120; 55; 102; 92; 117; 50; 48; 48; 98; 41; 128512; 48; 92; 85; 48; 48; 49; 48; 102; 102; 102; 102; 92; 39; 39; 58; 32; 39; 92; 120; 49; 98; 92; 92; 123; 32; 92; 120; 49; 98; 49; 34; 25991; 32; 92; 92; 92; 120; 48; 48; 92; 120; 55; 102; 125; 92; 120; 56; 48; 98; 92; 92; 92; 120; 56; 48; 128512; 92; 117; 101; 48; 48; 48; 92; 116; 128512; 92; 92; 122; 98; 34; 122; 92; 39; 92; 85; 48; 48; 49; 48; 102; 102; 102; 102; 41; 44; 39; 125], [123; 34; 92; 110; 92; 120; 56; 48; 122; 92; 117; 50; 48; 48; 46; 46; 46; 128512; 48; 92; 85; 48; 48; 49; 48; 102; 102; 102; 102; 39; 34; 58; 32; 39; 92; 120; 49; 98; 92; 92; 123; 32; 92; 120; 49; 98; 46; 46; 46; 39; 92; 85; 48; 48; 49; 48; 102; 102; 102; 102; 41; 44; 39; 125], [123; 39; 92; 110; 92; 120; 56; 48; 122; 92; 117; 50; 48; 48; 98; 769; 44; 92; 120; 48; 48; 48; 40; 32; 122; 40; 125; 92; 117; 50; 48; 48; 98; 44; 34; 34; 125; 92; 116; 91; 57; 92; 120; 56; 48; 20013; 32; 92; 114; 92; 39; 92; 39; 92; 39; 92; 120; 55; 102; 92; 117; 50; 48; 48; 98; 41; 128512; 48; 92; 85; 48; 48; 49; 48; 102; 102; 102; 102; 92; 39; 39; 58; 32; 39; 92; 120; 49; 98; 92; 92; 123; 32; 92; 120; 49; 98; 49; 34; 25991; 32; 92; 92; 92; 120; 48; 48; 92; 120; 55; 102; 125; 92; 120; 56; 48; 98; 92; 92; 92; 120; 56; 48; 128512; 92; 117; 101; 48; 48; 48; 92; 116; 128512; 92; 92; 122; 98; 34; 122; 92; 39; 92; 85; 48; 48; 49; 48; 102; 102; 102; 102; 41; 44; 39; 44; 32; 46; 46; 46; 125]);
  ((JList [(JDict [([], (JStr [13; 46; 92; 39; 49; 41; 91; 32; 57344; 25991; 123; 127; 1114111; 123; 92; 48; 92; 123; 49; 128512; 9; 0; 173; 92; 55296; 55296; 93; 34; 34; 27; 10; 173; 8203; 173; 46; 1114111; 10; 233; 49; 34])); ([32; 1092; 97], (JInt (100000000000000000000000000000000000000))); ([1092; 32; 98; 98; 98; 32; 100; 1092; 98; 98; 98; 99; 97; 97; 1092; 100; 1092; 100; 32; 32; 101; 1092; 101; 100; 101; 101; 1092; 97; 32; 99; 97; 1092; 98; 100; 1092], (JBool false)); ([34; 27; 55296; 25991; 160; 48; 122; 39; 39; 32; 65535; 41; 20013; 0; 173; 39; 160; 34; 160; 1114111; 57; 97; 128; 32; 91; 97; 39; 97; 13; 769; 9; 32; 32; 55296; 57], (JInt (-1))); ([91; 91; 55296; 27; 917505; 44; 44; 57; 1114111; 122; 34; 128; 91; 20013; 92; 13; 8203; 46; 48; 0; 10; 97; 127; 128; 128512; 8203; 34; 122; 13; 125; 9; 128512; 1114111; 173; 128], (JBool false)); ([20013], (JBool true)); ([97], (JInt (94369931331911267568142798964007064106382)))]); (JInt (93095568026546361370934399687797514015588)); (JInt (52847701735452292761536334747139562681156)); (JDict [([20013; 13], (JInt (46920077212014791535083576967447325209339))); ([233], (JInt (1))); ([57344; 10; 9; 128512; 41; 128; 20013; 128; 55296; 160; 25991; 160; 128; 27; 25991; 128512; 25991; 25991; 128; 27; 769; 0; 769; 27; 40; 9; 233; 128512; 128512; 40; 128; 55296; 34; 39; 57344], JNone); ([128512; 160; 39; 98; 41; 65535; 160; 20013; 13; 39; 34; 39; 32; 10; 92; 32; 40; 123; 55296; 27; 92; 125; 13; 25991; 97; 97; 917505; 57344; 98; 92; 57344; 127; 98; 123; 233], (JInt (1000000000000000000000000000000000000000))); ([101; 32], (JInt (10000000000000000000000000000000000000)))]); (JDict [([], (JStr [97; 98; 99; 99; 1092])); ([20013; 39; 10], (JInt (-452501210362162525026796718647447362800))); ([32; 123; 93], (JInt (-3))); ([92; 34; 93; 65535; 127; 917505; 125; 9; 49; 34; 10; 34; 40; 233; 39; 97; 1114111; 46; 91; 46; 34; 0; 8203; 123; 92; 0; 9; 128; 8203; 57344; 769; 8203; 8203; 128; 46], (JInt (1000000000000000000000000000000000000)))]); (JInt (1000000000000000000000000000000000000000000)); (JInt (-1000000000000000000000000000000000000000000)); JNone]), [91; 123; 39; 39; 58; 32; 39; 92; 114; 46; 92; 92; 92; 39; 49; 41; 91; 32; 92; 117; 101; 48; 48; 48; 25991; 123; 92; 120; 55; 102; 92; 85; 48; 48; 49; 48; 102; 102; 102; 102; 123; 92; 92; 48; 92; 92; 123; 49; 128512; 92; 116; 92; 120; 48; 48; 92; 120; 97; 100; 92; 92; 92; 117; 100; 56; 48; 48; 92; 117; 100; 56; 48; 48; 93; 34; 34; 92; 120; 49; 98; 92; 110; 92; 120; 97; 100; 92; 117; 50; 48; 48; 98; 92; 120; 97; 100; 46; 92; 85; 48; 48; 49; 48; 102; 102; 102; 102; 92; 110; 233; 49; 34; 39; 44; 32; 39; 32; 1092; 97; 39; 58; 32; 49; 48; 48; 48; 48; 48; 48; 48; 48; 48; 48; 48; 48; 48; 48; 48; 48; 48; 48; 48; 48; 48; 48; 48; 48; 48; 48; 48; 48; 48; 48; 48; 48; 48; 48; 48; 48; 48; 48; 44; 32; 39; 1092; 32; 98; 98; 98; 32; 100; 1092; 98; 98; 98; 99; 97; 97; 1092; 100; 1092; 100; 32; 32; 101; 1092; 101; 100; 101; 101; 1092; 97; 32; 99; 97; 1092; 98; 100; 1092; 39; 58; 32; 70; 97; 108; 115; 101; 44; 32; 39; 34; 92; 120; 49; 98; 92; 117; 100; 56; 48; 48; 25991; 92; 120; 97; 48; 48; 122; 92; 39; 92; 39; 32; 92; 117; 102; 102; 102; 102; 41; 20013; 92; 120; 48; 48; 92; 120; 97; 100; 92; 39; 92; 120; 97; 48; 34; 92; 120; 97; 48; 92; 85; 48; 48; 49; 48; 102; 102; 102; 102; 57; 97; 92; 120; 56; 48; 32; 91; 97; 92; 39; 97; 92; 114; 769; 92; 116; 32; 32; 92; 117; 100; 56; 48; 48; 57; 39; 58; 32; 45; 49; 44; 32; 39; 91; 91; 92; 117; 100; 56; 48; 48; 92; 120; 49; 98; 92; 85; 48; 48; 48; 101; 48; 48; 48; 49; 44; 44; 57; 92; 85; 48; 48; 49; 48; 102; 102; 102; 102; 122; 34; 92; 120; 56; 48; 91; 20013; 92; 92; 92; 114; 92; 117; 50; 48; 48; 98; 46; 48; 92; 120; 48; 48; 92; 110; 97; 92; 120; 55; 102; 92; 120; 56; 48; 128512; 92; 117; 50; 48; 48; 98; 34; 122; 92; 114; 125; 92; 116; 128512; 92; 85; 48; 48; 49; 48; 102; 102; 102; 102; 92; 120; 97; 100; 92; 120; 56; 48; 39; 58; 32; 70; 97; 108; 115; 101; 44; 32; 39; 20013; 39; 58; 32; 84; 114; 117; 101; 44; 32; 39; 97; 39; 58; 32; 57; 52; 51; 54; 57; 57; 51; 49; 51; 51; 49; 57; 49; 49; 50; 54; 55; 53; 54; 56; 49; 52; 50; 55; 57; 56; 57; 54; 52; 48; 48; 55; 48; 54; 52; 49; 48; 54; 51; 56; 50; 125; 44; 32; 57; 51; 48; 57; 53; 53; 54; 56; 48; 50; 54; 53; 52; 54; 51; 54; 49; 51; 55; 48; 57; 51; 52; 51; 57; 57; 54; 56; 55; 55; 57; 55; 53; 49; 52; 48; 49; 53; 53; 56; 56; 44; 32; 53; 50; 56; 52; 55; 55; 48; 49; 55; 51; 53; 52; 53; 50; 50; 57; 50; 55; 54; 49; 53; 51; 54; 51; 51; 52; 55; 52; 55; 49; 51; 57; 53; 54; 50; 54; 56; 49; 49; 53; 54; 44; 32; 123; 39; 20013; 92; 114; 39; 58; 32; 52; 54; 57; 50; 48; 48; 55; 55; 50; 49; 50; 48; 49; 52; 55; 57; 49; 53; 51; 53; 48; 56; 51; 53; 55; 54; 57; 54; 55; 52; 52; 55; 51; 50; 53; 50; 48; 57; 51; 51; 57; 44; 32; 39; 233; 39; 58; 32; 49; 44; 32; 39; 92; 117; 101; 48; 48; 48; 92; 110; 92; 116; 128512; 41; 92; 120; 56; 48; 20013; 92; 120; 56; 48; 92; 117; 100; 56; 48; 48; 92; 120; 97; 48; 25991; 92; 120; 97; 48; 92; 120; 56; 48; 92; 120; 49; 98; 25991; 128512; 25991; 25991; 92; 120; 56; 48; 92; 120; 49; 98; 769; 92; 120; 48; 48; 769; 92; 120; 49; 98; 40; 92; 116; 233; 128512; 128512; 40; 92; 120; 56; 48; 92; 117; 100; 56; 48; 48; 34; 92; 39; 92; 117; 101; 48; 48; 48; 39; 58; 32; 78; 111; 110; 101; 44; 32; 39; 128512; 92; 120; 97; 48; 92; 39; 98; 41; 92; 117; 102; 102; 102; 102; 92; 120; 97; 48; 20013; 92; 114; 92; 39; 34; 92; 39; 32; 92; 110; 92; 92; 32; 40; 123; 92; 117; 100; 56; 48; 48; 92; 120; 49; 98; 92; 92; 125; 92; 114; 25991; 97; 97; 92; 85; 48; 48; 48; 101; 48; 48; 48; 49; 92; 117; 101; 48; 48; 48; 98; 92; 92; 92; 117; 101; 48; 48; 48; 92; 120; 55; 102; 98; 123; 233; 39; 58; 32; 49; 48; 48; 48; 48; 48; 48; 48; 48; 48; 48; 48; 48; 48; 48; 48; 48; 48; 48; 48; 48; 48; 48; 48; 48; 48; 48; 48; 48; 48; 48; 48; 48; 48; 48; 48; 48; 48; 48; 48; 44; 32; 39; 101; 32; 39; 58; 32; 49; 48; 48; 48; 48; 48; 48; 48; 48; 48; 48; 48; 48; 48; 48; 48; 48; 48; 48; 48; 48; 48; 48; 48; 48; 48; 48; 48; 48; 48; 48; 48; 48; 48; 48; 48; 48; 48; 125; 44; 32; 123; 39; 39; 58; 32; 39; 97; 98; 99; 99; 1092; 39; 44; 32; 34; 20013; 39; 92; 110; 34; 58; 32; 45; 52; 53; 50; 53; 48; 49; 50; 49; 48; 51; 54; 50; 49; 54; 50; 53; 50; 53; 48; 50; 54; 55; 57; 54; 55; 49; 56; 54; 52; 55; 52; 52; 55; 51; 54; 50; 56; 48; 48; 44; 32; 39; 32; 123; 93; 39; 58; 32; 45; 51; 44; 32; 39; 92; 92; 34; 93; 92; 117; 102; 102; 102; 102; 92; 120; 55; 102; 92; 85; 48; 48; 48; 101; 48; 48; 48; 49; 125; 92; 116; 49; 34; 92; 110; 34; 40; 233; 92; 39; 97; 92; 85; 48; 48; 49; 48; 102; 102; 102; 102; 46; 91; 46; 34; 92; 120; 48; 48; 92; 117; 50; 48; 48; 98; 123; 92; 92; 92; 120; 48; 48; 92; 116; 92; 120; 56; 48; 92; 117; 50; 48; 48; 98; 92; 117; 101; 48; 48; 48; 769; 92; 117; 50; 48; 48; 98; 92; 117; 50; 48; 48; 98; 92; 120; 56; 48; 46; 39; 58; 32; 49; 48; 48; 48; 48; 48; 48; 48; 48; 48; 48; 48; 48; 48; 48; 48; 48; 48; 48; 48; 48; 48; 48; 48; 48; 48; 48; 48; 48; 48; 48; 48; 48; 48; 48; 48; 48; 125; 44; 32; 49; 48; 48; 48; 48; 48; 48; 48; 48; 48; 48; 48; 48; 48; 48; 48; 48; 48; 48; 48; 48; 48; 48; 48; 48; 48; 48; 48; 48; 48; 48; 48; 48; 48; 48; 48; 48; 48; 48; 48; 48; 48; 48; 44; 32; 45; 49; 48; 48; 48; 48; 48; 48; 48; 48; 48; 48; 48; 48; 48; 48; 48; 48; 48; 48; 48; 48; 48; 48; 48; 48; 48; 48; 48; 48; 48; 48; 48; 48; 48; 48; 48; 48; 48; 48; 48; 48; 48; 48; 44; 32; 78; 111; 110; 101; 93], [91; 123; 39; 39; 58; 32; 39; 92; 114; 46; 92; 92; 92; 39; 49; 41; 91; 32; 92; 46; 46; 46; 48; 48; 49; 48; 102; 102; 102; 102; 92; 110; 233; 49; 34; 39; 44; 32; 39; 32; 1092; 97; 39; 58; 32; 49; 48; 48; 48; 48; 48; 48; 48; 48; 48; 48; 48; 48; 48; 48; 48; 48; 48; 48; 48; 48; 48; 48; 48; 48; 48; 48; 48; 48; 48; 48; 48; 48; 48; 48; 48; 48; 48; 48; 44; 32; 39; 34; 92; 120; 49; 98; 92; 117; 100; 56; 48; 48; 25991; 46; 46; 46; 114; 769; 92; 116; 32; 32; 92; 117; 100; 56; 48; 48; 57; 39; 58; 32; 45; 49; 44; 32; 39; 91; 91; 92; 117; 100; 56; 48; 48; 92; 120; 49; 98; 46; 46; 46; 48; 102; 102; 102; 102; 92; 120; 97; 100; 92; 120; 56; 48; 39; 58; 32; 70; 97; 108; 115; 101; 44; 32; 46; 46; 46; 125; 44; 32; 57; 51; 48; 57; 53; 53; 54; 56; 48; 50; 54; 53; 52; 54; 51; 54; 49; 51; 46; 46; 46; 52; 51; 57; 57; 54; 56; 55; 55; 57; 55; 53; 49; 52; 48; 49; 53; 53; 56; 56; 44; 32; 53; 50; 56; 52; 55; 55; 48; 49; 55; 51; 53; 52; 53; 50; 50; 57; 50; 55; 46; 46; 46; 54; 51; 51; 52; 55; 52; 55; 49; 51; 57; 53; 54; 50; 54; 56; 49; 49; 53; 54; 44; 32; 123; 39; 101; 32; 39; 58; 32; 49; 48; 48; 48; 48; 48; 48; 48; 48; 48; 48; 48; 48; 48; 48; 48; 48; 48; 48; 48; 48; 48; 48; 48; 48; 48; 48; 48; 48; 48; 48; 48; 48; 48; 48; 48; 48; 48; 44; 32; 39; 233; 39; 58; 32; 49; 44; 32; 39; 20013; 92; 114; 39; 58; 32; 52; 54; 57; 50; 48; 48; 55; 55; 50; 49; 50; 48; 49; 52; 55; 57; 49; 53; 46; 46; 46; 51; 53; 55; 54; 57; 54; 55; 52; 52; 55; 51; 50; 53; 50; 48; 57; 51; 51; 57; 44; 32; 39; 92; 117; 101; 48; 48; 48; 92; 110; 92; 116; 128512; 41; 46; 46; 46; 100; 56; 48; 48; 34; 92; 39; 92; 117; 101; 48; 48; 48; 39; 58; 32; 78; 111; 110; 101; 44; 32; 46; 46; 46; 125; 44; 32; 123; 39; 39; 58; 32; 39; 97; 98; 99; 99; 1092; 39; 44; 32; 39; 32; 123; 93; 39; 58; 32; 45; 51; 44; 32; 39; 92; 92; 34; 93; 92; 117; 102; 102; 102; 102; 92; 120; 46; 46; 46; 48; 98; 92; 117; 50; 48; 48; 98; 92; 120; 56; 48; 46; 39; 58; 32; 49; 48; 48; 48; 48; 48; 48; 48; 48; 48; 48; 48; 48; 48; 48; 48; 48; 48; 48; 48; 48; 48; 48; 48; 48; 48; 48; 48; 48; 48; 48; 48; 48; 48; 48; 48; 48; 44; 32; 34; 20013; 39; 92; 110; 34; 58; 32; 45; 52; 53; 50; 53; 48; 49; 50; 49; 48; 51; 54; 50; 49; 54; 50; 53; 50; 53; 48; 50; 54; 55; 57; 54; 55; 49; 56; 54; 52; 55; 52; 52; 55; 51; 54; 50; 56; 48; 48; 125; 44; 32; 49; 48; 48; 48; 48; 48; 48; 48; 48; 48; 48; 48; 48; 48; 48; 48; 48; 48; 46; 46; 46; 48; 48; 48; 48; 48; 48; 48; 48; 48; 48; 48; 48; 48; 48; 48; 48; 48; 48; 48; 44; 32; 46; 46; 46; 93], [91; 123; 39; 39; 58; 32; 39; 92; 114; 46; 92; 92; 92; 39; 49; 41; 91; 32; 92; 46; 46; 46; 48; 48; 49; 48; 102; 102; 102; 102; 92; 110; 233; 49; 34; 39; 44; 32; 39; 32; 1092; 97; 39; 58; 32; 49; 48; 48; 48; 48; 48; 48; 48; 48; 48; 48; 48; 48; 48; 48; 48; 48; 48; 48; 48; 48; 48; 48; 48; 48; 48; 48; 48; 48; 48; 48; 48; 48; 48; 48; 48; 48; 48; 48; 44; 32; 39; 34; 92; 120; 49; 98; 92; 117; 100; 56; 48; 48; 25991; 46; 46; 46; 114; 769; 92; 116; 32; 32; 92; 117; 100; 56; 48; 48; 57; 39; 58; 32; 45; 49; 44; 32; 39; 91; 91; 92; 117; 100; 56; 48; 48; 92; 120; 49; 98; 46; 46; 46; 48; 102; 102; 102; 102; 92; 120; 97; 100; 92; 120; 56; 48; 39; 58; 32; 70; 97; 108; 115; 101; 44; 32; 46; 46; 46; 125; 44; 32; 57; 51; 48; 57; 53; 53; 54; 56; 48; 50; 54; 53; 52; 54; 51; 54; 49; 51; 46; 46; 46; 52; 51; 57; 57; 54; 56; 55; 55; 57; 55; 53; 49; 52; 48; 49; 53; 53; 56; 56; 44; 32; 53; 50; 56; 52; 55; 55; 48; 49; 55; 51; 53; 52; 53; 50; 50; 57; 50; 55; 46; 46; 46; 54; 51; 51; 52; 55; 52; 55; 49; 51; 57; 53; 54; 50; 54; 56; 49; 49; 53; 54; 44; 32; 123; 39; 101; 32; 39; 58; 32; 49; 48; 48; 48; 48; 48; 48; 48; 48; 48; 48; 48; 48; 48; 48; 48; 48; 48; 48; 48; 48; 48; 48; 48; 48; 48; 48; 48; 48; 48; 48; 48; 48; 48; 48; 48; 48; 48; 44; 32; 39; 233; 39; 58; 32; 49; 44; 32; 39; 20013; 92; 114; 39; 58; 32; 52; 54; 57; 50; 48; 48; 55; 55; 50; 49; 50; 48; 49; 52; 55; 57; 49; 53; 46; 46; 46; 51; 53; 55; 54; 57; 54; 55; 52; 52; 55; 51; 50; 53; 50; 48; 57; 51; 51; 57; 44; 32; 39; 92; 117; 101; 48; 48; 48; 92; 110; 92; 116; 128512; 41; 46; 46; 46; 100; 56; 48; 48; 34; 92; 39; 92; 117; 101; 48; 48; 48; 39; 58; 32; 78; 111; 110; 101; 44; 32; 46; 46; 46; 125; 44; 32; 123; 39; 39; 58; 32; 39; 97; 98; 99; 99; 1092; 39; 44; 32; 39; 32; 123; 93; 39; 58; 32; 45; 51; 44; 32; 39; 92; 92; 34; 93; 92; 117; 102; 102; 102; 102; 92; 120; 46; 46; 46; 48; 98; 92; 117; 50; 48; 48; 98; 92; 120; 56; 48; 46; 39; 58; 32; 49; 48; 48; 48; 48; 48; 48; 48; 48; 48; 48; 48; 48; 48; 48; 48; 48; 48; 48; 48; 48; 48; 48; 48; 48; 48; 48; 48; 48; 48; 48; 48; 48; 48; 48; 48; 48; 44; 32; 34; 20013; 39; 92; 110; 34; 58; 32; 45; 52; 53; 50; 53; 48; 49; 50; 49; 48; 51; 54; 50; 49; 54; 50; 53; 50; 53; 48; 50; 54; 55; 57; 54; 55; 49; 56; 54; 52; 55; 52; 52; 55; 51; 54; 50; 56; 48; 48; 125; 44; 32; 49; 48; 48; 48; 48; 48; 48; 48; 48; 48; 48; 48; 48; 48; 48; 48; 48; 48; 46; 46; 46; 48; 48; 48; 48; 48; 48; 48; 48; 48; 48; 48; 48; 48; 48; 48; 48; 48; 48; 48; 44; 32; 46; 46; 46; 93]);
  ((JList [(JDict [([917505], (JBool true)); ([], (JStr [34; 91; 41; 44; 39; 39; 160; 128512; 160; 0; 34; 25991; 98; 49; 13; 1114111; 127; 44; 122; 8203; 92; 39; 48; 34; 57; 93; 57; 39])); ([769; 34], (JStr [98; 1092; 32; 100; 98; 98; 98; 101; 32; 98; 98; 32; 1092; 100; 101])); ([32], (JInt (0))); ([100; 32; 100; 98; 97; 99; 99; 101; 101; 97; 97; 99; 1092; 98; 100; 101; 100; 98; 99; 32; 100; 1092; 100; 32; 100; 99; 32; 98; 98; 101; 32; 100; 1092; 97; 99], (JInt (2))); ([13], (JInt (0))); ([98; 97], (JInt (32469007960286332643108434805799297990376)))])]), [91; 123; 39; 92; 85; 48; 48; 48; 101; 48; 48; 48; 49; 39; 58; 32; 84; 114; 117; 101; 44; 32; 39; 39; 58; 32; 39; 34; 91; 41; 44; 92; 39; 92; 39; 92; 120; 97; 48; 128512; 92; 120; 97; 48; 92; 120; 48; 48; 34; 25991; 98; 49; 92; 114; 92; 85; 48; 48; 49; 48; 102; 102; 102; 102; 92; 120; 55; 102; 44; 122; 92; 117; 50; 48; 48; 98; 92; 92; 92; 39; 48; 34; 57; 93; 57; 92; 39; 39; 44; 32; 39; 769; 34; 39; 58; 32; 39; 98; 1092; 32; 100; 98; 98; 98; 101; 32; 98; 98; 32; 1092; 100; 101; 39; 44; 32; 39; 32; 39; 58; 32; 48; 44; 32; 39; 100; 32; 100; 98; 97; 99; 99; 101; 101; 97; 97; 99; 1092; 98; 100; 101; 100; 98; 99; 32; 100; 1092; 100; 32; 100; 99; 32; 98; 98; 101; 32; 100; 1092; 97; 99; 39; 58; 32; 50; 44; 32; 39; 92; 114; 39; 58; 32; 48; 44; 32; 39; 98; 97; 39; 58; 32; 51; 50; 52; 54; 57; 48; 48; 55; 57; 54; 48; 50; 56; 54; 51; 51; 50; 54; 52; 51; 49; 48; 56; 52; 51; 52; 56; 48; 53; 55; 57; 57; 50; 57; 55; 57; 57; 48; 51; 55; 54; 125; 93], [91; 123; 39; 39; 58; 32; 39; 34; 91; 41; 44; 92; 39; 92; 39; 92; 120; 97; 48; 46; 46; 46; 48; 98; 92; 92; 92; 39; 48; 34; 57; 93; 57; 92; 39; 39; 44; 32; 39; 92; 114; 39; 58; 32; 48; 44; 32; 39; 32; 39; 58; 32; 48; 44; 32; 39; 98; 97; 39; 58; 32; 51; 50; 52; 54; 57; 48; 48; 55; 57; 54; 48; 50; 56; 54; 51; 51; 50; 54; 46; 46; 46; 56; 52; 51; 52; 56; 48; 53; 55; 57; 57; 50; 57; 55; 57; 57; 48; 51; 55; 54; 44; 32; 46; 46; 46; 125; 93], [91; 123; 39; 39; 58; 32; 39; 34; 91; 41; 44; 92; 39; 92; 39; 92; 120; 97; 48; 46; 46; 46; 48; 98; 92; 92; 92; 39; 48; 34; 57; 93; 57; 92; 39; 39; 44; 32; 39; 92; 114; 39; 58; 32; 48; 44; 32; 39; 32; 39; 58; 32; 48; 44; 32; 39; 98; 97; 39; 58; 32; 51; 50; 52; 54; 57; 48; 48; 55; 57; 54; 48; 50; 56; 54; 51; 51; 50; 54; 46; 46; 46; 56; 52; 51; 52; 56; 48; 53; 55; 57; 57; 50; 57; 55; 57; 57; 48; 51; 55; 54; 44; 32; 46; 46; 46; 125; 93]);
  ((JBool false), [70; 97; 108; 115; 101], [70; 97; 108; 115; 101], [70; 97; 108; 115; 101]);
  ((JList [(JInt (3)); (JDict []); (JTuple [(JStr []); (JStr [100; 99; 32; 98; 32; 98; 98; 101; 97; 101; 32; 100; 99; 1092; 32; 32; 100; 98; 98; 101; 97; 32; 100; 32; 98; 101; 1092; 1092; 97; 32; 1092; 32]); (JInt (9711385602923864208751022966781579428802)); (JInt (-5)); (JStr [40; 34; 128512; 57344; 40; 0; 40; 13; 233; 27; 40; 160; 1114111; 55296; 160; 173; 39; 92; 40; 55296; 173; 8203; 160; 128512; 0; 92; 917505; 55296]); (JStr [9; 34; 92; 39; 20013; 125; 127; 10; 0; 32; 917505; 34; 123; 57; 8203; 233; 769; 65535; 41; 160; 92; 125; 41; 122; 34; 13; 13; 39; 40; 57; 123; 92]); (JStr [1092; 98; 97; 100; 1092; 32; 99; 32; 97; 32; 1092; 101; 101]); (JInt (-10000000000000000000000000000000000000000))]); JNone; (JInt (0)); (JTuple []); (JBool false); (JList [(JInt (-1000000000000000000000000000000000000000))])]), [91; 51; 44; 32; 123; 125; 44; 32; 40; 39; 39; 44; 32; 39; 100; 99; 32; 98; 32; 98; 98; 101; 97; 101; 32; 100; 99; 1092; 32; 32; 100; 98; 98; 101; 97; 32; 100; 32; 98; 101; 1092; 1092; 97; 32; 1092; 32; 39; 44; 32; 57; 55; 49; 49; 51; 56; 53; 54; 48; 50; 57; 50; 51; 56; 54; 52; 50; 48; 56; 55; 53; 49; 48; 50; 50; 57; 54; 54; 55; 56; 49; 53; 55; 57; 52; 50; 56; 56; 48; 50; 44; 32; 45; 53; 44; 32; 39; 40; 34; 128512; 92; 117; 101; 48; 48; 48; 40; 92; 120; 48; 48; 40; 92; 114; 233; 92; 120; 49; 98; 40; 92; 120; 97; 48; 92; 85; 48; 48; 49; 48; 102; 102; 102; 102; 92; 117; 100; 56; 48; 48; 92; 120; 97; 48; 92; 120; 97; 100; 92; 39; 92; 92; 40; 92; 117; 100; 56; 48; 48; 92; 120; 97; 100; 92; 117; 50; 48; 48; 98; 92; 120; 97; 48; 128512; 92; 120; 48; 48; 92; 92; 92; 85; 48; 48; 48; 101; 48; 48; 48; 49; 92; 117; 100; 56; 48; 48; 39; 44; 32; 39; 92; 116; 34; 92; 92; 92; 39; 20013; 125; 92; 120; 55; 102; 92; 110; 92; 120; 48; 48; 32; 92; 85; 48; 48; 48; 101; 48; 48; 48; 49; 34; 123; 57; 92; 117; 50; 48; 48; 98; 233; 769; 92; 117; 102; 102; 102; 102; 41; 92; 120; 97; 48; 92; 92; 125; 41; 122; 34; 92; 114; 92; 114; 92; 39; 40; 57; 123; 92; 92; 39; 44; 32; 39; 1092; 98; 97; 100; 1092; 32; 99; 32; 97; 32; 1092; 101; 101; 39; 44; 32; 45; 49; 48; 48; 48; 48; 48; 48; 48; 48; 48; 48; 48; 48; 48; 48; 48; 48; 48; 48; 48; 48; 48; 48; 48; 48; 48; 48; 48; 48; 48; 48; 48; 48; 48; 48; 48; 48; 48; 48; 48; 48; 41; 44; 32; 78; 111; 110; 101; 44; 32; 48; 44; 32; 40; 41; 44; 32; 70; 97; 108; 115; 101; 44; 32; 91; 45; 49; 48; 48; 48; 48; 48; 48; 48; 48; 48; 48; 48; 48; 48; 48; 48; 48; 48; 48; 48; 48; 48; 48; 48; 48; 48; 48; 48; 48; 48; 48; 48; 48; 48; 48; 48; 48; 48; 48; 48; 93; 93], [91; 51; 44; 32; 123; 125; 44; 32; 40; 39; 39; 44; 32; 39; 100; 99; 32; 98; 32; 98; 98; 101; 97; 101; 32; 100; 46; 46; 46; 101; 97; 32; 100; 32; 98; 101; 1092; 1092; 97; 32; 1092; 32; 39; 44; 32; 57; 55; 49; 49; 51; 56; 53; 54; 48; 50; 57; 50; 51; 56; 54; 52; 50; 48; 56; 55; 53; 49; 48; 50; 50; 57; 54; 54; 55; 56; 49; 53; 55; 57; 52; 50; 56; 56; 48; 50; 44; 32; 45; 53; 44; 32; 39; 40; 34; 128512; 92; 117; 101; 48; 48; 48; 40; 92; 120; 46; 46; 46; 48; 48; 101; 48; 48; 48; 49; 92; 117; 100; 56; 48; 48; 39; 44; 32; 39; 92; 116; 34; 92; 92; 92; 39; 20013; 125; 92; 120; 55; 46; 46; 46; 122; 34; 92; 114; 92; 114; 92; 39; 40; 57; 123; 92; 92; 39; 44; 32; 46; 46; 46; 41; 44; 32; 78; 111; 110; 101; 44; 32; 48; 44; 32; 40; 41; 44; 32; 46; 46; 46; 93], [91; 51; 44; 32; 123; 125; 44; 32; 40; 39; 39; 44; 32; 39; 100; 99; 32; 98; 32; 98; 98; 101; 97; 101; 32; 100; 46; 46; 46; 101; 97; 32; 100; 32; 98; 101; 1092; 1092; 97; 32; 1092; 32; 39; 44; 32; 57; 55; 49; 49; 51; 56; 53; 54; 48; 50; 57; 50; 51; 56; 54; 52; 50; 48; 56; 55; 53; 49; 48; 50; 50; 57; 54; 54; 55; 56; 49; 53; 55; 57; 52; 50; 56; 56; 48; 50; 44; 32; 45; 53; 44; 32; 39; 40; 34; 128512; 92; 117; 101; 48; 48; 48; 40; 92; 120; 46; 46; 46; 48; 48; 101; 48; 48; 48; 49; 92; 117; 100; 56; 48; 48; 39; 44; 32; 39; 92; 116; 34; 92; 92; 92; 39; 20013; 125; 92; 120; 55; 46; 46; 46; 122; 34; 92; 114; 92; 114; 92; 39; 40; 57; 123; 92; 92; 39; 44; 32; 46; 46; 46; 41; 44; 32; 78; 111; 110; 101; 44; 32; 48; 44; 32; 40; 41; 44; 32; 46; 46; 46; 93]);
  ((JStr [101; 32; 97; 1092; 98; 99; 100; 32]), [39; 101; 32; 97; 1092; 98; 99; 100; 32; 39], [39; 101; 32; 97; 1092; 98; 99; 100; 32; 39], [39; 101; 32; 97; 1092; 98; 99; 100; 32; 39]);
  ((JInt (-100000000000000000000000000000000000000)), [45; 49; 48; 48; 48; 48; 48; 48; 48; 48; 48; 48; 48; 48; 48; 48; 48; 48; 48; 48; 48; 48; 48; 48; 48; 48; 48; 48; 48; 48; 48; 48; 48; 48; 48; 48; 48; 48; 48; 48], [45; 49; 48; 48; 48; 48; 48; 48; 48; 48; 48; 48; 48; 48; 48; 48; 48; 48; 48; 48; 48; 48; 48; 48; 48; 48; 48; 48; 48; 48; 48; 48; 48; 48; 48; 48; 48; 48; 48; 48], [45; 49; 48; 48; 48; 48; 48; 48; 48; 48; 48; 48; 48; 48; 48; 48; 48; 48; 48; 48; 48; 48; 48; 48; 48; 48; 48; 48; 48; 48; 48; 48; 48; 48; 48; 48; 48; 48; 48; 48]);
  ((JStr [32; 97; 32; 101; 32; 100; 98; 97]), [39; 32; 97; 32; 101; 32; 100; 98; 97; 39], [39; 32; 97; 32; 101; 32; 100; 98; 97; 39], [39; 32; 97; 32; 101; 32; 100; 98; 97; 39]);
  ((JInt (68297138093586818283592474559360644138288)), [54; 56; 50; 57; 55; 49; 51; 56; 48; 57; 51; 53; 56; 54; 56; 49; 56; 50; 56; 51; 53; 57; 50; 52; 55; 52; 53; 53; 57; 51; 54; 48; 54; 52; 52; 49; 51; 56; 50; 56; 56], [54; 56; 50; 57; 55; 49; 51; 56; 48; 57; 51; 53; 56; 54; 56; 49; 56; 50; 46; 46; 46; 50; 52; 55; 52; 53; 53; 57; 51; 54; 48; 54; 52; 52; 49; 51; 56; 50; 56; 56], [54; 56; 50; 57; 55; 49; 51; 56; 48; 57; 51; 53; 56; 54; 56; 49; 56; 50; 46; 46; 46; 50; 52; 55; 52; 53; 53; 57; 51; 54; 48; 54; 52; 52; 49; 51; 56; 50; 56; 56]);
  ((JBool false), [70; 97; 108; 115; 101], [70; 97; 108; 115; 101], [70; 97; 108; 115; 101])] = true.
Proof. vm_compute. reflexivity. Qed.
Example texts_2 : forallb agrees
 [((JInt (1394552941145391676121978651927072012422)), [49; 51; 57; 52; 53; 53; 50; 57; 52; 49; 49; 52; 53; 51; 57; 49; 54; 55; 54; 49; 50; 49; 57; 55; 56; 54; 53; 49; 57; 50; 55; 48; 55; 50; 48; 49; 50; 52; 50; 50], [49; 51; 57; 52; 53; 53; 50; 57; 52; 49; 49; 52; 53; 51; 57; 49; 54; 55; 54; 49; 50; 49; 57; 55; 56; 54; 53; 49; 57; 50; 55; 48; 55; 50; 48; 49; 50; 52; 50; 50], [49; 51; 57; 52; 53; 53; 50; 57; 52; 49; 49; 52; 53; 51; 57; 49; 54; 55; 54; 49; 50; 49; 57; 55; 56; 54; 53; 49; 57; 50; 55; 48; 55; 50; 48; 49; 50; 52; 50; 50]);
  ((JStr [97; 1092; 100; 32; 100; 1092; 98; 32; 100; 1092; 32; 97; 100; 1092; 100; 32; 101; 1092; 32; 97; 101; 101; 99; 98; 100; 1092; 101; 101; 100]), [39; 97; 1092; 100; 32; 100; 1092; 98; 32; 100; 1092; 32; 97; 100; 1092; 100; 32; 101; 1092; 32; 97; 101; 101; 99; 98; 100; 1092; 101; 101; 100; 39], [39; 97; 1092; 100; 32; 100; 1092; 98; 32; 100; 1092; 32; 97; 46; 46; 46; 101; 1092; 32; 97; 101; 101; 99; 98; 100; 1092; 101; 101; 100; 39], [39; 97; 1092; 100; 32; 100; 1092; 98; 32; 100; 1092; 32; 97; 46; 46; 46; 101; 1092; 32; 97; 101; 101; 99; 98; 100; 1092; 101; 101; 100; 39]);
  ((JDict [([160], (JList [(JStr [32; 100; 98; 99; 32; 99; 1092; 98; 99; 99; 101; 98; 32]); (JInt (1000000000000000000000000000000000000000000)); (JInt (0)); (JStr [98; 99; 101; 99; 100; 100; 101; 99; 100; 32; 97; 100; 32]); (JInt (-10000000000000000000000000000000000000))])); ([], (JTuple [(JInt (19671729789540312269095792910033346488378)); (JInt (-3)); (JInt (-10000000000000000000000000000000000000000)); (JBool false); (JBool true); (JInt (-10000000000000000000000000000000000000))])); ([160; 39; 27; 20013; 20013; 127; 917505; 1114111; 128512; 13; 40; 160; 25991; 57344; 769; 160; 10; 39; 128512; 233; 233; 769; 92; 92; 128512; 40; 65535; 41; 92; 10; 25991; 39; 27; 1114111; 25991], (JTuple [(JStr [98; 100; 97; 32; 97; 97; 100; 32; 100; 1092; 32; 100; 98; 98])]))]), [123; 39; 92; 120; 97; 48; 39; 58; 32; 91; 39; 32; 100; 98; 99; 32; 99; 1092; 98; 99; 99; 101; 98; 32; 39; 44; 32; 49; 48; 48; 48; 48; 48; 48; 48; 48; 48; 48; 48; 48; 48; 48; 48; 48; 48; 48; 48; 48; 48; 48; 48; 48; 48; 48; 48; 48; 48; 48; 48; 48; 48; 48; 48; 48; 48; 48; 48; 48; 48; 48; 44; 32; 48; 44; 32; 39; 98; 99; 101; 99; 100; 100; 101; 99; 100; 32; 97; 100; 32; 39; 44; 32; 45; 49; 48; 48; 48; 48; 48; 48; 48; 48; 48; 48; 48; 48; 48; 48; 48; 48; 48; 48; 48; 48; 48; 48; 48; 48; 48; 48; 48; 48; 48; 48; 48; 48; 48; 48; 48; 48; 48; 93; 44; 32; 39; 39; 58; 32; 40; 49; 57; 54; 55; 49; 55; 50; 57; 55; 56; 57; 53; 52; 48; 51; 49; 50; 50; 54; 57; 48; 57; 53; 55; 57; 50; 57; 49; 48; 48; 51; 51; 51; 52; 54; 52; 56; 56; 51; 55; 56; 44; 32; 45; 51; 44; 32; 45; 49; 48; 48; 48; 48; 48; 48; 48; 48; 48; 48; 48; 48; 48; 48; 48; 48; 48; 48; 48; 48; 48; 48; 48; 48; 48; 48; 48; 48; 48; 48; 48; 48; 48; 48; 48; 48; 48; 48; 48; 48; 44; 32; 70; 97; 108; 115; 101; 44; 32; 84; 114; 117; 101; 44; 32; 45; 49; 48; 48; 48; 48; 48; 48; 48; 48; 48; 48; 48; 48; 48; 48; 48; 48; 48; 48; 48; 48; 48; 48; 48; 48; 48; 48; 48; 48; 48; 48; 48; 48; 48; 48; 48; 48; 48; 41; 44; 32; 34; 92; 120; 97; 48; 39; 92; 120; 49; 98; 20013; 20013; 92; 120; 55; 102; 92; 85; 48; 48; 48; 101; 48; 48; 48; 49; 92; 85; 48; 48; 49; 48; 102; 102; 102; 102; 128512; 92; 114; 40; 92; 120; 97; 48; 25991; 92; 117; 101; 48; 48; 48; 769; 92; 120; 97; 48; 92; 110; 39; 128512; 233; 233; 769; 92; 92; 92; 92; 128512; 40; 92; 117; 102; 102; 102; 102; 41; 92; 92; 92; 110; 25991; 39; 92; 120; 49; 98; 92; 85; 48; 48; 49; 48; 102; 102; 102; 102; 25991; 34; 58; 32; 40; 39; 98; 100; 97; 32; 97; 97; 100; 32; 100; 1092; 32; 100; 98; 98; 39; 44; 41; 125], [123; 39; 39; 58; 32; 40; 49; 57; 54; 55; 49; 55; 50; 57; 55; 56; 57; 53; 52; 48; 51; 49; 50; 50; 46; 46; 46; 53; 55; 57; 50; 57; 49; 48; 48; 51; 51; 51; 52; 54; 52; 56; 56; 51; 55; 56; 44; 32; 45; 51; 44; 32; 45; 49; 48; 48; 48; 48; 48; 48; 48; 48; 48; 48; 48; 48; 48; 48; 48; 48; 46; 46; 46; 48; 48; 48; 48; 48; 48; 48; 48; 48; 48; 48; 48; 48; 48; 48; 48; 48; 48; 48; 44; 32; 70; 97; 108; 115; 101; 44; 32; 84; 114; 117; 101; 44; 32; 45; 49; 48; 48; 48; 48; 48; 48; 48; 48; 48; 48; 48; 48; 48; 48; 48; 48; 48; 48; 48; 48; 48; 48; 48; 48; 48; 48; 48; 48; 48; 48; 48; 48; 48; 48; 48; 48; 48; 41; 44; 32; 39; 92; 120; 97; 48; 39; 58; 32; 91; 39; 32; 100; 98; 99; 32; 99; 1092; 98; 99; 99; 101; 98; 32; 39; 44; 32; 49; 48; 48; 48; 48; 48; 48; 48; 48; 48; 48; 48; 48; 48; 48; 48; 48; 48; 46; 46; 46; 48; 48; 48; 48; 48; 48; 48; 48; 48; 48; 48; 48; 48; 48; 48; 48; 48; 48; 48; 44; 32; 48; 44; 32; 39; 98; 99; 101; 99; 100; 100; 101; 99; 100; 32; 97; 100; 32; 39; 44; 32; 45; 49; 48; 48; 48; 48; 48; 48; 48; 48; 48; 48; 48; 48; 48; 48; 48; 48; 48; 48; 48; 48; 48; 48; 48; 48; 48; 48; 48; 48; 48; 48; 48; 48; 48; 48; 48; 48; 48; 93; 44; 32; 34; 92; 120; 97; 48; 39; 92; 120; 49; 98; 20013; 20013; 92; 46; 46; 46; 49; 98; 92; 85; 48; 48; 49; 48; 102; 102; 102; 102; 25991; 34; 58; 32; 40; 39; 98; 100; 97; 32; 97; 97; 100; 32; 100; 1092; 32; 100; 98; 98; 39; 44; 41; 125], [123; 39; 92; 120; 97; 48; 39; 58; 32; 91; 39; 32; 100; 98; 99; 32; 99; 1092; 98; 99; 99; 101; 98; 32; 39; 44; 32; 49; 48; 48; 48; 48; 48; 48; 48; 48; 48; 48; 48; 48; 48; 48; 48; 48; 48; 48; 48; 48; 48; 48; 48; 48; 48; 48; 48; 48; 48; 48; 48; 48; 48; 48; 48; 48; 48; 48; 48; 48; 48; 48; 44; 32; 48; 44; 32; 39; 98; 99; 101; 99; 100; 100; 101; 99; 100; 32; 97; 100; 32; 39; 44; 32; 45; 49; 48; 48; 48; 48; 48; 48; 48; 48; 48; 48; 48; 48; 48; 48; 48; 48; 48; 48; 48; 48; 48; 48; 48; 48; 48; 48; 48; 48; 48; 48; 48; 48; 48; 48; 48; 48; 48; 93; 44; 32; 39; 39; 58; 32; 40; 49; 57; 54; 55; 49; 55; 50; 57; 55; 56; 57; 53; 52; 48; 51; 49; 50; 50; 54; 57; 48; 57; 53; 55; 57; 50; 57; 49; 48; 48; 51; 51; 51; 52; 54; 52; 56; 56; 51; 55; 56; 44; 32; 45; 51; 44; 32; 45; 49; 48; 48; 48; 48; 48; 48; 48; 48; 48; 48; 48; 48; 48; 48; 48; 48; 48; 48; 48; 48; 48; 48; 48; 48; 48; 48; 48; 48; 48; 48; 48; 48; 48; 48; 48; 48; 48; 48; 48; 48; 44; 32; 70; 97; 108; 115; 101; 44; 32; 84; 114; 117; 101; 44; 32; 45; 49; 48; 48; 48; 48; 48; 48; 48; 48; 48; 48; 48; 48; 48; 48; 48; 48; 48; 48; 48; 48; 48; 48; 48; 48; 48; 48; 48; 48; 48; 48; 48; 48; 48; 48; 48; 48; 48; 41; 44; 32; 46; 46; 46; 125]);
  ((JList [(JStr [97]); (JInt (2)); (JList [(JStr [99]); JNone; (JBool true)]); (JDict [([97; 1092], (JBool false)); ([97], (JInt (-10000000000000000000000000000000000000000))); ([100; 97], (JInt (1000000000000000000000000000000000000000))); ([128; 41; 0], (JBool false)); ([100], (JBool false))]); (JDict [([0], (JInt (62056816577961370469958739862163880100847))); ([32; 100], JNone); ([1092; 101; 98; 99; 32; 32; 100; 98; 101; 98; 32; 100; 32; 98; 98; 100; 98; 100; 1092; 97; 97; 97; 100; 98; 32; 99; 97; 99; 98; 101; 101; 97; 97; 32; 99], (JBool true))]); (JList [JNone; (JStr [46; 9; 48; 97; 92; 769; 769; 27; 57344; 917505; 93; 65535; 40; 98; 27; 160; 34; 1114111; 27; 8203; 32; 65535; 92; 39; 91; 122; 122; 48]); (JInt (-2)); (JBool false)]); (JTuple [(JStr [101; 99; 99; 1092; 97; 99; 101; 98; 98; 32; 1092; 97; 98; 98; 100])]); (JDict [([32; 97; 100], (JInt (-10000000000000000000000000000000000000))); ([], (JStr [41])); ([32; 98], (JStr [34; 1114111; 92; 27; 233; 97; 91; 48; 98; 41; 97; 39])); ([13; 128512], (JStr [97; 99; 32; 99; 32; 99; 1092; 100; 98; 99; 1092; 98; 99; 101; 98; 32; 97; 32; 1092; 101; 101; 100; 32; 97; 98; 100; 97; 1092; 32])); ([57; 39; 39], (JInt (59054524674320631804397101809226095104606)))])]), [91; 39; 97; 39; 44; 32; 50; 44; 32; 91; 39; 99; 39; 44; 32; 78; 111; 110; 101; 44; 32; 84; 114; 117; 101; 93; 44; 32; 123; 39; 97; 1092; 39; 58; 32; 70; 97; 108; 115; 101; 44; 32; 39; 97; 39; 58; 32; 45; 49; 48; 48; 48; 48; 48; 48; 48; 48; 48; 48; 48; 48; 48; 48; 48; 48; 48; 48; 48; 48; 48; 48; 48; 48; 48; 48; 48; 48; 48; 48; 48; 48; 48; 48; 48; 48; 48; 48; 48; 48; 44; 32; 39; 100; 97; 39; 58; 32; 49; 48; 48; 48; 48; 48; 48; 48; 48; 48; 48; 48; 48; 48; 48; 48; 48; 48; 48; 48; 48; 48; 48; 48; 48; 48; 48; 48; 48; 48; 48; 48; 48; 48; 48; 48; 48; 48; 48; 48; 44; 32; 39; 92; 120; 56; 48; 41; 92; 120; 48; 48; 39; 58; 32; 70; 97; 108; 115; 101; 44; 32; 39; 100; 39; 58; 32; 70; 97; 108; 115; 101; 125; 44; 32; 123; 39; 92; 120; 48; 48; 39; 58; 32; 54; 50; 48; 53; 54; 56; 49; 54; 53; 55; 55; 57; 54; 49; 51; 55; 48; 52; 54; 57; 57; 53; 56; 55; 51; 57; 56; 54; 50; 49; 54; 51; 56; 56; 48; 49; 48; 48; 56; 52; 55; 44; 32; 39; 32; 100; 39; 58; 32; 78; 111; 110; 101; 44; 32; 39; 1092; 101; 98; 99; 32; 32; 100; 98; 101; 98; 32; 100; 32; 98; 98; 100; 98; 100; 1092; 97; 97; 97; 100; 98; 32; 99; 97; 99; 98; 101; 101; 97; 97; 32; 99; 39; 58; 32; 84; 114; 117; 101; 125; 44; 32; 91; 78; 111; 110; 101; 44; 32; 39; 46; 92; 116; 48; 97; 92; 92; 769; 769; 92; 120; 49; 98; 92; 117; 101; 48; 48; 48; 92; 85; 48; 48; 48; 101; 48; 48; 48; 49; 93; 92; 117; 102; 102; 102; 102; 40; 98; 92; 120; 49; 98; 92; 120; 97; 48; 34; 92; 85; 48; 48; 49; 48; 102; 102; 102; 102; 92; 120; 49; 98; 92; 117; 50; 48; 48; 98; 32; 92; 117; 102; 102; 102; 102; 92; 92; 92; 39; 91; 122; 122; 48; 39; 44; 32; 45; 50; 44; 32; 70; 97; 108; 115; 101; 93; 44; 32; 40; 39; 101; 99; 99; 1092; 97; 99; 101; 98; 98; 32; 1092; 97; 98; 98; 100; 39; 44; 41; 44; 32; 123; 39; 32; 97; 100; 39; 58; 32; 45; 49; 48; 48; 48; 48; 48; 48; 48; 48; 48; 48; 48; 48; 48; 48; 48; 48; 48; 48; 48; 48; 48; 48; 48; 48; 48; 48; 48; 48; 48; 48; 48; 48; 48; 48; 48; 48; 48; 44; 32; 39; 39; 58; 32; 39; 41; 39; 44; 32; 39; 32; 98; 39; 58; 32; 39; 34; 92; 85; 48; 48; 49; 48; 102; 102; 102; 102; 92; 92; 92; 120; 49; 98; 233; 97; 91; 48; 98; 41; 97; 92; 39; 39; 44; 32; 39; 92; 114; 128512; 39; 58; 32; 39; 97; 99; 32; 99; 32; 99; 1092; 100; 98; 99; 1092; 98; 99; 101; 98; 32; 97; 32; 1092; 101; 101; 100; 32; 97; 98; 100; 97; 1092; 32; 39; 44; 32; 34; 57; 39; 39; 34; 58; 32; 53; 57; 48; 53; 52; 53; 50; 52; 54; 55; 52; 51; 50; 48; 54; 51; 49; 56; 48; 52; 51; 57; 55; 49; 48; 49; 56; 48; 57; 50; 50; 54; 48; 57; 53; 49; 48; 52; 54; 48; 54; 125; 93], [91; 39; 97; 39; 44; 32; 50; 44; 32; 91; 39; 99; 39; 44; 32; 78; 111; 110; 101; 44; 32; 84; 114; 117; 101; 93; 44; 32; 123; 39; 97; 39; 58; 32; 45; 49; 48; 48; 48; 48; 48; 48; 48; 48; 48; 48; 48; 48; 48; 48; 48; 48; 46; 46; 46; 48; 48; 48; 48; 48; 48; 48; 48; 48; 48; 48; 48; 48; 48; 48; 48; 48; 48; 48; 44; 32; 39; 97; 1092; 39; 58; 32; 70; 97; 108; 115; 101; 44; 32; 39; 100; 39; 58; 32; 70; 97; 108; 115; 101; 44; 32; 39; 100; 97; 39; 58; 32; 49; 48; 48; 48; 48; 48; 48; 48; 48; 48; 48; 48; 48; 48; 48; 48; 48; 48; 48; 48; 48; 48; 48; 48; 48; 48; 48; 48; 48; 48; 48; 48; 48; 48; 48; 48; 48; 48; 48; 48; 44; 32; 46; 46; 46; 125; 44; 32; 123; 39; 92; 120; 48; 48; 39; 58; 32; 54; 50; 48; 53; 54; 56; 49; 54; 53; 55; 55; 57; 54; 49; 51; 55; 48; 52; 46; 46; 46; 56; 55; 51; 57; 56; 54; 50; 49; 54; 51; 56; 56; 48; 49; 48; 48; 56; 52; 55; 44; 32; 39; 32; 100; 39; 58; 32; 78; 111; 110; 101; 44; 32; 39; 1092; 101; 98; 99; 32; 32; 100; 98; 101; 98; 32; 100; 46; 46; 46; 100; 98; 32; 99; 97; 99; 98; 101; 101; 97; 97; 32; 99; 39; 58; 32; 84; 114; 117; 101; 125; 44; 32; 91; 78; 111; 110; 101; 44; 32; 39; 46; 92; 116; 48; 97; 92; 92; 769; 769; 92; 120; 49; 46; 46; 46; 117; 102; 102; 102; 102; 92; 92; 92; 39; 91; 122; 122; 48; 39; 44; 32; 45; 50; 44; 32; 70; 97; 108; 115; 101; 93; 44; 32; 46; 46; 46; 93], [91; 39; 97; 39; 44; 32; 50; 44; 32; 91; 39; 99; 39; 44; 32; 78; 111; 110; 101; 44; 32; 84; 114; 117; 101; 93; 44; 32; 123; 39; 97; 39; 58; 32; 45; 49; 48; 48; 48; 48; 48; 48; 48; 48; 48; 48; 48; 48; 48; 48; 48; 48; 46; 46; 46; 48; 48; 48; 48; 48; 48; 48; 48; 48; 48; 48; 48; 48; 48; 48; 48; 48; 48; 48; 44; 32; 39; 97; 1092; 39; 58; 32; 70; 97; 108; 115; 101; 44; 32; 39; 100; 39; 58; 32; 70; 97; 108; 115; 101; 44; 32; 39; 100; 97; 39; 58; 32; 49; 48; 48; 48; 48; 48; 48; 48; 48; 48; 48; 48; 48; 48; 48; 48; 48; 48; 48; 48; 48; 48; 48; 48; 48; 48; 48; 48; 48; 48; 48; 48; 48; 48; 48; 48; 48; 48; 48; 48; 44; 32; 46; 46; 46; 125; 44; 32; 123; 39; 92; 120; 48; 48; 39; 58; 32; 54; 50; 48; 53; 54; 56; 49; 54; 53; 55; 55; 57; 54; 49; 51; 55; 48; 52; 46; 46; 46; 56; 55; 51; 57; 56; 54; 50; 49; 54; 51; 56; 56; 48; 49; 48; 48; 56; 52; 55; 44; 32; 39; 32; 100; 39; 58; 32; 78; 111; 110; 101; 44; 32; 39; 1092; 101; 98; 99; 32; 32; 100; 98; 101; 98; 32; 100; 46; 46; 46; 100; 98; 32; 99; 97; 99; 98; 101; 101; 97; 97; 32; 99; 39; 58; 32; 84; 114; 117; 101; 125; 44; 32; 91; 78; 111; 110; 101; 44; 32; 39; 46; 92; 116; 48; 97; 92; 92; 769; 769; 92; 120; 49; 46; 46; 46; 117; 102; 102; 102; 102; 92; 92; 92; 39; 91; 122; 122; 48; 39; 44; 32; 45; 50; 44; 32; 70; 97; 108; 115; 101; 93; 44; 32; 46; 46; 46; 93]);
  ((JList [(JInt (1000000000000000000000000000000000000000000)); (JStr [1092; 1092; 101; 1092; 32; 1092; 99; 101; 97; 1092; 101; 101; 1092; 97; 101; 97; 101; 99; 98; 101; 99; 99; 32; 100; 99; 99; 97; 32; 98]); (JDict [([97; 98; 1092; 101; 1092; 98; 32; 99; 1092; 32; 1092; 101; 101; 100; 100; 101; 1092; 97; 100; 32; 32; 97; 32; 100; 99; 1092; 1092; 97; 100; 97; 101; 98; 1092; 1092; 101], (JStr [32; 97; 99; 100; 99; 1092; 98; 101]))])]), [91; 49; 48; 48; 48; 48; 48; 48; 48; 48; 48; 48; 48; 48; 48; 48; 48; 48; 48; 48; 48; 48; 48; 48; 48; 48; 48; 48; 48; 48; 48; 48; 48; 48; 48; 48; 48; 48; 48; 48; 48; 48; 48; 48; 44; 32; 39; 1092; 1092; 101; 1092; 32; 1092; 99; 101; 97; 1092; 101; 101; 1092; 97; 101; 97; 101; 99; 98; 101; 99; 99; 32; 100; 99; 99; 97; 32; 98; 39; 44; 32; 123; 39; 97; 98; 1092; 101; 1092; 98; 32; 99; 1092; 32; 1092; 101; 101; 100; 100; 101; 1092; 97; 100; 32; 32; 97; 32; 100; 99; 1092; 1092; 97; 100; 97; 101; 98; 1092; 1092; 101; 39; 58; 32; 39; 32; 97; 99; 100; 99; 1092; 98; 101; 39; 125; 93], [91; 49; 48; 48; 48; 48; 48; 48; 48; 48; 48; 48; 48; 48; 48; 48; 48; 48; 48; 46; 46; 46; 48; 48; 48; 48; 48; 48; 48; 48; 48; 48; 48; 48; 48; 48; 48; 48; 48; 48; 48; 44; 32; 39; 1092; 1092; 101; 1092; 32; 1092; 99; 101; 97; 1092; 101; 101; 46; 46; 46; 101; 99; 98; 101; 99; 99; 32; 100; 99; 99; 97; 32; 98; 39; 44; 32; 123; 39; 97; 98; 1092; 101; 1092; 98; 32; 99; 1092; 32; 1092; 101; 46; 46; 46; 32; 100; 99; 1092; 1092; 97; 100; 97; 101; 98; 1092; 1092; 101; 39; 58; 32; 39; 32; 97; 99; 100; 99; 1092; 98; 101; 39; 125; 93], [91; 49; 48; 48; 48; 48; 48; 48; 48; 48; 48; 48; 48; 48; 48; 48; 48; 48; 48; 46; 46; 46; 48; 48; 48; 48; 48; 48; 48; 48; 48; 48; 48; 48; 48; 48; 48; 48; 48; 48; 48; 44; 32; 39; 1092; 1092; 101; 1092; 32; 1092; 99; 101; 97; 1092; 101; 101; 46; 46; 46; 101; 99; 98; 101; 99; 99; 32; 100; 99; 99; 97; 32; 98; 39; 44; 32; 123; 39; 97; 98; 1092; 101; 1092; 98; 32; 99; 1092; 32; 1092; 101; 46; 46; 46; 32; 100; 99; 1092; 1092; 97; 100; 97; 101; 98; 1092; 1092; 101; 39; 58; 32; 39; 32; 97; 99; 100; 99; 1092; 98; 101; 39; 125; 93]);
  ((JInt (-10000000000000000000000000000000000000000)), [45; 49; 48; 48; 48; 48; 48; 48; 48; 48; 48; 48; 48; 48; 48; 48; 48; 48; 48; 48; 48; 48; 48; 48; 48; 48; 48; 48; 48; 48; 48; 48; 48; 48; 48; 48; 48; 48; 48; 48; 48; 48], [45; 49; 48; 48; 48; 48; 48; 48; 48; 48; 48; 48; 48; 48; 48; 48; 48; 48; 46; 46; 46; 48; 48; 48; 48; 48; 48; 48; 48; 48; 48; 48; 48; 48; 48; 48; 48; 48; 48; 48], [45; 49; 48; 48; 48; 48; 48; 48; 48; 48; 48; 48; 48; 48; 48; 48; 48; 48; 46; 46; 46; 48; 48; 48; 48; 48; 48; 48; 48; 48; 48; 48; 48; 48; 48; 48; 48; 48; 48; 48]);
  ((JBool false), [70; 97; 108; 115; 101], [70; 97; 108; 115; 101], [70; 97; 108; 115; 101]);
  ((JList [(JStr [127; 92; 57344; 233; 13; 13; 160; 65535; 20013; 8203; 233; 1114111; 40; 128; 25991])]), [91; 39; 92; 120; 55; 102; 92; 92; 92; 117; 101; 48; 48; 48; 233; 92; 114; 92; 114; 92; 120; 97; 48; 92; 117; 102; 102; 102; 102; 20013; 92; 117; 50; 48; 48; 98; 233; 92; 85; 48; 48; 49; 48; 102; 102; 102; 102; 40; 92; 120; 56; 48; 25991; 39; 93], [91; 39; 92; 120; 55; 102; 92; 92; 92; 117; 101; 48; 48; 48; 46; 46; 46; 48; 49; 48; 102; 102; 102; 102; 40; 92; 120; 56; 48; 25991; 39; 93], [91; 39; 92; 120; 55; 102; 92; 92; 92; 117; 101; 48; 48; 48; 46; 46; 46; 48; 49; 48; 102; 102; 102; 102; 40; 92; 120; 56; 48; 25991; 39; 93]);
  ((JList [(JList [(JBool true); (JInt (-2)); (JInt (10000000000000000000000000000000000000)); (JStr [97; 99; 32; 99; 101; 1092; 101; 32])]); JNone; (JTuple [(JInt (-1000000000000000000000000000000000000)); (JBool true); (JInt (-1000000000000000000000000000000000000000000)); JNone]); JNone; (JInt (10000000000000000000000000000000000000000)); (JInt (3)); (JList [(JStr [100; 97; 99]); (JStr [93; 127; 127; 91; 91; 40; 13; 769; 125; 27; 122; 34; 39]); (JBool false)]); (JStr [98; 98; 32; 98; 99; 100; 100; 1092; 98; 101; 1092; 99; 100; 101; 100])]), [91; 91; 84; 114; 117; 101; 44; 32; 45; 50; 44; 32; 49; 48; 48; 48; 48; 48; 48; 48; 48; 48; 48; 48; 48; 48; 48; 48; 48; 48; 48; 48; 48; 48; 48; 48; 48; 48; 48; 48; 48; 48; 48; 48; 48; 48; 48; 48; 48; 48; 44; 32; 39; 97; 99; 32; 99; 101; 1092; 101; 32; 39; 93; 44; 32; 78; 111; 110; 101; 44; 32; 40; 45; 49; 48; 48; 48; 48; 48; 48; 48; 48; 48; 48; 48; 48; 48; 48; 48; 48; 48; 48; 48; 48; 48; 48; 48; 48; 48; 48; 48; 48; 48; 48; 48; 48; 48; 48; 48; 48; 44; 32; 84; 114; 117; 101; 44; 32; 45; 49; 48; 48; 48; 48; 48; 48; 48; 48; 48; 48; 48; 48; 48; 48; 48; 48; 48; 48; 48; 48; 48; 48; 48; 48; 48; 48; 48; 48; 48; 48; 48; 48; 48; 48; 48; 48; 48; 48; 48; 48; 48; 48; 44; 32; 78; 111; 110; 101; 41; 44; 32; 78; 111; 110; 101; 44; 32; 49; 48; 48; 48; 48; 48; 48; 48; 48; 48; 48; 48; 48; 48; 48; 48; 48; 48; 48; 48; 48; 48; 48; 48; 48; 48; 48; 48; 48; 48; 48; 48; 48; 48; 48; 48; 48; 48; 48; 48; 48; 44; 32; 51; 44; 32; 91; 39; 100; 97; 99; 39; 44; 32; 39; 93; 92; 120; 55; 102; 92; 120; 55; 102; 91; 91; 40; 92; 114; 769; 125; 92; 120; 49; 98; 122; 34; 92; 39; 39; 44; 32; 70; 97; 108; 115; 101; 93; 44; 32; 39; 98; 98; 32; 98; 99; 100; 100; 1092; 98; 101; 1092; 99; 100; 101; 100; 39; 93], [91; 91; 84; 114; 117; 101; 44; 32; 45; 50; 44; 32; 49; 48; 48; 48; 48; 48; 48; 48; 48; 48; 48; 48; 48; 48; 48; 48; 48; 48; 48; 48; 48; 48; 48; 48; 48; 48; 48; 48; 48; 48; 48; 48; 48; 48; 48; 48; 48; 48; 44; 32; 39; 97; 99; 32; 99; 101; 1092; 101; 32; 39; 93; 44; 32; 78; 111; 110; 101; 44; 32; 40; 45; 49; 48; 48; 48; 48; 48; 48; 48; 48; 48; 48; 48; 48; 48; 48; 48; 48; 48; 48; 48; 48; 48; 48; 48; 48; 48; 48; 48; 48; 48; 48; 48; 48; 48; 48; 48; 48; 44; 32; 84; 114; 117; 101; 44; 32; 45; 49; 48; 48; 48; 48; 48; 48; 48; 48; 48; 48; 48; 48; 48; 48; 48; 48; 46; 46; 46; 48; 48; 48; 48; 48; 48; 48; 48; 48; 48; 48; 48; 48; 48; 48; 48; 48; 48; 48; 44; 32; 78; 111; 110; 101; 41; 44; 32; 78; 111; 110; 101; 44; 32; 49; 48; 48; 48; 48; 48; 48; 48; 48; 48; 48; 48; 48; 48; 48; 48; 48; 48; 46; 46; 46; 48; 48; 48; 48; 48; 48; 48; 48; 48; 48; 48; 48; 48; 48; 48; 48; 48; 48; 48; 44; 32; 51; 44; 32; 46; 46; 46; 93], [91; 91; 84; 114; 117; 101; 44; 32; 45; 50; 44; 32; 49; 48; 48; 48; 48; 48; 48; 48; 48; 48; 48; 48; 48; 48; 48; 48; 48; 48; 48; 48; 48; 48; 48; 48; 48; 48; 48; 48; 48; 48; 48; 48; 48; 48; 48; 48; 48; 48; 44; 32; 39; 97; 99; 32; 99; 101; 1092; 101; 32; 39; 93; 44; 32; 78; 111; 110; 101; 44; 32; 40; 45; 49; 48; 48; 48; 48; 48; 48; 48; 48; 48; 48; 48; 48; 48; 48; 48; 48; 48; 48; 48; 48; 48; 48; 48; 48; 48; 48; 48; 48; 48; 48; 48; 48; 48; 48; 48; 48; 44; 32; 84; 114; 117; 101; 44; 32; 45; 49; 48; 48; 48; 48; 48; 48; 48; 48; 48; 48; 48; 48; 48; 48; 48; 48; 46; 46; 46; 48; 48; 48; 48; 48; 48; 48; 48; 48; 48; 48; 48; 48; 48; 48; 48; 48; 48; 48; 44; 32; 78; 111; 110; 101; 41; 44; 32; 78; 111; 110; 101; 44; 32; 49; 48; 48; 48; 48; 48; 48; 48; 48; 48; 48; 48; 48; 48; 48; 48; 48; 48; 46; 46; 46; 48; 48; 48; 48; 48; 48; 48; 48; 48; 48; 48; 48; 48; 48; 48; 48; 48; 48; 48; 44; 32; 51; 44; 32; 46; 46; 46; 93]);
  ((JList [(JDict [([173; 13; 57344], (JInt (100000000000000000000000000000000000000000))); ([100; 101; 99], (JInt (-5)))])]), [91; 123; 39; 92; 120; 97; 100; 92; 114; 92; 117; 101; 48; 48; 48; 39; 58; 32; 49; 48; 48; 48; 48; 48; 48; 48; 48; 48; 48; 48; 48; 48; 48; 48; 48; 48; 48; 48; 48; 48; 48; 48; 48; 48; 48; 48; 48; 48; 48; 48; 48; 48; 48; 48; 48; 48; 48; 48; 48; 48; 44; 32; 39; 100; 101; 99; 39; 58; 32; 45; 53; 125; 93], [91; 123; 39; 100; 101; 99; 39; 58; 32; 45; 53; 44; 32; 39; 92; 120; 97; 100; 92; 114; 92; 117; 101; 48; 48; 48; 39; 58; 32; 49; 48; 48; 48; 48; 48; 48; 48; 48; 48; 48; 48; 48; 48; 48; 48; 48; 48; 46; 46; 46; 48; 48; 48; 48; 48; 48; 48; 48; 48; 48; 48; 48; 48; 48; 48; 48; 48; 48; 48; 125; 93], [91; 123; 39; 100; 101; 99; 39; 58; 32; 45; 53; 44; 32; 39; 92; 120; 97; 100; 92; 114; 92; 117; 101; 48; 48; 48; 39; 58; 32; 49; 48; 48; 48; 48; 48; 48; 48; 48; 48; 48; 48; 48; 48; 48; 48; 48; 48; 46; 46; 46; 48; 48; 48; 48; 48; 48; 48; 48; 48; 48; 48; 48; 48; 48; 48; 48; 48; 48; 48; 125; 93]);
  ((JDict [([32; 100; 100; 100; 100; 101; 99; 99; 99; 32; 98; 1092; 101; 101; 1092; 100; 98; 100; 100; 32; 32; 100; 98; 97; 97; 100; 97; 98; 101; 98; 1092; 99; 97; 100; 97], (JStr [101; 101; 1092; 32; 1092; 100; 100; 101])); ([], (JBool true)); ([100; 1092], (JDict [([101; 98; 101], (JStr [27; 123; 46; 0; 65535; 41; 46; 93; 98; 34; 34; 40; 48; 8203; 13; 44; 48; 57; 127; 92; 46; 44; 57; 46; 8203; 8203; 160; 98; 92; 93; 44])); ([98], (JBool true)); ([57344; 10; 41], (JStr [32; 99; 1092; 101; 100; 101; 97; 99])); ([9; 93], JNone); ([1092], (JInt (1000000000000000000000000000000000000000000))); ([917505; 57344], JNone); ([98; 98], (JInt (-10000000000000000000000000000000000000))); ([], (JStr [27; 160; 173; 27; 128; 128; 34; 92; 0; 40; 8203; 65535; 128; 40; 9; 173; 92; 127; 27; 34]))]))]), [123; 39; 32; 100; 100; 100; 100; 101; 99; 99; 99; 32; 98; 1092; 101; 101; 1092; 100; 98; 100; 100; 32; 32; 100; 98; 97; 97; 100; 97; 98; 101; 98; 1092; 99; 97; 100; 97; 39; 58; 32; 39; 101; 101; 1092; 32; 1092; 100; 100; 101; 39; 44; 32; 39; 39; 58; 32; 84; 114; 117; 101; 44; 32; 39; 100; 1092; 39; 58; 32; 123; 39; 101; 98; 101; 39; 58; 32; 39; 92; 120; 49; 98; 123; 46; 92; 120; 48; 48; 92; 117; 102; 102; 102; 102; 41; 46; 93; 98; 34; 34; 40; 48; 92; 117; 50; 48; 48; 98; 92; 114; 44; 48; 57; 92; 120; 55; 102; 92; 92; 46; 44; 57; 46; 92; 117; 50; 48; 48; 98; 92; 117; 50; 48; 48; 98; 92; 120; 97; 48; 98; 92; 92; 93; 44; 39; 44; 32; 39; 98; 39; 58; 32; 84; 114; 117; 101; 44; 32; 39; 92; 117; 101; 48; 48; 48; 92; 110; 41; 39; 58; 32; 39; 32; 99; 1092; 101; 100; 101; 97; 99; 39; 44; 32; 39; 92; 116; 93; 39; 58; 32; 78; 111; 110; 101; 44; 32; 39; 1092; 39; 58; 32; 49; 48; 48; 48; 48; 48; 48; 48; 48; 48; 48; 48; 48; 48; 48; 48; 48; 48; 48; 48; 48; 48; 48; 48; 48; 48; 48; 48; 48; 48; 48; 48; 48; 48; 48; 48; 48; 48; 48; 48; 48; 48; 48; 44; 32; 39; 92; 85; 48; 48; 48; 101; 48; 48; 48; 49; 92; 117; 101; 48; 48; 48; 39; 58; 32; 78; 111; 110; 101; 44; 32; 39; 98; 98; 39; 58; 32; 45; 49; 48; 48; 48; 48; 48; 48; 48; 48; 48; 48; 48; 48; 48; 48; 48; 48; 48; 48; 48; 48; 48; 48; 48; 48; 48; 48; 48; 48; 48; 48; 48; 48; 48; 48; 48; 48; 48; 44; 32; 39; 39; 58; 32; 39; 92; 120; 49; 98; 92; 120; 97; 48; 92; 120; 97; 100; 92; 120; 49; 98; 92; 120; 56; 48; 92; 120; 56; 48; 34; 92; 92; 92; 120; 48; 48; 40; 92; 117; 50; 48; 48; 98; 92; 117; 102; 102; 102; 102; 92; 120; 56; 48; 40; 92; 116; 92; 120; 97; 100; 92; 92; 92; 120; 55; 102; 92; 120; 49; 98; 34; 39; 125; 125], [123; 39; 39; 58; 32; 84; 114; 117; 101; 44; 32; 39; 32; 100; 100; 100; 100; 101; 99; 99; 99; 32; 98; 1092; 46; 46; 46; 98; 97; 97; 100; 97; 98; 101; 98; 1092; 99; 97; 100; 97; 39; 58; 32; 39; 101; 101; 1092; 32; 1092; 100; 100; 101; 39; 44; 32; 39; 100; 1092; 39; 58; 32; 123; 39; 39; 58; 32; 39; 92; 120; 49; 98; 92; 120; 97; 48; 92; 120; 97; 100; 46; 46; 46; 97; 100; 92; 92; 92; 120; 55; 102; 92; 120; 49; 98; 34; 39; 44; 32; 39; 92; 116; 93; 39; 58; 32; 78; 111; 110; 101; 44; 32; 39; 98; 39; 58; 32; 84; 114; 117; 101; 44; 32; 39; 98; 98; 39; 58; 32; 45; 49; 48; 48; 48; 48; 48; 48; 48; 48; 48; 48; 48; 48; 48; 48; 48; 48; 48; 48; 48; 48; 48; 48; 48; 48; 48; 48; 48; 48; 48; 48; 48; 48; 48; 48; 48; 48; 48; 44; 32; 46; 46; 46; 125; 125], [123; 39; 32; 100; 100; 100; 100; 101; 99; 99; 99; 32; 98; 1092; 101; 101; 1092; 100; 98; 100; 100; 32; 32; 100; 98; 97; 97; 100; 97; 98; 101; 98; 1092; 99; 97; 100; 97; 39; 58; 32; 39; 101; 101; 1092; 32; 1092; 100; 100; 101; 39; 44; 32; 39; 39; 58; 32; 84; 114; 117; 101; 44; 32; 46; 46; 46; 125]);
  ((JInt (99094591928532262403489577407584505729164)), [57; 57; 48; 57; 52; 53; 57; 49; 57; 50; 56; 53; 51; 50; 50; 54; 50; 52; 48; 51; 52; 56; 57; 53; 55; 55; 52; 48; 55; 53; 56; 52; 53; 48; 53; 55; 50; 57; 49; 54; 52], [57; 57; 48; 57; 52; 53; 57; 49; 57; 50; 56; 53; 51; 50; 50; 54; 50; 52; 46; 46; 46; 57; 53; 55; 55; 52; 48; 55; 53; 56; 52; 53; 48; 53; 55; 50; 57; 49; 54; 52], [57; 57; 48; 57; 52; 53; 57; 49; 57; 50; 56; 53; 51; 50; 50; 54; 50; 52; 46; 46; 46; 57; 53; 55; 55; 52; 48; 55; 53; 56; 52; 53; 48; 53; 55; 50; 57; 49; 54; 52]);
  ((JList []), [91; 93], [91; 93], [91; 93]);
  ((JList [(JList [(JInt (-4)); (JBool true); (JInt (4943116874540892765872707991876738323647)); (JStr []); (JBool true); (JStr [93; 9; 40; 128; 55296; 125; 1114111; 13; 128512; 1114111; 233; 40; 32; 123]); (JBool true)])]), [91; 91; 45; 52; 44; 32; 84; 114; 117; 101; 44; 32; 52; 57; 52; 51; 49; 49; 54; 56; 55; 52; 53; 52; 48; 56; 57; 50; 55; 54; 53; 56; 55; 50; 55; 48; 55; 57; 57; 49; 56; 55; 54; 55; 51; 56; 51; 50; 51; 54; 52; 55; 44; 32; 39; 39; 44; 32; 84; 114; 117; 101; 44; 32; 39; 93; 92; 116; 40; 92; 120; 56; 48; 92; 117; 100; 56; 48; 48; 125; 92; 85; 48; 48; 49; 48; 102; 102; 102; 102; 92; 114; 128512; 92; 85; 48; 48; 49; 48; 102; 102; 102; 102; 233; 40; 32; 123; 39; 44; 32; 84; 114; 117; 101; 93; 93], [91; 91; 45; 52; 44; 32; 84; 114; 117; 101; 44; 32; 52; 57; 52; 51; 49; 49; 54; 56; 55; 52; 53; 52; 48; 56; 57; 50; 55; 54; 53; 56; 55; 50; 55; 48; 55; 57; 57; 49; 56; 55; 54; 55; 51; 56; 51; 50; 51; 54; 52; 55; 44; 32; 39; 39; 44; 32; 84; 114; 117; 101; 44; 32; 39; 93; 92; 116; 40; 92; 120; 56; 48; 92; 117; 100; 56; 46; 46; 46; 85; 48; 48; 49; 48; 102; 102; 102; 102; 233; 40; 32; 123; 39; 44; 32; 46; 46; 46; 93; 93], [91; 91; 45; 52; 44; 32; 84; 114; 117; 101; 44; 32; 52; 57; 52; 51; 49; 49; 54; 56; 55; 52; 53; 52; 48; 56; 57; 50; 55; 54; 53; 56; 55; 50; 55; 48; 55; 57; 57; 49; 56; 55; 54; 55; 51; 56; 51; 50; 51; 54; 52; 55; 44; 32; 39; 39; 44; 32; 84; 114; 117; 101; 44; 32; 39; 93; 92; 116; 40; 92; 120; 56; 48; 92; 117; 100; 56; 46; 46; 46; 85; 48; 48; 49; 48; 102; 102; 102; 102; 233; 40; 32; 123; 39; 44; 32; 46; 46; 46; 93; 93]);
  ((JInt (100000000000000000000000000000000000000)), [49; 48; 48; 48; 48; 48; 48; 48; 48; 48; 48; 48; 48; 48; 48; 48; 48; 48; 48; 48; 48; 48; 48; 48; 48; 48; 48; 48; 48; 48; 48; 48; 48; 48; 48; 48; 48; 48; 48], [49; 48; 48; 48; 48; 48; 48; 48; 48; 48; 48; 48; 48; 48; 48; 48; 48; 48; 48; 48; 48; 48; 48; 48; 48; 48; 48; 48; 48; 48; 48; 48; 48; 48; 48; 48; 48; 48; 48], [49; 48; 48; 48; 48; 48; 48; 48; 48; 48; 48; 48; 48; 48; 48; 48; 48; 48; 48; 48; 48; 48; 48; 48; 48; 48; 48; 48; 48; 48; 48; 48; 48; 48; 48; 48; 48; 48; 48]);
  ((JList [(JDict [([92; 8203; 1114111; 27; 65535; 13; 27; 9; 41; 160; 1114111; 9; 27; 1114111; 127; 92; 65535; 0; 128; 27; 25991; 127; 127; 57344; 10; 41; 55296; 128; 128512; 128; 160; 25991; 173; 917505; 769], (JStr [769; 20013; 92; 160; 9; 1114111; 41; 57344; 39; 41; 55296; 127; 8203; 128; 25991; 127; 41; 8203; 40; 9; 233; 57344; 917505; 13; 34; 39; 27; 769; 1114111; 65535; 34]))]); JNone]), [91; 123; 39; 92; 92; 92; 117; 50; 48; 48; 98; 92; 85; 48; 48; 49; 48; 102; 102; 102; 102; 92; 120; 49; 98; 92; 117; 102; 102; 102; 102; 92; 114; 92; 120; 49; 98; 92; 116; 41; 92; 120; 97; 48; 92; 85; 48; 48; 49; 48; 102; 102; 102; 102; 92; 116; 92; 120; 49; 98; 92; 85; 48; 48; 49; 48; 102; 102; 102; 102; 92; 120; 55; 102; 92; 92; 92; 117; 102; 102; 102; 102; 92; 120; 48; 48; 92; 120; 56; 48; 92; 120; 49; 98; 25991; 92; 120; 55; 102; 92; 120; 55; 102; 92; 117; 101; 48; 48; 48; 92; 110; 41; 92; 117; 100; 56; 48; 48; 92; 120; 56; 48; 128512; 92; 120; 56; 48; 92; 120; 97; 48; 25991; 92; 120; 97; 100; 92; 85; 48; 48; 48; 101; 48; 48; 48; 49; 769; 39; 58; 32; 39; 769; 20013; 92; 92; 92; 120; 97; 48; 92; 116; 92; 85; 48; 48; 49; 48; 102; 102; 102; 102; 41; 92; 117; 101; 48; 48; 48; 92; 39; 41; 92; 117; 100; 56; 48; 48; 92; 120; 55; 102; 92; 117; 50; 48; 48; 98; 92; 120; 56; 48; 25991; 92; 120; 55; 102; 41; 92; 117; 50; 48; 48; 98; 40; 92; 116; 233; 92; 117; 101; 48; 48; 48; 92; 85; 48; 48; 48; 101; 48; 48; 48; 49; 92; 114; 34; 92; 39; 92; 120; 49; 98; 769; 92; 85; 48; 48; 49; 48; 102; 102; 102; 102; 92; 117; 102; 102; 102; 102; 34; 39; 125; 44; 32; 78; 111; 110; 101; 93], [91; 123; 39; 92; 92; 92; 117; 50; 48; 48; 98; 92; 85; 48; 48; 46; 46; 46; 97; 100; 92; 85; 48; 48; 48; 101; 48; 48; 48; 49; 769; 39; 58; 32; 39; 769; 20013; 92; 92; 92; 120; 97; 48; 92; 116; 92; 85; 46; 46; 46; 49; 48; 102; 102; 102; 102; 92; 117; 102; 102; 102; 102; 34; 39; 125; 44; 32; 78; 111; 110; 101; 93], [91; 123; 39; 92; 92; 92; 117; 50; 48; 48; 98; 92; 85; 48; 48; 46; 46; 46; 97; 100; 92; 85; 48; 48; 48; 101; 48; 48; 48; 49; 769; 39; 58; 32; 39; 769; 20013; 92; 92; 92; 120; 97; 48; 92; 116; 92; 85; 46; 46; 46; 49; 48; 102; 102; 102; 102; 92; 117; 102; 102; 102; 102; 34; 39; 125; 44; 32; 78; 111; 110; 101; 93]);
  ((JList [(JStr [13; 173; 41; 20013; 27; 160; 9; 1114111; 128512; 173; 34; 9; 127; 9; 10; 769; 10; 10; 769; 25991; 917505; 8203; 34; 917505; 41; 8203; 233; 27; 10; 769; 233]); (JTuple [JNone; (JStr [48; 9; 34; 57; 97; 34; 0; 40; 917505; 40; 123; 128; 233; 49; 160; 25991; 92; 98; 233; 93; 122; 127; 65535; 97; 173; 122; 20013; 40; 48; 40; 9]); JNone; JNone]); JNone; (JStr [917505; 1114111; 233; 769; 34; 9; 34; 173]); (JStr [123; 125; 769; 769; 20013; 39; 25991; 97; 65535; 34; 92; 160; 46; 41]); (JDict [([], (JBool true)); ([99; 101; 32; 101; 1092; 99; 100; 99; 101; 97; 32; 1092; 1092; 98; 98; 101; 101; 98; 98; 101; 100; 1092; 101; 97; 97; 99; 99; 99; 97; 100; 32; 99; 100; 97; 99], (JInt (-100000000000000000000000000000000000000000))); ([98; 1092], (JInt (1)))])]), [91; 39; 92; 114; 92; 120; 97; 100; 41; 20013; 92; 120; 49; 98; 92; 120; 97; 48; 92; 116; 92; 85; 48; 48; 49; 48; 102; 102; 102; 102; 128512; 92; 120; 97; 100; 34; 92; 116; 92; 120; 55; 102; 92; 116; 92; 110; 769; 92; 110; 92; 110; 769; 25991; 92; 85; 48; 48; 48; 101; 48; 48; 48; 49; 92; 117; 50; 48; 48; 98; 34; 92; 85; 48; 48; 48; 101; 48; 48; 48; 49; 41; 92; 117; 50; 48; 48; 98; 233; 92; 120; 49; 98; 92; 110; 769; 233; 39; 44; 32; 40; 78; 111; 110; 101; 44; 32; 39; 48; 92; 116; 34; 57; 97; 34; 92; 120; 48; 48; 40; 92; 85; 48; 48; 48; 101; 48; 48; 48; 49; 40; 123; 92; 120; 56; 48; 233; 49; 92; 120; 97; 48; 25991; 92; 92; 98; 233; 93; 122; 92; 120; 55; 102; 92; 117; 102; 102; 102; 102; 97; 92; 120; 97; 100; 122; 20013; 40; 48; 40; 92; 116; 39; 44; 32; 78; 111; 110; 101; 44; 32; 78; 111; 110; 101; 41; 44; 32; 78; 111; 110; 101; 44; 32; 39; 92; 85; 48; 48; 48; 101; 48; 48; 48; 49; 92; 85; 48; 48; 49; 48; 102; 102; 102; 102; 233; 769; 34; 92; 116; 34; 92; 120; 97; 100; 39; 44; 32; 39; 123; 125; 769; 769; 20013; 92; 39; 25991; 97; 92; 117; 102; 102; 102; 102; 34; 92; 92; 92; 120; 97; 48; 46; 41; 39; 44; 32; 123; 39; 39; 58; 32; 84; 114; 117; 101; 44; 32; 39; 99; 101; 32; 101; 1092; 99; 100; 99; 101; 97; 32; 1092; 1092; 98; 98; 101; 101; 98; 98; 101; 100; 1092; 101; 97; 97; 99; 99; 99; 97; 100; 32; 99; 100; 97; 99; 39; 58; 32; 45; 49; 48; 48; 48; 48; 48; 48; 48; 48; 48; 48; 48; 48; 48; 48; 48; 48; 48; 48; 48; 48; 48; 48; 48; 48; 48; 48; 48; 48; 48; 48; 48; 48; 48; 48; 48; 48; 48; 48; 48; 48; 48; 44; 32; 39; 98; 1092; 39; 58; 32; 49; 125; 93], [91; 39; 92; 114; 92; 120; 97; 100; 41; 20013; 92; 120; 49; 98; 46; 46; 46; 50; 48; 48; 98; 233; 92; 120; 49; 98; 92; 110; 769; 233; 39; 44; 32; 40; 78; 111; 110; 101; 44; 32; 39; 48; 92; 116; 34; 57; 97; 34; 92; 120; 48; 48; 40; 46; 46; 46; 102; 97; 92; 120; 97; 100; 122; 20013; 40; 48; 40; 92; 116; 39; 44; 32; 78; 111; 110; 101; 44; 32; 78; 111; 110; 101; 41; 44; 32; 78; 111; 110; 101; 44; 32; 39; 92; 85; 48; 48; 48; 101; 48; 48; 48; 49; 92; 85; 46; 46; 46; 120; 97; 100; 233; 769; 34; 92; 116; 34; 92; 120; 97; 100; 39; 44; 32; 39; 123; 125; 769; 769; 20013; 92; 39; 25991; 97; 92; 117; 102; 102; 102; 102; 34; 92; 92; 92; 120; 97; 48; 46; 41; 39; 44; 32; 123; 39; 39; 58; 32; 84; 114; 117; 101; 44; 32; 39; 98; 1092; 39; 58; 32; 49; 44; 32; 39; 99; 101; 32; 101; 1092; 99; 100; 99; 101; 97; 32; 1092; 46; 46; 46; 101; 97; 97; 99; 99; 99; 97; 100; 32; 99; 100; 97; 99; 39; 58; 32; 45; 49; 48; 48; 48; 48; 48; 48; 48; 48; 48; 48; 48; 48; 48; 48; 48; 48; 46; 46; 46; 48; 48; 48; 48; 48; 48; 48; 48; 48; 48; 48; 48; 48; 48; 48; 48; 48; 48; 48; 125; 93], [91; 39; 92; 114; 92; 120; 97; 100; 41; 20013; 92; 120; 49; 98; 46; 46; 46; 50; 48; 48; 98; 233; 92; 120; 49; 98; 92; 110; 769; 233; 39; 44; 32; 40; 78; 111; 110; 101; 44; 32; 39; 48; 92; 116; 34; 57; 97; 34; 92; 120; 48; 48; 40; 46; 46; 46; 102; 97; 92; 120; 97; 100; 122; 20013; 40; 48; 40; 92; 116; 39; 44; 32; 78; 111; 110; 101; 44; 32; 78; 111; 110; 101; 41; 44; 32; 78; 111; 110; 101; 44; 32; 39; 92; 85; 48; 48; 48; 101; 48; 48; 48; 49; 92; 85; 46; 46; 46; 120; 97; 100; 233; 769; 34; 92; 116; 34; 92; 120; 97; 100; 39; 44; 32; 39; 123; 125; 769; 769; 20013; 92; 39; 25991; 97; 92; 117; 102; 102; 102; 102; 34; 92; 92; 92; 120; 97; 48; 46; 41; 39; 44; 32; 123; 39; 39; 58; 32; 84; 114; 117; 101; 44; 32; 39; 98; 1092; 39; 58; 32; 49; 44; 32; 39; 99; 101; 32; 101; 1092; 99; 100; 99; 101; 97; 32; 1092; 46; 46; 46; 101; 97; 97; 99; 99; 99; 97; 100; 32; 99; 100; 97; 99; 39; 58; 32; 45; 49; 48; 48; 48; 48; 48; 48; 48; 48; 48; 48; 48; 48; 48; 48; 48; 48; 46; 46; 46; 48; 48; 48; 48; 48; 48; 48; 48; 48; 48; 48; 48; 48; 48; 48; 48; 48; 48; 48; 125; 93]);
  ((JList [(JDict [([173; 9], (JStr [32; 32; 32; 99; 99; 100; 32; 1092; 97; 99; 97; 32; 97; 99]))]); JNone]), [91; 123; 39; 92; 120; 97; 100; 92; 116; 39; 58; 32; 39; 32; 32; 32; 99; 99; 100; 32; 1092; 97; 99; 97; 32; 97; 99; 39; 125; 44; 32; 78; 111; 110; 101; 93], [91; 123; 39; 92; 120; 97; 100; 92; 116; 39; 58; 32; 39; 32; 32; 32; 99; 99; 100; 32; 1092; 97; 99; 97; 32; 97; 99; 39; 125; 44; 32; 78; 111; 110; 101; 93], [91; 123; 39; 92; 120; 97; 100; 92; 116; 39; 58; 32; 39; 32; 32; 32; 99; 99; 100; 32; 1092; 97; 99; 97; 32; 97; 99; 39; 125; 44; 32; 78; 111; 110; 101; 93]);
  ((JInt (1000000000000000000000000000000000000000)), [49; 48; 48; 48; 48; 48; 48; 48; 48; 48; 48; 48; 48; 48; 48; 48; 48; 48; 48; 48; 48; 48; 48; 48; 48; 48; 48; 48; 48; 48; 48; 48; 48; 48; 48; 48; 48; 48; 48; 48], [49; 48; 48; 48; 48; 48; 48; 48; 48; 48; 48; 48; 48; 48; 48; 48; 48; 48; 48; 48; 48; 48; 48; 48; 48; 48; 48; 48; 48; 48; 48; 48; 48; 48; 48; 48; 48; 48; 48; 48], [49; 48; 48; 48; 48; 48; 48; 48; 48; 48; 48; 48; 48; 48; 48; 48; 48; 48; 48; 48; 48; 48; 48; 48; 48; 48; 48; 48; 48; 48; 48; 48; 48; 48; 48; 48; 48; 48; 48; 48]);
  ((JTuple [(JDict [([99; 1092; 1092; 100; 99; 99; 99; 98; 98; 98; 101; 101; 99; 97; 32; 101; 1092; 1092; 98; 100; 98; 100; 32; 98; 32; 32; 97; 98; 97; 101; 32; 101; 101; 97; 1092], (JInt (-100000000000000000000000000000000000000))); ([], (JBool false)); ([10; 92; 8203], (JBool false))]); (JDict [([160; 65535; 57], (JStr [32; 98; 101])); ([57], (JBool false)); ([], (JInt (-1000000000000000000000000000000000000000))); ([8203], (JInt (100000000000000000000000000000000000000))); ([13; 1114111; 10], (JStr [9; 34; 25991; 9; 233; 92; 65535; 917505; 769; 39; 10; 173; 40; 173; 1114111; 127; 34; 128512; 20013; 233; 127; 769; 0; 160; 20013; 8203; 128512; 57344; 160; 769; 173])); ([101; 101; 101], (JStr [173; 65535; 128; 8203; 233; 917505; 10; 46; 39; 49; 127; 8203; 91; 8203; 57344; 93; 93; 20013; 173; 39; 48; 10; 27; 46; 49; 46; 57344]))]); (JStr [99; 101; 32; 100; 32]); (JStr []); (JList [(JBool false)]); (JStr [32; 1092; 98; 97; 98])]), [40; 123; 39; 99; 1092; 1092; 100; 99; 99; 99; 98; 98; 98; 101; 101; 99; 97; 32; 101; 1092; 1092; 98; 100; 98; 100; 32; 98; 32; 32; 97; 98; 97; 101; 32; 101; 101; 97; 1092; 39; 58; 32; 45; 49; 48; 48; 48; 48; 48; 48; 48; 48; 48; 48; 48; 48; 48; 48; 48; 48; 48; 48; 48; 48; 48; 48; 48; 48; 48; 48; 48; 48; 48; 48; 48; 48; 48; 48; 48; 48; 48; 48; 44; 32; 39; 39; 58; 32; 70; 97; 108; 115; 101; 44; 32; 39; 92; 110; 92; 92; 92; 117; 50; 48; 48; 98; 39; 58; 32; 70; 97; 108; 115; 101; 125; 44; 32; 123; 39; 92; 120; 97; 48; 92; 117; 102; 102; 102; 102; 57; 39; 58; 32; 39; 32; 98; 101; 39; 44; 32; 39; 57; 39; 58; 32; 70; 97; 108; 115; 101; 44; 32; 39; 39; 58; 32; 45; 49; 48; 48; 48; 48; 48; 48; 48; 48; 48; 48; 48; 48; 48; 48; 48; 48; 48; 48; 48; 48; 48; 48; 48; 48; 48; 48; 48; 48; 48; 48; 48; 48; 48; 48; 48; 48; 48; 48; 48; 44; 32; 39; 92; 117; 50; 48; 48; 98; 39; 58; 32; 49; 48; 48; 48; 48; 48; 48; 48; 48; 48; 48; 48; 48; 48; 48; 48; 48; 48; 48; 48; 48; 48; 48; 48; 48; 48; 48; 48; 48; 48; 48; 48; 48; 48; 48; 48; 48; 48; 48; 44; 32; 39; 92; 114; 92; 85; 48; 48; 49; 48; 102; 102; 102; 102; 92; 110; 39; 58; 32; 39; 92; 116; 34; 25991; 92; 116; 233; 92; 92; 92; 117; 102; 102; 102; 102; 92; 85; 48; 48; 48; 101; 48; 48; 48; 49; 769; 92; 39; 92; 110; 92; 120; 97; 100; 40; 92; 120; 97; 100; 92; 85; 48; 48; 49; 48; 102; 102; 102; 102; 92; 120; 55; 102; 34; 128512; 20013; 233; 92; 120; 55; 102; 769; 92; 120; 48; 48; 92; 120; 97; 48; 20013; 92; 117; 50; 48; 48; 98; 128512; 92; 117; 101; 48; 48; 48; 92; 120; 97; 48; 769; 92; 120; 97; 100; 39; 44; 32; 39; 101; 101; 101; 39; 58; 32; 34; 92; 120; 97; 100; 92; 117; 102; 102; 102; 102; 92; 120; 56; 48; 92; 117; 50; 48; 48; 98; 233; 92; 85; 48; 48; 48; 101; 48; 48; 48; 49; 92; 110; 46; 39; 49; 92; 120; 55; 102; 92; 117; 50; 48; 48; 98; 91; 92; 117; 50; 48; 48; 98; 92; 117; 101; 48; 48; 48; 93; 93; 20013; 92; 120; 97; 100; 39; 48; 92; 110; 92; 120; 49; 98; 46; 49; 46; 92; 117; 101; 48; 48; 48; 34; 125; 44; 32; 39; 99; 101; 32; 100; 32; 39; 44; 32; 39; 39; 44; 32; 91; 70; 97; 108; 115; 101; 93; 44; 32; 39; 32; 1092; 98; 97; 98; 39; 41], [40; 123; 39; 39; 58; 32; 70; 97; 108; 115; 101; 44; 32; 39; 92; 110; 92; 92; 92; 117; 50; 48; 48; 98; 39; 58; 32; 70; 97; 108; 115; 101; 44; 32; 39; 99; 1092; 1092; 100; 99; 99; 99; 98; 98; 98; 101; 101; 46; 46; 46; 32; 98; 32; 32; 97; 98; 97; 101; 32; 101; 101; 97; 1092; 39; 58; 32; 45; 49; 48; 48; 48; 48; 48; 48; 48; 48; 48; 48; 48; 48; 48; 48; 48; 48; 48; 48; 48; 48; 48; 48; 48; 48; 48; 48; 48; 48; 48; 48; 48; 48; 48; 48; 48; 48; 48; 48; 125; 44; 32; 123; 39; 39; 58; 32; 45; 49; 48; 48; 48; 48; 48; 48; 48; 48; 48; 48; 48; 48; 48; 48; 48; 48; 46; 46; 46; 48; 48; 48; 48; 48; 48; 48; 48; 48; 48; 48; 48; 48; 48; 48; 48; 48; 48; 48; 44; 32; 39; 92; 114; 92; 85; 48; 48; 49; 48; 102; 102; 102; 102; 92; 110; 39; 58; 32; 39; 92; 116; 34; 25991; 92; 116; 233; 92; 92; 92; 117; 102; 46; 46; 46; 101; 48; 48; 48; 92; 120; 97; 48; 769; 92; 120; 97; 100; 39; 44; 32; 39; 57; 39; 58; 32; 70; 97; 108; 115; 101; 44; 32; 39; 101; 101; 101; 39; 58; 32; 34; 92; 120; 97; 100; 92; 117; 102; 102; 102; 102; 92; 120; 46; 46; 46; 92; 120; 49; 98; 46; 49; 46; 92; 117; 101; 48; 48; 48; 34; 44; 32; 46; 46; 46; 125; 44; 32; 39; 99; 101; 32; 100; 32; 39; 44; 32; 39; 39; 44; 32; 91; 70; 97; 108; 115; 101; 93; 44; 32; 39; 32; 1092; 98; 97; 98; 39; 41], [40; 123; 39; 39; 58; 32; 70; 97; 108; 115; 101; 44; 32; 39; 92; 110; 92; 92; 92; 117; 50; 48; 48; 98; 39; 58; 32; 70; 97; 108; 115; 101; 44; 32; 39; 99; 1092; 1092; 100; 99; 99; 99; 98; 98; 98; 101; 101; 46; 46; 46; 32; 98; 32; 32; 97; 98; 97; 101; 32; 101; 101; 97; 1092; 39; 58; 32; 45; 49; 48; 48; 48; 48; 48; 48; 48; 48; 48; 48; 48; 48; 48; 48; 48; 48; 48; 48; 48; 48; 48; 48; 48; 48; 48; 48; 48; 48; 48; 48; 48; 48; 48; 48; 48; 48; 48; 48; 125; 44; 32; 123; 39; 39; 58; 32; 45; 49; 48; 48; 48; 48; 48; 48; 48; 48; 48; 48; 48; 48; 48; 48; 48; 48; 46; 46; 46; 48; 48; 48; 48; 48; 48; 48; 48; 48; 48; 48; 48; 48; 48; 48; 48; 48; 48; 48; 44; 32; 39; 92; 114; 92; 85; 48; 48; 49; 48; 102; 102; 102; 102; 92; 110; 39; 58; 32; 39; 92; 116; 34; 25991; 92; 116; 233; 92; 92; 92; 117; 102; 46; 46; 46; 101; 48; 48; 48; 92; 120; 97; 48; 769; 92; 120; 97; 100; 39; 44; 32; 39; 57; 39; 58; 32; 70; 97; 108; 115; 101; 44; 32; 39; 101; 101; 101; 39; 58; 32; 34; 92; 120; 97; 100; 92; 117; 102; 102; 102; 102; 92; 120; 46; 46; 46; 92; 120; 49; 98; 46; 49; 46; 92; 117; 101; 48; 48; 48; 34; 44; 32; 46; 46; 46; 125; 44; 32; 39; 99; 101; 32; 100; 32; 39; 44; 32; 39; 39; 44; 32; 91; 70; 97; 108; 115; 101; 93; 44; 32; 39; 32; 1092; 98; 97; 98; 39; 41])] = true.
Proof. vm_compute. reflexivity. Qed.
Example texts_3 : forallb agrees
 [((JDict [([], (JList [(JInt (-1)); (JStr [128; 92; 39; 0; 233; 65535; 20013; 1114111; 1114111; 27; 92; 917505; 41; 10; 1114111; 128; 40; 10; 34; 41; 9; 20013; 173; 39; 25991; 40; 127; 1114111; 39; 13])])); ([98; 57344; 48; 32; 49; 34; 769; 917505; 46; 1114111; 10; 93; 122; 233; 48; 57; 44; 125; 93; 13; 98; 57344; 27; 128; 40; 917505; 46; 34; 49; 46; 9; 98; 127; 9; 10], (JList [(JBool true); JNone; (JStr [100; 97; 1092; 99; 32; 101; 1092; 100; 98; 100; 101; 100; 97; 32; 100; 32; 97; 99; 100; 99; 100; 97; 100; 32; 32; 1092; 99; 1092; 98; 100; 1092]); (JInt (91295561233085635991047478623166247655056)); (JStr [27; 39; 769; 13; 98; 92; 46; 127; 92; 55296; 122; 41; 160; 769; 10; 34; 39; 13; 233; 127]); (JInt (1000000000000000000000000000000000000000)); (JStr [101; 98]); (JInt (-2))])); ([1092; 32], (JStr [98; 32; 97; 32; 99; 1092; 101; 32; 101; 98; 32; 1092; 1092])); ([32; 98], (JDict [([1092; 100; 97], (JStr [98; 100; 101; 1092; 1092; 100; 98; 99; 99; 99; 99; 98; 99; 1092; 100; 97; 100; 99; 98; 1092; 98; 97; 99; 32; 1092; 98; 99; 101; 97; 1092])); ([917505], (JBool true)); ([55296; 55296; 65535; 20013; 1114111; 39; 25991; 127; 40; 0; 55296; 8203; 917505; 128; 65535; 92; 40; 65535; 0; 917505; 20013; 8203; 233; 917505; 173; 92; 9; 0; 1114111; 173; 10; 10; 25991; 917505; 9], (JStr [101; 100; 100])); ([], (JBool false)); ([122; 93; 25991], (JInt (2))); ([1092; 1092; 98; 100; 97; 97; 97; 1092; 98; 1092; 101; 32; 1092; 98; 97; 97; 32; 97; 1092; 32; 32; 101; 100; 101; 100; 98; 99; 99; 32; 100; 100; 32; 32; 32; 1092], (JBool false))])); ([8203; 8203], (JList [(JBool false); (JInt (9168552188312805631555591850847693132565)); (JInt (1000000000000000000000000000000000000000000))]))]), [123; 39; 39; 58; 32; 91; 45; 49; 44; 32; 39; 92; 120; 56; 48; 92; 92; 92; 39; 92; 120; 48; 48; 233; 92; 117; 102; 102; 102; 102; 20013; 92; 85; 48; 48; 49; 48; 102; 102; 102; 102; 92; 85; 48; 48; 49; 48; 102; 102; 102; 102; 92; 120; 49; 98; 92; 92; 92; 85; 48; 48; 48; 101; 48; 48; 48; 49; 41; 92; 110; 92; 85; 48; 48; 49; 48; 102; 102; 102; 102; 92; 120; 56; 48; 40; 92; 110; 34; 41; 92; 116; 20013; 92; 120; 97; 100; 92; 39; 25991; 40; 92; 120; 55; 102; 92; 85; 48; 48; 49; 48; 102; 102; 102; 102; 92; 39; 92; 114; 39; 93; 44; 32; 39; 98; 92; 117; 101; 48; 48; 48; 48; 32; 49; 34; 769; 92; 85; 48; 48; 48; 101; 48; 48; 48; 49; 46; 92; 85; 48; 48; 49; 48; 102; 102; 102; 102; 92; 110; 93; 122; 233; 48; 57; 44; 125; 93; 92; 114; 98; 92; 117; 101; 48; 48; 48; 92; 120; 49; 98; 92; 120; 56; 48; 40; 92; 85; 48; 48; 48; 101; 48; 48; 48; 49; 46; 34; 49; 46; 92; 116; 98; 92; 120; 55; 102; 92; 116; 92; 110; 39; 58; 32; 91; 84; 114; 117; 101; 44; 32; 78; 111; 110; 101; 44; 32; 39; 100; 97; 1092; 99; 32; 101; 1092; 100; 98; 100; 101; 100; 97; 32; 100; 32; 97; 99; 100; 99; 100; 97; 100; 32; 32; 1092; 99; 1092; 98; 100; 1092; 39; 44; 32; 57; 49; 50; 57; 53; 53; 54; 49; 50; 51; 51; 48; 56; 53; 54; 51; 53; 57; 57; 49; 48; 52; 55; 52; 55; 56; 54; 50; 51; 49; 54; 54; 50; 52; 55; 54; 53; 53; 48; 53; 54; 44; 32; 39; 92; 120; 49; 98; 92; 39; 769; 92; 114; 98; 92; 92; 46; 92; 120; 55; 102; 92; 92; 92; 117; 100; 56; 48; 48; 122; 41; 92; 120; 97; 48; 769; 92; 110; 34; 92; 39; 92; 114; 233; 92; 120; 55; 102; 39; 44; 32; 49; 48; 48; 48; 48; 48; 48; 48; 48; 48; 48; 48; 48; 48; 48; 48; 48; 48; 48; 48; 48; 48; 48; 48; 48; 48; 48; 48; 48; 48; 48; 48; 48; 48; 48; 48; 48; 48; 48; 48; 44; 32; 39; 101; 98; 39; 44; 32; 45; 50; 93; 44; 32; 39; 1092; 32; 39; 58; 32; 39; 98; 32; 97; 32; 99; 1092; 101; 32; 101; 98; 32; 1092; 1092; 39; 44; 32; 39; 32; 98; 39; 58; 32; 123; 39; 1092; 100; 97; 39; 58; 32; 39; 98; 100; 101; 1092; 1092; 100; 98; 99; 99; 99; 99; 98; 99; 1092; 100; 97; 100; 99; 98; 1092; 98; 97; 99; 32; 1092; 98; 99; 101; 97; 1092; 39; 44; 32; 39; 92; 85; 48; 48; 48; 101; 48; 48; 48; 49; 39; 58; 32; 84; 114; 117; 101; 44; 32; 34; 92; 117; 100; 56; 48; 48; 92; 117; 100; 56; 48; 48; 92; 117; 102; 102; 102; 102; 20013; 92; 85; 48; 48; 49; 48; 102; 102; 102; 102; 39; 25991; 92; 120; 55; 102; 40; 92; 120; 48; 48; 92; 117; 100; 56; 48; 48; 92; 117; 50; 48; 48; 98; 92; 85; 48; 48; 48; 101; 48; 48; 48; 49; 92; 120; 56; 48; 92; 117; 102; 102; 102; 102; 92; 92; 40; 92; 117; 102; 102; 102; 102; 92; 120; 48; 48; 92; 85; 48; 48; 48; 101; 48; 48; 48; 49; 20013; 92; 117; 50; 48; 48; 98; 233; 92; 85; 48; 48; 48; 101; 48; 48; 48; 49; 92; 120; 97; 100; 92; 92; 92; 116; 92; 120; 48; 48; 92; 85; 48; 48; 49; 48; 102; 102; 102; 102; 92; 120; 97; 100; 92; 110; 92; 110; 25991; 92; 85; 48; 48; 48; 101; 48; 48; 48; 49; 92; 116; 34; 58; 32; 39; 101; 100; 100; 39; 44; 32; 39; 39; 58; 32; 70; 97; 108; 115; 101; 44; 32; 39; 122; 93; 25991; 39; 58; 32; 50; 44; 32; 39; 1092; 1092; 98; 100; 97; 97; 97; 1092; 98; 1092; 101; 32; 1092; 98; 97; 97; 32; 97; 1092; 32; 32; 101; 100; 101; 100; 98; 99; 99; 32; 100; 100; 32; 32; 32; 1092; 39; 58; 32; 70; 97; 108; 115; 101; 125; 44; 32; 39; 92; 117; 50; 48; 48; 98; 92; 117; 50; 48; 48; 98; 39; 58; 32; 91; 70; 97; 108; 115; 101; 44; 32; 57; 49; 54; 56; 53; 53; 50; 49; 56; 56; 51; 49; 50; 56; 48; 53; 54; 51; 49; 53; 53; 53; 53; 57; 49; 56; 53; 48; 56; 52; 55; 54; 57; 51; 49; 51; 50; 53; 54; 53; 44; 32; 49; 48; 48; 48; 48; 48; 48; 48; 48; 48; 48; 48; 48; 48; 48; 48; 48; 48; 48; 48; 48; 48; 48; 48; 48; 48; 48; 48; 48; 48; 48; 48; 48; 48; 48; 48; 48; 48; 48; 48; 48; 48; 48; 93; 125], [123; 39; 39; 58; 32; 91; 45; 49; 44; 32; 39; 92; 120; 56; 48; 92; 92; 92; 39; 92; 120; 48; 48; 46; 46; 46; 85; 48; 48; 49; 48; 102; 102; 102; 102; 92; 39; 92; 114; 39; 93; 44; 32; 39; 32; 98; 39; 58; 32; 123; 39; 39; 58; 32; 70; 97; 108; 115; 101; 44; 32; 39; 122; 93; 25991; 39; 58; 32; 50; 44; 32; 39; 1092; 100; 97; 39; 58; 32; 39; 98; 100; 101; 1092; 1092; 100; 98; 99; 99; 99; 99; 98; 46; 46; 46; 99; 98; 1092; 98; 97; 99; 32; 1092; 98; 99; 101; 97; 1092; 39; 44; 32; 39; 1092; 1092; 98; 100; 97; 97; 97; 1092; 98; 1092; 101; 32; 46; 46; 46; 100; 101; 100; 98; 99; 99; 32; 100; 100; 32; 32; 32; 1092; 39; 58; 32; 70; 97; 108; 115; 101; 44; 32; 46; 46; 46; 125; 44; 32; 39; 98; 92; 117; 101; 48; 48; 48; 48; 32; 49; 34; 769; 46; 46; 46; 49; 46; 92; 116; 98; 92; 120; 55; 102; 92; 116; 92; 110; 39; 58; 32; 91; 84; 114; 117; 101; 44; 32; 78; 111; 110; 101; 44; 32; 39; 100; 97; 1092; 99; 32; 101; 1092; 100; 98; 100; 101; 100; 46; 46; 46; 100; 99; 100; 97; 100; 32; 32; 1092; 99; 1092; 98; 100; 1092; 39; 44; 32; 57; 49; 50; 57; 53; 53; 54; 49; 50; 51; 51; 48; 56; 53; 54; 51; 53; 57; 46; 46; 46; 55; 52; 55; 56; 54; 50; 51; 49; 54; 54; 50; 52; 55; 54; 53; 53; 48; 53; 54; 44; 32; 39; 92; 120; 49; 98; 92; 39; 769; 92; 114; 98; 92; 92; 46; 46; 46; 769; 92; 110; 34; 92; 39; 92; 114; 233; 92; 120; 55; 102; 39; 44; 32; 49; 48; 48; 48; 48; 48; 48; 48; 48; 48; 48; 48; 48; 48; 48; 48; 48; 48; 48; 48; 48; 48; 48; 48; 48; 48; 48; 48; 48; 48; 48; 48; 48; 48; 48; 48; 48; 48; 48; 48; 44; 32; 46; 46; 46; 93; 44; 32; 39; 1092; 32; 39; 58; 32; 39; 98; 32; 97; 32; 99; 1092; 101; 32; 101; 98; 32; 1092; 1092; 39; 44; 32; 46; 46; 46; 125], [123; 39; 39; 58; 32; 91; 45; 49; 44; 32; 39; 92; 120; 56; 48; 92; 92; 92; 39; 92; 120; 48; 48; 233; 92; 117; 102; 102; 102; 102; 20013; 92; 85; 48; 48; 49; 48; 102; 102; 102; 102; 92; 85; 48; 48; 49; 48; 102; 102; 102; 102; 92; 120; 49; 98; 92; 92; 92; 85; 48; 48; 48; 101; 48; 48; 48; 49; 41; 92; 110; 92; 85; 48; 48; 49; 48; 102; 102; 102; 102; 92; 120; 56; 48; 40; 92; 110; 34; 41; 92; 116; 20013; 92; 120; 97; 100; 92; 39; 25991; 40; 92; 120; 55; 102; 92; 85; 48; 48; 49; 48; 102; 102; 102; 102; 92; 39; 92; 114; 39; 93; 44; 32; 39; 98; 92; 117; 101; 48; 48; 48; 48; 32; 49; 34; 769; 92; 85; 48; 48; 48; 101; 48; 48; 48; 49; 46; 92; 85; 48; 48; 49; 48; 102; 102; 102; 102; 92; 110; 93; 122; 233; 48; 57; 44; 125; 93; 92; 114; 98; 92; 117; 101; 48; 48; 48; 92; 120; 49; 98; 92; 120; 56; 48; 40; 92; 85; 48; 48; 48; 101; 48; 48; 48; 49; 46; 34; 49; 46; 92; 116; 98; 92; 120; 55; 102; 92; 116; 92; 110; 39; 58; 32; 91; 84; 114; 117; 101; 44; 32; 78; 111; 110; 101; 44; 32; 39; 100; 97; 1092; 99; 32; 101; 1092; 100; 98; 100; 101; 100; 97; 32; 100; 32; 97; 99; 100; 99; 100; 97; 100; 32; 32; 1092; 99; 1092; 98; 100; 1092; 39; 44; 32; 57; 49; 50; 57; 53; 53; 54; 49; 50; 51; 51; 48; 56; 53; 54; 51; 53; 57; 57; 49; 48; 52; 55; 52; 55; 56; 54; 50; 51; 49; 54; 54; 50; 52; 55; 54; 53; 53; 48; 53; 54; 44; 32; 39; 92; 120; 49; 98; 92; 39; 769; 92; 114; 98; 92; 92; 46; 92; 120; 55; 102; 92; 92; 92; 117; 100; 56; 48; 48; 122; 41; 92; 120; 97; 48; 769; 92; 110; 34; 92; 39; 92; 114; 233; 92; 120; 55; 102; 39; 44; 32; 49; 48; 48; 48; 48; 48; 48; 48; 48; 48; 48; 48; 48; 48; 48; 48; 48; 48; 48; 48; 48; 48; 48; 48; 48; 48; 48; 48; 48; 48; 48; 48; 48; 48; 48; 48; 48; 48; 48; 48; 44; 32; 39; 101; 98; 39; 44; 32; 45; 50; 93; 44; 32; 46; 46; 46; 125]);
  ((JStr [1092; 100; 1092; 100; 101; 32; 97; 99; 1092; 100; 97; 101; 32; 98]), [39; 1092; 100; 1092; 100; 101; 32; 97; 99; 1092; 100; 97; 101; 32; 98; 39], [39; 1092; 100; 1092; 100; 101; 32; 97; 99; 1092; 100; 97; 101; 32; 98; 39], [39; 1092; 100; 1092; 100; 101; 32; 97; 99; 1092; 100; 97; 101; 32; 98; 39]);
  ((JStr [55296; 48; 49; 122; 44; 173; 160; 1114111; 122; 34; 39; 57344; 917505; 1114111; 0; 57; 128512; 27; 34; 57]), [39; 92; 117; 100; 56; 48; 48; 48; 49; 122; 44; 92; 120; 97; 100; 92; 120; 97; 48; 92; 85; 48; 48; 49; 48; 102; 102; 102; 102; 122; 34; 92; 39; 92; 117; 101; 48; 48; 48; 92; 85; 48; 48; 48; 101; 48; 48; 48; 49; 92; 85; 48; 48; 49; 48; 102; 102; 102; 102; 92; 120; 48; 48; 57; 128512; 92; 120; 49; 98; 34; 57; 39], [39; 92; 117; 100; 56; 48; 48; 48; 49; 122; 44; 92; 120; 46; 46; 46; 102; 92; 120; 48; 48; 57; 128512; 92; 120; 49; 98; 34; 57; 39], [39; 92; 117; 100; 56; 48; 48; 48; 49; 122; 44; 92; 120; 46; 46; 46; 102; 92; 120; 48; 48; 57; 128512; 92; 120; 49; 98; 34; 57; 39]);
  ((JDict [([97], (JList [JNone; (JStr [13; 46; 233; 98; 0; 91; 0; 917505; 233; 233; 32; 8203; 173; 1114111; 34; 127; 917505; 97; 40; 173; 125; 769; 57344; 39; 34; 128; 128; 127; 39; 917505]); (JBool true)]))]), [123; 39; 97; 39; 58; 32; 91; 78; 111; 110; 101; 44; 32; 39; 92; 114; 46; 233; 98; 92; 120; 48; 48; 91; 92; 120; 48; 48; 92; 85; 48; 48; 48; 101; 48; 48; 48; 49; 233; 233; 32; 92; 117; 50; 48; 48; 98; 92; 120; 97; 100; 92; 85; 48; 48; 49; 48; 102; 102; 102; 102; 34; 92; 120; 55; 102; 92; 85; 48; 48; 48; 101; 48; 48; 48; 49; 97; 40; 92; 120; 97; 100; 125; 769; 92; 117; 101; 48; 48; 48; 92; 39; 34; 92; 120; 56; 48; 92; 120; 56; 48; 92; 120; 55; 102; 92; 39; 92; 85; 48; 48; 48; 101; 48; 48; 48; 49; 39; 44; 32; 84; 114; 117; 101; 93; 125], [123; 39; 97; 39; 58; 32; 91; 78; 111; 110; 101; 44; 32; 39; 92; 114; 46; 233; 98; 92; 120; 48; 48; 91; 92; 120; 46; 46; 46; 102; 92; 39; 92; 85; 48; 48; 48; 101; 48; 48; 48; 49; 39; 44; 32; 84; 114; 117; 101; 93; 125], [123; 39; 97; 39; 58; 32; 91; 78; 111; 110; 101; 44; 32; 39; 92; 114; 46; 233; 98; 92; 120; 48; 48; 91; 92; 120; 48; 48; 92; 85; 48; 48; 48; 101; 48; 48; 48; 49; 233; 233; 32; 92; 117; 50; 48; 48; 98; 92; 120; 97; 100; 92; 85; 48; 48; 49; 48; 102; 102; 102; 102; 34; 92; 120; 55; 102; 92; 85; 48; 48; 48; 101; 48; 48; 48; 49; 97; 40; 92; 120; 97; 100; 125; 769; 92; 117; 101; 48; 48; 48; 92; 39; 34; 92; 120; 56; 48; 92; 120; 56; 48; 92; 120; 55; 102; 92; 39; 92; 85; 48; 48; 48; 101; 48; 48; 48; 49; 39; 44; 32; 84; 114; 117; 101; 93; 44; 32; 46; 46; 46; 125]);
  ((JDict [([97; 98; 99; 98; 101; 99; 100; 32; 101; 100; 100; 1092; 1092; 1092; 101; 100; 32; 101; 99; 1092; 99; 99; 1092; 97; 97; 32; 100; 97; 101; 101; 101; 97; 99; 99; 32], (JTuple [(JStr [917505; 128512; 57]); JNone])); ([101; 32; 100], (JList [(JStr [32; 101]); (JStr [97; 98; 98; 99; 32; 101; 97; 101]); (JBool false); (JInt (-1000000000000000000000000000000000000)); (JInt (55054895309277831425944203993524161246967))]))]), [123; 39; 97; 98; 99; 98; 101; 99; 100; 32; 101; 100; 100; 1092; 1092; 1092; 101; 100; 32; 101; 99; 1092; 99; 99; 1092; 97; 97; 32; 100; 97; 101; 101; 101; 97; 99; 99; 32; 39; 58; 32; 40; 39; 92; 85; 48; 48; 48; 101; 48; 48; 48; 49; 128512; 57; 39; 44; 32; 78; 111; 110; 101; 41; 44; 32; 39; 101; 32; 100; 39; 58; 32; 91; 39; 32; 101; 39; 44; 32; 39; 97; 98; 98; 99; 32; 101; 97; 101; 39; 44; 32; 70; 97; 108; 115; 101; 44; 32; 45; 49; 48; 48; 48; 48; 48; 48; 48; 48; 48; 48; 48; 48; 48; 48; 48; 48; 48; 48; 48; 48; 48; 48; 48; 48; 48; 48; 48; 48; 48; 48; 48; 48; 48; 48; 48; 48; 44; 32; 53; 53; 48; 53; 52; 56; 57; 53; 51; 48; 57; 50; 55; 55; 56; 51; 49; 52; 50; 53; 57; 52; 52; 50; 48; 51; 57; 57; 51; 53; 50; 52; 49; 54; 49; 50; 52; 54; 57; 54; 55; 93; 125], [123; 39; 97; 98; 99; 98; 101; 99; 100; 32; 101; 100; 100; 1092; 46; 46; 46; 1092; 97; 97; 32; 100; 97; 101; 101; 101; 97; 99; 99; 32; 39; 58; 32; 40; 39; 92; 85; 48; 48; 48; 101; 48; 48; 48; 49; 128512; 57; 39; 44; 32; 78; 111; 110; 101; 41; 44; 32; 39; 101; 32; 100; 39; 58; 32; 91; 39; 32; 101; 39; 44; 32; 39; 97; 98; 98; 99; 32; 101; 97; 101; 39; 44; 32; 70; 97; 108; 115; 101; 44; 32; 45; 49; 48; 48; 48; 48; 48; 48; 48; 48; 48; 48; 48; 48; 48; 48; 48; 48; 48; 48; 48; 48; 48; 48; 48; 48; 48; 48; 48; 48; 48; 48; 48; 48; 48; 48; 48; 48; 44; 32; 53; 53; 48; 53; 52; 56; 57; 53; 51; 48; 57; 50; 55; 55; 56; 51; 49; 52; 46; 46; 46; 52; 50; 48; 51; 57; 57; 51; 53; 50; 52; 49; 54; 49; 50; 52; 54; 57; 54; 55; 93; 125], [123; 39; 97; 98; 99; 98; 101; 99; 100; 32; 101; 100; 100; 1092; 1092; 1092; 101; 100; 32; 101; 99; 1092; 99; 99; 1092; 97; 97; 32; 100; 97; 101; 101; 101; 97; 99; 99; 32; 39; 58; 32; 40; 39; 92; 85; 48; 48; 48; 101; 48; 48; 48; 49; 128512; 57; 39; 44; 32; 78; 111; 110; 101; 41; 44; 32; 39; 101; 32; 100; 39; 58; 32; 91; 39; 32; 101; 39; 44; 32; 39; 97; 98; 98; 99; 32; 101; 97; 101; 39; 44; 32; 70; 97; 108; 115; 101; 44; 32; 45; 49; 48; 48; 48; 48; 48; 48; 48; 48; 48; 48; 48; 48; 48; 48; 48; 48; 48; 48; 48; 48; 48; 48; 48; 48; 48; 48; 48; 48; 48; 48; 48; 48; 48; 48; 48; 48; 44; 32; 53; 53; 48; 53; 52; 56; 57; 53; 51; 48; 57; 50; 55; 55; 56; 51; 49; 52; 50; 53; 57; 52; 52; 50; 48; 51; 57; 57; 51; 53; 50; 52; 49; 54; 49; 50; 52; 54; 57; 54; 55; 93; 44; 32; 46; 46; 46; 125]);
  ((JDict [([101; 98; 1092], (JList [])); ([1092; 101; 99], (JStr [97; 0])); ([99; 32; 99; 97; 97; 99; 97; 1092; 98; 97; 1092; 97; 100; 99; 100; 1092; 101; 100; 98; 101; 100; 1092; 98; 32; 99; 97; 100; 97; 101; 98; 32; 100; 32; 99; 98], (JList [(JInt (-100000000000000000000000000000000000000))])); ([97; 100; 98; 1092; 98; 99; 32; 98; 101; 101; 97; 97; 98; 32; 98; 98; 100; 101; 101; 97; 1092; 1092; 99; 100; 97; 97; 97; 99; 97; 98; 99; 1092; 1092; 1092; 32], (JBool true)); ([99; 101; 97; 97; 100; 1092; 101; 1092; 97; 32; 99; 98; 101; 99; 98; 101; 101; 97; 32; 99; 100; 98; 101; 100; 1092; 32; 98; 98; 1092; 1092; 101; 100; 97; 99; 32], (JList [(JInt (-10000000000000000000000000000000000000000))]))]), [123; 39; 101; 98; 1092; 39; 58; 32; 91; 93; 44; 32; 39; 1092; 101; 99; 39; 58; 32; 39; 97; 92; 120; 48; 48; 39; 44; 32; 39; 99; 32; 99; 97; 97; 99; 97; 1092; 98; 97; 1092; 97; 100; 99; 100; 1092; 101; 100; 98; 101; 100; 1092; 98; 32; 99; 97; 100; 97; 101; 98; 32; 100; 32; 99; 98; 39; 58; 32; 91; 45; 49; 48; 48; 48; 48; 48; 48; 48; 48; 48; 48; 48; 48; 48; 48; 48; 48; 48; 48; 48; 48; 48; 48; 48; 48; 48; 48; 48; 48; 48; 48; 48; 48; 48; 48; 48; 48; 48; 48; 93; 44; 32; 39; 97; 100; 98; 1092; 98; 99; 32; 98; 101; 101; 97; 97; 98; 32; 98; 98; 100; 101; 101; 97; 1092; 1092; 99; 100; 97; 97; 97; 99; 97; 98; 99; 1092; 1092; 1092; 32; 39; 58; 32; 84; 114; 117; 101; 44; 32; 39; 99; 101; 97; 97; 100; 1092; 101; 1092; 97; 32; 99; 98; 101; 99; 98; 101; 101; 97; 32; 99; 100; 98; 101; 100; 1092; 32; 98; 98; 1092; 1092; 101; 100; 97; 99; 32; 39; 58; 32; 91; 45; 49; 48; 48; 48; 48; 48; 48; 48; 48; 48; 48; 48; 48; 48; 48; 48; 48; 48; 48; 48; 48; 48; 48; 48; 48; 48; 48; 48; 48; 48; 48; 48; 48; 48; 48; 48; 48; 48; 48; 48; 48; 93; 125], [123; 39; 97; 100; 98; 1092; 98; 99; 32; 98; 101; 101; 97; 97; 46; 46; 46; 99; 100; 97; 97; 97; 99; 97; 98; 99; 1092; 1092; 1092; 32; 39; 58; 32; 84; 114; 117; 101; 44; 32; 39; 99; 32; 99; 97; 97; 99; 97; 1092; 98; 97; 1092; 97; 46; 46; 46; 98; 32; 99; 97; 100; 97; 101; 98; 32; 100; 32; 99; 98; 39; 58; 32; 91; 45; 49; 48; 48; 48; 48; 48; 48; 48; 48; 48; 48; 48; 48; 48; 48; 48; 48; 48; 48; 48; 48; 48; 48; 48; 48; 48; 48; 48; 48; 48; 48; 48; 48; 48; 48; 48; 48; 48; 48; 93; 44; 32; 39; 99; 101; 97; 97; 100; 1092; 101; 1092; 97; 32; 99; 98; 46; 46; 46; 101; 100; 1092; 32; 98; 98; 1092; 1092; 101; 100; 97; 99; 32; 39; 58; 32; 91; 45; 49; 48; 48; 48; 48; 48; 48; 48; 48; 48; 48; 48; 48; 48; 48; 48; 48; 46; 46; 46; 48; 48; 48; 48; 48; 48; 48; 48; 48; 48; 48; 48; 48; 48; 48; 48; 48; 48; 48; 93; 44; 32; 39; 101; 98; 1092; 39; 58; 32; 91; 93; 44; 32; 46; 46; 46; 125], [123; 39; 101; 98; 1092; 39; 58; 32; 91; 93; 44; 32; 39; 1092; 101; 99; 39; 58; 32; 39; 97; 92; 120; 48; 48; 39; 44; 32; 46; 46; 46; 125]);
  ((JList [(JTuple [(JStr [99; 101; 32; 1092; 97; 99; 98; 97; 101; 100; 100; 1092; 99; 98; 98; 1092; 98; 32; 100; 1092]); (JInt (1000000000000000000000000000000000000000)); (JStr [917505; 233; 92; 39; 39; 55296; 160; 127; 65535; 127; 27; 128512; 13; 27; 173; 128; 65535; 57344; 92; 9; 34; 128512; 173; 9; 917505; 128; 39; 160; 34; 173; 27; 57344]); (JInt (38586390977756973319169392536223291761231)); (JBool true); (JBool false); (JInt (-1000000000000000000000000000000000000000)); (JBool false)]); (JBool true); (JList [(JInt (-100000000000000000000000000000000000000000)); (JStr [769; 13; 233; 128; 57344; 173; 9; 39; 20013; 8203; 20013; 92; 8203; 41; 10; 34; 13; 92; 9; 10; 128512; 1114111; 8203; 65535; 27; 20013; 25991; 9]); (JInt (1000000000000000000000000000000000000000)); (JBool true); (JStr [48]); (JStr [20013; 39; 41; 48; 34; 32; 769; 127; 917505; 41; 128; 25991; 57344; 91; 128; 123; 13; 8203; 10; 13; 65535; 128512; 39; 48; 173; 49; 9; 13; 20013; 57; 0]); (JInt (-5))]); (JDict [([769; 41; 48; 1114111; 41; 46; 128512; 57344; 65535; 57344; 98; 98; 46; 41; 128; 127; 13; 98; 127; 34; 25991; 128; 27; 57; 128; 233; 97; 46; 233; 34; 127; 93; 97; 27; 57344], (JStr [100; 1092; 1092; 98; 100; 1092; 1092; 99; 99; 32; 100; 32; 32; 101; 1092])); ([128; 233; 173], (JBool false)); ([], (JInt (1000000000000000000000000000000000000000000))); ([97], (JInt (100000000000000000000000000000000000000))); ([769; 128512; 128; 9; 769; 1114111; 127; 92; 65535; 25991; 40; 55296; 8203; 160; 160; 10; 10; 55296; 9; 40; 13; 8203; 39; 128; 128512; 160; 8203; 20013; 127; 917505; 34; 127; 34; 160; 27], (JStr [10; 127; 55296; 27; 917505; 40; 233; 92; 233; 233; 57344; 0; 92; 92; 127; 25991; 57344; 55296; 917505; 39; 57344; 40; 41; 65535; 27; 40; 40; 55296; 10; 13]))]); (JList [(JBool true); (JStr [10; 41; 128; 20013; 128])]); (JInt (1000000000000000000000000000000000000000)); (JBool true); (JInt (-10000000000000000000000000000000000000000))]), [91; 40; 39; 99; 101; 32; 1092; 97; 99; 98; 97; 101; 100; 100; 1092; 99; 98; 98; 1092; 98; 32; 100; 1092; 39; 44; 32; 49; 48; 48; 48; 48; 48; 48; 48; 48; 48; 48; 48; 48; 48; 48; 48; 48; 48; 48; 48; 48; 48; 48; 48; 48; 48; 48; 48; 48; 48; 48; 48; 48; 48; 48; 48; 48; 48; 48; 48; 44; 32; 39; 92; 85; 48; 48; 48; 101; 48; 48; 48; 49; 233; 92; 92; 92; 39; 92; 39; 92; 117; 100; 56; 48; 48; 92; 120; 97; 48; 92; 120; 55; 102; 92; 117; 102; 102; 102; 102; 92; 120; 55; 102; 92; 120; 49; 98; 128512; 92; 114; 92; 120; 49; 98; 92; 120; 97; 100; 92; 120; 56; 48; 92; 117; 102; 102; 102; 102; 92; 117; 101; 48; 48; 48; 92; 92; 92; 116; 34; 128512; 92; 120; 97; 100; 92; 116; 92; 85; 48; 48; 48; 101; 48; 48; 48; 49; 92; 120; 56; 48; 92; 39; 92; 120; 97; 48; 34; 92; 120; 97; 100; 92; 120; 49; 98; 92; 117; 101; 48; 48; 48; 39; 44; 32; 51; 56; 53; 56; 54; 51; 57; 48; 57; 55; 55; 55; 53; 54; 57; 55; 51; 51; 49; 57; 49; 54; 57; 51; 57; 50; 53; 51; 54; 50; 50; 51; 50; 57; 49; 55; 54; 49; 50; 51; 49; 44; 32; 84; 114; 117; 101; 44; 32; 70; 97; 108; 115; 101; 44; 32; 45; 49; 48; 48; 48; 48; 48; 48; 48; 48; 48; 48; 48; 48; 48; 48; 48; 48; 48; 48; 48; 48; 48; 48; 48; 48; 48; 48; 48; 48; 48; 48; 48; 48; 48; 48; 48; 48; 48; 48; 48; 44; 32; 70; 97; 108; 115; 101; 41; 44; 32; 84; 114; 117; 101; 44; 32; 91; 45; 49; 48; 48; 48; 48; 48; 48; 48; 48; 48; 48; 48; 48; 48; 48; 48; 48; 48; 48; 48; 48; 48; 48; 48; 48; 48; 48; 48; 48; 48; 48; 48; 48; 48; 48; 48; 48; 48; 48; 48; 48; 48; 44; 32; 39; 769; 92; 114; 233; 92; 120; 56; 48; 92; 117; 101; 48; 48; 48; 92; 120; 97; 100; 92; 116; 92; 39; 20013; 92; 117; 50; 48; 48; 98; 20013; 92; 92; 92; 117; 50; 48; 48; 98; 41; 92; 110; 34; 92; 114; 92; 92; 92; 116; 92; 110; 128512; 92; 85; 48; 48; 49; 48; 102; 102; 102; 102; 92; 117; 50; 48; 48; 98; 92; 117; 102; 102; 102; 102; 92; 120; 49; 98; 20013; 25991; 92; 116; 39; 44; 32; 49; 48; 48; 48; 48; 48; 48; 48; 48; 48; 48; 48; 48; 48; 48; 48; 48; 48; 48; 48; 48; 48; 48; 48; 48; 48; 48; 48; 48; 48; 48; 48; 48; 48; 48; 48; 48; 48; 48; 48; 44; 32; 84; 114; 117; 101; 44; 32; 39; 48; 39; 44; 32; 39; 20013; 92; 39; 41; 48; 34; 32; 769; 92; 120; 55; 102; 92; 85; 48; 48; 48; 101; 48; 48; 48; 49; 41; 92; 120; 56; 48; 25991; 92; 117; 101; 48; 48; 48; 91; 92; 120; 56; 48; 123; 92; 114; 92; 117; 50; 48; 48; 98; 92; 110; 92; 114; 92; 117; 102; 102; 102; 102; 128512; 92; 39; 48; 92; 120; 97; 100; 49; 92; 116; 92; 114; 20013; 57; 92; 120; 48; 48; 39; 44; 32; 45; 53; 93; 44; 32; 123; 39; 769; 41; 48; 92; 85; 48; 48; 49; 48; 102; 102; 102; 102; 41; 46; 128512; 92; 117; 101; 48; 48; 48; 92; 117; 102; 102; 102; 102; 92; 117; 101; 48; 48; 48; 98; 98; 46; 41; 92; 120; 56; 48; 92; 120; 55; 102; 92; 114; 98; 92; 120; 55; 102; 34; 25991; 92; 120; 56; 48; 92; 120; 49; 98; 57; 92; 120; 56; 48; 233; 97; 46; 233; 34; 92; 120; 55; 102; 93; 97; 92; 120; 49; 98; 92; 117; 101; 48; 48; 48; 39; 58; 32; 39; 100; 1092; 1092; 98; 100; 1092; 1092; 99; 99; 32; 100; 32; 32; 101; 1092; 39; 44; 32; 39; 92; 120; 56; 48; 233; 92; 120; 97; 100; 39; 58; 32; 70; 97; 108; 115; 101; 44; 32; 39; 39; 58; 32; 49; 48; 48; 48; 48; 48; 48; 48; 48; 48; 48; 48; 48; 48; 48; 48; 48; 48; 48; 48; 48; 48; 48; 48; 48; 48; 48; 48; 48; 48; 48; 48; 48; 48; 48; 48; 48; 48; 48; 48; 48; 48; 48; 44; 32; 39; 97; 39; 58; 32; 49; 48; 48; 48; 48; 48; 48; 48; 48; 48; 48; 48; 48; 48; 48; 48; 48; 48; 48; 48; 48; 48; 48; 48; 48; 48; 48; 48; 48; 48; 48; 48; 48; 48; 48; 48; 48; 48; 48; 44; 32; 39; 769; 128512; 92; 120; 56; 48; 92; 116; 769; 92; 85; 48; 48; 49; 48; 102; 102; 102; 102; 92; 120; 55; 102; 92; 92; 92; 117; 102; 102; 102; 102; 25991; 40; 92; 117; 100; 56; 48; 48; 92; 117; 50; 48; 48; 98; 92; 120; 97; 48; 92; 120; 97; 48; 92; 110; 92; 110; 92; 117; 100; 56; 48; 48; 92; 116; 40; 92; 114; 92; 117; 50; 48; 48; 98; 92; 39; 92; 120; 56; 48; 128512; 92; 120; 97; 48; 92; 117; 50; 48; 48; 98; 20013; 92; 120; 55; 102; 92; 85; 48; 48; 48; 101; 48; 48; 48; 49; 34; 92; 120; 55; 102; 34; 92; 120; 97; 48; 92; 120; 49; 98; 39; 58; 32; 34; 92; 110; 92; 120; 55; 102; 92; 117; 100; 56; 48; 48; 92; 120; 49; 98; 92; 85; 48; 48; 48; 101; 48; 48; 48; 49; 40; 233; 92; 92; 233; 233; 92; 117; 101; 48; 48; 48; 92; 120; 48; 48; 92; 92; 92; 92; 92; 120; 55; 102; 25991; 92; 117; 101; 48; 48; 48; 92; 117; 100; 56; 48; 48; 92; 85; 48; 48; 48; 101; 48; 48; 48; 49; 39; 92; 117; 101; 48; 48; 48; 40; 41; 92; 117; 102; 102; 102; 102; 92; 120; 49; 98; 40; 40; 92; 117; 100; 56; 48; 48; 92; 110; 92; 114; 34; 125; 44; 32; 91; 84; 114; 117; 101; 44; 32; 39; 92; 110; 41; 92; 120; 56; 48; 20013; 92; 120; 56; 48; 39; 93; 44; 32; 49; 48; 48; 48; 48; 48; 48; 48; 48; 48; 48; 48; 48; 48; 48; 48; 48; 48; 48; 48; 48; 48; 48; 48; 48; 48; 48; 48; 48; 48; 48; 48; 48; 48; 48; 48; 48; 48; 48; 48; 44; 32; 84; 114; 117; 101; 44; 32; 45; 49; 48; 48; 48; 48; 48; 48; 48; 48; 48; 48; 48; 48; 48; 48; 48; 48; 48; 48; 48; 48; 48; 48; 48; 48; 48; 48; 48; 48; 48; 48; 48; 48; 48; 48; 48; 48; 48; 48; 48; 48; 93], [91; 40; 39; 99; 101; 32; 1092; 97; 99; 98; 97; 101; 100; 100; 1092; 99; 98; 98; 1092; 98; 32; 100; 1092; 39; 44; 32; 49; 48; 48; 48; 48; 48; 48; 48; 48; 48; 48; 48; 48; 48; 48; 48; 48; 48; 48; 48; 48; 48; 48; 48; 48; 48; 48; 48; 48; 48; 48; 48; 48; 48; 48; 48; 48; 48; 48; 48; 44; 32; 39; 92; 85; 48; 48; 48; 101; 48; 48; 48; 49; 233; 92; 46; 46; 46; 120; 97; 100; 92; 120; 49; 98; 92; 117; 101; 48; 48; 48; 39; 44; 32; 51; 56; 53; 56; 54; 51; 57; 48; 57; 55; 55; 55; 53; 54; 57; 55; 51; 51; 46; 46; 46; 57; 51; 57; 50; 53; 51; 54; 50; 50; 51; 50; 57; 49; 55; 54; 49; 50; 51; 49; 44; 32; 84; 114; 117; 101; 44; 32; 70; 97; 108; 115; 101; 44; 32; 46; 46; 46; 41; 44; 32; 84; 114; 117; 101; 44; 32; 91; 45; 49; 48; 48; 48; 48; 48; 48; 48; 48; 48; 48; 48; 48; 48; 48; 48; 48; 46; 46; 46; 48; 48; 48; 48; 48; 48; 48; 48; 48; 48; 48; 48; 48; 48; 48; 48; 48; 48; 48; 44; 32; 39; 769; 92; 114; 233; 92; 120; 56; 48; 92; 117; 101; 48; 46; 46; 46; 117; 102; 102; 102; 102; 92; 120; 49; 98; 20013; 25991; 92; 116; 39; 44; 32; 49; 48; 48; 48; 48; 48; 48; 48; 48; 48; 48; 48; 48; 48; 48; 48; 48; 48; 48; 48; 48; 48; 48; 48; 48; 48; 48; 48; 48; 48; 48; 48; 48; 48; 48; 48; 48; 48; 48; 48; 44; 32; 84; 114; 117; 101; 44; 32; 39; 48; 39; 44; 32; 39; 20013; 92; 39; 41; 48; 34; 32; 769; 92; 120; 55; 102; 46; 46; 46; 97; 100; 49; 92; 116; 92; 114; 20013; 57; 92; 120; 48; 48; 39; 44; 32; 46; 46; 46; 93; 44; 32; 123; 39; 39; 58; 32; 49; 48; 48; 48; 48; 48; 48; 48; 48; 48; 48; 48; 48; 48; 48; 48; 48; 48; 46; 46; 46; 48; 48; 48; 48; 48; 48; 48; 48; 48; 48; 48; 48; 48; 48; 48; 48; 48; 48; 48; 44; 32; 39; 97; 39; 58; 32; 49; 48; 48; 48; 48; 48; 48; 48; 48; 48; 48; 48; 48; 48; 48; 48; 48; 48; 48; 48; 48; 48; 48; 48; 48; 48; 48; 48; 48; 48; 48; 48; 48; 48; 48; 48; 48; 48; 48; 44; 32; 39; 92; 120; 56; 48; 233; 92; 120; 97; 100; 39; 58; 32; 70; 97; 108; 115; 101; 44; 32; 39; 769; 41; 48; 92; 85; 48; 48; 49; 48; 102; 102; 102; 46; 46; 46; 102; 93; 97; 92; 120; 49; 98; 92; 117; 101; 48; 48; 48; 39; 58; 32; 39; 100; 1092; 1092; 98; 100; 1092; 1092; 99; 99; 32; 100; 32; 32; 101; 1092; 39; 44; 32; 46; 46; 46; 125; 44; 32; 91; 84; 114; 117; 101; 44; 32; 39; 92; 110; 41; 92; 120; 56; 48; 20013; 92; 120; 56; 48; 39; 93; 44; 32; 49; 48; 48; 48; 48; 48; 48; 48; 48; 48; 48; 48; 48; 48; 48; 48; 48; 48; 48; 48; 48; 48; 48; 48; 48; 48; 48; 48; 48; 48; 48; 48; 48; 48; 48; 48; 48; 48; 48; 48; 44; 32; 46; 46; 46; 93], [91; 40; 39; 99; 101; 32; 1092; 97; 99; 98; 97; 101; 100; 100; 1092; 99; 98; 98; 1092; 98; 32; 100; 1092; 39; 44; 32; 49; 48; 48; 48; 48; 48; 48; 48; 48; 48; 48; 48; 48; 48; 48; 48; 48; 48; 48; 48; 48; 48; 48; 48; 48; 48; 48; 48; 48; 48; 48; 48; 48; 48; 48; 48; 48; 48; 48; 48; 44; 32; 39; 92; 85; 48; 48; 48; 101; 48; 48; 48; 49; 233; 92; 46; 46; 46; 120; 97; 100; 92; 120; 49; 98; 92; 117; 101; 48; 48; 48; 39; 44; 32; 51; 56; 53; 56; 54; 51; 57; 48; 57; 55; 55; 55; 53; 54; 57; 55; 51; 51; 46; 46; 46; 57; 51; 57; 50; 53; 51; 54; 50; 50; 51; 50; 57; 49; 55; 54; 49; 50; 51; 49; 44; 32; 84; 114; 117; 101; 44; 32; 70; 97; 108; 115; 101; 44; 32; 46; 46; 46; 41; 44; 32; 84; 114; 117; 101; 44; 32; 91; 45; 49; 48; 48; 48; 48; 48; 48; 48; 48; 48; 48; 48; 48; 48; 48; 48; 48; 46; 46; 46; 48; 48; 48; 48; 48; 48; 48; 48; 48; 48; 48; 48; 48; 48; 48; 48; 48; 48; 48; 44; 32; 39; 769; 92; 114; 233; 92; 120; 56; 48; 92; 117; 101; 48; 46; 46; 46; 117; 102; 102; 102; 102; 92; 120; 49; 98; 20013; 25991; 92; 116; 39; 44; 32; 49; 48; 48; 48; 48; 48; 48; 48; 48; 48; 48; 48; 48; 48; 48; 48; 48; 48; 48; 48; 48; 48; 48; 48; 48; 48; 48; 48; 48; 48; 48; 48; 48; 48; 48; 48; 48; 48; 48; 48; 44; 32; 84; 114; 117; 101; 44; 32; 39; 48; 39; 44; 32; 39; 20013; 92; 39; 41; 48; 34; 32; 769; 92; 120; 55; 102; 46; 46; 46; 97; 100; 49; 92; 116; 92; 114; 20013; 57; 92; 120; 48; 48; 39; 44; 32; 46; 46; 46; 93; 44; 32; 123; 39; 39; 58; 32; 49; 48; 48; 48; 48; 48; 48; 48; 48; 48; 48; 48; 48; 48; 48; 48; 48; 48; 46; 46; 46; 48; 48; 48; 48; 48; 48; 48; 48; 48; 48; 48; 48; 48; 48; 48; 48; 48; 48; 48; 44; 32; 39; 97; 39; 58; 32; 49; 48; 48; 48; 48; 48; 48; 48; 48; 48; 48; 48; 48; 48; 48; 48; 48; 48; 48; 48; 48; 48; 48; 48; 48; 48; 48; 48; 48; 48; 48; 48; 48; 48; 48; 48; 48; 48; 48; 44; 32; 39; 92; 120; 56; 48; 233; 92; 120; 97; 100; 39; 58; 32; 70; 97; 108; 115; 101; 44; 32; 39; 769; 41; 48; 92; 85; 48; 48; 49; 48; 102; 102; 102; 46; 46; 46; 102; 93; 97; 92; 120; 49; 98; 92; 117; 101; 48; 48; 48; 39; 58; 32; 39; 100; 1092; 1092; 98; 100; 1092; 1092; 99; 99; 32; 100; 32; 32; 101; 1092; 39; 44; 32; 46; 46; 46; 125; 44; 32; 91; 84; 114; 117; 101; 44; 32; 39; 92; 110; 41; 92; 120; 56; 48; 20013; 92; 120; 56; 48; 39; 93; 44; 32; 49; 48; 48; 48; 48; 48; 48; 48; 48; 48; 48; 48; 48; 48; 48; 48; 48; 48; 48; 48; 48; 48; 48; 48; 48; 48; 48; 48; 48; 48; 48; 48; 48; 48; 48; 48; 48; 48; 48; 48; 44; 32; 46; 46; 46; 93]);
  ((JStr [8203; 128; 160; 1114111; 55296; 41; 65535; 57344; 27; 10; 769; 0; 1114111; 10; 0; 8203; 27; 13; 128512; 92]), [39; 92; 117; 50; 48; 48; 98; 92; 120; 56; 48; 92; 120; 97; 48; 92; 85; 48; 48; 49; 48; 102; 102; 102; 102; 92; 117; 100; 56; 48; 48; 41; 92; 117; 102; 102; 102; 102; 92; 117; 101; 48; 48; 48; 92; 120; 49; 98; 92; 110; 769; 92; 120; 48; 48; 92; 85; 48; 48; 49; 48; 102; 102; 102; 102; 92; 110; 92; 120; 48; 48; 92; 117; 50; 48; 48; 98; 92; 120; 49; 98; 92; 114; 128512; 92; 92; 39], [39; 92; 117; 50; 48; 48; 98; 92; 120; 56; 48; 92; 120; 46; 46; 46; 50; 48; 48; 98; 92; 120; 49; 98; 92; 114; 128512; 92; 92; 39], [39; 92; 117; 50; 48; 48; 98; 92; 120; 56; 48; 92; 120; 46; 46; 46; 50; 48; 48; 98; 92; 120; 49; 98; 92; 114; 128512; 92; 92; 39]);
  ((JList []), [91; 93], [91; 93], [91; 93]);
  ((JInt (-1000000000000000000000000000000000000)), [45; 49; 48; 48; 48; 48; 48; 48; 48; 48; 48; 48; 48; 48; 48; 48; 48; 48; 48; 48; 48; 48; 48; 48; 48; 48; 48; 48; 48; 48; 48; 48; 48; 48; 48; 48; 48; 48], [45; 49; 48; 48; 48; 48; 48; 48; 48; 48; 48; 48; 48; 48; 48; 48; 48; 48; 48; 48; 48; 48; 48; 48; 48; 48; 48; 48; 48; 48; 48; 48; 48; 48; 48; 48; 48; 48], [45; 49; 48; 48; 48; 48; 48; 48; 48; 48; 48; 48; 48; 48; 48; 48; 48; 48; 48; 48; 48; 48; 48; 48; 48; 48; 48; 48; 48; 48; 48; 48; 48; 48; 48; 48; 48; 48]);
  ((JList [(JDict [([98; 9; 48; 57; 10; 173; 128512; 91; 39; 20013; 98; 0; 48; 91; 40; 92; 233; 32; 55296; 49; 13; 233; 57344; 25991; 48; 1114111; 92; 41; 40; 41; 0; 34; 32; 8203; 128], (JInt (-1000000000000000000000000000000000000))); ([25991; 13; 128512; 9; 40; 65535; 40; 8203; 233; 20013; 8203; 65535; 128512; 39; 9; 160; 128; 127; 25991; 1114111; 769; 55296; 10; 65535; 27; 173; 128; 917505; 1114111; 128512; 128512; 27; 34; 128512; 65535], (JBool true)); ([32; 32; 99; 99; 1092; 100; 32; 99; 97; 32; 97; 101; 99; 1092; 1092; 99; 1092; 100; 99; 100; 100; 100; 1092; 101; 99; 101; 101; 1092; 97; 101; 32; 98; 99; 98; 100], (JBool true)); ([40; 55296], (JInt (-2)))]); (JList [(JInt (-10000000000000000000000000000000000000)); JNone; (JInt (55222557557682842747107065352289136240623)); (JInt (-1000000000000000000000000000000000000000000)); (JBool true)]); (JList [(JBool false); (JStr [1092]); (JBool false); (JInt (-549236327472673136931365604645654974930)); (JBool true); (JInt (-1000000000000000000000000000000000000000000)); (JInt (4)); (JInt (1))]); (JDict [([101; 101], (JStr [99; 100; 32; 97; 99; 97; 32; 99; 101; 100; 32; 97; 32; 1092; 101; 97; 32; 1092; 101; 99]))]); (JInt (1)); JNone; (JTuple [(JStr [1092; 32; 100; 32; 32; 101; 1092; 99; 99; 100; 97; 32; 101; 98]); (JStr [10; 127; 55296; 233; 13]); (JInt (10000000000000000000000000000000000000)); (JBool true); JNone])]), [91; 123; 39; 98; 92; 116; 48; 57; 92; 110; 92; 120; 97; 100; 128512; 91; 92; 39; 20013; 98; 92; 120; 48; 48; 48; 91; 40; 92; 92; 233; 32; 92; 117; 100; 56; 48; 48; 49; 92; 114; 233; 92; 117; 101; 48; 48; 48; 25991; 48; 92; 85; 48; 48; 49; 48; 102; 102; 102; 102; 92; 92; 41; 40; 41; 92; 120; 48; 48; 34; 32; 92; 117; 50; 48; 48; 98; 92; 120; 56; 48; 39; 58; 32; 45; 49; 48; 48; 48; 48; 48; 48; 48; 48; 48; 48; 48; 48; 48; 48; 48; 48; 48; 48; 48; 48; 48; 48; 48; 48; 48; 48; 48; 48; 48; 48; 48; 48; 48; 48; 48; 48; 44; 32; 39; 25991; 92; 114; 128512; 92; 116; 40; 92; 117; 102; 102; 102; 102; 40; 92; 117; 50; 48; 48; 98; 233; 20013; 92; 117; 50; 48; 48; 98; 92; 117; 102; 102; 102; 102; 128512; 92; 39; 92; 116; 92; 120; 97; 48; 92; 120; 56; 48; 92; 120; 55; 102; 25991; 92; 85; 48; 48; 49; 48; 102; 102; 102; 102; 769; 92; 117; 100; 56; 48; 48; 92; 110; 92; 117; 102; 102; 102; 102; 92; 120; 49; 98; 92; 120; 97; 100; 92; 120; 56; 48; 92; 85; 48; 48; 48; 101; 48; 48; 48; 49; 92; 85; 48; 48; 49; 48; 102; 102; 102; 102; 128512; 128512; 92; 120; 49; 98; 34; 128512; 92; 117; 102; 102; 102; 102; 39; 58; 32; 84; 114; 117; 101; 44; 32; 39; 32; 32; 99; 99; 1092; 100; 32; 99; 97; 32; 97; 101; 99; 1092; 1092; 99; 1092; 100; 99; 100; 100; 100; 1092; 101; 99; 101; 101; 1092; 97; 101; 32; 98; 99; 98; 100; 39; 58; 32; 84; 114; 117; 101; 44; 32; 39; 40; 92; 117; 100; 56; 48; 48; 39; 58; 32; 45; 50; 125; 44; 32; 91; 45; 49; 48; 48; 48; 48; 48; 48; 48; 48; 48; 48; 48; 48; 48; 48; 48; 48; 48; 48; 48; 48; 48; 48; 48; 48; 48; 48; 48; 48; 48; 48; 48; 48; 48; 48; 48; 48; 48; 44; 32; 78; 111; 110; 101; 44; 32; 53; 53; 50; 50; 50; 53; 53; 55; 53; 53; 55; 54; 56; 50; 56; 52; 50; 55; 52; 55; 49; 48; 55; 48; 54; 53; 51; 53; 50; 50; 56; 57; 49; 51; 54; 50; 52; 48; 54; 50; 51; 44; 32; 45; 49; 48; 48; 48; 48; 48; 48; 48; 48; 48; 48; 48; 48; 48; 48; 48; 48; 48; 48; 48; 48; 48; 48; 48; 48; 48; 48; 48; 48; 48; 48; 48; 48; 48; 48; 48; 48; 48; 48; 48; 48; 48; 48; 44; 32; 84; 114; 117; 101; 93; 44; 32; 91; 70; 97; 108; 115; 101; 44; 32; 39; 1092; 39; 44; 32; 70; 97; 108; 115; 101; 44; 32; 45; 53; 52; 57; 50; 51; 54; 51; 50; 55; 52; 55; 50; 54; 55; 51; 49; 51; 54; 57; 51; 49; 51; 54; 53; 54; 48; 52; 54; 52; 53; 54; 53; 52; 57; 55; 52; 57; 51; 48; 44; 32; 84; 114; 117; 101; 44; 32; 45; 49; 48; 48; 48; 48; 48; 48; 48; 48; 48; 48; 48; 48; 48; 48; 48; 48; 48; 48; 48; 48; 48; 48; 48; 48; 48; 48; 48; 48; 48; 48; 48; 48; 48; 48; 48; 48; 48; 48; 48; 48; 48; 48; 44; 32; 52; 44; 32; 49; 93; 44; 32; 123; 39; 101; 101; 39; 58; 32; 39; 99; 100; 32; 97; 99; 97; 32; 99; 101; 100; 32; 97; 32; 1092; 101; 97; 32; 1092; 101; 99; 39; 125; 44; 32; 49; 44; 32; 78; 111; 110; 101; 44; 32; 40; 39; 1092; 32; 100; 32; 32; 101; 1092; 99; 99; 100; 97; 32; 101; 98; 39; 44; 32; 39; 92; 110; 92; 120; 55; 102; 92; 117; 100; 56; 48; 48; 233; 92; 114; 39; 44; 32; 49; 48; 48; 48; 48; 48; 48; 48; 48; 48; 48; 48; 48; 48; 48; 48; 48; 48; 48; 48; 48; 48; 48; 48; 48; 48; 48; 48; 48; 48; 48; 48; 48; 48; 48; 48; 48; 48; 44; 32; 84; 114; 117; 101; 44; 32; 78; 111; 110; 101; 41; 93], [91; 123; 39; 32; 32; 99; 99; 1092; 100; 32; 99; 97; 32; 97; 101; 46; 46; 46; 1092; 101; 99; 101; 101; 1092; 97; 101; 32; 98; 99; 98; 100; 39; 58; 32; 84; 114; 117; 101; 44; 32; 39; 40; 92; 117; 100; 56; 48; 48; 39; 58; 32; 45; 50; 44; 32; 39; 98; 92; 116; 48; 57; 92; 110; 92; 120; 97; 100; 128512; 46; 46; 46; 48; 34; 32; 92; 117; 50; 48; 48; 98; 92; 120; 56; 48; 39; 58; 32; 45; 49; 48; 48; 48; 48; 48; 48; 48; 48; 48; 48; 48; 48; 48; 48; 48; 48; 48; 48; 48; 48; 48; 48; 48; 48; 48; 48; 48; 48; 48; 48; 48; 48; 48; 48; 48; 48; 44; 32; 39; 25991; 92; 114; 128512; 92; 116; 40; 92; 117; 102; 102; 102; 46; 46; 46; 128512; 92; 120; 49; 98; 34; 128512; 92; 117; 102; 102; 102; 102; 39; 58; 32; 84; 114; 117; 101; 125; 44; 32; 91; 45; 49; 48; 48; 48; 48; 48; 48; 48; 48; 48; 48; 48; 48; 48; 48; 48; 48; 48; 48; 48; 48; 48; 48; 48; 48; 48; 48; 48; 48; 48; 48; 48; 48; 48; 48; 48; 48; 48; 44; 32; 78; 111; 110; 101; 44; 32; 53; 53; 50; 50; 50; 53; 53; 55; 53; 53; 55; 54; 56; 50; 56; 52; 50; 55; 46; 46; 46; 55; 48; 54; 53; 51; 53; 50; 50; 56; 57; 49; 51; 54; 50; 52; 48; 54; 50; 51; 44; 32; 45; 49; 48; 48; 48; 48; 48; 48; 48; 48; 48; 48; 48; 48; 48; 48; 48; 48; 46; 46; 46; 48; 48; 48; 48; 48; 48; 48; 48; 48; 48; 48; 48; 48; 48; 48; 48; 48; 48; 48; 44; 32; 84; 114; 117; 101; 93; 44; 32; 91; 70; 97; 108; 115; 101; 44; 32; 39; 1092; 39; 44; 32; 70; 97; 108; 115; 101; 44; 32; 45; 53; 52; 57; 50; 51; 54; 51; 50; 55; 52; 55; 50; 54; 55; 51; 49; 51; 54; 57; 51; 49; 51; 54; 53; 54; 48; 52; 54; 52; 53; 54; 53; 52; 57; 55; 52; 57; 51; 48; 44; 32; 84; 114; 117; 101; 44; 32; 45; 49; 48; 48; 48; 48; 48; 48; 48; 48; 48; 48; 48; 48; 48; 48; 48; 48; 46; 46; 46; 48; 48; 48; 48; 48; 48; 48; 48; 48; 48; 48; 48; 48; 48; 48; 48; 48; 48; 48; 44; 32; 46; 46; 46; 93; 44; 32; 123; 39; 101; 101; 39; 58; 32; 39; 99; 100; 32; 97; 99; 97; 32; 99; 101; 100; 32; 97; 32; 1092; 101; 97; 32; 1092; 101; 99; 39; 125; 44; 32; 49; 44; 32; 78; 111; 110; 101; 44; 32; 46; 46; 46; 93], [91; 123; 39; 32; 32; 99; 99; 1092; 100; 32; 99; 97; 32; 97; 101; 46; 46; 46; 1092; 101; 99; 101; 101; 1092; 97; 101; 32; 98; 99; 98; 100; 39; 58; 32; 84; 114; 117; 101; 44; 32; 39; 40; 92; 117; 100; 56; 48; 48; 39; 58; 32; 45; 50; 44; 32; 39; 98; 92; 116; 48; 57; 92; 110; 92; 120; 97; 100; 128512; 46; 46; 46; 48; 34; 32; 92; 117; 50; 48; 48; 98; 92; 120; 56; 48; 39; 58; 32; 45; 49; 48; 48; 48; 48; 48; 48; 48; 48; 48; 48; 48; 48; 48; 48; 48; 48; 48; 48; 48; 48; 48; 48; 48; 48; 48; 48; 48; 48; 48; 48; 48; 48; 48; 48; 48; 48; 44; 32; 39; 25991; 92; 114; 128512; 92; 116; 40; 92; 117; 102; 102; 102; 46; 46; 46; 128512; 92; 120; 49; 98; 34; 128512; 92; 117; 102; 102; 102; 102; 39; 58; 32; 84; 114; 117; 101; 125; 44; 32; 91; 45; 49; 48; 48; 48; 48; 48; 48; 48; 48; 48; 48; 48; 48; 48; 48; 48; 48; 48; 48; 48; 48; 48; 48; 48; 48; 48; 48; 48; 48; 48; 48; 48; 48; 48; 48; 48; 48; 48; 44; 32; 78; 111; 110; 101; 44; 32; 53; 53; 50; 50; 50; 53; 53; 55; 53; 53; 55; 54; 56; 50; 56; 52; 50; 55; 46; 46; 46; 55; 48; 54; 53; 51; 53; 50; 50; 56; 57; 49; 51; 54; 50; 52; 48; 54; 50; 51; 44; 32; 45; 49; 48; 48; 48; 48; 48; 48; 48; 48; 48; 48; 48; 48; 48; 48; 48; 48; 46; 46; 46; 48; 48; 48; 48; 48; 48; 48; 48; 48; 48; 48; 48; 48; 48; 48; 48; 48; 48; 48; 44; 32; 84; 114; 117; 101; 93; 44; 32; 91; 70; 97; 108; 115; 101; 44; 32; 39; 1092; 39; 44; 32; 70; 97; 108; 115; 101; 44; 32; 45; 53; 52; 57; 50; 51; 54; 51; 50; 55; 52; 55; 50; 54; 55; 51; 49; 51; 54; 57; 51; 49; 51; 54; 53; 54; 48; 52; 54; 52; 53; 54; 53; 52; 57; 55; 52; 57; 51; 48; 44; 32; 84; 114; 117; 101; 44; 32; 45; 49; 48; 48; 48; 48; 48; 48; 48; 48; 48; 48; 48; 48; 48; 48; 48; 48; 46; 46; 46; 48; 48; 48; 48; 48; 48; 48; 48; 48; 48; 48; 48; 48; 48; 48; 48; 48; 48; 48; 44; 32; 46; 46; 46; 93; 44; 32; 123; 39; 101; 101; 39; 58; 32; 39; 99; 100; 32; 97; 99; 97; 32; 99; 101; 100; 32; 97; 32; 1092; 101; 97; 32; 1092; 101; 99; 39; 125; 44; 32; 49; 44; 32; 78; 111; 110; 101; 44; 32; 46; 46; 46; 93]);
  ((JDict [([99], (JStr [1114111; 233; 25991; 34; 10; 65535; 55296; 173; 233; 13; 233; 13])); ([98; 99; 97; 99; 99; 97; 1092; 1092; 32; 100; 97; 1092; 1092; 100; 99; 1092; 32; 100; 97; 1092; 97; 32; 1092; 98; 32; 1092; 101; 97; 99; 99; 99; 1092; 100; 99; 32], (JList [JNone])); ([1092; 101; 101; 1092; 99; 100; 98; 98; 99; 99; 32; 32; 97; 100; 1092; 32; 1092; 97; 32; 101; 32; 101; 99; 99; 100; 1092; 100; 97; 101; 101; 101; 100; 101; 1092; 101], (JDict [])); ([9; 39], (JStr [57344; 160; 27; 127; 128512; 41; 9; 39; 40; 128; 55296; 34; 41; 57344; 160; 13; 92; 160; 55296; 55296; 92; 20013; 769; 233; 20013; 1114111; 34; 0; 57344])); ([9; 65535; 173; 10; 98; 9; 91; 173; 10; 122; 34; 160; 13; 917505; 233; 13; 44; 13; 65535; 13; 173; 769; 13; 48; 98; 20013; 127; 39; 1114111; 173; 160; 34; 1114111; 160; 49], (JList [(JStr [99; 101; 99; 1092; 98; 32; 98; 99; 99; 1092; 99; 99; 101; 32])])); ([100; 100], (JList [(JBool true); (JBool false); (JInt (10000000000000000000000000000000000000000)); (JStr [100]); (JBool false); (JInt (-100000000000000000000000000000000000000))]))]), [123; 39; 99; 39; 58; 32; 39; 92; 85; 48; 48; 49; 48; 102; 102; 102; 102; 233; 25991; 34; 92; 110; 92; 117; 102; 102; 102; 102; 92; 117; 100; 56; 48; 48; 92; 120; 97; 100; 233; 92; 114; 233; 92; 114; 39; 44; 32; 39; 98; 99; 97; 99; 99; 97; 1092; 1092; 32; 100; 97; 1092; 1092; 100; 99; 1092; 32; 100; 97; 1092; 97; 32; 1092; 98; 32; 1092; 101; 97; 99; 99; 99; 1092; 100; 99; 32; 39; 58; 32; 91; 78; 111; 110; 101; 93; 44; 32; 39; 1092; 101; 101; 1092; 99; 100; 98; 98; 99; 99; 32; 32; 97; 100; 1092; 32; 1092; 97; 32; 101; 32; 101; 99; 99; 100; 1092; 100; 97; 101; 101; 101; 100; 101; 1092; 101; 39; 58; 32; 123; 125; 44; 32; 34; 92; 116; 39; 34; 58; 32; 39; 92; 117; 101; 48; 48; 48; 92; 120; 97; 48; 92; 120; 49; 98; 92; 120; 55; 102; 128512; 41; 92; 116; 92; 39; 40; 92; 120; 56; 48; 92; 117; 100; 56; 48; 48; 34; 41; 92; 117; 101; 48; 48; 48; 92; 120; 97; 48; 92; 114; 92; 92; 92; 120; 97; 48; 92; 117; 100; 56; 48; 48; 92; 117; 100; 56; 48; 48; 92; 92; 20013; 769; 233; 20013; 92; 85; 48; 48; 49; 48; 102; 102; 102; 102; 34; 92; 120; 48; 48; 92; 117; 101; 48; 48; 48; 39; 44; 32; 39; 92; 116; 92; 117; 102; 102; 102; 102; 92; 120; 97; 100; 92; 110; 98; 92; 116; 91; 92; 120; 97; 100; 92; 110; 122; 34; 92; 120; 97; 48; 92; 114; 92; 85; 48; 48; 48; 101; 48; 48; 48; 49; 233; 92; 114; 44; 92; 114; 92; 117; 102; 102; 102; 102; 92; 114; 92; 120; 97; 100; 769; 92; 114; 48; 98; 20013; 92; 120; 55; 102; 92; 39; 92; 85; 48; 48; 49; 48; 102; 102; 102; 102; 92; 120; 97; 100; 92; 120; 97; 48; 34; 92; 85; 48; 48; 49; 48; 102; 102; 102; 102; 92; 120; 97; 48; 49; 39; 58; 32; 91; 39; 99; 101; 99; 1092; 98; 32; 98; 99; 99; 1092; 99; 99; 101; 32; 39; 93; 44; 32; 39; 100; 100; 39; 58; 32; 91; 84; 114; 117; 101; 44; 32; 70; 97; 108; 115; 101; 44; 32; 49; 48; 48; 48; 48; 48; 48; 48; 48; 48; 48; 48; 48; 48; 48; 48; 48; 48; 48; 48; 48; 48; 48; 48; 48; 48; 48; 48; 48; 48; 48; 48; 48; 48; 48; 48; 48; 48; 48; 48; 48; 44; 32; 39; 100; 39; 44; 32; 70; 97; 108; 115; 101; 44; 32; 45; 49; 48; 48; 48; 48; 48; 48; 48; 48; 48; 48; 48; 48; 48; 48; 48; 48; 48; 48; 48; 48; 48; 48; 48; 48; 48; 48; 48; 48; 48; 48; 48; 48; 48; 48; 48; 48; 48; 48; 93; 125], [123; 34; 92; 116; 39; 34; 58; 32; 39; 92; 117; 101; 48; 48; 48; 92; 120; 97; 48; 92; 120; 46; 46; 46; 102; 102; 34; 92; 120; 48; 48; 92; 117; 101; 48; 48; 48; 39; 44; 32; 39; 92; 116; 92; 117; 102; 102; 102; 102; 92; 120; 97; 100; 46; 46; 46; 48; 48; 49; 48; 102; 102; 102; 102; 92; 120; 97; 48; 49; 39; 58; 32; 91; 39; 99; 101; 99; 1092; 98; 32; 98; 99; 99; 1092; 99; 99; 101; 32; 39; 93; 44; 32; 39; 98; 99; 97; 99; 99; 97; 1092; 1092; 32; 100; 97; 1092; 46; 46; 46; 1092; 98; 32; 1092; 101; 97; 99; 99; 99; 1092; 100; 99; 32; 39; 58; 32; 91; 78; 111; 110; 101; 93; 44; 32; 39; 99; 39; 58; 32; 39; 92; 85; 48; 48; 49; 48; 102; 102; 102; 102; 233; 25991; 46; 46; 46; 92; 120; 97; 100; 233; 92; 114; 233; 92; 114; 233; 92; 114; 39; 44; 32; 46; 46; 46; 125], [123; 39; 99; 39; 58; 32; 39; 92; 85; 48; 48; 49; 48; 102; 102; 102; 102; 233; 25991; 34; 92; 110; 92; 117; 102; 102; 102; 102; 92; 117; 100; 56; 48; 48; 92; 120; 97; 100; 233; 92; 114; 233; 92; 114; 39; 44; 32; 39; 98; 99; 97; 99; 99; 97; 1092; 1092; 32; 100; 97; 1092; 1092; 100; 99; 1092; 32; 100; 97; 1092; 97; 32; 1092; 98; 32; 1092; 101; 97; 99; 99; 99; 1092; 100; 99; 32; 39; 58; 32; 91; 78; 111; 110; 101; 93; 44; 32; 46; 46; 46; 125]);
  ((JTuple [(JList [(JBool false); (JStr [99; 101; 32; 98; 98; 98; 101; 100]); (JStr [101; 32; 1092; 101; 100; 100; 97; 100; 99; 97; 1092; 97; 32; 32]); JNone; (JBool true)])]), [40; 91; 70; 97; 108; 115; 101; 44; 32; 39; 99; 101; 32; 98; 98; 98; 101; 100; 39; 44; 32; 39; 101; 32; 1092; 101; 100; 100; 97; 100; 99; 97; 1092; 97; 32; 32; 39; 44; 32; 78; 111; 110; 101; 44; 32; 84; 114; 117; 101; 93; 44; 41], [40; 91; 70; 97; 108; 115; 101; 44; 32; 39; 99; 101; 32; 98; 98; 98; 101; 100; 39; 44; 32; 39; 101; 32; 1092; 101; 100; 100; 97; 100; 99; 97; 1092; 97; 32; 32; 39; 44; 32; 78; 111; 110; 101; 44; 32; 84; 114; 117; 101; 93; 44; 41], [40; 91; 70; 97; 108; 115; 101; 44; 32; 39; 99; 101; 32; 98; 98; 98; 101; 100; 39; 44; 32; 39; 101; 32; 1092; 101; 100; 100; 97; 100; 99; 97; 1092; 97; 32; 32; 39; 44; 32; 78; 111; 110; 101; 44; 32; 84; 114; 117; 101; 93; 44; 41]);
  ((JInt (96166790728690174458481119592995730305001)), [57; 54; 49; 54; 54; 55; 57; 48; 55; 50; 56; 54; 57; 48; 49; 55; 52; 52; 53; 56; 52; 56; 49; 49; 49; 57; 53; 57; 50; 57; 57; 53; 55; 51; 48; 51; 48; 53; 48; 48; 49], [57; 54; 49; 54; 54; 55; 57; 48; 55; 50; 56; 54; 57; 48; 49; 55; 52; 52; 46; 46; 46; 49; 49; 49; 57; 53; 57; 50; 57; 57; 53; 55; 51; 48; 51; 48; 53; 48; 48; 49], [57; 54; 49; 54; 54; 55; 57; 48; 55; 50; 56; 54; 57; 48; 49; 55; 52; 52; 46; 46; 46; 49; 49; 49; 57; 53; 57; 50; 57; 57; 53; 55; 51; 48; 51; 48; 53; 48; 48; 49]);
  ((JDict [([0], (JList [(JInt (-10000000000000000000000000000000000000)); JNone; (JStr [1092; 1092; 99; 97; 1092; 99; 32; 97; 99; 101; 1092; 99; 99; 32; 101; 98; 1092; 1092; 32; 100; 100; 98; 100; 1092; 97; 98; 1092; 98; 32; 1092; 100; 99]); (JInt (100000000000000000000000000000000000000000)); (JBool false)])); ([101], (JList [(JStr [101; 1092; 101]); (JStr [125; 13; 55296; 917505; 97; 92; 97; 39; 27; 92; 122; 93; 57344; 125; 65535; 92; 55296; 46; 128512; 34; 127; 160; 65535; 49; 125; 173; 122; 173; 173; 57; 49; 917505; 48; 233; 8203; 9; 92; 10; 55296; 128]); (JInt (-100000000000000000000000000000000000000000))])); ([20013; 92], (JDict [])); ([128512; 57344], (JStr [233; 55296; 27; 160; 0; 57344; 92; 41; 39; 34; 34; 233; 160; 160; 13; 128512; 13; 127; 0; 0; 0; 20013; 769; 40; 127; 173; 25991; 27; 128512; 13; 10])); ([93; 91], (JBool false)); ([34], (JInt (-10000000000000000000000000000000000000000))); ([39; 57344], (JInt (68317330661046105834856282452221406483541))); ([], (JInt (-2)))]), [123; 39; 92; 120; 48; 48; 39; 58; 32; 91; 45; 49; 48; 48; 48; 48; 48; 48; 48; 48; 48; 48; 48; 48; 48; 48; 48; 48; 48; 48; 48; 48; 48; 48; 48; 48; 48; 48; 48; 48; 48; 48; 48; 48; 48; 48; 48; 48; 48; 44; 32; 78; 111; 110; 101; 44; 32; 39; 1092; 1092; 99; 97; 1092; 99; 32; 97; 99; 101; 1092; 99; 99; 32; 101; 98; 1092; 1092; 32; 100; 100; 98; 100; 1092; 97; 98; 1092; 98; 32; 1092; 100; 99; 39; 44; 32; 49; 48; 48; 48; 48; 48; 48; 48; 48; 48; 48; 48; 48; 48; 48; 48; 48; 48; 48; 48; 48; 48; 48; 48; 48; 48; 48; 48; 48; 48; 48; 48; 48; 48; 48; 48; 48; 48; 48; 48; 48; 48; 44; 32; 70; 97; 108; 115; 101; 93; 44; 32; 39; 101; 39; 58; 32; 91; 39; 101; 1092; 101; 39; 44; 32; 39; 125; 92; 114; 92; 117; 100; 56; 48; 48; 92; 85; 48; 48; 48; 101; 48; 48; 48; 49; 97; 92; 92; 97; 92; 39; 92; 120; 49; 98; 92; 92; 122; 93; 92; 117; 101; 48; 48; 48; 125; 92; 117; 102; 102; 102; 102; 92; 92; 92; 117; 100; 56; 48; 48; 46; 128512; 34; 92; 120; 55; 102; 92; 120; 97; 48; 92; 117; 102; 102; 102; 102; 49; 125; 92; 120; 97; 100; 122; 92; 120; 97; 100; 92; 120; 97; 100; 57; 49; 92; 85; 48; 48; 48; 101; 48; 48; 48; 49; 48; 233; 92; 117; 50; 48; 48; 98; 92; 116; 92; 92; 92; 110; 92; 117; 100; 56; 48; 48; 92; 120; 56; 48; 39; 44; 32; 45; 49; 48; 48; 48; 48; 48; 48; 48; 48; 48; 48; 48; 48; 48; 48; 48; 48; 48; 48; 48; 48; 48; 48; 48; 48; 48; 48; 48; 48; 48; 48; 48; 48; 48; 48; 48; 48; 48; 48; 48; 48; 48; 93; 44; 32; 39; 20013; 92; 92; 39; 58; 32; 123; 125; 44; 32; 39; 128512; 92; 117; 101; 48; 48; 48; 39; 58; 32; 39; 233; 92; 117; 100; 56; 48; 48; 92; 120; 49; 98; 92; 120; 97; 48; 92; 120; 48; 48; 92; 117; 101; 48; 48; 48; 92; 92; 41; 92; 39; 34; 34; 233; 92; 120; 97; 48; 92; 120; 97; 48; 92; 114; 128512; 92; 114; 92; 120; 55; 102; 92; 120; 48; 48; 92; 120; 48; 48; 92; 120; 48; 48; 20013; 769; 40; 92; 120; 55; 102; 92; 120; 97; 100; 25991; 92; 120; 49; 98; 128512; 92; 114; 92; 110; 39; 44; 32; 39; 93; 91; 39; 58; 32; 70; 97; 108; 115; 101; 44; 32; 39; 34; 39; 58; 32; 45; 49; 48; 48; 48; 48; 48; 48; 48; 48; 48; 48; 48; 48; 48; 48; 48; 48; 48; 48; 48; 48; 48; 48; 48; 48; 48; 48; 48; 48; 48; 48; 48; 48; 48; 48; 48; 48; 48; 48; 48; 48; 44; 32; 34; 39; 92; 117; 101; 48; 48; 48; 34; 58; 32; 54; 56; 51; 49; 55; 51; 51; 48; 54; 54; 49; 48; 52; 54; 49; 48; 53; 56; 51; 52; 56; 53; 54; 50; 56; 50; 52; 53; 50; 50; 50; 49; 52; 48; 54; 52; 56; 51; 53; 52; 49; 44; 32; 39; 39; 58; 32; 45; 50; 125], [123; 39; 39; 58; 32; 45; 50; 44; 32; 39; 92; 120; 48; 48; 39; 58; 32; 91; 45; 49; 48; 48; 48; 48; 48; 48; 48; 48; 48; 48; 48; 48; 48; 48; 48; 48; 48; 48; 48; 48; 48; 48; 48; 48; 48; 48; 48; 48; 48; 48; 48; 48; 48; 48; 48; 48; 48; 44; 32; 78; 111; 110; 101; 44; 32; 39; 1092; 1092; 99; 97; 1092; 99; 32; 97; 99; 101; 1092; 99; 46; 46; 46; 100; 100; 98; 100; 1092; 97; 98; 1092; 98; 32; 1092; 100; 99; 39; 44; 32; 49; 48; 48; 48; 48; 48; 48; 48; 48; 48; 48; 48; 48; 48; 48; 48; 48; 48; 46; 46; 46; 48; 48; 48; 48; 48; 48; 48; 48; 48; 48; 48; 48; 48; 48; 48; 48; 48; 48; 48; 44; 32; 70; 97; 108; 115; 101; 93; 44; 32; 39; 34; 39; 58; 32; 45; 49; 48; 48; 48; 48; 48; 48; 48; 48; 48; 48; 48; 48; 48; 48; 48; 48; 46; 46; 46; 48; 48; 48; 48; 48; 48; 48; 48; 48; 48; 48; 48; 48; 48; 48; 48; 48; 48; 48; 44; 32; 34; 39; 92; 117; 101; 48; 48; 48; 34; 58; 32; 54; 56; 51; 49; 55; 51; 51; 48; 54; 54; 49; 48; 52; 54; 49; 48; 53; 56; 46; 46; 46; 54; 50; 56; 50; 52; 53; 50; 50; 50; 49; 52; 48; 54; 52; 56; 51; 53; 52; 49; 44; 32; 46; 46; 46; 125], [123; 39; 92; 120; 48; 48; 39; 58; 32; 91; 45; 49; 48; 48; 48; 48; 48; 48; 48; 48; 48; 48; 48; 48; 48; 48; 48; 48; 48; 48; 48; 48; 48; 48; 48; 48; 48; 48; 48; 48; 48; 48; 48; 48; 48; 48; 48; 48; 48; 44; 32; 78; 111; 110; 101; 44; 32; 39; 1092; 1092; 99; 97; 1092; 99; 32; 97; 99; 101; 1092; 99; 99; 32; 101; 98; 1092; 1092; 32; 100; 100; 98; 100; 1092; 97; 98; 1092; 98; 32; 1092; 100; 99; 39; 44; 32; 49; 48; 48; 48; 48; 48; 48; 48; 48; 48; 48; 48; 48; 48; 48; 48; 48; 48; 48; 48; 48; 48; 48; 48; 48; 48; 48; 48; 48; 48; 48; 48; 48; 48; 48; 48; 48; 48; 48; 48; 48; 48; 44; 32; 70; 97; 108; 115; 101; 93; 44; 32; 39; 101; 39; 58; 32; 91; 39; 101; 1092; 101; 39; 44; 32; 39; 125; 92; 114; 92; 117; 100; 56; 48; 48; 92; 85; 48; 48; 48; 101; 48; 48; 48; 49; 97; 92; 92; 97; 92; 39; 92; 120; 49; 98; 92; 92; 122; 93; 92; 117; 101; 48; 48; 48; 125; 92; 117; 102; 102; 102; 102; 92; 92; 92; 117; 100; 56; 48; 48; 46; 128512; 34; 92; 120; 55; 102; 92; 120; 97; 48; 92; 117; 102; 102; 102; 102; 49; 125; 92; 120; 97; 100; 122; 92; 120; 97; 100; 92; 120; 97; 100; 57; 49; 92; 85; 48; 48; 48; 101; 48; 48; 48; 49; 48; 233; 92; 117; 50; 48; 48; 98; 92; 116; 92; 92; 92; 110; 92; 117; 100; 56; 48; 48; 92; 120; 56; 48; 39; 44; 32; 45; 49; 48; 48; 48; 48; 48; 48; 48; 48; 48; 48; 48; 48; 48; 48; 48; 48; 48; 48; 48; 48; 48; 48; 48; 48; 48; 48; 48; 48; 48; 48; 48; 48; 48; 48; 48; 48; 48; 48; 48; 48; 48; 93; 44; 32; 46; 46; 46; 125]);
  ((JBool true), [84; 114; 117; 101], [84; 114; 117; 101], [84; 114; 117; 101]);
  ((JList [(JBool false); (JInt (10000000000000000000000000000000000000)); JNone; (JDict [([160; 34], (JStr [128; 55296; 39; 25991; 55296; 27; 8203; 160])); ([101], JNone)]); (JList [(JStr [101; 1092; 99; 1092; 98; 97; 1092; 1092; 101; 32; 32; 99])])]), [91; 70; 97; 108; 115; 101; 44; 32; 49; 48; 48; 48; 48; 48; 48; 48; 48; 48; 48; 48; 48; 48; 48; 48; 48; 48; 48; 48; 48; 48; 48; 48; 48; 48; 48; 48; 48; 48; 48; 48; 48; 48; 48; 48; 48; 48; 44; 32; 78; 111; 110; 101; 44; 32; 123; 39; 92; 120; 97; 48; 34; 39; 58; 32; 34; 92; 120; 56; 48; 92; 117; 100; 56; 48; 48; 39; 25991; 92; 117; 100; 56; 48; 48; 92; 120; 49; 98; 92; 117; 50; 48; 48; 98; 92; 120; 97; 48; 34; 44; 32; 39; 101; 39; 58; 32; 78; 111; 110; 101; 125; 44; 32; 91; 39; 101; 1092; 99; 1092; 98; 97; 1092; 1092; 101; 32; 32; 99; 39; 93; 93], [91; 70; 97; 108; 115; 101; 44; 32; 49; 48; 48; 48; 48; 48; 48; 48; 48; 48; 48; 48; 48; 48; 48; 48; 48; 48; 48; 48; 48; 48; 48; 48; 48; 48; 48; 48; 48; 48; 48; 48; 48; 48; 48; 48; 48; 48; 44; 32; 78; 111; 110; 101; 44; 32; 123; 39; 101; 39; 58; 32; 78; 111; 110; 101; 44; 32; 39; 92; 120; 97; 48; 34; 39; 58; 32; 34; 92; 120; 56; 48; 92; 117; 100; 56; 48; 48; 39; 25991; 46; 46; 46; 120; 49; 98; 92; 117; 50; 48; 48; 98; 92; 120; 97; 48; 34; 125; 44; 32; 91; 39; 101; 1092; 99; 1092; 98; 97; 1092; 1092; 101; 32; 32; 99; 39; 93; 93], [91; 70; 97; 108; 115; 101; 44; 32; 49; 48; 48; 48; 48; 48; 48; 48; 48; 48; 48; 48; 48; 48; 48; 48; 48; 48; 48; 48; 48; 48; 48; 48; 48; 48; 48; 48; 48; 48; 48; 48; 48; 48; 48; 48; 48; 48; 44; 32; 78; 111; 110; 101; 44; 32; 123; 39; 101; 39; 58; 32; 78; 111; 110; 101; 44; 32; 39; 92; 120; 97; 48; 34; 39; 58; 32; 34; 92; 120; 56; 48; 92; 117; 100; 56; 48; 48; 39; 25991; 46; 46; 46; 120; 49; 98; 92; 117; 50; 48; 48; 98; 92; 120; 97; 48; 34; 125; 44; 32; 91; 39; 101; 1092; 99; 1092; 98; 97; 1092; 1092; 101; 32; 32; 99; 39; 93; 93]);
  ((JList [(JStr [65535; 10; 13; 1114111; 39; 41; 41; 10; 27; 65535; 55296; 917505; 233; 9; 92; 92; 10; 65535; 57344; 27; 40; 65535; 20013; 8203; 55296; 769; 27; 27; 25991; 20013; 127])]), [91; 34; 92; 117; 102; 102; 102; 102; 92; 110; 92; 114; 92; 85; 48; 48; 49; 48; 102; 102; 102; 102; 39; 41; 41; 92; 110; 92; 120; 49; 98; 92; 117; 102; 102; 102; 102; 92; 117; 100; 56; 48; 48; 92; 85; 48; 48; 48; 101; 48; 48; 48; 49; 233; 92; 116; 92; 92; 92; 92; 92; 110; 92; 117; 102; 102; 102; 102; 92; 117; 101; 48; 48; 48; 92; 120; 49; 98; 40; 92; 117; 102; 102; 102; 102; 20013; 92; 117; 50; 48; 48; 98; 92; 117; 100; 56; 48; 48; 769; 92; 120; 49; 98; 92; 120; 49; 98; 25991; 20013; 92; 120; 55; 102; 34; 93], [91; 34; 92; 117; 102; 102; 102; 102; 92; 110; 92; 114; 92; 85; 46; 46; 46; 120; 49; 98; 92; 120; 49; 98; 25991; 20013; 92; 120; 55; 102; 34; 93], [91; 34; 92; 117; 102; 102; 102; 102; 92; 110; 92; 114; 92; 85; 46; 46; 46; 120; 49; 98; 92; 120; 49; 98; 25991; 20013; 92; 120; 55; 102; 34; 93]);
  ((JBool true), [84; 114; 117; 101], [84; 114; 117; 101], [84; 114; 117; 101]);
  ((JBool false), [70; 97; 108; 115; 101], [70; 97; 108; 115; 101], [70; 97; 108; 115; 101])] = true.
Proof. vm_compute. reflexivity. Qed.
Example texts_4 : forallb agrees
 [((JStr [13; 233; 92; 39; 39; 48; 160; 57344; 125; 25991; 122; 48; 128; 769; 25991; 32; 917505; 233; 233; 769; 91; 57344; 127; 9; 40; 93; 44; 97; 160; 127; 44; 128512; 125; 41; 128; 34; 48; 0; 49; 32]), [39; 92; 114; 233; 92; 92; 92; 39; 92; 39; 48; 92; 120; 97; 48; 92; 117; 101; 48; 48; 48; 125; 25991; 122; 48; 92; 120; 56; 48; 769; 25991; 32; 92; 85; 48; 48; 48; 101; 48; 48; 48; 49; 233; 233; 769; 91; 92; 117; 101; 48; 48; 48; 92; 120; 55; 102; 92; 116; 40; 93; 44; 97; 92; 120; 97; 48; 92; 120; 55; 102; 44; 128512; 125; 41; 92; 120; 56; 48; 34; 48; 92; 120; 48; 48; 49; 32; 39], [39; 92; 114; 233; 92; 92; 92; 39; 92; 39; 48; 92; 120; 46; 46; 46; 41; 92; 120; 56; 48; 34; 48; 92; 120; 48; 48; 49; 32; 39], [39; 92; 114; 233; 92; 92; 92; 39; 92; 39; 48; 92; 120; 46; 46; 46; 41; 92; 120; 56; 48; 34; 48; 92; 120; 48; 48; 49; 32; 39]);
  ((JStr [1092; 98; 1092; 32; 101; 100; 1092; 32; 98; 100; 101; 100; 1092; 1092; 100; 100; 1092; 101; 101; 98; 98; 101; 97; 101; 1092; 101; 99; 99; 100]), [39; 1092; 98; 1092; 32; 101; 100; 1092; 32; 98; 100; 101; 100; 1092; 1092; 100; 100; 1092; 101; 101; 98; 98; 101; 97; 101; 1092; 101; 99; 99; 100; 39], [39; 1092; 98; 1092; 32; 101; 100; 1092; 32; 98; 100; 101; 100; 46; 46; 46; 1092; 101; 101; 98; 98; 101; 97; 101; 1092; 101; 99; 99; 100; 39], [39; 1092; 98; 1092; 32; 101; 100; 1092; 32; 98; 100; 101; 100; 46; 46; 46; 1092; 101; 101; 98; 98; 101; 97; 101; 1092; 101; 99; 99; 100; 39]);
  ((JStr [32]), [39; 32; 39], [39; 32; 39], [39; 32; 39]);
  ((JStr [128; 13; 769; 233; 92; 91; 20013; 8203; 39; 91; 123; 91; 57]), [34; 92; 120; 56; 48; 92; 114; 769; 233; 92; 92; 91; 20013; 92; 117; 50; 48; 48; 98; 39; 91; 123; 91; 57; 34], [34; 92; 120; 56; 48; 92; 114; 769; 233; 92; 92; 91; 20013; 92; 117; 50; 48; 48; 98; 39; 91; 123; 91; 57; 34], [34; 92; 120; 56; 48; 92; 114; 769; 233; 92; 92; 91; 20013; 92; 117; 50; 48; 48; 98; 39; 91; 123; 91; 57; 34]);
  ((JStr [1092; 99; 1092; 1092; 98; 101; 101; 32; 97; 97; 97; 1092; 101]), [39; 1092; 99; 1092; 1092; 98; 101; 101; 32; 97; 97; 97; 1092; 101; 39], [39; 1092; 99; 1092; 1092; 98; 101; 101; 32; 97; 97; 97; 1092; 101; 39], [39; 1092; 99; 1092; 1092; 98; 101; 101; 32; 97; 97; 97; 1092; 101; 39]);
  ((JStr [97; 32; 98; 32; 98; 100; 99; 99; 32; 1092; 98; 99; 98; 97; 1092; 1092; 99; 97; 101; 99; 101; 100; 32; 32; 98; 1092; 101; 32; 101; 99; 99; 100; 101; 101; 99; 101; 99; 97; 97; 32]), [39; 97; 32; 98; 32; 98; 100; 99; 99; 32; 1092; 98; 99; 98; 97; 1092; 1092; 99; 97; 101; 99; 101; 100; 32; 32; 98; 1092; 101; 32; 101; 99; 99; 100; 101; 101; 99; 101; 99; 97; 97; 32; 39], [39; 97; 32; 98; 32; 98; 100; 99; 99; 32; 1092; 98; 99; 46; 46; 46; 32; 101; 99; 99; 100; 101; 101; 99; 101; 99; 97; 97; 32; 39], [39; 97; 32; 98; 32; 98; 100; 99; 99; 32; 1092; 98; 99; 46; 46; 46; 32; 101; 99; 99; 100; 101; 101; 99; 101; 99; 97; 97; 32; 39]);
  ((JStr [100; 97; 32; 98; 101; 98; 101; 1092]), [39; 100; 97; 32; 98; 101; 98; 101; 1092; 39], [39; 100; 97; 32; 98; 101; 98; 101; 1092; 39], [39; 100; 97; 32; 98; 101; 98; 101; 1092; 39]);
  ((JStr [32; 97; 101; 32; 99; 99; 32; 1092; 100; 100; 101; 99; 100; 1092; 1092]), [39; 32; 97; 101; 32; 99; 99; 32; 1092; 100; 100; 101; 99; 100; 1092; 1092; 39], [39; 32; 97; 101; 32; 99; 99; 32; 1092; 100; 100; 101; 99; 100; 1092; 1092; 39], [39; 32; 97; 101; 32; 99; 99; 32; 1092; 100; 100; 101; 99; 100; 1092; 1092; 39]);
  ((JStr [57344; 0; 13; 0; 13; 34; 92; 10; 92; 173; 25991; 128512; 92]), [39; 92; 117; 101; 48; 48; 48; 92; 120; 48; 48; 92; 114; 92; 120; 48; 48; 92; 114; 34; 92; 92; 92; 110; 92; 92; 92; 120; 97; 100; 25991; 128512; 92; 92; 39], [39; 92; 117; 101; 48; 48; 48; 92; 120; 48; 48; 92; 114; 46; 46; 46; 110; 92; 92; 92; 120; 97; 100; 25991; 128512; 92; 92; 92; 92; 39], [39; 92; 117; 101; 48; 48; 48; 92; 120; 48; 48; 92; 114; 46; 46; 46; 110; 92; 92; 92; 120; 97; 100; 25991; 128512; 92; 92; 92; 92; 39]);
  ((JStr [13]), [39; 92; 114; 39], [39; 92; 114; 39], [39; 92; 114; 39]);
  ((JStr [100; 100; 99]), [39; 100; 100; 99; 39], [39; 100; 100; 99; 39], [39; 100; 100; 99; 39]);
  ((JStr [98; 32; 100; 98; 97; 1092; 1092; 1092; 97; 32; 98; 101; 98; 100]), [39; 98; 32; 100; 98; 97; 1092; 1092; 1092; 97; 32; 98; 101; 98; 100; 39], [39; 98; 32; 100; 98; 97; 1092; 1092; 1092; 97; 32; 98; 101; 98; 100; 39], [39; 98; 32; 100; 98; 97; 1092; 1092; 1092; 97; 32; 98; 101; 98; 100; 39]);
  ((JStr [55296; 92; 49; 55296; 39; 91; 32; 40; 91; 8203; 9; 25991; 173; 65535; 1114111; 39; 49; 98; 769; 128512; 233; 46; 20013; 41; 10; 0; 57; 13; 125; 160; 93; 13; 20013; 49; 57344; 8203; 160; 917505; 91; 44]), [34; 92; 117; 100; 56; 48; 48; 92; 92; 49; 92; 117; 100; 56; 48; 48; 39; 91; 32; 40; 91; 92; 117; 50; 48; 48; 98; 92; 116; 25991; 92; 120; 97; 100; 92; 117; 102; 102; 102; 102; 92; 85; 48; 48; 49; 48; 102; 102; 102; 102; 39; 49; 98; 769; 128512; 233; 46; 20013; 41; 92; 110; 92; 120; 48; 48; 57; 92; 114; 125; 92; 120; 97; 48; 93; 92; 114; 20013; 49; 92; 117; 101; 48; 48; 48; 92; 117; 50; 48; 48; 98; 92; 120; 97; 48; 92; 85; 48; 48; 48; 101; 48; 48; 48; 49; 91; 44; 34], [34; 92; 117; 100; 56; 48; 48; 92; 92; 49; 92; 117; 100; 46; 46; 46; 48; 92; 85; 48; 48; 48; 101; 48; 48; 48; 49; 91; 44; 34], [34; 92; 117; 100; 56; 48; 48; 92; 92; 49; 92; 117; 100; 46; 46; 46; 48; 92; 85; 48; 48; 48; 101; 48; 48; 48; 49; 91; 44; 34]);
  ((JStr [1092; 32; 1092; 99; 97; 97; 32; 100; 99; 101; 98; 98; 99; 32; 98; 101; 1092; 97; 32; 100]), [39; 1092; 32; 1092; 99; 97; 97; 32; 100; 99; 101; 98; 98; 99; 32; 98; 101; 1092; 97; 32; 100; 39], [39; 1092; 32; 1092; 99; 97; 97; 32; 100; 99; 101; 98; 98; 99; 32; 98; 101; 1092; 97; 32; 100; 39], [39; 1092; 32; 1092; 99; 97; 97; 32; 100; 99; 101; 98; 98; 99; 32; 98; 101; 1092; 97; 32; 100; 39]);
  ((JStr [34; 128512; 20013; 57; 48; 57; 39; 8203; 49; 48; 92; 41; 20013; 46; 98; 128512; 57344; 41; 92; 917505; 57; 44; 127; 25991; 9; 46; 41; 97; 34; 49]), [39; 34; 128512; 20013; 57; 48; 57; 92; 39; 92; 117; 50; 48; 48; 98; 49; 48; 92; 92; 41; 20013; 46; 98; 128512; 92; 117; 101; 48; 48; 48; 41; 92; 92; 92; 85; 48; 48; 48; 101; 48; 48; 48; 49; 57; 44; 92; 120; 55; 102; 25991; 92; 116; 46; 41; 97; 34; 49; 39], [39; 34; 128512; 20013; 57; 48; 57; 92; 39; 92; 117; 50; 48; 46; 46; 46; 44; 92; 120; 55; 102; 25991; 92; 116; 46; 41; 97; 34; 49; 39], [39; 34; 128512; 20013; 57; 48; 57; 92; 39; 92; 117; 50; 48; 46; 46; 46; 44; 92; 120; 55; 102; 25991; 92; 116; 46; 41; 97; 34; 49; 39]);
  ((JStr [55296; 93; 48; 65535; 41; 40; 10; 25991]), [39; 92; 117; 100; 56; 48; 48; 93; 48; 92; 117; 102; 102; 102; 102; 41; 40; 92; 110; 25991; 39], [39; 92; 117; 100; 56; 48; 48; 93; 48; 92; 117; 102; 102; 102; 102; 41; 40; 92; 110; 25991; 39], [39; 92; 117; 100; 56; 48; 48; 93; 48; 92; 117; 102; 102; 102; 102; 41; 40; 92; 110; 25991; 39]);
  ((JStr [20013; 10; 128; 13; 13; 1114111; 65535; 65535; 39; 57344; 917505; 57344; 92; 917505; 27; 128; 769; 160; 0; 173; 128; 57344; 0; 20013; 27; 917505; 20013; 769; 769; 55296; 128; 34]), [39; 20013; 92; 110; 92; 120; 56; 48; 92; 114; 92; 114; 92; 85; 48; 48; 49; 48; 102; 102; 102; 102; 92; 117; 102; 102; 102; 102; 92; 117; 102; 102; 102; 102; 92; 39; 92; 117; 101; 48; 48; 48; 92; 85; 48; 48; 48; 101; 48; 48; 48; 49; 92; 117; 101; 48; 48; 48; 92; 92; 92; 85; 48; 48; 48; 101; 48; 48; 48; 49; 92; 120; 49; 98; 92; 120; 56; 48; 769; 92; 120; 97; 48; 92; 120; 48; 48; 92; 120; 97; 100; 92; 120; 56; 48; 92; 117; 101; 48; 48; 48; 92; 120; 48; 48; 20013; 92; 120; 49; 98; 92; 85; 48; 48; 48; 101; 48; 48; 48; 49; 20013; 769; 769; 92; 117; 100; 56; 48; 48; 92; 120; 56; 48; 34; 39], [39; 20013; 92; 110; 92; 120; 56; 48; 92; 114; 92; 114; 92; 46; 46; 46; 769; 769; 92; 117; 100; 56; 48; 48; 92; 120; 56; 48; 34; 39], [39; 20013; 92; 110; 92; 120; 56; 48; 92; 114; 92; 114; 92; 46; 46; 46; 769; 769; 92; 117; 100; 56; 48; 48; 92; 120; 56; 48; 34; 39]);
  ((JStr [32; 100; 99; 1092; 97; 101; 1092; 32]), [39; 32; 100; 99; 1092; 97; 101; 1092; 32; 39], [39; 32; 100; 99; 1092; 97; 101; 1092; 32; 39], [39; 32; 100; 99; 1092; 97; 101; 1092; 32; 39]);
  ((JStr [1092; 100; 32]), [39; 1092; 100; 32; 39], [39; 1092; 100; 32; 39], [39; 1092; 100; 32; 39]);
  ((JStr [65535; 123; 91; 233; 91; 39; 122; 92; 98; 27; 46; 41; 46]), [34; 92; 117; 102; 102; 102; 102; 123; 91; 233; 91; 39; 122; 92; 92; 98; 92; 120; 49; 98; 46; 41; 46; 34], [34; 92; 117; 102; 102; 102; 102; 123; 91; 233; 91; 39; 122; 92; 92; 98; 92; 120; 49; 98; 46; 41; 46; 34], [34; 92; 117; 102; 102; 102; 102; 123; 91; 233; 91; 39; 122; 92; 92; 98; 92; 120; 49; 98; 46; 41; 46; 34])] = true.
Proof. vm_compute. reflexivity. Qed.
Example texts_5 : forallb agrees
 [((JStr [101; 98; 100; 97; 100]), [39; 101; 98; 100; 97; 100; 39], [39; 101; 98; 100; 97; 100; 39], [39; 101; 98; 100; 97; 100; 39]);
  ((JStr [57344; 41]), [39; 92; 117; 101; 48; 48; 48; 41; 39], [39; 92; 117; 101; 48; 48; 48; 41; 39], [39; 92; 117; 101; 48; 48; 48; 41; 39]);
  ((JStr [100; 101]), [39; 100; 101; 39], [39; 100; 101; 39], [39; 100; 101; 39]);
  ((JStr [769; 92; 27; 1114111; 55296; 13; 65535; 9; 769; 39; 917505; 20013; 769; 13]), [34; 769; 92; 92; 92; 120; 49; 98; 92; 85; 48; 48; 49; 48; 102; 102; 102; 102; 92; 117; 100; 56; 48; 48; 92; 114; 92; 117; 102; 102; 102; 102; 92; 116; 769; 39; 92; 85; 48; 48; 48; 101; 48; 48; 48; 49; 20013; 769; 92; 114; 34], [34; 769; 92; 92; 92; 120; 49; 98; 92; 85; 48; 48; 49; 46; 46; 46; 85; 48; 48; 48; 101; 48; 48; 48; 49; 20013; 769; 92; 114; 34], [34; 769; 92; 92; 92; 120; 49; 98; 92; 85; 48; 48; 49; 46; 46; 46; 85; 48; 48; 48; 101; 48; 48; 48; 49; 20013; 769; 92; 114; 34]);
  ((JStr [34; 128512; 769; 173; 13; 127; 0; 0; 160; 128; 34; 128; 25991; 128512; 917505]), [39; 34; 128512; 769; 92; 120; 97; 100; 92; 114; 92; 120; 55; 102; 92; 120; 48; 48; 92; 120; 48; 48; 92; 120; 97; 48; 92; 120; 56; 48; 34; 92; 120; 56; 48; 25991; 128512; 92; 85; 48; 48; 48; 101; 48; 48; 48; 49; 39], [39; 34; 128512; 769; 92; 120; 97; 100; 92; 114; 92; 120; 55; 46; 46; 46; 48; 25991; 128512; 92; 85; 48; 48; 48; 101; 48; 48; 48; 49; 39], [39; 34; 128512; 769; 92; 120; 97; 100; 92; 114; 92; 120; 55; 46; 46; 46; 48; 25991; 128512; 92; 85; 48; 48; 48; 101; 48; 48; 48; 49; 39]);
  ((JStr [10; 9; 39; 97; 0; 34; 40; 160; 41; 97; 128512; 65535; 769; 65535; 25991; 49; 125; 1114111; 49; 40; 98; 0; 123; 173; 13; 93; 93; 769; 34; 769; 65535; 98]), [39; 92; 110; 92; 116; 92; 39; 97; 92; 120; 48; 48; 34; 40; 92; 120; 97; 48; 41; 97; 128512; 92; 117; 102; 102; 102; 102; 769; 92; 117; 102; 102; 102; 102; 25991; 49; 125; 92; 85; 48; 48; 49; 48; 102; 102; 102; 102; 49; 40; 98; 92; 120; 48; 48; 123; 92; 120; 97; 100; 92; 114; 93; 93; 769; 34; 769; 92; 117; 102; 102; 102; 102; 98; 39], [39; 92; 110; 92; 116; 92; 39; 97; 92; 120; 48; 48; 34; 46; 46; 46; 114; 93; 93; 769; 34; 769; 92; 117; 102; 102; 102; 102; 98; 39], [39; 92; 110; 92; 116; 92; 39; 97; 92; 120; 48; 48; 34; 46; 46; 46; 114; 93; 93; 769; 34; 769; 92; 117; 102; 102; 102; 102; 98; 39]);
  ((JStr [0; 8203; 93; 25991; 91; 57; 233; 40; 160; 46; 233; 10]), [39; 92; 120; 48; 48; 92; 117; 50; 48; 48; 98; 93; 25991; 91; 57; 233; 40; 92; 120; 97; 48; 46; 233; 92; 110; 39], [39; 92; 120; 48; 48; 92; 117; 50; 48; 48; 98; 93; 25991; 91; 57; 233; 40; 92; 120; 97; 48; 46; 233; 92; 110; 39], [39; 92; 120; 48; 48; 92; 117; 50; 48; 48; 98; 93; 25991; 91; 57; 233; 40; 92; 120; 97; 48; 46; 233; 92; 110; 39]);
  ((JStr [41; 65535; 34; 173; 233; 39; 128512; 55296; 8203; 10; 39; 98; 44; 39; 44; 128512; 39; 0; 98; 57; 39; 97; 123; 20013; 0; 160; 128; 49; 233; 125; 57; 32]), [39; 41; 92; 117; 102; 102; 102; 102; 34; 92; 120; 97; 100; 233; 92; 39; 128512; 92; 117; 100; 56; 48; 48; 92; 117; 50; 48; 48; 98; 92; 110; 92; 39; 98; 44; 92; 39; 44; 128512; 92; 39; 92; 120; 48; 48; 98; 57; 92; 39; 97; 123; 20013; 92; 120; 48; 48; 92; 120; 97; 48; 92; 120; 56; 48; 49; 233; 125; 57; 32; 39], [39; 41; 92; 117; 102; 102; 102; 102; 34; 92; 120; 97; 100; 46; 46; 46; 92; 120; 97; 48; 92; 120; 56; 48; 49; 233; 125; 57; 32; 39], [39; 41; 92; 117; 102; 102; 102; 102; 34; 92; 120; 97; 100; 46; 46; 46; 92; 120; 97; 48; 92; 120; 56; 48; 49; 233; 125; 57; 32; 39]);
  ((JStr [1114111; 917505; 97]), [39; 92; 85; 48; 48; 49; 48; 102; 102; 102; 102; 92; 85; 48; 48; 48; 101; 48; 48; 48; 49; 97; 39], [39; 92; 85; 48; 48; 49; 48; 102; 102; 102; 102; 92; 85; 48; 48; 48; 101; 48; 48; 48; 49; 97; 39], [39; 92; 85; 48; 48; 49; 48; 102; 102; 102; 102; 92; 85; 48; 48; 48; 101; 48; 48; 48; 49; 97; 39]);
  ((JStr [99; 100; 97; 101; 98; 99; 32; 97; 98; 1092; 97; 98; 97]), [39; 99; 100; 97; 101; 98; 99; 32; 97; 98; 1092; 97; 98; 97; 39], [39; 99; 100; 97; 101; 98; 99; 32; 97; 98; 1092; 97; 98; 97; 39], [39; 99; 100; 97; 101; 98; 99; 32; 97; 98; 1092; 97; 98; 97; 39]);
  ((JStr [98; 55296; 40; 40; 32; 10; 65535; 20013]), [39; 98; 92; 117; 100; 56; 48; 48; 40; 40; 32; 92; 110; 92; 117; 102; 102; 102; 102; 20013; 39], [39; 98; 92; 117; 100; 56; 48; 48; 40; 40; 32; 92; 110; 92; 117; 102; 102; 102; 102; 20013; 39], [39; 98; 92; 117; 100; 56; 48; 48; 40; 40; 32; 92; 110; 92; 117; 102; 102; 102; 102; 20013; 39]);
  ((JStr [1092; 97; 100; 98; 100; 99; 98; 101; 101; 99; 97; 97; 32; 97; 98; 97; 32; 101; 32; 1092; 99; 100; 1092; 1092; 32; 100; 98]), [39; 1092; 97; 100; 98; 100; 99; 98; 101; 101; 99; 97; 97; 32; 97; 98; 97; 32; 101; 32; 1092; 99; 100; 1092; 1092; 32; 100; 98; 39], [39; 1092; 97; 100; 98; 100; 99; 98; 101; 101; 99; 97; 97; 32; 97; 98; 97; 32; 101; 32; 1092; 99; 100; 1092; 1092; 32; 100; 98; 39], [39; 1092; 97; 100; 98; 100; 99; 98; 101; 101; 99; 97; 97; 32; 97; 98; 97; 32; 101; 32; 1092; 99; 100; 1092; 1092; 32; 100; 98; 39]);
  ((JStr [98; 99; 1092; 100; 1092; 101; 1092; 97; 32; 1092; 99; 1092; 100]), [39; 98; 99; 1092; 100; 1092; 101; 1092; 97; 32; 1092; 99; 1092; 100; 39], [39; 98; 99; 1092; 100; 1092; 101; 1092; 97; 32; 1092; 99; 1092; 100; 39], [39; 98; 99; 1092; 100; 1092; 101; 1092; 97; 32; 1092; 99; 1092; 100; 39]);
  ((JStr [40; 34; 41; 25991; 27; 8203; 10; 49; 48; 20013; 127; 1114111; 13; 20013; 48]), [39; 40; 34; 41; 25991; 92; 120; 49; 98; 92; 117; 50; 48; 48; 98; 92; 110; 49; 48; 20013; 92; 120; 55; 102; 92; 85; 48; 48; 49; 48; 102; 102; 102; 102; 92; 114; 20013; 48; 39], [39; 40; 34; 41; 25991; 92; 120; 49; 98; 92; 117; 50; 48; 46; 46; 46; 85; 48; 48; 49; 48; 102; 102; 102; 102; 92; 114; 20013; 48; 39], [39; 40; 34; 41; 25991; 92; 120; 49; 98; 92; 117; 50; 48; 46; 46; 46; 85; 48; 48; 49; 48; 102; 102; 102; 102; 92; 114; 20013; 48; 39]);
  ((JStr [27; 233; 8203; 25991; 769; 39; 8203; 25991; 27; 128; 57344; 9; 233; 65535; 769; 65535; 128; 10; 173; 8203; 13; 0; 39; 65535; 9; 92; 13; 9; 8203; 13; 233]), [34; 92; 120; 49; 98; 233; 92; 117; 50; 48; 48; 98; 25991; 769; 39; 92; 117; 50; 48; 48; 98; 25991; 92; 120; 49; 98; 92; 120; 56; 48; 92; 117; 101; 48; 48; 48; 92; 116; 233; 92; 117; 102; 102; 102; 102; 769; 92; 117; 102; 102; 102; 102; 92; 120; 56; 48; 92; 110; 92; 120; 97; 100; 92; 117; 50; 48; 48; 98; 92; 114; 92; 120; 48; 48; 39; 92; 117; 102; 102; 102; 102; 92; 116; 92; 92; 92; 114; 92; 116; 92; 117; 50; 48; 48; 98; 92; 114; 233; 34], [34; 92; 120; 49; 98; 233; 92; 117; 50; 48; 48; 98; 25991; 46; 46; 46; 92; 114; 92; 116; 92; 117; 50; 48; 48; 98; 92; 114; 233; 34], [34; 92; 120; 49; 98; 233; 92; 117; 50; 48; 48; 98; 25991; 46; 46; 46; 92; 114; 92; 116; 92; 117; 50; 48; 48; 98; 92; 114; 233; 34]);
  ((JStr [32; 97; 101]), [39; 32; 97; 101; 39], [39; 32; 97; 101; 39], [39; 32; 97; 101; 39]);
  ((JStr [1092]), [39; 1092; 39], [39; 1092; 39], [39; 1092; 39]);
  ((JStr [99; 97; 101; 98; 98; 101; 98; 97; 98; 101; 99; 101; 99; 32; 101; 32; 97; 32; 98; 100; 97; 97; 98; 1092; 101; 101; 97; 101; 100; 1092; 32; 98]), [39; 99; 97; 101; 98; 98; 101; 98; 97; 98; 101; 99; 101; 99; 32; 101; 32; 97; 32; 98; 100; 97; 97; 98; 1092; 101; 101; 97; 101; 100; 1092; 32; 98; 39], [39; 99; 97; 101; 98; 98; 101; 98; 97; 98; 101; 99; 101; 46; 46; 46; 100; 97; 97; 98; 1092; 101; 101; 97; 101; 100; 1092; 32; 98; 39], [39; 99; 97; 101; 98; 98; 101; 98; 97; 98; 101; 99; 101; 46; 46; 46; 100; 97; 97; 98; 1092; 101; 101; 97; 101; 100; 1092; 32; 98; 39]);
  ((JStr [100; 101; 101; 98; 99; 100; 97; 100; 99; 99; 98; 97; 32]), [39; 100; 101; 101; 98; 99; 100; 97; 100; 99; 99; 98; 97; 32; 39], [39; 100; 101; 101; 98; 99; 100; 97; 100; 99; 99; 98; 97; 32; 39], [39; 100; 101; 101; 98; 99; 100; 97; 100; 99; 99; 98; 97; 32; 39]);
  ((JStr [98; 44; 10]), [39; 98; 44; 92; 110; 39], [39; 98; 44; 92; 110; 39], [39; 98; 44; 92; 110; 39])] = true.
Proof. vm_compute. reflexivity. Qed.
Example texts_6 : forallb agrees
 [((JList [(JList [(JList [(JList [(JList [(JList [(JList [(JInt (1))])])])])])])]), [91; 91; 91; 91; 91; 91; 91; 49; 93; 93; 93; 93; 93; 93; 93], [91; 91; 91; 91; 91; 91; 91; 46; 46; 46; 93; 93; 93; 93; 93; 93; 93], [91; 91; 91; 91; 91; 91; 91; 46; 46; 46; 93; 93; 93; 93; 93; 93; 93]);
  ((JList [(JList [(JList [(JList [(JList [(JList [(JDict [])])])])])])]), [91; 91; 91; 91; 91; 91; 123; 125; 93; 93; 93; 93; 93; 93], [91; 91; 91; 91; 91; 91; 123; 125; 93; 93; 93; 93; 93; 93], [91; 91; 91; 91; 91; 91; 123; 125; 93; 93; 93; 93; 93; 93]);
  ((JList [(JList [(JList [(JList [(JList [(JList [(JDict [([97], (JInt (1)))])])])])])])]), [91; 91; 91; 91; 91; 91; 123; 39; 97; 39; 58; 32; 49; 125; 93; 93; 93; 93; 93; 93], [91; 91; 91; 91; 91; 91; 123; 46; 46; 46; 125; 93; 93; 93; 93; 93; 93], [91; 91; 91; 91; 91; 91; 123; 46; 46; 46; 125; 93; 93; 93; 93; 93; 93]);
  ((JTuple [(JTuple [(JTuple [(JTuple [(JTuple [(JTuple [])])])])])]), [40; 40; 40; 40; 40; 40; 41; 44; 41; 44; 41; 44; 41; 44; 41; 44; 41], [40; 40; 40; 40; 40; 40; 41; 44; 41; 44; 41; 44; 41; 44; 41; 44; 41], [40; 40; 40; 40; 40; 40; 41; 44; 41; 44; 41; 44; 41; 44; 41; 44; 41]);
  ((JList [(JList [(JList [(JList [(JList [(JList [(JTuple [(JInt (1)); (JInt (2))])])])])])])]), [91; 91; 91; 91; 91; 91; 40; 49; 44; 32; 50; 41; 93; 93; 93; 93; 93; 93], [91; 91; 91; 91; 91; 91; 40; 46; 46; 46; 41; 93; 93; 93; 93; 93; 93], [91; 91; 91; 91; 91; 91; 40; 46; 46; 46; 41; 93; 93; 93; 93; 93; 93]);
  ((JDict [([98], (JInt (1))); ([97], (JInt (2)))]), [123; 39; 98; 39; 58; 32; 49; 44; 32; 39; 97; 39; 58; 32; 50; 125], [123; 39; 97; 39; 58; 32; 50; 44; 32; 39; 98; 39; 58; 32; 49; 125], [123; 39; 98; 39; 58; 32; 49; 44; 32; 39; 97; 39; 58; 32; 50; 44; 32; 46; 46; 46; 125]);
  ((JList [(JDict [([98], (JInt (1))); ([97], (JInt (2))); ([99], (JInt (3))); ([], (JInt (4))); ([97; 97], (JInt (5)))])]), [91; 123; 39; 98; 39; 58; 32; 49; 44; 32; 39; 97; 39; 58; 32; 50; 44; 32; 39; 99; 39; 58; 32; 51; 44; 32; 39; 39; 58; 32; 52; 44; 32; 39; 97; 97; 39; 58; 32; 53; 125; 93], [91; 123; 39; 39; 58; 32; 52; 44; 32; 39; 97; 39; 58; 32; 50; 44; 32; 39; 97; 97; 39; 58; 32; 53; 44; 32; 39; 98; 39; 58; 32; 49; 44; 32; 46; 46; 46; 125; 93], [91; 123; 39; 39; 58; 32; 52; 44; 32; 39; 97; 39; 58; 32; 50; 44; 32; 39; 97; 97; 39; 58; 32; 53; 44; 32; 39; 98; 39; 58; 32; 49; 44; 32; 46; 46; 46; 125; 93])] = true.
Proof. vm_compute. reflexivity. Qed.
