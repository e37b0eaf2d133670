(** The unit test vectors of the pipes, the BERT pipes, the trie and the hash in /repo,
    evaluated in the model.  These are tests of the model, not properties.  The tests of Pipe
    define operators of their own that change nothing; operators of the library that leave the
    test sequence alone stand for them here. *)

From Coq Require Import String.
From Verif Require Import Py Ops Json Elements Pipe Trie Murmur Concrete BertRef BertWitness.
From Coq Require Import List.
Import ListNotations.
Local Open Scope Z_scope.

Definition fails {X} (r : res X) (e : exn) : bool :=
  match r with Ok _ => false | Err e' => exn_eqb e' e end.
Definition ok_is {X} (r : res X) (f : X -> bool) : bool :=
  match r with Ok x => f x | Err _ => false end.
Definition none (e : option exn) : bool := match e with None => true | Some _ => false end.
Definition some (e : exn) (o : option exn) : bool :=
  match o with Some e' => exn_eqb e' e | None => false end.
Definition opt_is (o : option str) (s : str) : bool := match o with Some t => eqb t s | None => false end.
Definition hash_is (s : str) (h : Z) : bool :=
  match consistent_hash s 100 with Ok i => i =? h | Err _ => false end.
Definition seq_is (a b : pseq) : bool :=
  match a, b with
  | SStr s, SStr t => eqb s t
  | SLst s, SLst t => eqb s t
  | _, _ => false
  end.
Definition same_type (a b : res seqtype) : bool :=
  match a, b with
  | Ok TStr, Ok TStr | Ok TList, Ok TList => true
  | _, _ => false
  end.
Definition agrees (p : res pipe) (expected : res (list str)) (s : str) : bool :=
  match p, expected with
  | Ok p, Ok ts =>
      match transform_sequence env0 p (SStr s) with
      | Ok (y, _, _) => seq_is y (SLst (map ETok ts))
      | Err _ => false
      end
  | _, _ => false
  end.
Definition addp (p : pipe) (name : string) (kw : list (str * jval)) (ck : option str) : effect :=
  add env0 imported p (lit name) (Some kw) ck.
Definition adds (l : list (string * list (str * jval))) : effect :=
  fold_left (fun pe x => addp (fst pe) (fst x) (snd x) None) l (pipe_new, None).
Definition fake : pipe :=
  let p := fst (addp pipe_new "Lowercase" [] (Some (lit "1"))) in
  let p := fst (addp p "CharTokenizer" [] None) in
  fst (addp p "Pad" [(lit "maxlen", JInt 3)] (Some (lit "2"))).
Definition datum_of (u : str) (intents : list Z) (es : list (Z * str * Z * Z)) : res datum :=
  es <- mapM (fun x => let '(l, v, s, e) := x in make_entity l v s e None) es ;;
  make_datum u (Some intents) (Some es).

(** uttut/pipeline/bert/tests/test_basic.py:9-39 *)
Example test_bert_basic :
  (forallb (fun s => agrees (basic_pipe env0) (Ok (ref_basic env0 runtime0 true s)) s) [
     [25105; 24819; 35201; 21917; 29645; 22902];
     [32; 9; 72; 101; 76; 76; 111; 33; 104; 111; 119; 32; 32; 10; 32; 65; 114; 101; 32; 121; 111; 85; 63; 32; 32];
     [72; 233; 108; 108; 111];
     [97; 104; 21338; 25512; 122; 122]]) = true.
Proof. vm_compute. reflexivity. Qed.

(** uttut/pipeline/bert/tests/test_word_piece.py:9-31 *)
Example test_bert_word_piece :
  (forallb (fun s => agrees (word_piece_pipe env0) (ref_wordpiece env0 (map lit word_piece_vocab) ref_unk ref_max s) s) [
     [117; 110; 119; 97; 110; 116; 101; 100; 32; 114; 117; 110; 110; 105; 110; 103];
     [117; 110; 119; 97; 110; 116; 101; 100; 88; 32; 114; 117; 110; 110; 105; 110; 103]]) = true.
Proof. vm_compute. reflexivity. Qed.

(** uttut/pipeline/bert/tests/test_full.py:13-41 *)
Example test_bert_full :
  (agrees (full_pipe env0) (ref_full env0 runtime0 (map lit full_vocab) [85; 78; 119; 97; 110; 116; 233; 100; 44; 114; 117; 110; 110; 105; 110; 103]) [85; 78; 119; 97; 110; 116; 233; 100; 44; 114; 117; 110; 110; 105; 110; 103]) = true.
Proof. vm_compute. reflexivity. Qed.

(** test_file/zh_char_pipe_100_old_format.json *)
Definition old_format : str :=
  [123; 34; 115; 116; 101; 112; 115; 34; 58; 32; 91; 123; 34; 111; 112; 95; 110; 97; 109; 101; 34; 58; 32; 34; 67; 104; 97; 114; 84; 111; 107; 101; 110; 105; 122; 101; 114; 34; 44; 32; 34; 111; 112; 95; 107; 119; 97; 114; 103; 115; 34; 58; 32; 123; 125; 125; 44; 32; 123; 34; 111; 112; 95; 110; 97; 109; 101; 34; 58; 32; 34; 65; 100; 100; 83; 111; 115; 69; 111; 115; 34; 44; 32; 34; 111; 112; 95; 107; 119; 97; 114; 103; 115; 34; 58; 32; 123; 34; 115; 116; 97; 114; 116; 95; 116; 111; 107; 101; 110; 34; 58; 32; 34; 60; 115; 111; 115; 62; 34; 44; 32; 34; 101; 110; 100; 95; 116; 111; 107; 101; 110; 34; 58; 32; 34; 60; 47; 115; 62; 34; 125; 125; 44; 32; 123; 34; 111; 112; 95; 110; 97; 109; 101; 34; 58; 32; 34; 80; 97; 100; 34; 44; 32; 34; 111; 112; 95; 107; 119; 97; 114; 103; 115; 34; 58; 32; 123; 34; 109; 97; 120; 108; 101; 110; 34; 58; 32; 53; 44; 32; 34; 112; 97; 100; 95; 116; 111; 107; 101; 110; 34; 58; 32; 34; 60; 112; 97; 100; 62; 34; 125; 125; 44; 32; 123; 34; 111; 112; 95; 110; 97; 109; 101; 34; 58; 32; 34; 84; 111; 107; 101; 110; 50; 73; 110; 100; 101; 120; 34; 44; 32; 34; 111; 112; 95; 107; 119; 97; 114; 103; 115; 34; 58; 32; 123; 34; 116; 111; 107; 101; 110; 50; 105; 110; 100; 101; 120; 34; 58; 32; 123; 34; 60; 115; 111; 115; 62; 34; 58; 32; 48; 44; 32; 34; 60; 47; 115; 62; 34; 58; 32; 49; 44; 32; 34; 60; 112; 97; 100; 62; 34; 58; 32; 50; 44; 32; 34; 60; 117; 110; 107; 62; 34; 58; 32; 51; 44; 32; 34; 92; 117; 102; 102; 48; 99; 34; 58; 32; 52; 44; 32; 34; 92; 117; 55; 54; 56; 52; 34; 58; 32; 53; 44; 32; 34; 92; 117; 51; 48; 48; 50; 34; 58; 32; 54; 44; 32; 34; 92; 117; 51; 48; 48; 49; 34; 58; 32; 55; 44; 32; 34; 92; 117; 54; 54; 50; 102; 34; 58; 32; 56; 44; 32; 34; 92; 117; 52; 101; 48; 48; 34; 58; 32; 57; 44; 32; 34; 92; 117; 53; 55; 50; 56; 34; 58; 32; 49; 48; 44; 32; 34; 92; 117; 102; 102; 49; 97; 34; 58; 32; 49; 49; 44; 32; 34; 92; 117; 52; 101; 56; 54; 34; 58; 32; 49; 50; 44; 32; 34; 92; 117; 102; 102; 48; 56; 34; 58; 32; 49; 51; 44; 32; 34; 92; 117; 102; 102; 48; 57; 34; 58; 32; 49; 52; 44; 32; 34; 39; 34; 58; 32; 49; 53; 44; 32; 34; 92; 117; 53; 52; 56; 99; 34; 58; 32; 49; 54; 44; 32; 34; 92; 117; 52; 101; 48; 100; 34; 58; 32; 49; 55; 44; 32; 34; 92; 117; 54; 55; 48; 57; 34; 58; 32; 49; 56; 44; 32; 34; 92; 117; 54; 50; 49; 49; 34; 58; 32; 49; 57; 44; 32; 34; 44; 34; 58; 32; 50; 48; 44; 32; 34; 41; 34; 58; 32; 50; 49; 44; 32; 34; 40; 34; 58; 32; 50; 50; 44; 32; 34; 92; 117; 50; 48; 49; 99; 34; 58; 32; 50; 51; 44; 32; 34; 92; 117; 50; 48; 49; 100; 34; 58; 32; 50; 52; 44; 32; 34; 92; 117; 52; 101; 53; 102; 34; 58; 32; 50; 53; 44; 32; 34; 92; 117; 52; 101; 98; 97; 34; 58; 32; 50; 54; 44; 32; 34; 92; 117; 52; 101; 50; 97; 34; 58; 32; 50; 55; 44; 32; 34; 58; 34; 58; 32; 50; 56; 44; 32; 34; 92; 117; 52; 101; 50; 100; 34; 58; 32; 50; 57; 44; 32; 34; 46; 34; 58; 32; 51; 48; 44; 32; 34; 92; 117; 53; 99; 51; 49; 34; 58; 32; 51; 49; 44; 32; 34; 92; 117; 52; 101; 100; 54; 34; 58; 32; 51; 50; 44; 32; 34; 92; 117; 51; 48; 48; 98; 34; 58; 32; 51; 51; 44; 32; 34; 92; 117; 51; 48; 48; 97; 34; 58; 32; 51; 52; 44; 32; 34; 45; 34; 58; 32; 51; 53; 44; 32; 34; 92; 117; 52; 102; 54; 48; 34; 58; 32; 51; 54; 44; 32; 34; 92; 117; 57; 48; 102; 100; 34; 58; 32; 51; 55; 44; 32; 34; 92; 117; 52; 101; 48; 97; 34; 58; 32; 51; 56; 44; 32; 34; 92; 117; 53; 57; 50; 55; 34; 58; 32; 51; 57; 44; 32; 34; 92; 117; 102; 102; 48; 49; 34; 58; 32; 52; 48; 44; 32; 34; 92; 117; 56; 102; 100; 57; 34; 58; 32; 52; 49; 44; 32; 34; 92; 117; 52; 101; 51; 97; 34; 58; 32; 52; 50; 44; 32; 34; 92; 117; 53; 57; 49; 97; 34; 58; 32; 52; 51; 44; 32; 34; 92; 117; 52; 101; 48; 101; 34; 58; 32; 52; 52; 44; 32; 34; 92; 117; 55; 97; 101; 48; 34; 58; 32; 52; 53; 44; 32; 34; 92; 117; 51; 48; 48; 99; 34; 58; 32; 52; 54; 44; 32; 34; 92; 117; 53; 50; 51; 48; 34; 58; 32; 52; 55; 44; 32; 34; 92; 117; 51; 48; 48; 100; 34; 58; 32; 52; 56; 44; 32; 34; 92; 117; 56; 57; 56; 49; 34; 58; 32; 52; 57; 44; 32; 34; 92; 117; 102; 102; 49; 102; 34; 58; 32; 53; 48; 44; 32; 34; 92; 117; 56; 56; 97; 98; 34; 58; 32; 53; 49; 44; 32; 34; 92; 117; 56; 48; 48; 99; 34; 58; 32; 53; 50; 44; 32; 34; 92; 117; 56; 48; 102; 100; 34; 58; 32; 53; 51; 44; 32; 34; 92; 117; 55; 98; 52; 57; 34; 58; 32; 53; 52; 44; 32; 34; 92; 117; 53; 101; 55; 52; 34; 58; 32; 53; 53; 44; 32; 34; 92; 117; 102; 102; 49; 98; 34; 58; 32; 53; 54; 44; 32; 34; 124; 34; 58; 32; 53; 55; 44; 32; 34; 92; 117; 52; 101; 101; 53; 34; 58; 32; 53; 56; 44; 32; 34; 92; 117; 53; 51; 99; 97; 34; 58; 32; 53; 57; 44; 32; 34; 92; 117; 52; 101; 52; 98; 34; 58; 32; 54; 48; 44; 32; 34; 92; 117; 53; 98; 102; 57; 34; 58; 32; 54; 49; 44; 32; 34; 92; 117; 53; 102; 56; 56; 34; 58; 32; 54; 50; 44; 32; 34; 92; 117; 52; 102; 49; 97; 34; 58; 32; 54; 51; 44; 32; 34; 92; 117; 53; 99; 48; 102; 34; 58; 32; 54; 52; 44; 32; 34; 92; 117; 52; 102; 52; 54; 34; 58; 32; 54; 53; 44; 32; 34; 92; 117; 54; 55; 48; 48; 34; 58; 32; 54; 54; 44; 32; 34; 92; 117; 54; 54; 102; 52; 34; 58; 32; 54; 55; 44; 32; 34; 47; 34; 58; 32; 54; 56; 44; 32; 34; 49; 34; 58; 32; 54; 57; 44; 32; 34; 92; 117; 52; 101; 48; 57; 34; 58; 32; 55; 48; 44; 32; 34; 92; 117; 54; 53; 98; 48; 34; 58; 32; 55; 49; 44; 32; 34; 92; 117; 53; 51; 101; 102; 34; 58; 32; 55; 50; 44; 32; 34; 50; 34; 58; 32; 55; 51; 44; 32; 34; 92; 117; 54; 50; 49; 54; 34; 58; 32; 55; 52; 44; 32; 34; 92; 117; 54; 98; 50; 49; 34; 58; 32; 55; 53; 44; 32; 34; 92; 117; 53; 57; 55; 100; 34; 58; 32; 55; 54; 44; 32; 34; 92; 117; 53; 99; 48; 54; 34; 58; 32; 55; 55; 44; 32; 34; 92; 117; 55; 98; 50; 99; 34; 58; 32; 55; 56; 44; 32; 34; 92; 117; 55; 57; 99; 100; 34; 58; 32; 55; 57; 44; 32; 34; 92; 117; 53; 57; 55; 57; 34; 58; 32; 56; 48; 44; 32; 34; 92; 117; 50; 48; 50; 54; 34; 58; 32; 56; 49; 44; 32; 34; 51; 34; 58; 32; 56; 50; 44; 32; 34; 92; 117; 53; 55; 51; 48; 34; 58; 32; 56; 51; 44; 32; 34; 92; 117; 53; 99; 48; 100; 34; 58; 32; 56; 52; 44; 32; 34; 92; 117; 55; 53; 50; 56; 34; 58; 32; 56; 53; 44; 32; 34; 92; 117; 52; 101; 48; 98; 34; 58; 32; 56; 54; 44; 32; 34; 92; 117; 53; 52; 48; 101; 34; 58; 32; 56; 55; 44; 32; 34; 92; 117; 55; 53; 51; 49; 34; 58; 32; 56; 56; 44; 32; 34; 92; 117; 52; 101; 50; 52; 34; 58; 32; 56; 57; 44; 32; 34; 92; 117; 56; 102; 100; 56; 34; 58; 32; 57; 48; 44; 32; 34; 92; 117; 53; 51; 99; 56; 34; 58; 32; 57; 49; 44; 32; 34; 92; 117; 54; 48; 97; 56; 34; 58; 32; 57; 50; 44; 32; 34; 63; 34; 58; 32; 57; 51; 44; 32; 34; 92; 117; 53; 49; 55; 54; 34; 58; 32; 57; 52; 44; 32; 34; 92; 117; 53; 100; 102; 50; 34; 58; 32; 57; 53; 44; 32; 34; 92; 117; 53; 52; 48; 52; 34; 58; 32; 57; 54; 44; 32; 34; 92; 117; 56; 98; 102; 52; 34; 58; 32; 57; 55; 44; 32; 34; 92; 117; 55; 55; 48; 98; 34; 58; 32; 57; 56; 44; 32; 34; 92; 117; 53; 51; 98; 98; 34; 58; 32; 57; 57; 125; 44; 32; 34; 117; 110; 107; 95; 116; 111; 107; 101; 110; 34; 58; 32; 34; 60; 117; 110; 107; 62; 34; 125; 125; 93; 44; 32; 34; 99; 104; 101; 99; 107; 112; 111; 105; 110; 116; 115; 34; 58; 32; 123; 34; 114; 101; 115; 117; 108; 116; 95; 111; 102; 95; 97; 100; 100; 95; 115; 111; 115; 95; 101; 111; 115; 34; 58; 32; 50; 44; 32; 34; 114; 101; 115; 117; 108; 116; 95; 111; 102; 95; 112; 97; 100; 34; 58; 32; 51; 125; 125].

(** uttut/pipeline/tests/test_pipe.py:72-75 (and the new format of the same pipe) *)
Example test_deserialize_from_old_format :
  (match pipe_deserialize env0 imported old_format with
  | Ok p => eqb (map o_class (steps p)) [lit "CharTokenizer"; lit "AddSosEos"; lit "Pad"; lit "Token2Index"] &&
      match pipe_deserialize env0 imported (pipe_serialize p) with
      | Ok q => pipe_eqb p q
      | Err _ => false
      end
  | Err _ => false
  end) = true.
Proof. vm_compute. reflexivity. Qed.

(** uttut/pipeline/ops/utils/tests/test_trie.py *)
Example test_trie :
  (match trie_insert trie_empty [97; 98; 99] with
  | Ok t => exactly_search t [97; 98; 99] && negb (exactly_search t [97; 98]) && negb (exactly_search t [122; 120; 121])
  | Err _ => false
  end &&
  match trie_insert_all trie_empty [[29645; 22902]; [29645; 22902; 21435; 20912]] with
  | Ok t => opt_is (match_prefix t [29645; 22902; 21435; 20912] false) [29645; 22902; 21435; 20912] && opt_is (match_prefix t [29645; 22902; 21435; 20912] true) [29645; 22902] &&
      opt_is (match_prefix t [29645; 22902; 21435; 20912; 35613; 35613] false) [29645; 22902; 21435; 20912] && match match_prefix t [25105; 24819; 35201; 29645; 22902; 21435; 20912] false with None => true | Some _ => false end
  | Err _ => false
  end) = true.
Proof. vm_compute. reflexivity. Qed.

(** uttut/pipeline/ops/utils/tests/test_consistent_hash.py *)
Example test_consistent_hash :
  (hash_is [38588; 33288] 15 && hash_is [24076; 33240; 20778; 26684] 51) = true.
Proof. vm_compute. reflexivity. Qed.

(** uttut/pipeline/tests/test_pipe.py:29-47 (with operators of the library) *)
Example test_pipe_errors :
  (let '(p, e1) := adds [("Pad"%string, [(lit "maxlen", JInt 3)])] in
  none e1 && some TypeErr (snd (addp p "Lowercase" [] None)) &&
  let '(p, e2) := addp pipe_new "Lowercase" [] (Some (lit "1")) in
  none e2 && some KeyErr (snd (addp p "CharTokenizer" [] (Some (lit "1")))) &&
  none (snd (addp p "Lowercase" [] (Some (lit "2"))))) = true.
Proof. vm_compute. reflexivity. Qed.

(** uttut/pipeline/tests/test_pipe.py:50-69 (with operators of the library) *)
Example test_pipe_transform :
  (match (d <- datum_of [49; 50; 51] [1] [(1, [49], 0, 1); (2, [50], 1, 2); (3, [51], 2, 3)] ;;
         transform env0 fake d) with
  | Ok (y, i, e, als, coll) =>
      seq_is y (SLst [ETok [49]; ETok [50]; ETok [51]]) && eqb i [1] && eqb e [1; 2; 3] &&
      ok_is (get_from_checkpoint (checkpoints fake) coll (lit "1")) (fun x => seq_is x (SStr [49; 50; 51])) &&
      ok_is (get_from_checkpoint (checkpoints fake) coll (lit "2")) (fun x => seq_is x y) &&
      fails (get_from_checkpoint (checkpoints fake) coll (lit "3")) KeyErr &&
      (length coll =? 4)%nat &&
      forallb (fun ab => seq_is (fst ab) (snd ab)) (combine coll [SStr [49; 50; 51]; SStr [49; 50; 51]; y; y]) &&
      ok_is (align_inverse_all env0 als e) (eqb [1; 2; 3])
  | Err _ => false
  end) = true.
Proof. vm_compute. reflexivity. Qed.

(** uttut/pipeline/tests/test_pipe.py:72-75 *)
Example test_pipe_serialize :
  (ok_is (pipe_deserialize env0 imported (pipe_serialize fake)) (pipe_eqb fake)) = true.
Proof. vm_compute. reflexivity. Qed.

(** uttut/pipeline/tests/test_pipe.py:84-104 *)
Example test_pipe_add :
  (let p2 := fst (addp pipe_new "Pad" [(lit "maxlen", JInt 5)] (Some (lit "3"))) in
  ok_is (concat_pipes fake p2) (fun q =>
    ops_eqb (steps q) (steps fake ++ steps p2) && (length (checkpoints q) =? 3)%nat &&
    same_type (pipe_input_type q) (pipe_input_type fake) && same_type (pipe_output_type q) (pipe_output_type p2)) &&
  fails (concat_pipes fake (fst (addp pipe_new "Lowercase" [] None))) TypeErr &&
  fails (concat_pipes fake (fst (addp pipe_new "Pad" [(lit "maxlen", JInt 5)] (Some (lit "1"))))) KeyErr) = true.
Proof. vm_compute. reflexivity. Qed.

(** uttut/pipeline/tests/test_pipe.py:107-115 *)
Example test_pipe_getitem :
  (ok_is (getitem_slice fake (Some 1, Some (-1), None)) (fun q =>
    ops_eqb (steps q) (firstn 1 (skipn 1 (steps fake))) && ckpts_eqb (checkpoints q) [(lit "2", 2)])) = true.
Proof. vm_compute. reflexivity. Qed.
