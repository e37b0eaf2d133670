(** The unit test vectors of the elements, the toolkits, the datum functions and OrdinalLabel
    in /repo, evaluated in the model.  These are tests of the model, not properties.  Left out:
    the tests of texts ([repr]), of comparisons with other types and those that replace
    functions of the library by mocks. *)

From Coq Require Import QArith.
From Verif Require Import Py Edit Json Elements.
Local Open Scope Z_scope.

Definition ord_id {A} (l : list A) : list A := l.
Definition ord_rev {A} (l : list A) : list A := rev l.
Definition exactly (q : Q) : Q := q.
Definition fails {X} (r : res X) (e : exn) : bool :=
  match r with Ok _ => false | Err e' => exn_eqb e' e end.
Definition holds1 {X} (r : res X) (f : X -> bool) : bool :=
  match r with Ok x => f x | Err _ => false end.
Definition holds2 {X Y} (r : res X) (s : res Y) (f : X -> Y -> bool) : bool :=
  match r, s with Ok x, Ok y => f x y | _, _ => false end.
Definition same_entity (a b : res entity) : bool := holds2 a b entity_eqb.
Definition same_datum (a b : res datum) : bool := holds2 a b datum_eqb.
Definition datum_of (u : str) (intents : option (list Z)) (entities : option (list (res entity))) : res datum :=
  es <- match entities with
        | None => Ok None
        | Some l => l <- mapM (fun e => e) l ;; Ok (Some l)
        end ;;
  make_datum u intents es.
Definition same_json (v w : jval) : bool := eqb (dumps 0 v) (dumps 0 w).
Definition same_map (a b : list (str * Z)) : bool :=
  eqb (map fst a) (map fst b) && eqb (map snd a) (map snd b).
Definition parts_are (p : list (list str) * list (option Z)) (parts : list (list str))
  (labels : list (option Z)) : bool :=
  (length (fst p) =? length parts)%nat &&
  forallb (fun xy => set_eqb (fst xy) (snd xy)) (combine (fst p) parts) &&
  (length (snd p) =? length labels)%nat &&
  forallb (fun xy => match xy with
                     | (Some a, Some b) => a =? b
                     | (None, None) => true
                     | _ => false
                     end) (combine (snd p) labels).
Definition all_among (r : res (list datum)) (n : nat) (l : list (res datum)) : bool :=
  match r with
  | Ok ds => (length ds =? n)%nat && forallb (fun d => existsb (fun e => same_datum (Ok d) e) l) ds
  | Err _ => false
  end.

(** uttut/tests/test_elements.py:29-48 *)
Example test_entity_replacements :
  holds1 (make_entity 1 [32016; 32004] 1 3 None) no_replacements &&
  holds1 (make_entity 1 [32016; 32004] 1 3 (Some [[21488; 21271]])) (fun e => negb (no_replacements e)) &&
  holds1 (make_entity 1 [32016; 32004] 1 3 (Some [[21488; 21271]])) (fun e => n_replacements e =? 2) = true.
Proof. vm_compute. reflexivity. Qed.

(** uttut/tests/test_elements.py:50-93 *)
Example test_entity_from_dict :
  same_entity (entity_from_dict (JDict [([108; 97; 98; 101; 108], (JInt 1));
      ([115; 116; 97; 114; 116], (JInt 1));
      ([101; 110; 100], (JInt 3));
      ([114; 101; 112; 108; 97; 99; 101; 109; 101; 110; 116; 115], (JList [(JStr [26031; 22570; 22320; 37027; 32173; 20126]); (JStr [75; 73; 88])]))]) [21435; 32016; 32004; 30340; 27231; 31080]) (make_entity 1 [32016; 32004] 1 3 (Some [[26031; 22570; 22320; 37027; 32173; 20126]; [75; 73; 88]])) &&
  same_entity (entity_from_dict (JDict [([108; 97; 98; 101; 108], (JInt 1));
      ([115; 116; 97; 114; 116], (JInt 1));
      ([101; 110; 100], (JInt 3))]) [21435; 32016; 32004; 30340; 27231; 31080]) (make_entity 1 [32016; 32004] 1 3 None) = true.
Proof. vm_compute. reflexivity. Qed.

(** uttut/tests/test_elements.py:95-138 *)
Example test_entity_to_dict :
  holds1 (make_entity 1 [32016; 32004] 1 3 (Some [[26031; 22570; 22320; 37027; 32173; 20126]; [75; 73; 88]])) (fun e => same_json (entity_to_dict ord_id e) (JDict [([108; 97; 98; 101; 108], (JInt 1));
      ([115; 116; 97; 114; 116], (JInt 1));
      ([101; 110; 100], (JInt 3));
      ([114; 101; 112; 108; 97; 99; 101; 109; 101; 110; 116; 115], (JList [(JStr [26031; 22570; 22320; 37027; 32173; 20126]); (JStr [75; 73; 88])]))])) &&
  holds1 (make_entity 1 [32016; 32004] 1 3 None) (fun e => same_json (entity_to_dict ord_id e) (JDict [([108; 97; 98; 101; 108], (JInt 1));
      ([115; 116; 97; 114; 116], (JInt 1));
      ([101; 110; 100], (JInt 3))])) = true.
Proof. vm_compute. reflexivity. Qed.

(** uttut/tests/test_elements.py:140-208 *)
Example test_entity_equal :
  same_entity (make_entity 1 [32016; 32004] 1 3 (Some [[21488; 21271]])) (make_entity 1 [32016; 32004] 1 3 (Some [[21488; 21271]])) &&
  negb (same_entity (make_entity 1 [32016; 32004] 1 2 (Some [[21488; 21271]])) (make_entity 2 [32016; 32004] 1 2 (Some [[21488; 21271]]))) &&
  negb (same_entity (make_entity 1 [32016; 32004] 1 2 (Some [[21488; 21271]])) (make_entity 1 [26032; 21152; 22369] 1 2 (Some [[21488; 21271]]))) &&
  negb (same_entity (make_entity 1 [32016; 32004] 1 2 (Some [[21488; 21271]])) (make_entity 1 [32016; 32004] 0 2 (Some [[21488; 21271]]))) &&
  negb (same_entity (make_entity 1 [32016; 32004] 1 2 (Some [[21488; 21271]])) (make_entity 1 [32016; 32004] 1 3 (Some [[21488; 21271]]))) &&
  negb (same_entity (make_entity 1 [32016; 32004] 1 2 (Some [[21488; 21271]])) (make_entity 1 [32016; 32004] 1 2 (Some [[21488; 21271]; [75; 73; 88]]))) = true.
Proof. vm_compute. reflexivity. Qed.

(** uttut/tests/test_elements.py:226-252 *)
Example test_datum_position :
  fails (datum_of [21435; 32016; 32004; 30340; 27231; 31080] (Some [0]) (Some [(make_entity 1 [32016; 32004] 1 2 None)])) EntityPositionErr &&
  fails (datum_of [21435; 32016; 32004; 30340; 27231; 31080] (Some [0]) (Some [(make_entity 1 [32016; 32004] 0 3 None)])) EntityPositionErr &&
  fails (datum_of [21435; 32016; 26352; 30340; 27231; 31080] (Some [0]) (Some [(make_entity 1 [32016; 32004] 1 3 None)])) EntityPositionErr = true.
Proof. vm_compute. reflexivity. Qed.

(** uttut/tests/test_elements.py:254-263 *)
Example test_datum_overlap :
  fails (datum_of [25105; 24819; 21507; 40613; 30070; 21214; 24555; 27138; 20818; 31461; 39184] (Some [0]) (Some [(make_entity 0 [24555; 27138] 6 8 None);
      (make_entity 1 [24555; 27138; 20818; 31461; 39184] 6 11 None)])) EntityOverlapErr = true.
Proof. vm_compute. reflexivity. Qed.

(** uttut/tests/test_elements.py:265-297 *)
Example test_datum_order :
  holds1 (datum_of [25105; 24819; 35330; 26126; 22825; 24478; 32016; 32004; 39131; 21040; 26032; 21152; 22369; 30340; 27231; 31080] (Some [1]) (Some [(make_entity 0 [26032; 21152; 22369] 10 13 (Some [[26031; 22570; 22320; 37027; 32173; 20126]; [75; 73; 88]]));
      (make_entity 1 [26126; 22825] 3 5 (Some [[19979; 31150; 25308; 20108]]));
      (make_entity 2 [32016; 32004] 6 8 None)])) (fun d => eqb (map e_label (d_entities d)) [1; 2; 0] && eqb (map e_start (d_entities d)) [3; 6; 10]) = true.
Proof. vm_compute. reflexivity. Qed.

(** uttut/tests/test_elements.py:299-330 *)
Example test_datum_has :
  holds1 (datum_of [21435; 32016; 32004; 30340; 27231; 31080] (Some [0]) (Some [(make_entity 1 [32016; 32004] 1 3 None)])) has_entities &&
  holds1 (datum_of [21435; 32016; 32004; 30340; 27231; 31080] (Some [0]) (Some [])) (fun d => negb (has_entities d)) &&
  holds1 (datum_of [21435; 32016; 32004; 30340; 27231; 31080] (Some [0]) (Some [(make_entity 1 [32016; 32004] 1 3 None)])) has_intents &&
  holds1 (datum_of [21435; 32016; 32004; 30340; 27231; 31080] None (Some [(make_entity 1 [32016; 32004] 1 3 None)])) (fun d => negb (has_intents d)) = true.
Proof. vm_compute. reflexivity. Qed.

(** uttut/tests/test_elements.py:332-414 *)
Example test_datum_same :
  holds2 (datum_of [25105; 24819; 35330; 26126; 22825; 24478; 32016; 32004; 39131; 21040; 26032; 21152; 22369; 30340; 27231; 31080] (Some [1]) (Some [(make_entity 0 [26032; 21152; 22369] 10 13 (Some [[26031; 22570; 22320; 37027; 32173; 20126]; [75; 73; 88]]));
      (make_entity 1 [26126; 22825] 3 5 (Some [[19979; 31150; 25308; 20108]]));
      (make_entity 2 [32016; 32004] 6 8 None)])) (datum_of [25105; 24819; 35330; 26126; 22825; 24478; 32016; 32004; 39131; 21040; 26032; 21152; 22369; 30340; 27231; 31080] None None) has_same_utterance_as &&
  holds2 (datum_of [25105; 24819; 35330; 26126; 22825; 24478; 32016; 32004; 39131; 21040; 26032; 21152; 22369; 30340; 27231; 31080] (Some [1]) (Some [(make_entity 0 [26032; 21152; 22369] 10 13 (Some [[26031; 22570; 22320; 37027; 32173; 20126]; [75; 73; 88]]));
      (make_entity 1 [26126; 22825] 3 5 (Some [[19979; 31150; 25308; 20108]]));
      (make_entity 2 [32016; 32004] 6 8 None)])) (datum_of [25105; 24819; 35330; 27231; 31080] (Some [1]) None) has_same_intents_as &&
  holds2 (datum_of [25105; 24819; 35330; 26126; 22825; 24478; 32016; 32004; 39131; 21040; 26032; 21152; 22369; 30340; 27231; 31080] (Some [1]) (Some [(make_entity 0 [26032; 21152; 22369] 10 13 (Some [[26031; 22570; 22320; 37027; 32173; 20126]; [75; 73; 88]]));
      (make_entity 1 [26126; 22825] 3 5 (Some [[19979; 31150; 25308; 20108]]));
      (make_entity 2 [32016; 32004] 6 8 None)])) (datum_of [25105; 24819; 26597; 26126; 22825; 24478; 32016; 32004; 39131; 24448; 26032; 21152; 22369; 30340; 27231; 31080] (Some [0]) (Some [(make_entity 0 [26032; 21152; 22369] 10 13 (Some [[26031; 22570; 22320; 37027; 32173; 20126]; [75; 73; 88]]));
      (make_entity 1 [26126; 22825] 3 5 (Some [[19979; 31150; 25308; 20108]]));
      (make_entity 2 [32016; 32004] 6 8 None)])) has_same_entities_as = true.
Proof. vm_compute. reflexivity. Qed.

(** uttut/pipeline/tests/test_utils.py:10-30 *)
Example test_unpack_datum :
  match (d <- (datum_of [25105; 24819; 35330; 26126; 22825; 24478; 32016; 32004; 39131; 21040; 26032; 21152; 22369; 30340; 27231; 31080] (Some [1]) (Some [(make_entity 1 [26032; 21152; 22369] 10 13 (Some [[26031; 22570; 22320; 37027; 32173; 20126]; [75; 73; 88]]));
      (make_entity 2 [26126; 22825] 3 5 (Some [[19979; 31150; 25308; 20108]]));
      (make_entity 3 [32016; 32004] 6 8 None)])) ;; unpack_datum d) with
  | Ok (u, i, e) => eqb u [25105; 24819; 35330; 26126; 22825; 24478; 32016; 32004; 39131; 21040; 26032; 21152; 22369; 30340; 27231; 31080] && eqb i [1] && eqb e [0; 0; 0; 2; 2; 0; 3; 3; 0; 0; 1; 1; 1; 0; 0; 0]
  | Err _ => false
  end = true.
Proof. vm_compute. reflexivity. Qed.

(** uttut/pipeline/tests/test_utils.py:33-98 *)
Example test_pack_to_datum :
  same_datum (pack_to_datum [97; 98; 98] [1; 2] [1; 2; 2]) (datum_of [97; 98; 98] (Some [1; 2]) (Some [(make_entity 1 [97] 0 1 None);
      (make_entity 2 [98; 98] 1 3 None)])) &&
  same_datum (pack_to_datum [97; 99; 98; 98] [1; 2] [1; 0; 2; 2]) (datum_of [97; 99; 98; 98] (Some [1; 2]) (Some [(make_entity 1 [97] 0 1 None);
      (make_entity 2 [98; 98] 2 4 None)])) &&
  same_datum (pack_to_datum [32; 97; 99; 98; 98] [1; 2] [0; 1; 0; 2; 2]) (datum_of [32; 97; 99; 98; 98] (Some [1; 2]) (Some [(make_entity 1 [97] 1 2 None);
      (make_entity 2 [98; 98] 3 5 None)])) &&
  same_datum (pack_to_datum [32; 97; 99; 98; 98; 111] [1; 2] [0; 1; 0; 2; 2; 0]) (datum_of [32; 97; 99; 98; 98; 111] (Some [1; 2]) (Some [(make_entity 1 [97] 1 2 None);
      (make_entity 2 [98; 98] 3 5 None)])) &&
  same_datum (pack_to_datum [97; 98; 98] [1; 2; 2; 1; 1; 1] [1; 2; 2]) (datum_of [97; 98; 98] (Some [1; 2]) (Some [(make_entity 1 [97] 0 1 None);
      (make_entity 2 [98; 98] 1 3 None)])) &&
  same_datum (pack_to_datum [97; 98; 99] [1; 2] [1; 2; 3]) (datum_of [97; 98; 99] (Some [1; 2]) (Some [(make_entity 1 [97] 0 1 None);
      (make_entity 2 [98] 1 2 None);
      (make_entity 3 [99] 2 3 None)])) &&
  fails (pack_to_datum [97; 98; 98] [1; 2] [1; 3]) ValueErr = true.
Proof. vm_compute. reflexivity. Qed.

(** uttut/toolkits/tests/test_get_kth_combination.py:10-50 *)
Example test_get_kth_combination :
  forallb (fun p => match get_kth_combination [[[49]; [50]; [51]]; [[65]; [66]; [67]]; [[73]; [73; 73]]] (Z.of_nat (fst p)) with Ok l => eqb l (snd p) | Err _ => false end)
    (combine (seq 0 18) [[[49]; [65]; [73]];
      [[50]; [65]; [73]];
      [[51]; [65]; [73]];
      [[49]; [66]; [73]];
      [[50]; [66]; [73]];
      [[51]; [66]; [73]];
      [[49]; [67]; [73]];
      [[50]; [67]; [73]];
      [[51]; [67]; [73]];
      [[49]; [65]; [73; 73]];
      [[50]; [65]; [73; 73]];
      [[51]; [65]; [73; 73]];
      [[49]; [66]; [73; 73]];
      [[50]; [66]; [73; 73]];
      [[51]; [66]; [73; 73]];
      [[49]; [67]; [73; 73]];
      [[50]; [67]; [73; 73]];
      [[51]; [67]; [73; 73]]]) = true.
Proof. vm_compute. reflexivity. Qed.

(** uttut/toolkits/tests/test_partition_by_entities.py:29-73 *)
Example test_partition_by_entities :
  holds1 (datum_of [25105; 24819; 35330; 26126; 22825; 24478; 32016; 32004; 39131; 21040; 26032; 21152; 22369; 30340; 27231; 31080] (Some [0]) (Some [(make_entity 0 [26126; 22825] 3 5 (Some [[19979; 31150; 25308; 20108]]));
      (make_entity 1 [32016; 32004] 6 8 None);
      (make_entity 2 [26032; 21152; 22369] 10 13 (Some [[26031; 22570; 22320; 37027; 32173; 20126]; [75; 73; 88]]))])) (fun d => parts_are (partition_by_entities d false) [[[25105; 24819; 35330]]; [[19979; 31150; 25308; 20108]]; [[24478]]; [[32016; 32004]]; [[39131; 21040]]; [[26031; 22570; 22320; 37027; 32173; 20126]; [75; 73; 88]]; [[30340; 27231; 31080]]] [None; Some 0; None; Some 1; None; Some 2; None]) &&
  holds1 (datum_of [25105; 24819; 35330; 26126; 22825; 24478; 32016; 32004; 39131; 21040; 26032; 21152; 22369; 30340; 27231; 31080] (Some [0]) (Some [(make_entity 0 [26126; 22825] 3 5 (Some [[19979; 31150; 25308; 20108]]));
      (make_entity 1 [32016; 32004] 6 8 None);
      (make_entity 2 [26032; 21152; 22369] 10 13 (Some [[26031; 22570; 22320; 37027; 32173; 20126]; [75; 73; 88]]))])) (fun d => parts_are (partition_by_entities d true) [[[25105; 24819; 35330]]; [[26126; 22825]; [19979; 31150; 25308; 20108]]; [[24478]]; [[32016; 32004]]; [[39131; 21040]]; [[26032; 21152; 22369]; [26031; 22570; 22320; 37027; 32173; 20126]; [75; 73; 88]]; [[30340; 27231; 31080]]] [None; Some 0; None; Some 1; None; Some 2; None]) &&
  holds1 (datum_of [34180; 39201; 20098; 20837] (Some [0]) None) (fun d => parts_are (partition_by_entities d true) [[[34180; 39201; 20098; 20837]]] [None]) &&
  holds1 (datum_of [34180; 39201; 20098; 20837] (Some [0]) None) (fun d => parts_are (partition_by_entities d false) [[[34180; 39201; 20098; 20837]]] [None]) = true.
Proof. vm_compute. reflexivity. Qed.

(** uttut/tests/test_expand_by_entities.py:94-126 *)
Example test_expand_by_entities :
  all_among (d <- (datum_of [25105; 24819; 35330; 26126; 22825; 24478; 32016; 32004; 39131; 21040; 26032; 21152; 22369; 30340; 27231; 31080] (Some [0]) (Some [(make_entity 1 [26126; 22825] 3 5 (Some [[19979; 31150; 25308; 20108]]));
      (make_entity 2 [32016; 32004] 6 8 None);
      (make_entity 3 [26032; 21152; 22369] 10 13 (Some [[26031; 22570; 22320; 37027; 32173; 20126]; [75; 73; 88]]))])) ;; expand_by_entities d None true) 6 [
      (datum_of [25105; 24819; 35330; 26126; 22825; 24478; 32016; 32004; 39131; 21040; 26032; 21152; 22369; 30340; 27231; 31080] (Some [0]) (Some [(make_entity 1 [26126; 22825] 3 5 None);
      (make_entity 2 [32016; 32004] 6 8 None);
      (make_entity 3 [26032; 21152; 22369] 10 13 None)]));
      (datum_of [25105; 24819; 35330; 26126; 22825; 24478; 32016; 32004; 39131; 21040; 26031; 22570; 22320; 37027; 32173; 20126; 30340; 27231; 31080] (Some [0]) (Some [(make_entity 1 [26126; 22825] 3 5 None);
      (make_entity 2 [32016; 32004] 6 8 None);
      (make_entity 3 [26031; 22570; 22320; 37027; 32173; 20126] 10 16 None)]));
      (datum_of [25105; 24819; 35330; 26126; 22825; 24478; 32016; 32004; 39131; 21040; 75; 73; 88; 30340; 27231; 31080] (Some [0]) (Some [(make_entity 1 [26126; 22825] 3 5 None);
      (make_entity 2 [32016; 32004] 6 8 None);
      (make_entity 3 [75; 73; 88] 10 13 None)]));
      (datum_of [25105; 24819; 35330; 19979; 31150; 25308; 20108; 24478; 32016; 32004; 39131; 21040; 26032; 21152; 22369; 30340; 27231; 31080] (Some [0]) (Some [(make_entity 1 [19979; 31150; 25308; 20108] 3 7 None);
      (make_entity 2 [32016; 32004] 8 10 None);
      (make_entity 3 [26032; 21152; 22369] 12 15 None)]));
      (datum_of [25105; 24819; 35330; 19979; 31150; 25308; 20108; 24478; 32016; 32004; 39131; 21040; 26031; 22570; 22320; 37027; 32173; 20126; 30340; 27231; 31080] (Some [0]) (Some [(make_entity 1 [19979; 31150; 25308; 20108] 3 7 None);
      (make_entity 2 [32016; 32004] 8 10 None);
      (make_entity 3 [26031; 22570; 22320; 37027; 32173; 20126] 12 18 None)]));
      (datum_of [25105; 24819; 35330; 19979; 31150; 25308; 20108; 24478; 32016; 32004; 39131; 21040; 75; 73; 88; 30340; 27231; 31080] (Some [0]) (Some [(make_entity 1 [19979; 31150; 25308; 20108] 3 7 None);
      (make_entity 2 [32016; 32004] 8 10 None);
      (make_entity 3 [75; 73; 88] 12 15 None)]))] &&
  all_among (d <- (datum_of [25105; 24819; 35330; 26126; 22825; 24478; 32016; 32004; 39131; 21040; 26032; 21152; 22369; 30340; 27231; 31080] (Some [0]) (Some [(make_entity 1 [26126; 22825] 3 5 (Some [[19979; 31150; 25308; 20108]]));
      (make_entity 2 [32016; 32004] 6 8 None);
      (make_entity 3 [26032; 21152; 22369] 10 13 (Some [[26031; 22570; 22320; 37027; 32173; 20126]; [75; 73; 88]]))])) ;; expand_by_entities d None false) 2 [
      (datum_of [25105; 24819; 35330; 19979; 31150; 25308; 20108; 24478; 32016; 32004; 39131; 21040; 26031; 22570; 22320; 37027; 32173; 20126; 30340; 27231; 31080] (Some [0]) (Some [(make_entity 1 [19979; 31150; 25308; 20108] 3 7 None);
      (make_entity 2 [32016; 32004] 8 10 None);
      (make_entity 3 [26031; 22570; 22320; 37027; 32173; 20126] 12 18 None)]));
      (datum_of [25105; 24819; 35330; 19979; 31150; 25308; 20108; 24478; 32016; 32004; 39131; 21040; 75; 73; 88; 30340; 27231; 31080] (Some [0]) (Some [(make_entity 1 [19979; 31150; 25308; 20108] 3 7 None);
      (make_entity 2 [32016; 32004] 8 10 None);
      (make_entity 3 [75; 73; 88] 12 15 None)]))] &&
  all_among (d <- (datum_of [34180; 39201; 20098; 20837] (Some [0]) None) ;; expand_by_entities d None true) 1 [(datum_of [34180; 39201; 20098; 20837] (Some [0]) None)] &&
  all_among (d <- (datum_of [34180; 39201; 20098; 20837] (Some [0]) None) ;; expand_by_entities d None false) 1 [(datum_of [34180; 39201; 20098; 20837] (Some [0]) None)] = true.
Proof. vm_compute. reflexivity. Qed.

(** uttut/tests/test_expand_by_entities.py:166-176 *)
Example test_aggregate_entities :
  match aggregate_entities 0 [[25105; 24819; 21917]; [29645; 22902]; [21322; 31958]] [None; Some 1; Some 2], mapM (fun x => x) [(make_entity 1 [29645; 22902] 3 5 None); (make_entity 2 [21322; 31958] 5 7 None)] with
  | Ok l, Ok m => same_entities l m
  | _, _ => false
  end = true.
Proof. vm_compute. reflexivity. Qed.

(** uttut/tests/test_entity_overlapping_ratio.py:30-39 *)
Example test_expand_entity_to_list :
  match (d <- (datum_of [23478; 35946; 22823; 22823] (Some []) (Some [(make_entity 1 [23478; 35946] 0 2 None)])) ;; expand_entity_to_list d) with Ok l => eqb l [1; 1; 0; 0] | Err _ => false end = true.
Proof. vm_compute. reflexivity. Qed.

(** uttut/tests/test_entity_overlapping_ratio.py:41-55 *)
Example test_penalty :
  Qeq_bool (penalty_on 0 1 5) 1 && Qeq_bool (penalty_on 1 2 5) 5 && Qeq_bool (penalty_on 1 1 5) 0 = true.
Proof. vm_compute. reflexivity. Qed.

(** uttut/tests/test_entity_overlapping_ratio.py:57-73 *)
Example test_ratio_different :
  fails (a <- (datum_of [23478; 35946; 22823; 22823; 21916; 27489; 21507; 35946; 22823; 22823; 38622; 25490] (Some []) (Some [(make_entity 1 [23478; 35946] 0 2 None)])) ;; b <- (datum_of [23478; 35946; 22823; 21916; 27489; 21507; 35946; 22823; 22823; 38622; 25490] (Some []) (Some [(make_entity 1 [23478; 35946] 0 2 None)])) ;; entity_overlapping_ratio exactly a b 2) DifferentUtteranceErr = true.
Proof. vm_compute. reflexivity. Qed.

(** uttut/tests/test_entity_overlapping_ratio.py:75-142 *)
Example test_ratio :
  match (a <- (datum_of [23478; 35946; 22823; 22823; 21916; 27489; 21507; 35946; 22823; 22823; 38622; 25490] (Some []) (Some [(make_entity 1 [23478; 35946] 0 2 None);
      (make_entity 2 [35946; 22823] 7 9 None);
      (make_entity 3 [22823] 9 10 None);
      (make_entity 4 [38622; 25490] 10 12 None)])) ;; b <- (datum_of [23478; 35946; 22823; 22823; 21916; 27489; 21507; 35946; 22823; 22823; 38622; 25490] (Some []) (Some [(make_entity 1 [23478; 35946] 0 2 None);
      (make_entity 2 [35946; 22823] 7 9 None);
      (make_entity 3 [22823] 9 10 None);
      (make_entity 4 [38622; 25490] 10 12 None)])) ;; entity_overlapping_ratio exactly a b 2) with Ok q => Qeq_bool q 1 | Err _ => false end &&
  match (a <- (datum_of [21507; 35946; 22823; 22823; 38622; 25490] (Some []) (Some [(make_entity 2 [35946; 22823] 1 3 None);
      (make_entity 3 [22823] 3 4 None);
      (make_entity 4 [38622; 25490] 4 6 None)])) ;; b <- (datum_of [21507; 35946; 22823; 22823; 38622; 25490] (Some []) (Some [(make_entity 2 [35946; 22823] 1 3 None);
      (make_entity 5 [22823; 38622; 25490] 3 6 None)])) ;; entity_overlapping_ratio exactly a b 2) with Ok q => Qeq_bool q 0 | Err _ => false end &&
  match (a <- (datum_of [23478; 35946; 22823; 22823; 21916; 27489; 21507; 35946; 22823; 22823; 38622; 25490] (Some []) (Some [(make_entity 1 [23478; 35946] 0 2 None);
      (make_entity 6 [22823] 9 10 None);
      (make_entity 4 [38622; 25490] 10 12 None)])) ;; b <- (datum_of [23478; 35946; 22823; 22823; 21916; 27489; 21507; 35946; 22823; 22823; 38622; 25490] (Some []) (Some [(make_entity 1 [23478; 35946] 0 2 None);
      (make_entity 5 [22823; 38622; 25490] 9 12 None)])) ;; entity_overlapping_ratio exactly a b 2) with Ok q => Qeq_bool q (1 # 2) | Err _ => false end = true.
Proof. vm_compute. reflexivity. Qed.

(** uttut/tests/test_get_unique_entities.py:16-32 *)
Example test_get_unique_entities :
  holds1 (datum_of [23478; 35946; 22823; 22823; 21916; 27489; 21507; 35946; 22823; 38622; 25490] (Some [0]) (Some [(make_entity 1 [35946; 22823] 7 9 (Some [[32943; 24503; 22522]; [40613; 22137; 22137]]));
      (make_entity 2 [38622; 25490] 9 11 (Some [[28450; 22561]; [34223; 26781]; [28407; 32905; 39151]]))])) (fun d => set_eqb (get_unique_entities ord_id [d]) [1; 2] && set_eqb (get_unique_entities ord_rev [d]) [1; 2]) = true.
Proof. vm_compute. reflexivity. Qed.

(** uttut/transformers/tests/test_ordinal_label.py:110-118 *)
Example test_is_valid_mapping :
  is_valid_mapping [([72; 73], 0); ([66; 89; 69], 1); ([79; 82; 68; 69; 82], 2)] &&
  negb (is_valid_mapping [([72; 73], 0); ([66; 89; 69], 1); ([79; 82; 68; 69; 82], 1)]) &&
  negb (is_valid_mapping [([72; 73], 0); ([66; 89; 69], 1); ([79; 82; 68; 69; 82], 3)]) &&
  negb (is_valid_mapping [([72; 73], -1); ([66; 89; 69], 0); ([79; 82; 68; 69; 82], 1)]) = true.
Proof. vm_compute. reflexivity. Qed.

(** uttut/transformers/tests/test_ordinal_label.py:121-139 (in one set order) *)
Example test_humanize :
  match (o <- (make_ordinal [([72; 73], 0); ([66; 89; 69], 1); ([79; 82; 68; 69; 82], 2)] [([73; 84; 69; 77], 1); ([83; 85; 71; 65; 82], 2)] 0) ;; d <- (datum_of [20320; 22909] (Some [0]) None) ;; humanize ord_id o d) with Ok v => same_json v (JDict [([117; 116; 116; 101; 114; 97; 110; 99; 101], (JStr [20320; 22909]));
      ([105; 110; 116; 101; 110; 116], (JDict [([110; 97; 109; 101; 115], (JList [(JStr [72; 73])]))]))]) | Err _ => false end &&
  match (o <- (make_ordinal [([72; 73], 0); ([66; 89; 69], 1); ([79; 82; 68; 69; 82], 2)] [([73; 84; 69; 77], 1); ([83; 85; 71; 65; 82], 2)] 0) ;; d <- (datum_of [25105; 24819; 21917; 29645; 22902; 21322; 31958] (Some [2]) (Some [(make_entity 1 [29645; 22902] 3 5 (Some [[25343; 37941]; [22810; 22810; 32160]; [32005; 33590]]));
      (make_entity 2 [21322; 31958] 5 7 (Some [[28961; 31958]; [20840; 31958]]))])) ;; humanize ord_id o d) with Ok v => same_json v (JDict [([117; 116; 116; 101; 114; 97; 110; 99; 101], (JStr [25105; 24819; 21917; 29645; 22902; 21322; 31958]));
      ([105; 110; 116; 101; 110; 116], (JDict [([110; 97; 109; 101; 115], (JList [(JStr [79; 82; 68; 69; 82])]))]));
      ([101; 110; 116; 105; 116; 105; 101; 115], (JList [(JDict [([110; 97; 109; 101], (JStr [73; 84; 69; 77]));
      ([115; 116; 97; 114; 116], (JInt 3));
      ([101; 110; 100], (JInt 5));
      ([114; 101; 112; 108; 97; 99; 101; 109; 101; 110; 116; 115], (JList [(JStr [25343; 37941]); (JStr [22810; 22810; 32160]); (JStr [32005; 33590])]))]); (JDict [([110; 97; 109; 101], (JStr [83; 85; 71; 65; 82]));
      ([115; 116; 97; 114; 116], (JInt 5));
      ([101; 110; 100], (JInt 7));
      ([114; 101; 112; 108; 97; 99; 101; 109; 101; 110; 116; 115], (JList [(JStr [28961; 31958]); (JStr [20840; 31958])]))])]))]) | Err _ => false end = true.
Proof. vm_compute. reflexivity. Qed.

(** uttut/transformers/tests/test_ordinal_label.py:142-144 *)
Example test_machanize :
  same_datum (o <- (make_ordinal [([72; 73], 0); ([66; 89; 69], 1); ([79; 82; 68; 69; 82], 2)] [([73; 84; 69; 77], 1); ([83; 85; 71; 65; 82], 2)] 0) ;; machanize o (JDict [([117; 116; 116; 101; 114; 97; 110; 99; 101], (JStr [20320; 22909]));
      ([105; 110; 116; 101; 110; 116], (JDict [([110; 97; 109; 101; 115], (JList [(JStr [72; 73])]))]))])) (datum_of [20320; 22909] (Some [0]) None) &&
  same_datum (o <- (make_ordinal [([72; 73], 0); ([66; 89; 69], 1); ([79; 82; 68; 69; 82], 2)] [([73; 84; 69; 77], 1); ([83; 85; 71; 65; 82], 2)] 0) ;; machanize o (JDict [([117; 116; 116; 101; 114; 97; 110; 99; 101], (JStr [25105; 24819; 21917; 29645; 22902; 21322; 31958]));
      ([105; 110; 116; 101; 110; 116], (JDict [([110; 97; 109; 101; 115], (JList [(JStr [79; 82; 68; 69; 82])]))]));
      ([101; 110; 116; 105; 116; 105; 101; 115], (JList [(JDict [([110; 97; 109; 101], (JStr [73; 84; 69; 77]));
      ([115; 116; 97; 114; 116], (JInt 3));
      ([101; 110; 100], (JInt 5));
      ([114; 101; 112; 108; 97; 99; 101; 109; 101; 110; 116; 115], (JList [(JStr [25343; 37941]); (JStr [22810; 22810; 32160]); (JStr [32005; 33590])]))]); (JDict [([110; 97; 109; 101], (JStr [83; 85; 71; 65; 82]));
      ([115; 116; 97; 114; 116], (JInt 5));
      ([101; 110; 100], (JInt 7));
      ([114; 101; 112; 108; 97; 99; 101; 109; 101; 110; 116; 115], (JList [(JStr [28961; 31958]); (JStr [20840; 31958])]))])]))])) (datum_of [25105; 24819; 21917; 29645; 22902; 21322; 31958] (Some [2]) (Some [(make_entity 1 [29645; 22902] 3 5 (Some [[25343; 37941]; [22810; 22810; 32160]; [32005; 33590]]));
      (make_entity 2 [21322; 31958] 5 7 (Some [[28961; 31958]; [20840; 31958]]))])) = true.
Proof. vm_compute. reflexivity. Qed.

(** uttut/transformers/tests/test_ordinal_label.py:161-212 *)
Example test_from_raw_dictionary :
  match from_raw_dictionary (JDict [([100; 97; 116; 97], (JList [(JDict [([117; 116; 116; 101; 114; 97; 110; 99; 101], (JStr [20320; 22909]));
      ([105; 110; 116; 101; 110; 116], (JDict [([110; 97; 109; 101; 115], (JList [(JStr [71; 82; 69; 69; 84; 73; 78; 71; 83])]))]))]); (JDict [([117; 116; 116; 101; 114; 97; 110; 99; 101], (JStr [25105; 24819; 21917; 29645; 22902; 21322; 31958]));
      ([105; 110; 116; 101; 110; 116], (JDict [([110; 97; 109; 101; 115], (JList [(JStr [79; 82; 68; 69; 82])]))]));
      ([101; 110; 116; 105; 116; 105; 101; 115], (JList [(JDict [([110; 97; 109; 101], (JStr [73; 84; 69; 77]));
      ([115; 116; 97; 114; 116], (JInt 3));
      ([101; 110; 100], (JInt 5));
      ([114; 101; 112; 108; 97; 99; 101; 109; 101; 110; 116; 115], (JList [(JStr [25343; 37941]); (JStr [22810; 22810; 32160]); (JStr [32005; 33590])]))]); (JDict [([110; 97; 109; 101], (JStr [83; 85; 71; 65; 82]));
      ([115; 116; 97; 114; 116], (JInt 5));
      ([101; 110; 100], (JInt 7));
      ([114; 101; 112; 108; 97; 99; 101; 109; 101; 110; 116; 115], (JList [(JStr [28961; 31958]); (JStr [20840; 31958])]))])]))])]))]) 0 with
  | Ok o => same_map (intent2index o) [([71; 82; 69; 69; 84; 73; 78; 71; 83], 0); ([79; 82; 68; 69; 82], 1)] && same_map (entity2index o) [([73; 84; 69; 77], 1); ([83; 85; 71; 65; 82], 2)]
  | Err _ => false
  end &&
  match from_raw_dictionary (JDict [([100; 97; 116; 97], (JList [(JDict [([117; 116; 116; 101; 114; 97; 110; 99; 101], (JStr [20320; 22909]));
      ([105; 110; 116; 101; 110; 116], (JDict [([110; 97; 109; 101; 115], (JList [(JStr [71; 82; 69; 69; 84; 73; 78; 71; 83])]))]))]); (JDict [([117; 116; 116; 101; 114; 97; 110; 99; 101], (JStr [25105; 24819; 21917; 29645; 22902; 21322; 31958]));
      ([105; 110; 116; 101; 110; 116], (JDict [([110; 97; 109; 101; 115], (JList [(JStr [79; 82; 68; 69; 82])]))]));
      ([101; 110; 116; 105; 116; 105; 101; 115], (JList [(JDict [([110; 97; 109; 101], (JStr [73; 84; 69; 77]));
      ([115; 116; 97; 114; 116], (JInt 3));
      ([101; 110; 100], (JInt 5));
      ([114; 101; 112; 108; 97; 99; 101; 109; 101; 110; 116; 115], (JList [(JStr [25343; 37941]); (JStr [22810; 22810; 32160]); (JStr [32005; 33590])]))]); (JDict [([110; 97; 109; 101], (JStr [83; 85; 71; 65; 82]));
      ([115; 116; 97; 114; 116], (JInt 5));
      ([101; 110; 100], (JInt 7));
      ([114; 101; 112; 108; 97; 99; 101; 109; 101; 110; 116; 115], (JList [(JStr [28961; 31958]); (JStr [20840; 31958])]))])]))])]))]) 1 with
  | Ok o => same_map (intent2index o) [([71; 82; 69; 69; 84; 73; 78; 71; 83], 0); ([79; 82; 68; 69; 82], 1)] && same_map (entity2index o) [([73; 84; 69; 77], 0); ([83; 85; 71; 65; 82], 2)]
  | Err _ => false
  end &&
  match from_raw_dictionary (JDict [([100; 97; 116; 97], (JList [(JDict [([117; 116; 116; 101; 114; 97; 110; 99; 101], (JStr [20320; 22909]));
      ([105; 110; 116; 101; 110; 116], (JDict [([110; 97; 109; 101; 115], (JList [(JStr [71; 82; 69; 69; 84; 73; 78; 71; 83])]))]))]); (JDict [([117; 116; 116; 101; 114; 97; 110; 99; 101], (JStr [25105; 24819; 21917; 29645; 22902; 21322; 31958]));
      ([105; 110; 116; 101; 110; 116], (JDict [([110; 97; 109; 101; 115], (JList [(JStr [79; 82; 68; 69; 82])]))]));
      ([101; 110; 116; 105; 116; 105; 101; 115], (JList [(JDict [([110; 97; 109; 101], (JStr [73; 84; 69; 77]));
      ([115; 116; 97; 114; 116], (JInt 3));
      ([101; 110; 100], (JInt 5));
      ([114; 101; 112; 108; 97; 99; 101; 109; 101; 110; 116; 115], (JList [(JStr [25343; 37941]); (JStr [22810; 22810; 32160]); (JStr [32005; 33590])]))]); (JDict [([110; 97; 109; 101], (JStr [83; 85; 71; 65; 82]));
      ([115; 116; 97; 114; 116], (JInt 5));
      ([101; 110; 100], (JInt 7));
      ([114; 101; 112; 108; 97; 99; 101; 109; 101; 110; 116; 115], (JList [(JStr [28961; 31958]); (JStr [20840; 31958])]))])]))])]))]) 2 with
  | Ok o => same_map (intent2index o) [([71; 82; 69; 69; 84; 73; 78; 71; 83], 0); ([79; 82; 68; 69; 82], 1)] && same_map (entity2index o) [([73; 84; 69; 77], 0); ([83; 85; 71; 65; 82], 1)]
  | Err _ => false
  end = true.
Proof. vm_compute. reflexivity. Qed.
