(** The unit test vectors of pipeline/edit in /repo, evaluated in the model (under two set
    orders).  These are tests of the model, not properties.  Left out: the tests of texts
    ([str], [repr]), of warnings, of calls with a wrong number of arguments and of comparisons
    with other types. *)

From Verif Require Import Py Edit Labels GroupObj.
Local Open Scope Z_scope.

Definition ord_id {A} (l : list A) : list A := l.
Definition ord_rev {A} (l : list A) : list A := rev l.

Definition is_ok (r : res (list Z)) (l : list Z) : bool :=
  match r with Ok m => eqb m l | Err _ => false end.
Definition exn_is (a b : exn) : bool := exn_eqb a b.
Definition fails {X} (r : res X) (e : exn) : bool :=
  match r with Ok _ => false | Err e' => exn_is e' e end.

Definition spans_eqb (g h : list span) : bool :=
  eqb (map fst g) (map fst h) && eqb (map snd g) (map snd h).

(** apply, inverse, and both back again *)
Definition check_edit1 {A} `{Eqb A} (ord : list (repl A) -> list (repl A))
  (c : list A * list (Z * Z * list A) * list A * list (Z * Z * list A)) : bool :=
  let '(s, g, t, h) := c in
  match radd_all ord g, radd_all ord h with
  | Ok g, Ok h =>
      eqb (apply s g) t && eqb (apply t h) s &&
      match inverse ord s g, inverse ord t h with
      | Ok h', Ok g' => rgroup_eqb h' h && rgroup_eqb g' g
      | _, _ => false
      end
  | _, _ => false
  end.
Definition check_edit {A} `{Eqb A} c : bool := check_edit1 (A := A) ord_id c && check_edit1 ord_rev c.

(** str2lst.apply, lst2str.apply, gen_span_group *)
Definition check_cut (c : str * list str * list (Z * Z)) : bool :=
  let '(s, ts, g) := c in
  match sadd_all g with
  | Ok g =>
      match str2lst_apply s g, lst2str_apply ts g, gen_span_group s ts with
      | Ok ts', Ok s', Ok g' => eqb ts' ts && eqb s' s && spans_eqb g' g
      | _, _, _ => false
      end
  | Err _ => false
  end.

Definition check_gen (c : str * list str * list (Z * Z * str)) : bool :=
  let '(s, ts, g) := c in
  forallb (fun ord => match gen_replacement_group ord s ts, radd_all ord g with
                      | Ok g', Ok g => rgroup_eqb g' g
                      | _, _ => false
                      end) [ord_id; ord_rev].

(** propagate_by_replacement_group *)
Definition gives {A} `{Eqb A} (l : list Z) (g : list (Z * Z * list A)) (m : list Z) : bool :=
  is_ok (g <- radd_all ord_id g ;; propagate l g get_most_common_label) m &&
  is_ok (g <- radd_all ord_rev g ;; propagate l g get_most_common_label) m.
Definition zero_transduce : transducer := fun _ n => Ok (repeat 0 n).

(** [ReplacementGroup.add_all] and [SpanGroup.add_all] with the groups as objects; values are
    a str (flag true) or a list *)
Definition built (l : list (Z * Z * (bool * list str))) : rgroup str * option exn :=
  rg_finish ord_id false
    (fold_left (fun g x => let '(s, e, v) := x in fst (rg_add g s e v)) l rg_new).
Definition sbuilt (l : list (Z * Z)) : sgroup * option exn :=
  sg_finish (fold_left (fun g x => fst (sg_add g (fst x) (snd x))) l sg_new).
Definition none (e : option exn) : bool := match e with None => true | Some _ => false end.
Definition some (e : exn) (o : option exn) : bool := match o with Some e' => exn_is e' e | None => false end.
Definition has (g : rgroup str) (l : list (Z * Z * (bool * list str))) : bool :=
  match rg_iter g with
  | Ok is => (length is =? length l)%nat && forallb (fun p => let '(i, (s, e, v)) := p in
      item_eqb i (fst v, mkR (Z.to_nat s) (Z.to_nat e) (snd v))) (combine is l)
  | Err _ => false
  end.
Definition is_ok_b (r : res bool) (b : bool) : bool := match r with Ok b' => Bool.eqb b' b | Err _ => false end.
Definition is_ok_s (r : res (list span)) (l : list span) : bool :=
  match r with Ok m => spans_eqb m l | Err _ => false end.

(** uttut/pipeline/edit/tests/test_str2str.py:7-74 *)
Example test_str2str :
  forallb (@check_edit Z _) [
     ([25105; 24819; 35201; 21917; 50; 48; 48; 20803; 30340; 29645; 22902; 49; 48; 26479], [(4, 7, [95; 105; 110; 116; 95]); (11, 13, [95; 105; 110; 116; 95])], [25105; 24819; 35201; 21917; 95; 105; 110; 116; 95; 20803; 30340; 29645; 22902; 95; 105; 110; 116; 95; 26479], [(4, 9, [50; 48; 48]); (13, 18, [49; 48])]);
     ([25105; 24819; 21917; 29645; 22902], [(0, 0, [20854; 23526]); (0, 1, [22963]); (1, 1, [19981]); (3, 5, [22810; 22810; 32160]); (5, 5, [23565; 21543; 65281])], [20854; 23526; 22963; 19981; 24819; 21917; 22810; 22810; 32160; 23565; 21543; 65281], [(0, 2, []); (2, 3, [25105]); (3, 4, []); (6, 9, [29645; 22902]); (9, 12, [])]);
     ([25105; 19981; 24819; 21917; 29645; 22902], [(1, 2, [])], [25105; 24819; 21917; 29645; 22902], [(1, 1, [19981])]);
     ([36889; 20491; 21477; 23376; 27794; 26377; 25913; 35722], [], [36889; 20491; 21477; 23376; 27794; 26377; 25913; 35722], [])] = true.
Proof. vm_compute. reflexivity. Qed.

(** uttut/pipeline/edit/tests/test_lst2lst.py:7-74 *)
Example test_lst2lst :
  forallb (@check_edit str _) [
     ([[25105]; [24819]; [35201]; [21917]; [50]; [48]; [48]; [20803]; [30340]; [29645]; [22902]; [49]; [48]; [26479]], [(4, 7, [[95]; [105]; [110]; [116]; [95]]); (11, 13, [[95]; [105]; [110]; [116]; [95]])], [[25105]; [24819]; [35201]; [21917]; [95]; [105]; [110]; [116]; [95]; [20803]; [30340]; [29645]; [22902]; [95]; [105]; [110]; [116]; [95]; [26479]], [(4, 9, [[50]; [48]; [48]]); (13, 18, [[49]; [48]])]);
     ([[25105]; [24819]; [21917]; [29645]; [22902]], [(0, 0, [[20854]; [23526]]); (0, 1, [[22963]]); (1, 1, [[19981]]); (3, 5, [[22810]; [22810]; [32160]]); (5, 5, [[23565]; [21543]; [65281]])], [[20854]; [23526]; [22963]; [19981]; [24819]; [21917]; [22810]; [22810]; [32160]; [23565]; [21543]; [65281]], [(0, 2, []); (2, 3, [[25105]]); (3, 4, []); (6, 9, [[29645]; [22902]]); (9, 12, [])]);
     ([[25105]; [19981]; [24819]; [21917]; [29645]; [22902]], [(1, 2, [])], [[25105]; [24819]; [21917]; [29645]; [22902]], [(1, 1, [[19981]])]);
     ([[36889; 20491]; [21477; 23376]; [27794; 26377]; [25913; 35722]], [], [[36889; 20491]; [21477; 23376]; [27794; 26377]; [25913; 35722]], [])] = true.
Proof. vm_compute. reflexivity. Qed.

(** uttut/pipeline/edit/tests/test_str2lst.py:8-50,72-75 *)
Example test_str2lst :
  forallb check_cut [
     ([25105; 24819; 35201; 21917; 50; 48; 48; 20803; 30340; 29645; 22902; 49; 48; 26479], [[25105]; [24819; 35201]; [21917]; [50; 48; 48; 20803]; [30340]; [29645; 22902]; [49; 48; 26479]], [(0, 1); (1, 3); (3, 4); (4, 8); (8, 9); (9, 11); (11, 14)]);
     ([25105; 24819; 35201; 21917; 32; 50; 48; 48; 32; 20803; 30340; 29645; 22902; 32; 49; 48; 32; 26479], [[25105]; [24819; 35201]; [21917]; [32]; [50; 48; 48]; [32]; [20803]; [30340]; [29645; 22902]; [32]; [49; 48]; [32]; [26479]], [(0, 1); (1, 3); (3, 4); (4, 5); (5, 8); (8, 9); (9, 10); (10, 11); (11, 13); (13, 14); (14, 16); (16, 17); (17, 18)]);
     ([73; 39; 118; 101; 98; 101; 101; 110; 116; 111; 74; 97; 112; 97; 110; 46], [[73]; [39]; [118; 101]; [98; 101; 101; 110]; [116; 111]; [74; 97; 112; 97; 110]; [46]], [(0, 1); (1, 2); (2, 4); (4, 8); (8, 10); (10, 15); (15, 16)]);
     ([73; 39; 118; 101; 98; 101; 101; 110; 116; 111; 74; 97; 112; 97; 110; 46], [[73; 39; 118; 101]; [98; 101; 101; 110]; [116; 111]; [74; 97; 112; 97; 110]; [46]], [(0, 4); (4, 8); (8, 10); (10, 15); (15, 16)])] = true.
Proof. vm_compute. reflexivity. Qed.

(** uttut/pipeline/edit/tests/test_str2lst.py:53-55 *)
Example test_incompatible_str2lst :
  fails (g <- sadd_all [(0, 1); (1, 2)] ;; str2lst_apply [34180; 39201; 20098; 20837] g) ValueErr = true.
Proof. vm_compute. reflexivity. Qed.

(** uttut/pipeline/edit/tests/test_str2lst.py:58-69 *)
Example test_incompatible_lst2str :
  forallb (fun c => fails (g <- sadd_all (snd c) ;; lst2str_apply (fst c) g) ValueErr) [
     ([[34180; 39201]; [20098; 20837]], [(0, 1)]);
     ([[25105]; [24819; 35201]; [21917]; [22810; 22810; 32160]], [(0, 1); (1, 3); (3, 5); (5, 8)])] = true.
Proof. vm_compute. reflexivity. Qed.

(** uttut/pipeline/edit/tests/test_str2lst.py:78-88 *)
Example test_gen_span_group_fail :
  forallb (fun c => fails (gen_span_group (fst c) (snd c)) ValueErr) [
     ([25105; 24819; 35201; 21917; 50; 48; 48; 20803; 30340; 29645; 22902; 49; 48; 26479], [[34180; 39201]; [20098; 20837]]);
     ([73; 39; 118; 101; 32; 98; 101; 101; 110; 32; 116; 111; 32; 74; 97; 112; 97; 110; 46], [[73]; [39]; [118; 101]; [98; 101; 101; 110]; [116; 111]; [74; 97; 112; 97; 110]; [46]])] = true.
Proof. vm_compute. reflexivity. Qed.

(** uttut/pipeline/edit/tests/test_str2lst.py:91-121 *)
Example test_gen_replacement_group :
  forallb check_gen [
     ([25105; 24819; 35201; 21917; 50; 48; 48; 20803; 30340; 29645; 22902; 49; 48; 26479], [[25105]; [24819; 35201]; [21917]; [50; 48; 48; 20803]; [30340]; [29645; 22902]; [49; 48; 26479]], []);
     ([25105; 24819; 35201; 21917; 32; 50; 48; 48; 32; 20803; 30340; 29645; 22902; 32; 49; 48; 32; 26479], [[25105]; [24819; 35201]; [21917]; [32]; [50; 48; 48]; [32]; [20803]; [30340]; [29645; 22902]; [32]; [49; 48]; [32]; [26479]], []);
     ([73; 39; 118; 101; 32; 98; 101; 101; 110; 32; 116; 111; 32; 74; 97; 112; 97; 110; 46], [[73]; [39]; [118; 101]; [98; 101; 101; 110]; [116; 111]; [74; 97; 112; 97; 110]; [46]], [(4, 5, []); (9, 10, []); (12, 13, [])]);
     ([73; 39; 118; 101; 32; 98; 101; 101; 110; 32; 116; 111; 32; 74; 97; 112; 97; 110; 46], [[73; 39; 118; 101]; [98; 101; 101; 110]; [116; 111]; [74; 97; 112; 97; 110]; [46]], [(4, 5, []); (9, 10, []); (12, 13, [])])] = true.
Proof. vm_compute. reflexivity. Qed.

(** uttut/pipeline/edit/tests/test_str2lst.py:124-134 *)
Example test_gen_replacement_group_fail :
  forallb (fun c => fails (gen_replacement_group ord_id (fst c) (snd c)) ValueErr) [
     ([25105; 24819; 35201; 21917; 50; 48; 48; 20803; 30340; 29645; 22902; 49; 48; 26479], [[34180; 39201]; [20098; 20837]]);
     ([25105; 24819; 35201; 21917; 29645; 22902], [[25105]; [24819; 35201]; [21917]; [22810; 22810; 32160]]);
     ([25105; 24819; 35201; 21917; 29645; 22902], [[29645; 22902]; [25105]; [24819; 35201]; [21917]])] = true.
Proof. vm_compute. reflexivity. Qed.

(** uttut/pipeline/edit/tests/test_label_propagation.py:12-45,65-81 *)
Example test_propagate_str :
  forallb (fun c => let '(l, g, m, h) := c in @gives Z _ l g m && @gives Z _ m h l) [
     ([1; 1; 1; 0; 0; 3; 0; 2; 2], [(0, 3, [97]); (5, 6, [97; 98; 99]); (7, 9, [97; 98; 99; 100])], [1; 0; 0; 3; 3; 3; 0; 2; 2; 2; 2], [(0, 1, [97; 98; 99]); (3, 6, [97]); (7, 11, [97; 98])]);
     ([1; 2; 3; 4], [(0, 0, [97]); (1, 1, [97; 98; 99]); (4, 4, [97; 98; 99; 100])], [0; 1; 0; 0; 0; 2; 3; 4; 0; 0; 0; 0], [(0, 1, []); (2, 5, []); (8, 12, [])])] = true.
Proof. vm_compute. reflexivity. Qed.

(** uttut/pipeline/edit/tests/test_label_propagation.py:47-62,84-90 *)
Example test_not_invertible_str :
  forallb (fun c => let '(l, g, m, h) := c in @gives Z _ l g m && @gives Z _ m h [0; 2; 0; 0; 5; 0]) [
     ([1; 2; 3; 4; 5; 6], [(0, 1, []); (2, 4, []); (5, 6, [])], [2; 5], [(0, 0, [97]); (1, 1, [97; 98]); (2, 2, [99])])] = true.
Proof. vm_compute. reflexivity. Qed.

(** uttut/pipeline/edit/tests/test_label_propagation.py:12-45,65-81 *)
Example test_propagate_lst :
  forallb (fun c => let '(l, g, m, h) := c in @gives str _ l g m && @gives str _ m h l) [
     ([1; 1; 1; 0; 0; 3; 0; 2; 2], [(0, 3, [[97]]); (5, 6, [[97]; [98]; [99]]); (7, 9, [[97]; [98]; [99]; [100]])], [1; 0; 0; 3; 3; 3; 0; 2; 2; 2; 2], [(0, 1, [[97]; [98]; [99]]); (3, 6, [[97]]); (7, 11, [[97]; [98]])]);
     ([1; 2; 3; 4], [(0, 0, [[97]]); (1, 1, [[97]; [98]; [99]]); (4, 4, [[97]; [98]; [99]; [100]])], [0; 1; 0; 0; 0; 2; 3; 4; 0; 0; 0; 0], [(0, 1, []); (2, 5, []); (8, 12, [])])] = true.
Proof. vm_compute. reflexivity. Qed.

(** uttut/pipeline/edit/tests/test_label_propagation.py:47-62,84-90 *)
Example test_not_invertible_lst :
  forallb (fun c => let '(l, g, m, h) := c in @gives str _ l g m && @gives str _ m h [0; 2; 0; 0; 5; 0]) [
     ([1; 2; 3; 4; 5; 6], [(0, 1, []); (2, 4, []); (5, 6, [])], [2; 5], [(0, 0, [[97]]); (1, 1, [[97]; [98]]); (2, 2, [[99]])])] = true.
Proof. vm_compute. reflexivity. Qed.

(** uttut/pipeline/edit/tests/test_label_propagation.py:93-98 *)
Example test_propagate_by_span_group :
  is_ok (g <- sadd_all [(0, 2); (2, 5)] ;; reduce_by_span_group [2; 2; 3; 5; 5] g get_most_common_label) [2; 5] &&
  is_ok (g <- sadd_all [(0, 2); (2, 5)] ;; expand_by_span_group [2; 5] g) [2; 2; 5; 5; 5] = true.
Proof. vm_compute. reflexivity. Qed.

(** uttut/pipeline/edit/tests/test_label_propagation.py:101-120 *)
Example test_span_group_not_competible :
  fails (g <- sadd_all [(0, 2); (2, 4)] ;; reduce_by_span_group [1; 2; 3; 4; 5] g get_most_common_label) ValueErr &&
  fails (g <- sadd_all [(0, 2); (2, 4)] ;; expand_by_span_group [1; 2; 3] g) ValueErr = true.
Proof. vm_compute. reflexivity. Qed.

(** uttut/pipeline/edit/tests/test_label_propagation.py:123-141 *)
Example test_different_transduce_func :
  is_ok (g <- radd_all ord_id [(0, 2, [97]); (2, 5, [98])] ;; propagate [1; 2; 3; 4; 5] g zero_transduce) [0; 0] &&
  is_ok (g <- sadd_all [(0, 2); (2, 5)] ;; reduce_by_span_group [1; 2; 3; 4; 5] g zero_transduce) [0; 0] = true.
Proof. vm_compute. reflexivity. Qed.

(** uttut/pipeline/edit/tests/test_label_propagation.py:144-148 *)
Example test_intersection_case :
  is_ok (g <- sadd_all [(0, 1)] ;; reduce_by_span_group [1] g get_most_common_label) [1] &&
  is_ok (g <- sadd_all [(0, 1)] ;; expand_by_span_group [1] g) [1] = true.
Proof. vm_compute. reflexivity. Qed.

(** uttut/pipeline/edit/tests/test_replacement_group.py:13-29 *)
Example test_rgroup_add_all :
  forallb (fun l => let '(g, e) := built l in none e && has g l && (rg_len g =? length l)%nat) [
     [(0, 0, (true, [[97]])); (0, 2, (true, [[98]]))];
     [(0, 0, (true, [[97]])); (0, 2, (true, [[98]]))];
     [(0, 0, (false, [[97]])); (0, 2, (false, [[98]]))];
     [(0, 0, (false, [[97]])); (0, 2, (false, [[98]]))]] = true.
Proof. vm_compute. reflexivity. Qed.

(** uttut/pipeline/edit/tests/test_replacement_group.py:6-10,32-34 *)
Example test_rgroup_add_all_empty :
  let '(g, e) := built [] in none e && rg_is_empty g && rg_is_empty (@rg_new str) = true.
Proof. vm_compute. reflexivity. Qed.

(** uttut/pipeline/edit/tests/test_replacement_group.py:43-47 *)
Example test_rgroup_not_done_error :
  fails (rg_getitem (fst (rg_add (@rg_new str) 1 3 (true, [[97; 98; 99]]))) 0) RuntimeErr = true.
Proof. vm_compute. reflexivity. Qed.

(** uttut/pipeline/edit/tests/test_replacement_group.py:50-61 (without the int) *)
Example test_rgroup_mixed :
  some TypeErr (snd (built [(0, 1, (true, [[97]])); (0, 2, (false, [[98]]))])) = true.
Proof. vm_compute. reflexivity. Qed.

(** uttut/pipeline/edit/tests/test_replacement_group.py:64-77 *)
Example test_rgroup_equal :
  forallb (fun c => is_ok_b (rg_eq (fst (built (fst c))) (fst (built (snd c)))) true) [
     ([], []);
     ([(0, 0, (true, [[97]])); (1, 2, (true, [[98]]))], [(0, 0, (true, [[97]])); (1, 2, (true, [[98]]))]);
     ([(0, 0, (false, [[97]])); (1, 2, (false, [[98]]))], [(0, 0, (false, [[97]])); (1, 2, (false, [[98]]))])] = true.
Proof. vm_compute. reflexivity. Qed.

(** uttut/pipeline/edit/tests/test_replacement_group.py:80-95 *)
Example test_rgroup_not_equal :
  forallb (fun c => is_ok_b (rg_eq (fst (built (fst c))) (fst (built (snd c)))) false) [
     ([(0, 0, (true, [[97]]))], [(0, 0, (true, [[97]])); (1, 2, (true, [[98]]))]);
     ([(0, 0, (true, [[97]])); (1, 2, (true, [[98]]))], [(0, 0, (true, [[97]])); (1, 3, (true, [[98]]))]);
     ([(0, 0, (true, [[97]])); (1, 2, (true, [[98]]))], [(0, 0, (false, [[97]])); (1, 3, (false, [[98]]))])] = true.
Proof. vm_compute. reflexivity. Qed.

(** uttut/pipeline/edit/tests/test_replacement_group.py:103-111 *)
Example test_rgroup_need_sorted :
  has (fst (built [(1, 2, (true, [[98]])); (0, 1, (true, [[97]]))])) [(0, 1, (true, [[97]])); (1, 2, (true, [[98]]))] = true.
Proof. vm_compute. reflexivity. Qed.

(** uttut/pipeline/edit/tests/test_replacement_group.py:114-123 *)
Example test_rgroup_validate_disjoint :
  forallb (fun l => some ValueErr (snd (built l))) [
     [(1, 10, (true, [[98]])); (2, 15, (true, [[97]]))];
     [(1, 10, (true, [[98]])); (2, 8, (true, [[97]]))]] = true.
Proof. vm_compute. reflexivity. Qed.

(** uttut/pipeline/edit/tests/test_span_group.py:13-22,100-109 *)
Example test_sgroup_contiguous :
  forallb (fun l => fails (sadd_all l) ValueErr) [
     [(0, 1); (3, 5)];
     [(1, 3); (3, 5)];
     [(1, 10); (2, 15)];
     [(1, 10); (2, 8)]] = true.
Proof. vm_compute. reflexivity. Qed.

(** uttut/pipeline/edit/tests/test_span_group.py:25-29 *)
Example test_sgroup_add_all :
  let '(g, e) := sbuilt [(0, 0); (0, 2)] in none e && is_ok_s (sg_iter g) [(0, 0); (0, 2)]%nat = true.
Proof. vm_compute. reflexivity. Qed.

(** uttut/pipeline/edit/tests/test_span_group.py:32-34 *)
Example test_sgroup_add_all_empty :
  let '(g, e) := sbuilt [] in none e && is_ok_s (sg_iter g) [] = true.
Proof. vm_compute. reflexivity. Qed.

(** uttut/pipeline/edit/tests/test_span_group.py:43-47 *)
Example test_sgroup_not_done_error :
  fails (sg_getitem (fst (sg_add sg_new 1 3)) 0) RuntimeErr = true.
Proof. vm_compute. reflexivity. Qed.

(** uttut/pipeline/edit/tests/test_span_group.py:62-71 *)
Example test_sgroup_equal :
  forallb (fun c => is_ok_b (sg_eq (fst (sbuilt (fst c))) (fst (sbuilt (snd c)))) true) [
     ([], []);
     ([(0, 0); (0, 2)], [(0, 0); (0, 2)])] = true.
Proof. vm_compute. reflexivity. Qed.

(** uttut/pipeline/edit/tests/test_span_group.py:74-86 *)
Example test_sgroup_not_equal :
  forallb (fun c => is_ok_b (sg_eq (fst (sbuilt (fst c))) (fst (sbuilt (snd c)))) false) [
     ([(0, 0)], [(0, 0); (0, 2)]);
     ([(0, 0); (0, 2)], [(0, 0); (0, 3)])] = true.
Proof. vm_compute. reflexivity. Qed.

(** uttut/pipeline/edit/tests/test_span_group.py:89-97 *)
Example test_sgroup_need_sorted :
  is_ok_s (sg_iter (fst (sbuilt [(1, 2); (0, 1)]))) [(0, 1); (1, 2)]%nat = true.
Proof. vm_compute. reflexivity. Qed.
