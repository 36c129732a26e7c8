(* Generated by tools/tests2v.py from /repo/test/unit/string_splitjoin_test.cxx -- do not edit.
   The library's own unit tests run on the model: every EXPECT_ of the C++ is one boolean. *)
From Coq Require Import ZArith List Bool.
From Verif Require Import Machine.
From Verif.Model Require Import Internal Decode Tables Predicate Str Lower CodePage SplitJoin Trim Wide Tchar.
From Verif.Tests Require Import Support.
Import ListNotations.
Local Open Scope Z_scope.

(* testSplitter, 25 checks *)
Definition run_testSplitter (T : UnicodeTables) : outcome (list bool) :=
  dos t1 <- basic_string (At [78; 111; 119; 32; 105; 115; 32; 116; 104; 101; 32; 116; 105; 109; 101; 32; 102; 111; 114; 32; 97; 108; 108; 32; 103; 111; 111; 100; 32; 109; 101; 110; 32; 116; 111; 32; 99; 111; 109; 101; 32; 116; 111; 32; 116; 104; 101; 32; 97; 105; 100; 32; 111; 102; 32; 116; 104; 101; 32; 112; 97; 114; 116; 121; 0]);
  do t2 <- split t1 32;
  dos t3 <- basic_string (At [78; 111; 119; 32; 32; 105; 115; 32; 32; 116; 104; 101; 32; 32; 116; 105; 109; 101; 46; 0]);
  do t4 <- split t3 32;
  Done [(16 =? (Z.of_nat (length t2)));
        (0 =? (if list_eqb (upto0 ((nth 0 t2 []) ++ [0])) (upto0 [78; 111; 119; 0]) then 0 else 1));
        (0 =? (if list_eqb (upto0 ((nth 1 t2 []) ++ [0])) (upto0 [105; 115; 0]) then 0 else 1));
        (0 =? (if list_eqb (upto0 ((nth 2 t2 []) ++ [0])) (upto0 [116; 104; 101; 0]) then 0 else 1));
        (0 =? (if list_eqb (upto0 ((nth 3 t2 []) ++ [0])) (upto0 [116; 105; 109; 101; 0]) then 0 else 1));
        (0 =? (if list_eqb (upto0 ((nth 4 t2 []) ++ [0])) (upto0 [102; 111; 114; 0]) then 0 else 1));
        (0 =? (if list_eqb (upto0 ((nth 5 t2 []) ++ [0])) (upto0 [97; 108; 108; 0]) then 0 else 1));
        (0 =? (if list_eqb (upto0 ((nth 6 t2 []) ++ [0])) (upto0 [103; 111; 111; 100; 0]) then 0 else 1));
        (0 =? (if list_eqb (upto0 ((nth 7 t2 []) ++ [0])) (upto0 [109; 101; 110; 0]) then 0 else 1));
        (0 =? (if list_eqb (upto0 ((nth 8 t2 []) ++ [0])) (upto0 [116; 111; 0]) then 0 else 1));
        (0 =? (if list_eqb (upto0 ((nth 9 t2 []) ++ [0])) (upto0 [99; 111; 109; 101; 0]) then 0 else 1));
        (0 =? (if list_eqb (upto0 ((nth 10 t2 []) ++ [0])) (upto0 [116; 111; 0]) then 0 else 1));
        (0 =? (if list_eqb (upto0 ((nth 11 t2 []) ++ [0])) (upto0 [116; 104; 101; 0]) then 0 else 1));
        (0 =? (if list_eqb (upto0 ((nth 12 t2 []) ++ [0])) (upto0 [97; 105; 100; 0]) then 0 else 1));
        (0 =? (if list_eqb (upto0 ((nth 13 t2 []) ++ [0])) (upto0 [111; 102; 0]) then 0 else 1));
        (0 =? (if list_eqb (upto0 ((nth 14 t2 []) ++ [0])) (upto0 [116; 104; 101; 0]) then 0 else 1));
        (0 =? (if list_eqb (upto0 ((nth 15 t2 []) ++ [0])) (upto0 [112; 97; 114; 116; 121; 0]) then 0 else 1));
        (7 =? (Z.of_nat (length t4)));
        (0 =? (if mem_eqb 4%nat ((nth 0 t4 []) ++ [0]) [78; 111; 119; 0] then 0 else 1));
        (match (nth 1 t4 []) with [] => true | _ => false end);
        (0 =? (if mem_eqb 3%nat ((nth 2 t4 []) ++ [0]) [105; 115; 0] then 0 else 1));
        (match (nth 3 t4 []) with [] => true | _ => false end);
        (0 =? (if mem_eqb 4%nat ((nth 4 t4 []) ++ [0]) [116; 104; 101; 0] then 0 else 1));
        (match (nth 5 t4 []) with [] => true | _ => false end);
        (0 =? (if mem_eqb 6%nat ((nth 6 t4 []) ++ [0]) [116; 105; 109; 101; 46; 0] then 0 else 1))].
Example run_testSplitter_passes : all_true (run_testSplitter (tables V16)) = true.
Proof. vm_cast_no_check (eq_refl true). Qed.

(* testJoiner, 9 checks *)
Definition run_testJoiner (T : UnicodeTables) : outcome (list bool) :=
  dos t1 <- basic_string (At [99; 58; 0]);
  let v2 := (@nil (list Z)) ++ [t1] in
  dos t3 <- basic_string (At [119; 105; 110; 100; 111; 119; 115; 0]);
  let v4 := v2 ++ [t3] in
  dos t5 <- basic_string (At [115; 121; 115; 116; 101; 109; 51; 50; 0]);
  let v6 := v4 ++ [t5] in
  dos t7 <- basic_string (At [100; 114; 105; 118; 101; 114; 115; 0]);
  let v8 := v6 ++ [t7] in
  dos t9 <- basic_string (At [101; 116; 99; 0]);
  let v10 := v8 ++ [t9] in
  dos t11 <- basic_string (At [104; 111; 115; 116; 115; 0]);
  let v12 := v10 ++ [t11] in
  do t13 <- join v12 92;
  dos t14 <- basic_string (At [47; 104; 111; 109; 101; 47; 97; 107; 108; 97; 47; 98; 117; 115; 116; 47; 109; 101; 47; 117; 112; 0]);
  do t15 <- split t14 47;
  dos t16 <- basic_string (At [104; 111; 109; 101; 0]);
  dos t17 <- basic_string (At [97; 107; 108; 97; 0]);
  dos t18 <- basic_string (At [98; 117; 115; 116; 0]);
  dos t19 <- basic_string (At [109; 101; 0]);
  dos t20 <- basic_string (At [117; 112; 0]);
  do t21 <- join t15 47;
  Done [(0 =? (if list_eqb (upto0 (t13 ++ [0])) (upto0 [99; 58; 92; 119; 105; 110; 100; 111; 119; 115; 92; 115; 121; 115; 116; 101; 109; 51; 50; 92; 100; 114; 105; 118; 101; 114; 115; 92; 101; 116; 99; 92; 104; 111; 115; 116; 115; 0]) then 0 else 1));
        (6 =? (Z.of_nat (length t15)));
        (list_eqb (@nil Z) (nth 0 t15 []));
        (list_eqb t16 (nth 1 t15 []));
        (list_eqb t17 (nth 2 t15 []));
        (list_eqb t18 (nth 3 t15 []));
        (list_eqb t19 (nth 4 t15 []));
        (list_eqb t20 (nth 5 t15 []));
        (list_eqb t14 t21)].
Example run_testJoiner_passes : all_true (run_testJoiner (tables V16)) = true.
Proof. vm_cast_no_check (eq_refl true). Qed.

(* testSingle, 3 checks *)
Definition run_testSingle (T : UnicodeTables) : outcome (list bool) :=
  dos t1 <- basic_string (At [119; 104; 111; 108; 101; 0]);
  do t2 <- split t1 47;
  do t3 <- join t2 58;
  Done [(1 =? (Z.of_nat (length t2)));
        (list_eqb t1 (nth 0 t2 []));
        (list_eqb t1 t3)].
Example run_testSingle_passes : all_true (run_testSingle (tables V16)) = true.
Proof. vm_cast_no_check (eq_refl true). Qed.
