(* Generated by tools/tests2v.py from /repo/test/unit/string_wide_tchar.cxx -- do not edit.
   The library's own unit tests run on the model: every EXPECT_ of the C++ is one boolean. *)
From Coq Require Import ZArith List Bool.
From Verif Require Import Machine.
From Verif.Model Require Import Internal Decode Tables Predicate Str Lower CodePage SplitJoin Trim Wide Tchar.
From Verif.Tests Require Import Support.
Import ListNotations.
Local Open Scope Z_scope.

(* test8bitIsTstring, 2 checks *)
Definition run_test8bitIsTstring (T : UnicodeTables) : outcome (list bool) :=
  do t1 <- isTstring_8 T (At [84; 104; 105; 115; 32; 105; 115; 32; 115; 111; 109; 101; 32; 115; 116; 114; 105; 110; 103; 44; 32; 97; 110; 121; 32; 115; 116; 114; 105; 110; 103; 46; 0]);
  do t2 <- isTstring_8 T (At [67; 97; 110; 32; 100; 111; 32; 237; 168; 178; 237; 168; 178; 32; 116; 111; 103; 101; 116; 104; 101; 114; 46; 0]);
  Done [t1;
        (negb t2)].
Example run_test8bitIsTstring_passes : forallb (fun V => all_true (run_test8bitIsTstring (tables V))) [V7; V8; V9; V10; V11; V12; V13; V14; V15; V16] = true.
Proof. vm_cast_no_check (eq_refl true). Qed.

(* test16bitIsTstring, 2 checks *)
Definition run_test16bitIsTstring (T : UnicodeTables) : outcome (list bool) :=
  do t1 <- isTstring_16 T (At [84; 104; 105; 115; 32; 105; 115; 32; 115; 111; 109; 101; 32; 115; 116; 114; 105; 110; 103; 44; 32; 97; 110; 121; 32; 115; 116; 114; 105; 110; 103; 46; 0]);
  do t2 <- isTstring_16 T (At [55297; 55297; 0]);
  Done [t1;
        (negb t2)].
Example run_test16bitIsTstring_passes : forallb (fun V => all_true (run_test16bitIsTstring (tables V))) [V7; V8; V9; V10; V11; V12; V13; V14; V15; V16] = true.
Proof. vm_cast_no_check (eq_refl true). Qed.

(* test32bitIsTstring, 2 checks *)
Definition run_test32bitIsTstring (T : UnicodeTables) : outcome (list bool) :=
  do t1 <- isTstring_32 T (At [84; 104; 105; 115; 32; 105; 115; 32; 115; 111; 109; 101; 32; 115; 116; 114; 105; 110; 103; 44; 32; 97; 110; 121; 32; 115; 116; 114; 105; 110; 103; 46; 0]);
  do t2 <- isTstring_32 T (At [55297; 55297; 0]);
  Done [t1;
        (negb t2)].
Example run_test32bitIsTstring_passes : forallb (fun V => all_true (run_test32bitIsTstring (tables V))) [V7; V8; V9; V10; V11; V12; V13; V14; V15; V16] = true.
Proof. vm_cast_no_check (eq_refl true). Qed.

(* testUtf8toTstring, 2 checks *)
Definition run_testUtf8toTstring (T : UnicodeTables) : outcome (list bool) :=
  dos t1 <- basic_string (At [84; 104; 105; 115; 32; 105; 115; 32; 115; 111; 109; 101; 32; 115; 116; 114; 105; 110; 103; 44; 32; 97; 110; 121; 32; 115; 116; 114; 105; 110; 103; 46; 0]);
  do t2 <- unicode_toTstring_8 (At [84; 104; 105; 115; 32; 105; 115; 32; 115; 111; 109; 101; 32; 115; 116; 114; 105; 110; 103; 44; 32; 97; 110; 121; 32; 115; 116; 114; 105; 110; 103; 46; 0]);
  do t3 <- unicode_toTstring_8 (At [67; 97; 110; 32; 100; 111; 32; 237; 168; 178; 237; 168; 178; 32; 116; 111; 103; 101; 116; 104; 101; 114; 46; 0]);
  Done [(list_eqb t1 t2);
        (match t3 with [] => true | _ => false end)].
Example run_testUtf8toTstring_passes : all_true (run_testUtf8toTstring (tables V16)) = true.
Proof. vm_cast_no_check (eq_refl true). Qed.

(* testUtf16toTstring, 2 checks *)
Definition run_testUtf16toTstring (T : UnicodeTables) : outcome (list bool) :=
  dos t1 <- basic_string (At [84; 104; 105; 115; 32; 105; 115; 32; 115; 111; 109; 101; 32; 115; 116; 114; 105; 110; 103; 44; 32; 97; 110; 121; 32; 115; 116; 114; 105; 110; 103; 46; 0]);
  do t2 <- unicode_toTstring_16 (At [84; 104; 105; 115; 32; 105; 115; 32; 115; 111; 109; 101; 32; 115; 116; 114; 105; 110; 103; 44; 32; 97; 110; 121; 32; 115; 116; 114; 105; 110; 103; 46; 0]);
  do t3 <- w16_toWstring_16 T (At [55297; 55297; 0]);
  Done [(list_eqb t1 t2);
        (match t3 with [] => true | _ => false end)].
Example run_testUtf16toTstring_passes : forallb (fun V => all_true (run_testUtf16toTstring (tables V))) [V7; V8; V9; V10; V11; V12; V13; V14; V15; V16] = true.
Proof. vm_cast_no_check (eq_refl true). Qed.

(* testUcs4toTstring, 2 checks *)
Definition run_testUcs4toTstring (T : UnicodeTables) : outcome (list bool) :=
  dos t1 <- basic_string (At [84; 104; 105; 115; 32; 105; 115; 32; 115; 111; 109; 101; 32; 115; 116; 114; 105; 110; 103; 44; 32; 97; 110; 121; 32; 115; 116; 114; 105; 110; 103; 46; 0]);
  do t2 <- unicode_toTstring_32 (At [84; 104; 105; 115; 32; 105; 115; 32; 115; 111; 109; 101; 32; 115; 116; 114; 105; 110; 103; 44; 32; 97; 110; 121; 32; 115; 116; 114; 105; 110; 103; 46; 0]);
  do t3 <- unicode_toTstring_32 (At [55297; 55297; 0]);
  Done [(list_eqb t1 t2);
        (match t3 with [] => true | _ => false end)].
Example run_testUcs4toTstring_passes : all_true (run_testUcs4toTstring (tables V16)) = true.
Proof. vm_cast_no_check (eq_refl true). Qed.
