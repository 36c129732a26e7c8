(* Generated by tools/tests2v.py from /repo/test/unit/string_wchar_tchar.cxx -- do not edit.
   The library's own unit tests run on the model: every EXPECT_ of the C++ is one boolean. *)
From Coq Require Import ZArith List Bool.
From Verif Require Import Machine.
From Verif.Model Require Import Internal Decode Tables Predicate Str Lower CodePage SplitJoin Trim Wide Tchar.
From Verif.Tests Require Import Support.
Import ListNotations.
Local Open Scope Z_scope.

(* test16BitWcharIsUtf8, 2 checks *)
Definition run_test16BitWcharIsUtf8 (T : UnicodeTables) : outcome (list bool) :=
  do t1 <- w16_isUtf8 T (At [84; 104; 105; 115; 32; 105; 115; 32; 115; 111; 109; 101; 32; 115; 116; 114; 105; 110; 103; 44; 32; 97; 110; 121; 32; 115; 116; 114; 105; 110; 103; 46; 0]);
  do t2 <- w16_isUtf8 T (At [55297; 55297; 0]);
  Done [t1;
        (negb t2)].
Example run_test16BitWcharIsUtf8_passes : forallb (fun V => all_true (run_test16BitWcharIsUtf8 (tables V))) [V7; V8; V9; V10; V11; V12; V13; V14; V15; V16] = true.
Proof. vm_cast_no_check (eq_refl true). Qed.

(* test16BitWcharIsUtf16, 2 checks *)
Definition run_test16BitWcharIsUtf16 (T : UnicodeTables) : outcome (list bool) :=
  do t1 <- w16_isUtf16 T (At [84; 104; 105; 115; 32; 105; 115; 32; 115; 111; 109; 101; 32; 115; 116; 114; 105; 110; 103; 44; 32; 97; 110; 121; 32; 115; 116; 114; 105; 110; 103; 46; 0]);
  do t2 <- w16_isUtf16 T (At [55297; 55297; 0]);
  Done [t1;
        (negb t2)].
Example run_test16BitWcharIsUtf16_passes : forallb (fun V => all_true (run_test16BitWcharIsUtf16 (tables V))) [V7; V8; V9; V10; V11; V12; V13; V14; V15; V16] = true.
Proof. vm_cast_no_check (eq_refl true). Qed.

(* test16BitWcharIsUcs2, 3 checks *)
Definition run_test16BitWcharIsUcs2 (T : UnicodeTables) : outcome (list bool) :=
  do t1 <- w16_isUcs2 T (At [84; 104; 105; 115; 32; 105; 115; 32; 115; 111; 109; 101; 32; 115; 116; 114; 105; 110; 103; 44; 32; 97; 110; 121; 32; 115; 116; 114; 105; 110; 103; 46; 0]);
  do t2 <- w16_isUcs2 T (At [55297; 55297; 0]);
  do t3 <- w16_isUcs2 T (At [55297; 56321; 0]);
  Done [t1;
        (negb t2);
        (negb t3)].
Example run_test16BitWcharIsUcs2_passes : forallb (fun V => all_true (run_test16BitWcharIsUcs2 (tables V))) [V7; V8; V9; V10; V11; V12; V13; V14; V15; V16] = true.
Proof. vm_cast_no_check (eq_refl true). Qed.

(* test16BitWcharIsUcs4, 2 checks *)
Definition run_test16BitWcharIsUcs4 (T : UnicodeTables) : outcome (list bool) :=
  do t1 <- w16_isUcs4 T (At [84; 104; 105; 115; 32; 105; 115; 32; 115; 111; 109; 101; 32; 115; 116; 114; 105; 110; 103; 44; 32; 97; 110; 121; 32; 115; 116; 114; 105; 110; 103; 46; 0]);
  do t2 <- w16_isUcs4 T (At [55297; 55297; 0]);
  Done [t1;
        (negb t2)].
Example run_test16BitWcharIsUcs4_passes : forallb (fun V => all_true (run_test16BitWcharIsUcs4 (tables V))) [V7; V8; V9; V10; V11; V12; V13; V14; V15; V16] = true.
Proof. vm_cast_no_check (eq_refl true). Qed.

(* testNarrowTcharIsUtf16, 2 checks *)
Definition run_testNarrowTcharIsUtf16 (T : UnicodeTables) : outcome (list bool) :=
  do t1 <- narrow_isUtf16 T (At [84; 104; 105; 115; 32; 105; 115; 32; 115; 111; 109; 101; 32; 115; 116; 114; 105; 110; 103; 44; 32; 97; 110; 121; 32; 115; 116; 114; 105; 110; 103; 46; 0]);
  do t2 <- narrow_isUtf16 T (At [67; 97; 110; 39; 116; 32; 100; 111; 32; 237; 184; 178; 32; 97; 108; 111; 110; 101; 46; 0]);
  Done [t1;
        (negb t2)].
Example run_testNarrowTcharIsUtf16_passes : forallb (fun V => all_true (run_testNarrowTcharIsUtf16 (tables V))) [V7; V8; V9; V10; V11; V12; V13; V14; V15; V16] = true.
Proof. vm_cast_no_check (eq_refl true). Qed.

(* testNarrowTcharIsUcs2, 2 checks *)
Definition run_testNarrowTcharIsUcs2 (T : UnicodeTables) : outcome (list bool) :=
  do t1 <- narrow_isUcs2 T (At [84; 104; 105; 115; 32; 105; 115; 32; 115; 111; 109; 101; 32; 115; 116; 114; 105; 110; 103; 44; 32; 97; 110; 121; 32; 115; 116; 114; 105; 110; 103; 46; 0]);
  do t2 <- isUtf8 T (At [67; 97; 110; 32; 100; 111; 32; 237; 168; 178; 237; 184; 178; 32; 116; 111; 103; 101; 116; 104; 101; 114; 46; 0]) kUcs2 nullPredicate;
  Done [t1;
        (negb t2)].
Example run_testNarrowTcharIsUcs2_passes : forallb (fun V => all_true (run_testNarrowTcharIsUcs2 (tables V))) [V7; V8; V9; V10; V11; V12; V13; V14; V15; V16] = true.
Proof. vm_cast_no_check (eq_refl true). Qed.

(* testNarrowTcharIsUcs4, 2 checks *)
Definition run_testNarrowTcharIsUcs4 (T : UnicodeTables) : outcome (list bool) :=
  do t1 <- narrow_isUcs4 T (At [84; 104; 105; 115; 32; 105; 115; 32; 115; 111; 109; 101; 32; 115; 116; 114; 105; 110; 103; 44; 32; 97; 110; 121; 32; 115; 116; 114; 105; 110; 103; 46; 0]);
  do t2 <- narrow_isUcs4 T (At [66; 97; 100; 32; 67; 48; 45; 68; 70; 32; 192; 32; 119; 105; 108; 108; 32; 102; 97; 105; 108; 46; 0]);
  Done [t1;
        (negb t2)].
Example run_testNarrowTcharIsUcs4_passes : forallb (fun V => all_true (run_testNarrowTcharIsUcs4 (tables V))) [V7; V8; V9; V10; V11; V12; V13; V14; V15; V16] = true.
Proof. vm_cast_no_check (eq_refl true). Qed.

(* test8BitIsTstring, 2 checks *)
Definition run_test8BitIsTstring (T : UnicodeTables) : outcome (list bool) :=
  do t1 <- isTstring_8 T (At [84; 104; 105; 115; 32; 105; 115; 32; 115; 111; 109; 101; 32; 115; 116; 114; 105; 110; 103; 44; 32; 97; 110; 121; 32; 115; 116; 114; 105; 110; 103; 46; 0]);
  do t2 <- isTstring_8 T (At [67; 97; 110; 32; 100; 111; 32; 237; 168; 178; 237; 168; 178; 32; 116; 111; 103; 101; 116; 104; 101; 114; 46; 0]);
  Done [t1;
        (negb t2)].
Example run_test8BitIsTstring_passes : forallb (fun V => all_true (run_test8BitIsTstring (tables V))) [V7; V8; V9; V10; V11; V12; V13; V14; V15; V16] = true.
Proof. vm_cast_no_check (eq_refl true). Qed.

(* test16BitIsTstring, 2 checks *)
Definition run_test16BitIsTstring (T : UnicodeTables) : outcome (list bool) :=
  do t1 <- isTstring_16 T (At [84; 104; 105; 115; 32; 105; 115; 32; 115; 111; 109; 101; 32; 115; 116; 114; 105; 110; 103; 44; 32; 97; 110; 121; 32; 115; 116; 114; 105; 110; 103; 46; 0]);
  do t2 <- isTstring_16 T (At [55297; 55297; 0]);
  Done [t1;
        (negb t2)].
Example run_test16BitIsTstring_passes : forallb (fun V => all_true (run_test16BitIsTstring (tables V))) [V7; V8; V9; V10; V11; V12; V13; V14; V15; V16] = true.
Proof. vm_cast_no_check (eq_refl true). Qed.

(* test32BitIsTstring, 2 checks *)
Definition run_test32BitIsTstring (T : UnicodeTables) : outcome (list bool) :=
  do t1 <- isTstring_32 T (At [84; 104; 105; 115; 32; 105; 115; 32; 115; 111; 109; 101; 32; 115; 116; 114; 105; 110; 103; 44; 32; 97; 110; 121; 32; 115; 116; 114; 105; 110; 103; 46; 0]);
  do t2 <- isTstring_32 T (At [55297; 55297; 0]);
  Done [t1;
        (negb t2)].
Example run_test32BitIsTstring_passes : forallb (fun V => all_true (run_test32BitIsTstring (tables V))) [V7; V8; V9; V10; V11; V12; V13; V14; V15; V16] = true.
Proof. vm_cast_no_check (eq_refl true). Qed.

(* test16BitWcharToUtf8, 2 checks *)
Definition run_test16BitWcharToUtf8 (T : UnicodeTables) : outcome (list bool) :=
  dos t1 <- basic_string (At [84; 104; 105; 115; 32; 105; 115; 32; 115; 111; 109; 101; 32; 115; 116; 114; 105; 110; 103; 44; 32; 97; 110; 121; 32; 115; 116; 114; 105; 110; 103; 46; 0]);
  do t2 <- w16_toUtf8 (At [84; 104; 105; 115; 32; 105; 115; 32; 115; 111; 109; 101; 32; 115; 116; 114; 105; 110; 103; 44; 32; 97; 110; 121; 32; 115; 116; 114; 105; 110; 103; 46; 0]);
  do t3 <- w16_toUtf8 (At [55297; 55297; 0]);
  Done [(list_eqb t1 t2);
        (match t3 with [] => true | _ => false end)].
Example run_test16BitWcharToUtf8_passes : all_true (run_test16BitWcharToUtf8 (tables V16)) = true.
Proof. vm_cast_no_check (eq_refl true). Qed.

(* test16BitWcharToUtf16, 2 checks *)
Definition run_test16BitWcharToUtf16 (T : UnicodeTables) : outcome (list bool) :=
  dos t1 <- basic_string (At [84; 104; 105; 115; 32; 105; 115; 32; 115; 111; 109; 101; 32; 115; 116; 114; 105; 110; 103; 44; 32; 97; 110; 121; 32; 115; 116; 114; 105; 110; 103; 46; 0]);
  do t2 <- w16_toUtf16 T (At [84; 104; 105; 115; 32; 105; 115; 32; 115; 111; 109; 101; 32; 115; 116; 114; 105; 110; 103; 44; 32; 97; 110; 121; 32; 115; 116; 114; 105; 110; 103; 46; 0]);
  do t3 <- w16_toUtf16 T (At [55297; 55297; 0]);
  Done [(list_eqb t1 t2);
        (match t3 with [] => true | _ => false end)].
Example run_test16BitWcharToUtf16_passes : forallb (fun V => all_true (run_test16BitWcharToUtf16 (tables V))) [V7; V8; V9; V10; V11; V12; V13; V14; V15; V16] = true.
Proof. vm_cast_no_check (eq_refl true). Qed.

(* test16BitWcharToUcs2, 2 checks *)
Definition run_test16BitWcharToUcs2 (T : UnicodeTables) : outcome (list bool) :=
  dos t1 <- basic_string (At [84; 104; 105; 115; 32; 105; 115; 32; 115; 111; 109; 101; 32; 115; 116; 114; 105; 110; 103; 44; 32; 97; 110; 121; 32; 115; 116; 114; 105; 110; 103; 46; 0]);
  do t2 <- w16_toUcs2 T (At [84; 104; 105; 115; 32; 105; 115; 32; 115; 111; 109; 101; 32; 115; 116; 114; 105; 110; 103; 44; 32; 97; 110; 121; 32; 115; 116; 114; 105; 110; 103; 46; 0]);
  do t3 <- w16_toUcs2 T (At [55297; 56321; 0]);
  Done [(list_eqb t1 t2);
        (match t3 with [] => true | _ => false end)].
Example run_test16BitWcharToUcs2_passes : forallb (fun V => all_true (run_test16BitWcharToUcs2 (tables V))) [V7; V8; V9; V10; V11; V12; V13; V14; V15; V16] = true.
Proof. vm_cast_no_check (eq_refl true). Qed.

(* test16BitWcharToUcs4, 2 checks *)
Definition run_test16BitWcharToUcs4 (T : UnicodeTables) : outcome (list bool) :=
  dos t1 <- basic_string (At [84; 104; 105; 115; 32; 105; 115; 32; 115; 111; 109; 101; 32; 115; 116; 114; 105; 110; 103; 44; 32; 97; 110; 121; 32; 115; 116; 114; 105; 110; 103; 46; 0]);
  do t2 <- w16_toUcs4 (At [84; 104; 105; 115; 32; 105; 115; 32; 115; 111; 109; 101; 32; 115; 116; 114; 105; 110; 103; 44; 32; 97; 110; 121; 32; 115; 116; 114; 105; 110; 103; 46; 0]);
  do t3 <- w16_toUcs4 (At [55297; 55297; 0]);
  Done [(list_eqb t1 t2);
        (match t3 with [] => true | _ => false end)].
Example run_test16BitWcharToUcs4_passes : all_true (run_test16BitWcharToUcs4 (tables V16)) = true.
Proof. vm_cast_no_check (eq_refl true). Qed.

(* testUtf8ToWstring, 2 checks *)
Definition run_testUtf8ToWstring (T : UnicodeTables) : outcome (list bool) :=
  dos t1 <- basic_string (At [84; 104; 105; 115; 32; 105; 115; 32; 115; 111; 109; 101; 32; 115; 116; 114; 105; 110; 103; 44; 32; 97; 110; 121; 32; 115; 116; 114; 105; 110; 103; 46; 0]);
  do t2 <- w16_toWstring_8 (At [84; 104; 105; 115; 32; 105; 115; 32; 115; 111; 109; 101; 32; 115; 116; 114; 105; 110; 103; 44; 32; 97; 110; 121; 32; 115; 116; 114; 105; 110; 103; 46; 0]);
  do t3 <- w16_toWstring_8 (At [67; 97; 110; 32; 100; 111; 32; 237; 168; 178; 237; 168; 178; 32; 116; 111; 103; 101; 116; 104; 101; 114; 46; 0]);
  Done [(list_eqb t1 t2);
        (match t3 with [] => true | _ => false end)].
Example run_testUtf8ToWstring_passes : all_true (run_testUtf8ToWstring (tables V16)) = true.
Proof. vm_cast_no_check (eq_refl true). Qed.

(* testUtf16ToWstring, 2 checks *)
Definition run_testUtf16ToWstring (T : UnicodeTables) : outcome (list bool) :=
  dos t1 <- basic_string (At [84; 104; 105; 115; 32; 105; 115; 32; 115; 111; 109; 101; 32; 115; 116; 114; 105; 110; 103; 44; 32; 97; 110; 121; 32; 115; 116; 114; 105; 110; 103; 46; 0]);
  do t2 <- w16_toWstring_16 T (At [84; 104; 105; 115; 32; 105; 115; 32; 115; 111; 109; 101; 32; 115; 116; 114; 105; 110; 103; 44; 32; 97; 110; 121; 32; 115; 116; 114; 105; 110; 103; 46; 0]);
  do t3 <- w16_toWstring_16 T (At [55297; 55297; 0]);
  Done [(list_eqb t1 t2);
        (match t3 with [] => true | _ => false end)].
Example run_testUtf16ToWstring_passes : forallb (fun V => all_true (run_testUtf16ToWstring (tables V))) [V7; V8; V9; V10; V11; V12; V13; V14; V15; V16] = true.
Proof. vm_cast_no_check (eq_refl true). Qed.

(* testUcs4ToWstring, 2 checks *)
Definition run_testUcs4ToWstring (T : UnicodeTables) : outcome (list bool) :=
  dos t1 <- basic_string (At [84; 104; 105; 115; 32; 105; 115; 32; 115; 111; 109; 101; 32; 115; 116; 114; 105; 110; 103; 44; 32; 97; 110; 121; 32; 115; 116; 114; 105; 110; 103; 46; 0]);
  do t2 <- w16_toWstring_32 (At [84; 104; 105; 115; 32; 105; 115; 32; 115; 111; 109; 101; 32; 115; 116; 114; 105; 110; 103; 44; 32; 97; 110; 121; 32; 115; 116; 114; 105; 110; 103; 46; 0]);
  do t3 <- w16_toWstring_32 (At [55297; 55297; 0]);
  Done [(list_eqb t1 t2);
        (match t3 with [] => true | _ => false end)].
Example run_testUcs4ToWstring_passes : all_true (run_testUcs4ToWstring (tables V16)) = true.
Proof. vm_cast_no_check (eq_refl true). Qed.

(* testNarrowTcharToUtf8, 2 checks *)
Definition run_testNarrowTcharToUtf8 (T : UnicodeTables) : outcome (list bool) :=
  dos t1 <- basic_string (At [84; 104; 105; 115; 32; 105; 115; 32; 115; 111; 109; 101; 32; 115; 116; 114; 105; 110; 103; 44; 32; 97; 110; 121; 32; 115; 116; 114; 105; 110; 103; 46; 0]);
  do t2 <- narrow_toUtf8 T (At [84; 104; 105; 115; 32; 105; 115; 32; 115; 111; 109; 101; 32; 115; 116; 114; 105; 110; 103; 44; 32; 97; 110; 121; 32; 115; 116; 114; 105; 110; 103; 46; 0]);
  do t3 <- narrow_toUtf8 T (At [66; 97; 100; 32; 67; 48; 45; 68; 70; 32; 192; 32; 119; 105; 108; 108; 32; 102; 97; 105; 108; 46; 0]);
  Done [(list_eqb t1 t2);
        (match t3 with [] => true | _ => false end)].
Example run_testNarrowTcharToUtf8_passes : forallb (fun V => all_true (run_testNarrowTcharToUtf8 (tables V))) [V7; V8; V9; V10; V11; V12; V13; V14; V15; V16] = true.
Proof. vm_cast_no_check (eq_refl true). Qed.

(* testUtf8toNarrowTstring, 2 checks *)
Definition run_testUtf8toNarrowTstring (T : UnicodeTables) : outcome (list bool) :=
  dos t1 <- basic_string (At [84; 104; 105; 115; 32; 105; 115; 32; 115; 111; 109; 101; 32; 115; 116; 114; 105; 110; 103; 44; 32; 97; 110; 121; 32; 115; 116; 114; 105; 110; 103; 46; 0]);
  do t2 <- mbcs_toTstring_8 T (At [84; 104; 105; 115; 32; 105; 115; 32; 115; 111; 109; 101; 32; 115; 116; 114; 105; 110; 103; 44; 32; 97; 110; 121; 32; 115; 116; 114; 105; 110; 103; 46; 0]);
  do t3 <- mbcs_toTstring_8 T (At [67; 97; 110; 32; 100; 111; 32; 237; 168; 178; 237; 168; 178; 32; 116; 111; 103; 101; 116; 104; 101; 114; 46; 0]);
  Done [(list_eqb t1 t2);
        (match t3 with [] => true | _ => false end)].
Example run_testUtf8toNarrowTstring_passes : forallb (fun V => all_true (run_testUtf8toNarrowTstring (tables V))) [V7; V8; V9; V10; V11; V12; V13; V14; V15; V16] = true.
Proof. vm_cast_no_check (eq_refl true). Qed.

(* testUtf16toNarrowTstring, 2 checks *)
Definition run_testUtf16toNarrowTstring (T : UnicodeTables) : outcome (list bool) :=
  dos t1 <- basic_string (At [84; 104; 105; 115; 32; 105; 115; 32; 115; 111; 109; 101; 32; 115; 116; 114; 105; 110; 103; 44; 32; 97; 110; 121; 32; 115; 116; 114; 105; 110; 103; 46; 0]);
  do t2 <- mbcs_toTstring_16 T (At [84; 104; 105; 115; 32; 105; 115; 32; 115; 111; 109; 101; 32; 115; 116; 114; 105; 110; 103; 44; 32; 97; 110; 121; 32; 115; 116; 114; 105; 110; 103; 46; 0]);
  do t3 <- mbcs_toTstring_16 T (At [55297; 55297; 0]);
  Done [(list_eqb t1 t2);
        (match t3 with [] => true | _ => false end)].
Example run_testUtf16toNarrowTstring_passes : forallb (fun V => all_true (run_testUtf16toNarrowTstring (tables V))) [V7; V8; V9; V10; V11; V12; V13; V14; V15; V16] = true.
Proof. vm_cast_no_check (eq_refl true). Qed.

(* testUcs4toNarrowTstring, 2 checks *)
Definition run_testUcs4toNarrowTstring (T : UnicodeTables) : outcome (list bool) :=
  dos t1 <- basic_string (At [84; 104; 105; 115; 32; 105; 115; 32; 115; 111; 109; 101; 32; 115; 116; 114; 105; 110; 103; 44; 32; 97; 110; 121; 32; 115; 116; 114; 105; 110; 103; 46; 0]);
  do t2 <- mbcs_toTstring_32 T (At [84; 104; 105; 115; 32; 105; 115; 32; 115; 111; 109; 101; 32; 115; 116; 114; 105; 110; 103; 44; 32; 97; 110; 121; 32; 115; 116; 114; 105; 110; 103; 46; 0]);
  do t3 <- mbcs_toTstring_32 T (At [55297; 55297; 0]);
  Done [(list_eqb t1 t2);
        (match t3 with [] => true | _ => false end)].
Example run_testUcs4toNarrowTstring_passes : forallb (fun V => all_true (run_testUcs4toNarrowTstring (tables V))) [V7; V8; V9; V10; V11; V12; V13; V14; V15; V16] = true.
Proof. vm_cast_no_check (eq_refl true). Qed.

(* test32BitWcharIsUtf8, 2 checks *)
Definition run_test32BitWcharIsUtf8 (T : UnicodeTables) : outcome (list bool) :=
  do t1 <- w32_isUtf8 T (At [84; 104; 105; 115; 32; 105; 115; 32; 115; 111; 109; 101; 32; 115; 116; 114; 105; 110; 103; 44; 32; 97; 110; 121; 32; 115; 116; 114; 105; 110; 103; 46; 0]);
  do t2 <- w32_isUtf8 T (At [55297; 55297; 0]);
  Done [t1;
        (negb t2)].
Example run_test32BitWcharIsUtf8_passes : forallb (fun V => all_true (run_test32BitWcharIsUtf8 (tables V))) [V7; V8; V9; V10; V11; V12; V13; V14; V15; V16] = true.
Proof. vm_cast_no_check (eq_refl true). Qed.

(* test32BitWcharIsUtf16, 3 checks *)
Definition run_test32BitWcharIsUtf16 (T : UnicodeTables) : outcome (list bool) :=
  do t1 <- w32_isUtf16 T (At [84; 104; 105; 115; 32; 105; 115; 32; 115; 111; 109; 101; 32; 115; 116; 114; 105; 110; 103; 44; 32; 97; 110; 121; 32; 115; 116; 114; 105; 110; 103; 46; 0]);
  do t2 <- w32_isUtf16 T (At [2097152; 0]);
  do t3 <- w32_isUtf16 T (At [55297; 55297; 0]);
  Done [t1;
        (negb t2);
        (negb t3)].
Example run_test32BitWcharIsUtf16_passes : forallb (fun V => all_true (run_test32BitWcharIsUtf16 (tables V))) [V7; V8; V9; V10; V11; V12; V13; V14; V15; V16] = true.
Proof. vm_cast_no_check (eq_refl true). Qed.

(* test32BitWcharIsUcs2, 3 checks *)
Definition run_test32BitWcharIsUcs2 (T : UnicodeTables) : outcome (list bool) :=
  do t1 <- w32_isUcs2 T (At [84; 104; 105; 115; 32; 105; 115; 32; 115; 111; 109; 101; 32; 115; 116; 114; 105; 110; 103; 44; 32; 97; 110; 121; 32; 115; 116; 114; 105; 110; 103; 46; 0]);
  do t2 <- w32_isUcs2 T (At [2097152; 0]);
  do t3 <- w32_isUcs2 T (At [55297; 56321; 0]);
  Done [t1;
        (negb t2);
        (negb t3)].
Example run_test32BitWcharIsUcs2_passes : forallb (fun V => all_true (run_test32BitWcharIsUcs2 (tables V))) [V7; V8; V9; V10; V11; V12; V13; V14; V15; V16] = true.
Proof. vm_cast_no_check (eq_refl true). Qed.

(* test32BitWcharIsUcs4, 2 checks *)
Definition run_test32BitWcharIsUcs4 (T : UnicodeTables) : outcome (list bool) :=
  do t1 <- w32_isUcs4 T (At [84; 104; 105; 115; 32; 105; 115; 32; 115; 111; 109; 101; 32; 115; 116; 114; 105; 110; 103; 44; 32; 97; 110; 121; 32; 115; 116; 114; 105; 110; 103; 46; 0]);
  do t2 <- w32_isUcs4 T (At [55297; 55297; 0]);
  Done [t1;
        (negb t2)].
Example run_test32BitWcharIsUcs4_passes : forallb (fun V => all_true (run_test32BitWcharIsUcs4 (tables V))) [V7; V8; V9; V10; V11; V12; V13; V14; V15; V16] = true.
Proof. vm_cast_no_check (eq_refl true). Qed.

(* test32BitWcharToUtf8, 2 checks *)
Definition run_test32BitWcharToUtf8 (T : UnicodeTables) : outcome (list bool) :=
  dos t1 <- basic_string (At [84; 104; 105; 115; 32; 105; 115; 32; 115; 111; 109; 101; 32; 115; 116; 114; 105; 110; 103; 44; 32; 97; 110; 121; 32; 115; 116; 114; 105; 110; 103; 46; 0]);
  do t2 <- w32_toUtf8 (At [84; 104; 105; 115; 32; 105; 115; 32; 115; 111; 109; 101; 32; 115; 116; 114; 105; 110; 103; 44; 32; 97; 110; 121; 32; 115; 116; 114; 105; 110; 103; 46; 0]);
  do t3 <- w32_toUtf8 (At [55297; 55297; 0]);
  Done [(list_eqb t1 t2);
        (match t3 with [] => true | _ => false end)].
Example run_test32BitWcharToUtf8_passes : all_true (run_test32BitWcharToUtf8 (tables V16)) = true.
Proof. vm_cast_no_check (eq_refl true). Qed.

(* test32BitWcharToUtf16, 3 checks *)
Definition run_test32BitWcharToUtf16 (T : UnicodeTables) : outcome (list bool) :=
  dos t1 <- basic_string (At [84; 104; 105; 115; 32; 105; 115; 32; 115; 111; 109; 101; 32; 115; 116; 114; 105; 110; 103; 44; 32; 97; 110; 121; 32; 115; 116; 114; 105; 110; 103; 46; 0]);
  do t2 <- w32_toUtf16 (At [84; 104; 105; 115; 32; 105; 115; 32; 115; 111; 109; 101; 32; 115; 116; 114; 105; 110; 103; 44; 32; 97; 110; 121; 32; 115; 116; 114; 105; 110; 103; 46; 0]);
  do t3 <- w32_toUtf16 (At [2097152; 0]);
  do t4 <- w32_toUtf16 (At [55297; 55297; 0]);
  Done [(list_eqb t1 t2);
        (match t3 with [] => true | _ => false end);
        (match t4 with [] => true | _ => false end)].
Example run_test32BitWcharToUtf16_passes : all_true (run_test32BitWcharToUtf16 (tables V16)) = true.
Proof. vm_cast_no_check (eq_refl true). Qed.

(* test32BitWcharToUcs2, 3 checks *)
Definition run_test32BitWcharToUcs2 (T : UnicodeTables) : outcome (list bool) :=
  dos t1 <- basic_string (At [84; 104; 105; 115; 32; 105; 115; 32; 115; 111; 109; 101; 32; 115; 116; 114; 105; 110; 103; 44; 32; 97; 110; 121; 32; 115; 116; 114; 105; 110; 103; 46; 0]);
  do t2 <- w32_toUcs2 (At [84; 104; 105; 115; 32; 105; 115; 32; 115; 111; 109; 101; 32; 115; 116; 114; 105; 110; 103; 44; 32; 97; 110; 121; 32; 115; 116; 114; 105; 110; 103; 46; 0]);
  do t3 <- w32_toUcs2 (At [2097152; 0]);
  do t4 <- w32_toUcs2 (At [55297; 56321; 0]);
  Done [(list_eqb t1 t2);
        (match t3 with [] => true | _ => false end);
        (match t4 with [] => true | _ => false end)].
Example run_test32BitWcharToUcs2_passes : all_true (run_test32BitWcharToUcs2 (tables V16)) = true.
Proof. vm_cast_no_check (eq_refl true). Qed.

(* test32BitWcharToUcs4, 2 checks *)
Definition run_test32BitWcharToUcs4 (T : UnicodeTables) : outcome (list bool) :=
  dos t1 <- basic_string (At [84; 104; 105; 115; 32; 105; 115; 32; 115; 111; 109; 101; 32; 115; 116; 114; 105; 110; 103; 44; 32; 97; 110; 121; 32; 115; 116; 114; 105; 110; 103; 46; 0]);
  do t2 <- w32_toUcs4 T (At [84; 104; 105; 115; 32; 105; 115; 32; 115; 111; 109; 101; 32; 115; 116; 114; 105; 110; 103; 44; 32; 97; 110; 121; 32; 115; 116; 114; 105; 110; 103; 46; 0]);
  do t3 <- w32_toUcs4 T (At [55297; 55297; 0]);
  Done [(list_eqb t1 t2);
        (match t3 with [] => true | _ => false end)].
Example run_test32BitWcharToUcs4_passes : forallb (fun V => all_true (run_test32BitWcharToUcs4 (tables V))) [V7; V8; V9; V10; V11; V12; V13; V14; V15; V16] = true.
Proof. vm_cast_no_check (eq_refl true). Qed.

(* test8BitTo32bitWString, 2 checks *)
Definition run_test8BitTo32bitWString (T : UnicodeTables) : outcome (list bool) :=
  dos t1 <- basic_string (At [84; 104; 105; 115; 32; 105; 115; 32; 115; 111; 109; 101; 32; 115; 116; 114; 105; 110; 103; 44; 32; 97; 110; 121; 32; 115; 116; 114; 105; 110; 103; 46; 0]);
  do t2 <- w32_toWstring_8 (At [84; 104; 105; 115; 32; 105; 115; 32; 115; 111; 109; 101; 32; 115; 116; 114; 105; 110; 103; 44; 32; 97; 110; 121; 32; 115; 116; 114; 105; 110; 103; 46; 0]);
  do t3 <- w32_toWstring_8 (At [67; 97; 110; 32; 100; 111; 32; 237; 168; 178; 237; 168; 178; 32; 116; 111; 103; 101; 116; 104; 101; 114; 46; 0]);
  Done [(list_eqb t1 t2);
        (match t3 with [] => true | _ => false end)].
Example run_test8BitTo32bitWString_passes : all_true (run_test8BitTo32bitWString (tables V16)) = true.
Proof. vm_cast_no_check (eq_refl true). Qed.

(* test16BitTo32bitWString, 2 checks *)
Definition run_test16BitTo32bitWString (T : UnicodeTables) : outcome (list bool) :=
  dos t1 <- basic_string (At [84; 104; 105; 115; 32; 105; 115; 32; 115; 111; 109; 101; 32; 115; 116; 114; 105; 110; 103; 44; 32; 97; 110; 121; 32; 115; 116; 114; 105; 110; 103; 46; 0]);
  do t2 <- w32_toWstring_16 (At [84; 104; 105; 115; 32; 105; 115; 32; 115; 111; 109; 101; 32; 115; 116; 114; 105; 110; 103; 44; 32; 97; 110; 121; 32; 115; 116; 114; 105; 110; 103; 46; 0]);
  do t3 <- w32_toWstring_16 (At [55297; 55297; 0]);
  Done [(list_eqb t1 t2);
        (match t3 with [] => true | _ => false end)].
Example run_test16BitTo32bitWString_passes : all_true (run_test16BitTo32bitWString (tables V16)) = true.
Proof. vm_cast_no_check (eq_refl true). Qed.

(* test32BitTo32bitWString, 2 checks *)
Definition run_test32BitTo32bitWString (T : UnicodeTables) : outcome (list bool) :=
  dos t1 <- basic_string (At [84; 104; 105; 115; 32; 105; 115; 32; 115; 111; 109; 101; 32; 115; 116; 114; 105; 110; 103; 44; 32; 97; 110; 121; 32; 115; 116; 114; 105; 110; 103; 46; 0]);
  do t2 <- w32_toWstring_32 T (At [84; 104; 105; 115; 32; 105; 115; 32; 115; 111; 109; 101; 32; 115; 116; 114; 105; 110; 103; 44; 32; 97; 110; 121; 32; 115; 116; 114; 105; 110; 103; 46; 0]);
  do t3 <- w32_toWstring_32 T (At [55297; 55297; 0]);
  Done [(list_eqb t1 t2);
        (match t3 with [] => true | _ => false end)].
Example run_test32BitTo32bitWString_passes : forallb (fun V => all_true (run_test32BitTo32bitWString (tables V))) [V7; V8; V9; V10; V11; V12; V13; V14; V15; V16] = true.
Proof. vm_cast_no_check (eq_refl true). Qed.

(* test8BitIsWstring, 2 checks *)
Definition run_test8BitIsWstring (T : UnicodeTables) : outcome (list bool) :=
  do t1 <- w32_isWstring_8 T (At [84; 104; 105; 115; 32; 105; 115; 32; 115; 111; 109; 101; 32; 115; 116; 114; 105; 110; 103; 44; 32; 97; 110; 121; 32; 115; 116; 114; 105; 110; 103; 46; 0]);
  do t2 <- w32_isWstring_8 T (At [67; 97; 110; 32; 100; 111; 32; 237; 168; 178; 237; 168; 178; 32; 116; 111; 103; 101; 116; 104; 101; 114; 46; 0]);
  Done [t1;
        (negb t2)].
Example run_test8BitIsWstring_passes : forallb (fun V => all_true (run_test8BitIsWstring (tables V))) [V7; V8; V9; V10; V11; V12; V13; V14; V15; V16] = true.
Proof. vm_cast_no_check (eq_refl true). Qed.

(* test16BitIsWstring, 2 checks *)
Definition run_test16BitIsWstring (T : UnicodeTables) : outcome (list bool) :=
  do t1 <- w32_isWstring_16 T (At [84; 104; 105; 115; 32; 105; 115; 32; 115; 111; 109; 101; 32; 115; 116; 114; 105; 110; 103; 44; 32; 97; 110; 121; 32; 115; 116; 114; 105; 110; 103; 46; 0]);
  do t2 <- w32_isWstring_16 T (At [55297; 55297; 0]);
  Done [t1;
        (negb t2)].
Example run_test16BitIsWstring_passes : forallb (fun V => all_true (run_test16BitIsWstring (tables V))) [V7; V8; V9; V10; V11; V12; V13; V14; V15; V16] = true.
Proof. vm_cast_no_check (eq_refl true). Qed.

(* test32BitIsWstring, 2 checks *)
Definition run_test32BitIsWstring (T : UnicodeTables) : outcome (list bool) :=
  do t1 <- w32_isWstring_32 T (At [84; 104; 105; 115; 32; 105; 115; 32; 115; 111; 109; 101; 32; 115; 116; 114; 105; 110; 103; 44; 32; 97; 110; 121; 32; 115; 116; 114; 105; 110; 103; 46; 0]);
  do t2 <- w32_isWstring_32 T (At [55297; 55297; 0]);
  Done [t1;
        (negb t2)].
Example run_test32BitIsWstring_passes : forallb (fun V => all_true (run_test32BitIsWstring (tables V))) [V7; V8; V9; V10; V11; V12; V13; V14; V15; V16] = true.
Proof. vm_cast_no_check (eq_refl true). Qed.
