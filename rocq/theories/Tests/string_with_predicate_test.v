(* Generated by tools/tests2v.py from /repo/test/unit/string_with_predicate_test.cxx -- do not edit.
   The library's own unit tests run on the model: every EXPECT_ of the C++ is one boolean. *)
From Coq Require Import ZArith List Bool.
From Verif Require Import Machine.
From Verif.Model Require Import Internal Decode Tables Predicate Str Lower CodePage SplitJoin Trim Wide Tchar.
From Verif.Tests Require Import Support.
Import ListNotations.
Local Open Scope Z_scope.

(* testIsUtf8WithPredicates, 6 checks *)
Definition run_testIsUtf8WithPredicates (T : UnicodeTables) : outcome (list bool) :=
  dos t1 <- basic_string (At [84; 104; 101; 32; 113; 117; 105; 99; 107; 32; 98; 114; 111; 119; 110; 32; 102; 111; 120; 32; 106; 117; 109; 112; 115; 32; 111; 118; 101; 114; 32; 116; 104; 101; 32; 108; 97; 122; 121; 32; 100; 111; 103; 46; 0]);
  do t2 <- isUtf8 T (c_str t1) kUtf8 (validIf kIsAssigned);
  do t3 <- isUtf8 T (c_str t1) kAscii (validIf kIsAssigned);
  do t4 <- isUtf8 T (c_str t1) kUtf8 (validIf kIsPrivate);
  do t5 <- isUtf8 T (c_str t1) kUtf8 (validIf kIsControl);
  do t6 <- isUtf8 T (c_str t1) kUtf8 (validIf kIsWhitespace);
  do t7 <- isUtf8 T (c_str t1) kUtf8 (validIfNot kIsWhitespace);
  Done [t2;
        t3;
        (negb t4);
        (negb t5);
        (negb t6);
        (negb t7)].
Example run_testIsUtf8WithPredicates_passes : forallb (fun V => all_true (run_testIsUtf8WithPredicates (tables V))) [V7; V8; V9; V10; V11; V12; V13; V14; V15; V16] = true.
Proof. vm_cast_no_check (eq_refl true). Qed.

(* testIsUcs2WithPredicates, 6 checks *)
Definition run_testIsUcs2WithPredicates (T : UnicodeTables) : outcome (list bool) :=
  do t1 <- toUcs2_8 (At [84; 104; 101; 32; 113; 117; 105; 99; 107; 32; 98; 114; 111; 119; 110; 32; 102; 111; 120; 32; 106; 117; 109; 112; 115; 32; 111; 118; 101; 114; 32; 116; 104; 101; 32; 108; 97; 122; 121; 32; 100; 111; 103; 46; 0]);
  do t2 <- isUcs2 T (c_str t1) kUcs2 (validIf kIsAssigned);
  do t3 <- isUcs2 T (c_str t1) kAscii (validIf kIsAssigned);
  do t4 <- isUcs2 T (c_str t1) kUcs2 (validIf kIsPrivate);
  do t5 <- isUcs2 T (c_str t1) kUcs2 (validIf kIsControl);
  do t6 <- isUcs2 T (c_str t1) kUcs2 (validIf kIsWhitespace);
  do t7 <- isUcs2 T (c_str t1) kUcs2 (validIfNot kIsWhitespace);
  Done [t2;
        t3;
        (negb t4);
        (negb t5);
        (negb t6);
        (negb t7)].
Example run_testIsUcs2WithPredicates_passes : forallb (fun V => all_true (run_testIsUcs2WithPredicates (tables V))) [V7; V8; V9; V10; V11; V12; V13; V14; V15; V16] = true.
Proof. vm_cast_no_check (eq_refl true). Qed.

(* testIsUtf16WithPredicates, 6 checks *)
Definition run_testIsUtf16WithPredicates (T : UnicodeTables) : outcome (list bool) :=
  do t1 <- toUtf16_8 (At [84; 104; 101; 32; 113; 117; 105; 99; 107; 32; 98; 114; 111; 119; 110; 32; 102; 111; 120; 32; 106; 117; 109; 112; 115; 32; 111; 118; 101; 114; 32; 116; 104; 101; 32; 108; 97; 122; 121; 32; 100; 111; 103; 46; 0]);
  do t2 <- isUtf16 T (c_str t1) kUtf16 (validIf kIsAssigned);
  do t3 <- isUtf16 T (c_str t1) kAscii (validIf kIsAssigned);
  do t4 <- isUtf16 T (c_str t1) kUtf16 (validIf kIsPrivate);
  do t5 <- isUtf16 T (c_str t1) kUtf16 (validIf kIsControl);
  do t6 <- isUtf16 T (c_str t1) kUtf16 (validIf kIsWhitespace);
  do t7 <- isUtf16 T (c_str t1) kUtf16 (validIfNot kIsWhitespace);
  Done [t2;
        t3;
        (negb t4);
        (negb t5);
        (negb t6);
        (negb t7)].
Example run_testIsUtf16WithPredicates_passes : forallb (fun V => all_true (run_testIsUtf16WithPredicates (tables V))) [V7; V8; V9; V10; V11; V12; V13; V14; V15; V16] = true.
Proof. vm_cast_no_check (eq_refl true). Qed.

(* testIsUcs4WithPredicates, 6 checks *)
Definition run_testIsUcs4WithPredicates (T : UnicodeTables) : outcome (list bool) :=
  do t1 <- toUcs4_8 (At [84; 104; 101; 32; 113; 117; 105; 99; 107; 32; 98; 114; 111; 119; 110; 32; 102; 111; 120; 32; 106; 117; 109; 112; 115; 32; 111; 118; 101; 114; 32; 116; 104; 101; 32; 108; 97; 122; 121; 32; 100; 111; 103; 46; 0]);
  do t2 <- isUcs4 T (c_str t1) kUcs4 (validIf kIsAssigned);
  do t3 <- isUcs4 T (c_str t1) kAscii (validIf kIsAssigned);
  do t4 <- isUcs4 T (c_str t1) kUcs4 (validIf kIsPrivate);
  do t5 <- isUcs4 T (c_str t1) kUcs4 (validIf kIsControl);
  do t6 <- isUcs4 T (c_str t1) kUcs4 (validIf kIsWhitespace);
  do t7 <- isUcs4 T (c_str t1) kUcs4 (validIfNot kIsWhitespace);
  Done [t2;
        t3;
        (negb t4);
        (negb t5);
        (negb t6);
        (negb t7)].
Example run_testIsUcs4WithPredicates_passes : forallb (fun V => all_true (run_testIsUcs4WithPredicates (tables V))) [V7; V8; V9; V10; V11; V12; V13; V14; V15; V16] = true.
Proof. vm_cast_no_check (eq_refl true). Qed.
