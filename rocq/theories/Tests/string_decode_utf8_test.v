(* Generated by tools/tests2v.py from /repo/test/unit/string_decode_utf8_test.cxx -- do not edit.
   The library's own unit tests run on the model: every EXPECT_ of the C++ is one boolean. *)
From Coq Require Import ZArith List Bool.
From Verif Require Import Machine.
From Verif.Model Require Import Internal Decode Tables Predicate Str Lower CodePage SplitJoin Trim Wide Tchar.
From Verif.Tests Require Import Support.
Import ListNotations.
Local Open Scope Z_scope.

(* test7bit, 2 checks *)
Definition run_test7bit (T : UnicodeTables) : outcome (list bool) :=
  do (c1, p2) <- decodeUtf8 [78; 111; 0];
  Done [(78 =? c1);
        (ptr_eqb (At [78; 111; 0]) p2)].
Example run_test7bit_passes : all_true (run_test7bit (tables V16)) = true.
Proof. vm_cast_no_check (eq_refl true). Qed.

(* testContinuationChar, 2 checks *)
Definition run_testContinuationChar (T : UnicodeTables) : outcome (list bool) :=
  do (c1, p2) <- decodeUtf8 [160; 111; 0];
  Done [(0 =? c1);
        (ptr_eqb Null p2)].
Example run_testContinuationChar_passes : all_true (run_testContinuationChar (tables V16)) = true.
Proof. vm_cast_no_check (eq_refl true). Qed.

(* testTwoByteSequence, 12 checks *)
Definition run_testTwoByteSequence (T : UnicodeTables) : outcome (list bool) :=
  do (c1, p2) <- decodeUtf8 [192; 0];
  do (c3, p4) <- decodeUtf8 [192; 35; 0];
  do (c5, p6) <- decodeUtf8 [192; 128; 0];
  do (c7, p8) <- decodeUtf8 [193; 191; 0];
  do (c9, p10) <- decodeUtf8 [194; 128; 0];
  do (c11, p12) <- decodeUtf8 [194; 160; 0];
  Done [(0 =? c1);
        (ptr_eqb (At [0]) p2);
        (0 =? c3);
        (ptr_eqb Null p4);
        (0 =? c5);
        (ptr_eqb Null p6);
        (0 =? c7);
        (ptr_eqb Null p8);
        (negb (0 =? c9));
        (negb (ptr_eqb Null p10));
        (c11 =? 160);
        (ptr_eqb (At [160; 0]) p12)].
Example run_testTwoByteSequence_passes : all_true (run_testTwoByteSequence (tables V16)) = true.
Proof. vm_cast_no_check (eq_refl true). Qed.

(* testThreeByteSequenceNonUtf16, 16 checks *)
Definition run_testThreeByteSequenceNonUtf16 (T : UnicodeTables) : outcome (list bool) :=
  do (c1, p2) <- decodeUtf8 [224; 0];
  do (c3, p4) <- decodeUtf8 [224; 35; 0];
  do (c5, p6) <- decodeUtf8 [224; 191; 0];
  do (c7, p8) <- decodeUtf8 [224; 191; 35; 0];
  do (c9, p10) <- decodeUtf8 [224; 128; 128; 0];
  do (c11, p12) <- decodeUtf8 [224; 159; 191; 0];
  do (c13, p14) <- decodeUtf8 [224; 160; 128; 0];
  do (c15, p16) <- decodeUtf8 [224; 180; 155; 0];
  Done [(0 =? c1);
        (ptr_eqb (At [0]) p2);
        (0 =? c3);
        (ptr_eqb Null p4);
        (0 =? c5);
        (ptr_eqb (At [0]) p6);
        (0 =? c7);
        (ptr_eqb Null p8);
        (0 =? c9);
        (ptr_eqb Null p10);
        (0 =? c11);
        (ptr_eqb Null p12);
        (negb (0 =? c13));
        (negb (ptr_eqb Null p14));
        (c15 =? 3355);
        (ptr_eqb (At [155; 0]) p16)].
Example run_testThreeByteSequenceNonUtf16_passes : all_true (run_testThreeByteSequenceNonUtf16 (tables V16)) = true.
Proof. vm_cast_no_check (eq_refl true). Qed.

(* testThreeByteSequenceUtf16, 20 checks *)
Definition run_testThreeByteSequenceUtf16 (T : UnicodeTables) : outcome (list bool) :=
  do (c1, p2) <- decodeUtf8 [237; 159; 191; 0];
  do (c3, p4) <- decodeUtf8 [237; 160; 128; 0];
  do (c5, p6) <- decodeUtf8 [237; 160; 128; 224; 35; 0];
  do (c7, p8) <- decodeUtf8 [237; 160; 128; 224; 191; 0];
  do (c9, p10) <- decodeUtf8 [237; 160; 128; 224; 191; 35; 0];
  do (c11, p12) <- decodeUtf8 [237; 160; 128; 237; 175; 191; 0];
  do (c13, p14) <- decodeUtf8 [237; 160; 128; 237; 176; 128; 0];
  do (c15, p16) <- decodeUtf8 [237; 160; 128; 237; 191; 191; 0];
  do (c17, p18) <- decodeUtf8 [237; 160; 128; 238; 128; 128; 0];
  do (c19, p20) <- decodeUtf8 [237; 160; 128; 237; 179; 146; 0];
  Done [(c1 =? 55295);
        (ptr_eqb (At [191; 0]) p2);
        (0 =? c3);
        (ptr_eqb (At [0]) p4);
        (0 =? c5);
        (ptr_eqb Null p6);
        (0 =? c7);
        (ptr_eqb (At [0]) p8);
        (0 =? c9);
        (ptr_eqb Null p10);
        (0 =? c11);
        (ptr_eqb Null p12);
        (negb (0 =? c13));
        (negb (ptr_eqb Null p14));
        (negb (0 =? c15));
        (negb (ptr_eqb Null p16));
        (0 =? c17);
        (ptr_eqb Null p18);
        (c19 =? 65746);
        (ptr_eqb (At [146; 0]) p20)].
Example run_testThreeByteSequenceUtf16_passes : all_true (run_testThreeByteSequenceUtf16 (tables V16)) = true.
Proof. vm_cast_no_check (eq_refl true). Qed.

(* testFourByteSequence, 18 checks *)
Definition run_testFourByteSequence (T : UnicodeTables) : outcome (list bool) :=
  do (c1, p2) <- decodeUtf8 [240; 0];
  do (c3, p4) <- decodeUtf8 [240; 35; 0];
  do (c5, p6) <- decodeUtf8 [240; 191; 0];
  do (c7, p8) <- decodeUtf8 [240; 191; 35; 0];
  do (c9, p10) <- decodeUtf8 [240; 191; 191; 0];
  do (c11, p12) <- decodeUtf8 [240; 191; 191; 35; 0];
  do (c13, p14) <- decodeUtf8 [240; 143; 191; 191; 0];
  do (c15, p16) <- decodeUtf8 [240; 144; 128; 128; 0];
  do (c17, p18) <- decodeUtf8 [240; 144; 131; 146; 0];
  Done [(0 =? c1);
        (ptr_eqb (At [0]) p2);
        (0 =? c3);
        (ptr_eqb Null p4);
        (0 =? c5);
        (ptr_eqb (At [0]) p6);
        (0 =? c7);
        (ptr_eqb Null p8);
        (0 =? c9);
        (ptr_eqb (At [0]) p10);
        (0 =? c11);
        (ptr_eqb Null p12);
        (0 =? c13);
        (ptr_eqb Null p14);
        (negb (0 =? c15));
        (negb (ptr_eqb Null p16));
        (c17 =? 65746);
        (ptr_eqb (At [146; 0]) p18)].
Example run_testFourByteSequence_passes : all_true (run_testFourByteSequence (tables V16)) = true.
Proof. vm_cast_no_check (eq_refl true). Qed.

(* testFiveByteSequence, 22 checks *)
Definition run_testFiveByteSequence (T : UnicodeTables) : outcome (list bool) :=
  do (c1, p2) <- decodeUtf8 [248; 0];
  do (c3, p4) <- decodeUtf8 [248; 35; 0];
  do (c5, p6) <- decodeUtf8 [248; 191; 0];
  do (c7, p8) <- decodeUtf8 [248; 191; 35; 0];
  do (c9, p10) <- decodeUtf8 [248; 191; 191; 0];
  do (c11, p12) <- decodeUtf8 [248; 191; 191; 35; 0];
  do (c13, p14) <- decodeUtf8 [248; 191; 191; 191; 0];
  do (c15, p16) <- decodeUtf8 [248; 191; 191; 191; 35; 0];
  do (c17, p18) <- decodeUtf8 [248; 135; 191; 191; 191; 0];
  do (c19, p20) <- decodeUtf8 [248; 136; 128; 128; 128; 0];
  do (c21, p22) <- decodeUtf8 [251; 145; 150; 158; 137; 0];
  Done [(0 =? c1);
        (ptr_eqb (At [0]) p2);
        (0 =? c3);
        (ptr_eqb Null p4);
        (0 =? c5);
        (ptr_eqb (At [0]) p6);
        (0 =? c7);
        (ptr_eqb Null p8);
        (0 =? c9);
        (ptr_eqb (At [0]) p10);
        (0 =? c11);
        (ptr_eqb Null p12);
        (0 =? c13);
        (ptr_eqb (At [0]) p14);
        (0 =? c15);
        (ptr_eqb Null p16);
        (0 =? c17);
        (ptr_eqb Null p18);
        (negb (0 =? c19));
        (negb (ptr_eqb Null p20));
        (c21 =? 54880137);
        (ptr_eqb (At [137; 0]) p22)].
Example run_testFiveByteSequence_passes : all_true (run_testFiveByteSequence (tables V16)) = true.
Proof. vm_cast_no_check (eq_refl true). Qed.

(* testSixByteSequence, 26 checks *)
Definition run_testSixByteSequence (T : UnicodeTables) : outcome (list bool) :=
  do (c1, p2) <- decodeUtf8 [252; 0];
  do (c3, p4) <- decodeUtf8 [252; 35; 0];
  do (c5, p6) <- decodeUtf8 [252; 191; 0];
  do (c7, p8) <- decodeUtf8 [252; 191; 35; 0];
  do (c9, p10) <- decodeUtf8 [252; 191; 191; 0];
  do (c11, p12) <- decodeUtf8 [252; 191; 191; 35; 0];
  do (c13, p14) <- decodeUtf8 [252; 191; 191; 191; 0];
  do (c15, p16) <- decodeUtf8 [252; 191; 191; 191; 35; 0];
  do (c17, p18) <- decodeUtf8 [252; 191; 191; 191; 191; 0];
  do (c19, p20) <- decodeUtf8 [252; 191; 191; 191; 191; 35; 0];
  do (c21, p22) <- decodeUtf8 [252; 131; 191; 191; 191; 191; 0];
  do (c23, p24) <- decodeUtf8 [252; 132; 128; 128; 128; 128; 0];
  do (c25, p26) <- decodeUtf8 [253; 167; 162; 154; 175; 141; 0];
  Done [(0 =? c1);
        (ptr_eqb (At [0]) p2);
        (0 =? c3);
        (ptr_eqb Null p4);
        (0 =? c5);
        (ptr_eqb (At [0]) p6);
        (0 =? c7);
        (ptr_eqb Null p8);
        (0 =? c9);
        (ptr_eqb (At [0]) p10);
        (0 =? c11);
        (ptr_eqb Null p12);
        (0 =? c13);
        (ptr_eqb (At [0]) p14);
        (0 =? c15);
        (ptr_eqb Null p16);
        (0 =? c17);
        (ptr_eqb (At [0]) p18);
        (0 =? c19);
        (ptr_eqb Null p20);
        (0 =? c21);
        (ptr_eqb Null p22);
        (negb (0 =? c23));
        (negb (ptr_eqb Null p24));
        (c25 =? 1737075661);
        (ptr_eqb (At [141; 0]) p26)].
Example run_testSixByteSequence_passes : all_true (run_testSixByteSequence (tables V16)) = true.
Proof. vm_cast_no_check (eq_refl true). Qed.

(* testTooLargeStarter, 4 checks *)
Definition run_testTooLargeStarter (T : UnicodeTables) : outcome (list bool) :=
  do (c1, p2) <- decodeUtf8 [254; 167; 162; 154; 175; 141; 0];
  do (c3, p4) <- decodeUtf8 [255; 167; 162; 154; 175; 141; 0];
  Done [(0 =? c1);
        (ptr_eqb Null p2);
        (0 =? c3);
        (ptr_eqb Null p4)].
Example run_testTooLargeStarter_passes : all_true (run_testTooLargeStarter (tables V16)) = true.
Proof. vm_cast_no_check (eq_refl true). Qed.
