(* Generated by tools/tests2v.py from /repo/test/unit/encode_predicate_test.cxx -- do not edit.
   The library's own unit tests run on the model: every EXPECT_ of the C++ is one boolean. *)
From Coq Require Import ZArith List Bool.
From Verif Require Import Machine.
From Verif.Model Require Import Internal Decode Tables Predicate Str Lower CodePage SplitJoin Trim Wide Tchar.
From Verif.Tests Require Import Support.
Import ListNotations.
Local Open Scope Z_scope.

(* testCharToEncoding, 9 checks *)
Definition run_testCharToEncoding (T : UnicodeTables) : outcome (list bool) :=
  Done [(0 =? (charToEncodingTypeMask32 T 196607));
        (2 =? (charToEncodingTypeMask32 T 983072));
        (1 =? (charToEncodingTypeMask32 T 194848));
        (9 =? (charToEncodingTypeMask16 T 160));
        (5 =? (charToEncodingTypeMask8 T 16));
        (13 =? (charToEncodingTypeMask8 T 9));
        (pred8 T nullPredicate 51);
        (pred16 T nullPredicate 51);
        (pred32 T nullPredicate 51)].
Example run_testCharToEncoding_passes : forallb (fun V => all_true (run_testCharToEncoding (tables V))) [V7; V8; V9; V10; V11; V12; V13; V14; V15; V16] = true.
Proof. vm_cast_no_check (eq_refl true). Qed.

(* testSimpleAssignedsPredicate, 148 checks *)
Definition run_testSimpleAssignedsPredicate (T : UnicodeTables) : outcome (list bool) :=
  Done [(predicateEq (validIf kIsAssigned) (validIf kIsAssigned));
        (negb (negb (predicateEq (validIf kIsAssigned) (validIf kIsAssigned))));
        (pred8 T (validIf kIsAssigned) 84);
        (pred8 T (validIf kIsAssigned) 104);
        (pred8 T (validIf kIsAssigned) 101);
        (pred8 T (validIf kIsAssigned) 32);
        (pred8 T (validIf kIsAssigned) 113);
        (pred8 T (validIf kIsAssigned) 117);
        (pred8 T (validIf kIsAssigned) 105);
        (pred8 T (validIf kIsAssigned) 99);
        (pred8 T (validIf kIsAssigned) 107);
        (pred8 T (validIf kIsAssigned) 32);
        (pred8 T (validIf kIsAssigned) 98);
        (pred8 T (validIf kIsAssigned) 114);
        (pred8 T (validIf kIsAssigned) 111);
        (pred8 T (validIf kIsAssigned) 119);
        (pred8 T (validIf kIsAssigned) 110);
        (pred8 T (validIf kIsAssigned) 32);
        (pred8 T (validIf kIsAssigned) 102);
        (pred8 T (validIf kIsAssigned) 111);
        (pred8 T (validIf kIsAssigned) 120);
        (pred8 T (validIf kIsAssigned) 32);
        (pred8 T (validIf kIsAssigned) 106);
        (pred8 T (validIf kIsAssigned) 117);
        (pred8 T (validIf kIsAssigned) 109);
        (pred8 T (validIf kIsAssigned) 112);
        (pred8 T (validIf kIsAssigned) 115);
        (pred8 T (validIf kIsAssigned) 32);
        (pred8 T (validIf kIsAssigned) 111);
        (pred8 T (validIf kIsAssigned) 118);
        (pred8 T (validIf kIsAssigned) 101);
        (pred8 T (validIf kIsAssigned) 114);
        (pred8 T (validIf kIsAssigned) 32);
        (pred8 T (validIf kIsAssigned) 116);
        (pred8 T (validIf kIsAssigned) 104);
        (pred8 T (validIf kIsAssigned) 101);
        (pred8 T (validIf kIsAssigned) 32);
        (pred8 T (validIf kIsAssigned) 108);
        (pred8 T (validIf kIsAssigned) 97);
        (pred8 T (validIf kIsAssigned) 122);
        (pred8 T (validIf kIsAssigned) 121);
        (pred8 T (validIf kIsAssigned) 32);
        (pred8 T (validIf kIsAssigned) 100);
        (pred8 T (validIf kIsAssigned) 111);
        (pred8 T (validIf kIsAssigned) 103);
        (pred8 T (validIf kIsAssigned) 46);
        (pred16 T (validIf kIsAssigned) 2997);
        (pred16 T (validIf kIsAssigned) 3007);
        (pred16 T (validIf kIsAssigned) 2992);
        (pred16 T (validIf kIsAssigned) 3016);
        (pred16 T (validIf kIsAssigned) 2997);
        (pred16 T (validIf kIsAssigned) 3009);
        (pred16 T (validIf kIsAssigned) 32);
        (pred16 T (validIf kIsAssigned) 2986);
        (pred16 T (validIf kIsAssigned) 2996);
        (pred16 T (validIf kIsAssigned) 3009);
        (pred16 T (validIf kIsAssigned) 2986);
        (pred16 T (validIf kIsAssigned) 3021);
        (pred16 T (validIf kIsAssigned) 2986);
        (pred16 T (validIf kIsAssigned) 3009);
        (pred16 T (validIf kIsAssigned) 32);
        (pred16 T (validIf kIsAssigned) 2984);
        (pred16 T (validIf kIsAssigned) 2992);
        (pred16 T (validIf kIsAssigned) 3007);
        (pred16 T (validIf kIsAssigned) 32);
        (pred16 T (validIf kIsAssigned) 2970);
        (pred16 T (validIf kIsAssigned) 3015);
        (pred16 T (validIf kIsAssigned) 3006);
        (pred16 T (validIf kIsAssigned) 2990);
        (pred16 T (validIf kIsAssigned) 3021);
        (pred16 T (validIf kIsAssigned) 2986);
        (pred16 T (validIf kIsAssigned) 3015);
        (pred16 T (validIf kIsAssigned) 2993);
        (pred16 T (validIf kIsAssigned) 3007);
        (pred16 T (validIf kIsAssigned) 32);
        (pred16 T (validIf kIsAssigned) 2984);
        (pred16 T (validIf kIsAssigned) 3006);
        (pred16 T (validIf kIsAssigned) 2991);
        (pred16 T (validIf kIsAssigned) 3021);
        (pred16 T (validIf kIsAssigned) 32);
        (pred16 T (validIf kIsAssigned) 2990);
        (pred16 T (validIf kIsAssigned) 3008);
        (pred16 T (validIf kIsAssigned) 2980);
        (pred16 T (validIf kIsAssigned) 3009);
        (pred16 T (validIf kIsAssigned) 32);
        (pred16 T (validIf kIsAssigned) 2980);
        (pred16 T (validIf kIsAssigned) 3006);
        (pred16 T (validIf kIsAssigned) 2979);
        (pred16 T (validIf kIsAssigned) 3021);
        (pred16 T (validIf kIsAssigned) 2975);
        (pred16 T (validIf kIsAssigned) 3009);
        (pred16 T (validIf kIsAssigned) 2965);
        (pred16 T (validIf kIsAssigned) 3007);
        (pred16 T (validIf kIsAssigned) 2993);
        (pred16 T (validIf kIsAssigned) 2980);
        (pred16 T (validIf kIsAssigned) 3009);
        (pred16 T (validIf kIsAssigned) 46);
        (pred32 T (validIf kIsAssigned) 2997);
        (pred32 T (validIf kIsAssigned) 3007);
        (pred32 T (validIf kIsAssigned) 2992);
        (pred32 T (validIf kIsAssigned) 3016);
        (pred32 T (validIf kIsAssigned) 2997);
        (pred32 T (validIf kIsAssigned) 3009);
        (pred32 T (validIf kIsAssigned) 32);
        (pred32 T (validIf kIsAssigned) 2986);
        (pred32 T (validIf kIsAssigned) 2996);
        (pred32 T (validIf kIsAssigned) 3009);
        (pred32 T (validIf kIsAssigned) 2986);
        (pred32 T (validIf kIsAssigned) 3021);
        (pred32 T (validIf kIsAssigned) 2986);
        (pred32 T (validIf kIsAssigned) 3009);
        (pred32 T (validIf kIsAssigned) 32);
        (pred32 T (validIf kIsAssigned) 2984);
        (pred32 T (validIf kIsAssigned) 2992);
        (pred32 T (validIf kIsAssigned) 3007);
        (pred32 T (validIf kIsAssigned) 32);
        (pred32 T (validIf kIsAssigned) 2970);
        (pred32 T (validIf kIsAssigned) 3015);
        (pred32 T (validIf kIsAssigned) 3006);
        (pred32 T (validIf kIsAssigned) 2990);
        (pred32 T (validIf kIsAssigned) 3021);
        (pred32 T (validIf kIsAssigned) 2986);
        (pred32 T (validIf kIsAssigned) 3015);
        (pred32 T (validIf kIsAssigned) 2993);
        (pred32 T (validIf kIsAssigned) 3007);
        (pred32 T (validIf kIsAssigned) 32);
        (pred32 T (validIf kIsAssigned) 2984);
        (pred32 T (validIf kIsAssigned) 3006);
        (pred32 T (validIf kIsAssigned) 2991);
        (pred32 T (validIf kIsAssigned) 3021);
        (pred32 T (validIf kIsAssigned) 32);
        (pred32 T (validIf kIsAssigned) 2990);
        (pred32 T (validIf kIsAssigned) 3008);
        (pred32 T (validIf kIsAssigned) 2980);
        (pred32 T (validIf kIsAssigned) 3009);
        (pred32 T (validIf kIsAssigned) 32);
        (pred32 T (validIf kIsAssigned) 2980);
        (pred32 T (validIf kIsAssigned) 3006);
        (pred32 T (validIf kIsAssigned) 2979);
        (pred32 T (validIf kIsAssigned) 3021);
        (pred32 T (validIf kIsAssigned) 2975);
        (pred32 T (validIf kIsAssigned) 3009);
        (pred32 T (validIf kIsAssigned) 2965);
        (pred32 T (validIf kIsAssigned) 3007);
        (pred32 T (validIf kIsAssigned) 2993);
        (pred32 T (validIf kIsAssigned) 2980);
        (pred32 T (validIf kIsAssigned) 3009);
        (pred32 T (validIf kIsAssigned) 46)].
Example run_testSimpleAssignedsPredicate_passes : forallb (fun V => all_true (run_testSimpleAssignedsPredicate (tables V))) [V7; V8; V9; V10; V11; V12; V13; V14; V15; V16] = true.
Proof. vm_cast_no_check (eq_refl true). Qed.

(* testSimpleSpacesPredicate, 60 checks *)
Definition run_testSimpleSpacesPredicate (T : UnicodeTables) : outcome (list bool) :=
  Done [(pred8 T (validIf kIsWhitespace) 9);
        (pred8 T (validIf kIsWhitespace) 10);
        (pred8 T (validIf kIsWhitespace) 11);
        (pred8 T (validIf kIsWhitespace) 12);
        (pred8 T (validIf kIsWhitespace) 13);
        (pred8 T (validIf kIsWhitespace) 32);
        (pred8 T (validIf kIsWhitespace) 133);
        (pred8 T (validIf kIsWhitespace) 160);
        (pred16 T (validIf kIsWhitespace) 9);
        (pred16 T (validIf kIsWhitespace) 10);
        (pred16 T (validIf kIsWhitespace) 11);
        (pred16 T (validIf kIsWhitespace) 12);
        (pred16 T (validIf kIsWhitespace) 13);
        (pred16 T (validIf kIsWhitespace) 32);
        (pred16 T (validIf kIsWhitespace) 133);
        (pred16 T (validIf kIsWhitespace) 160);
        (pred16 T (validIf kIsWhitespace) 8192);
        (pred16 T (validIf kIsWhitespace) 5760);
        (pred16 T (validIf kIsWhitespace) 8192);
        (pred16 T (validIf kIsWhitespace) 8193);
        (pred16 T (validIf kIsWhitespace) 8194);
        (pred16 T (validIf kIsWhitespace) 8195);
        (pred16 T (validIf kIsWhitespace) 8196);
        (pred16 T (validIf kIsWhitespace) 8197);
        (pred16 T (validIf kIsWhitespace) 8198);
        (pred16 T (validIf kIsWhitespace) 8199);
        (pred16 T (validIf kIsWhitespace) 8200);
        (pred16 T (validIf kIsWhitespace) 8201);
        (pred16 T (validIf kIsWhitespace) 8202);
        (pred16 T (validIf kIsWhitespace) 8232);
        (pred16 T (validIf kIsWhitespace) 8233);
        (pred16 T (validIf kIsWhitespace) 8239);
        (pred16 T (validIf kIsWhitespace) 8287);
        (pred16 T (validIf kIsWhitespace) 12288);
        (pred32 T (validIf kIsWhitespace) 9);
        (pred32 T (validIf kIsWhitespace) 10);
        (pred32 T (validIf kIsWhitespace) 11);
        (pred32 T (validIf kIsWhitespace) 12);
        (pred32 T (validIf kIsWhitespace) 13);
        (pred32 T (validIf kIsWhitespace) 32);
        (pred32 T (validIf kIsWhitespace) 133);
        (pred32 T (validIf kIsWhitespace) 160);
        (pred32 T (validIf kIsWhitespace) 8192);
        (pred32 T (validIf kIsWhitespace) 5760);
        (pred32 T (validIf kIsWhitespace) 8192);
        (pred32 T (validIf kIsWhitespace) 8193);
        (pred32 T (validIf kIsWhitespace) 8194);
        (pred32 T (validIf kIsWhitespace) 8195);
        (pred32 T (validIf kIsWhitespace) 8196);
        (pred32 T (validIf kIsWhitespace) 8197);
        (pred32 T (validIf kIsWhitespace) 8198);
        (pred32 T (validIf kIsWhitespace) 8199);
        (pred32 T (validIf kIsWhitespace) 8200);
        (pred32 T (validIf kIsWhitespace) 8201);
        (pred32 T (validIf kIsWhitespace) 8202);
        (pred32 T (validIf kIsWhitespace) 8232);
        (pred32 T (validIf kIsWhitespace) 8233);
        (pred32 T (validIf kIsWhitespace) 8239);
        (pred32 T (validIf kIsWhitespace) 8287);
        (pred32 T (validIf kIsWhitespace) 12288)].
Example run_testSimpleSpacesPredicate_passes : forallb (fun V => all_true (run_testSimpleSpacesPredicate (tables V))) [V7; V8; V9; V10; V11; V12; V13; V14; V15; V16] = true.
Proof. vm_cast_no_check (eq_refl true). Qed.

(* testSimpleControlPredicate, 192 checks *)
Definition run_testSimpleControlPredicate (T : UnicodeTables) : outcome (list bool) :=
  Done [(pred8 T (validIf kIsControl) 1);
        (pred8 T (validIf kIsControl) 2);
        (pred8 T (validIf kIsControl) 3);
        (pred8 T (validIf kIsControl) 4);
        (pred8 T (validIf kIsControl) 5);
        (pred8 T (validIf kIsControl) 6);
        (pred8 T (validIf kIsControl) 7);
        (pred8 T (validIf kIsControl) 8);
        (pred8 T (validIf kIsControl) 9);
        (pred8 T (validIf kIsControl) 10);
        (pred8 T (validIf kIsControl) 11);
        (pred8 T (validIf kIsControl) 12);
        (pred8 T (validIf kIsControl) 13);
        (pred8 T (validIf kIsControl) 14);
        (pred8 T (validIf kIsControl) 15);
        (pred8 T (validIf kIsControl) 16);
        (pred8 T (validIf kIsControl) 17);
        (pred8 T (validIf kIsControl) 18);
        (pred8 T (validIf kIsControl) 19);
        (pred8 T (validIf kIsControl) 20);
        (pred8 T (validIf kIsControl) 21);
        (pred8 T (validIf kIsControl) 22);
        (pred8 T (validIf kIsControl) 23);
        (pred8 T (validIf kIsControl) 24);
        (pred8 T (validIf kIsControl) 25);
        (pred8 T (validIf kIsControl) 26);
        (pred8 T (validIf kIsControl) 27);
        (pred8 T (validIf kIsControl) 28);
        (pred8 T (validIf kIsControl) 29);
        (pred8 T (validIf kIsControl) 30);
        (pred8 T (validIf kIsControl) 31);
        (pred8 T (validIf kIsControl) 127);
        (pred8 T (validIf kIsControl) 128);
        (pred8 T (validIf kIsControl) 129);
        (pred8 T (validIf kIsControl) 130);
        (pred8 T (validIf kIsControl) 131);
        (pred8 T (validIf kIsControl) 132);
        (pred8 T (validIf kIsControl) 133);
        (pred8 T (validIf kIsControl) 134);
        (pred8 T (validIf kIsControl) 135);
        (pred8 T (validIf kIsControl) 136);
        (pred8 T (validIf kIsControl) 137);
        (pred8 T (validIf kIsControl) 138);
        (pred8 T (validIf kIsControl) 139);
        (pred8 T (validIf kIsControl) 140);
        (pred8 T (validIf kIsControl) 141);
        (pred8 T (validIf kIsControl) 142);
        (pred8 T (validIf kIsControl) 143);
        (pred8 T (validIf kIsControl) 144);
        (pred8 T (validIf kIsControl) 145);
        (pred8 T (validIf kIsControl) 146);
        (pred8 T (validIf kIsControl) 147);
        (pred8 T (validIf kIsControl) 148);
        (pred8 T (validIf kIsControl) 149);
        (pred8 T (validIf kIsControl) 150);
        (pred8 T (validIf kIsControl) 151);
        (pred8 T (validIf kIsControl) 152);
        (pred8 T (validIf kIsControl) 153);
        (pred8 T (validIf kIsControl) 154);
        (pred8 T (validIf kIsControl) 155);
        (pred8 T (validIf kIsControl) 156);
        (pred8 T (validIf kIsControl) 157);
        (pred8 T (validIf kIsControl) 158);
        (pred8 T (validIf kIsControl) 159);
        (pred16 T (validIf kIsControl) 1);
        (pred16 T (validIf kIsControl) 2);
        (pred16 T (validIf kIsControl) 3);
        (pred16 T (validIf kIsControl) 4);
        (pred16 T (validIf kIsControl) 5);
        (pred16 T (validIf kIsControl) 6);
        (pred16 T (validIf kIsControl) 7);
        (pred16 T (validIf kIsControl) 8);
        (pred16 T (validIf kIsControl) 9);
        (pred16 T (validIf kIsControl) 10);
        (pred16 T (validIf kIsControl) 11);
        (pred16 T (validIf kIsControl) 12);
        (pred16 T (validIf kIsControl) 13);
        (pred16 T (validIf kIsControl) 14);
        (pred16 T (validIf kIsControl) 15);
        (pred16 T (validIf kIsControl) 16);
        (pred16 T (validIf kIsControl) 17);
        (pred16 T (validIf kIsControl) 18);
        (pred16 T (validIf kIsControl) 19);
        (pred16 T (validIf kIsControl) 20);
        (pred16 T (validIf kIsControl) 21);
        (pred16 T (validIf kIsControl) 22);
        (pred16 T (validIf kIsControl) 23);
        (pred16 T (validIf kIsControl) 24);
        (pred16 T (validIf kIsControl) 25);
        (pred16 T (validIf kIsControl) 26);
        (pred16 T (validIf kIsControl) 27);
        (pred16 T (validIf kIsControl) 28);
        (pred16 T (validIf kIsControl) 29);
        (pred16 T (validIf kIsControl) 30);
        (pred16 T (validIf kIsControl) 31);
        (pred16 T (validIf kIsControl) 127);
        (pred16 T (validIf kIsControl) 128);
        (pred16 T (validIf kIsControl) 129);
        (pred16 T (validIf kIsControl) 130);
        (pred16 T (validIf kIsControl) 131);
        (pred16 T (validIf kIsControl) 132);
        (pred16 T (validIf kIsControl) 133);
        (pred16 T (validIf kIsControl) 134);
        (pred16 T (validIf kIsControl) 135);
        (pred16 T (validIf kIsControl) 136);
        (pred16 T (validIf kIsControl) 137);
        (pred16 T (validIf kIsControl) 138);
        (pred16 T (validIf kIsControl) 139);
        (pred16 T (validIf kIsControl) 140);
        (pred16 T (validIf kIsControl) 141);
        (pred16 T (validIf kIsControl) 142);
        (pred16 T (validIf kIsControl) 143);
        (pred16 T (validIf kIsControl) 144);
        (pred16 T (validIf kIsControl) 145);
        (pred16 T (validIf kIsControl) 146);
        (pred16 T (validIf kIsControl) 147);
        (pred16 T (validIf kIsControl) 148);
        (pred16 T (validIf kIsControl) 149);
        (pred16 T (validIf kIsControl) 150);
        (pred16 T (validIf kIsControl) 151);
        (pred16 T (validIf kIsControl) 152);
        (pred16 T (validIf kIsControl) 153);
        (pred16 T (validIf kIsControl) 154);
        (pred16 T (validIf kIsControl) 155);
        (pred16 T (validIf kIsControl) 156);
        (pred16 T (validIf kIsControl) 157);
        (pred16 T (validIf kIsControl) 158);
        (pred16 T (validIf kIsControl) 159);
        (pred32 T (validIf kIsControl) 1);
        (pred32 T (validIf kIsControl) 2);
        (pred32 T (validIf kIsControl) 3);
        (pred32 T (validIf kIsControl) 4);
        (pred32 T (validIf kIsControl) 5);
        (pred32 T (validIf kIsControl) 6);
        (pred32 T (validIf kIsControl) 7);
        (pred32 T (validIf kIsControl) 8);
        (pred32 T (validIf kIsControl) 9);
        (pred32 T (validIf kIsControl) 10);
        (pred32 T (validIf kIsControl) 11);
        (pred32 T (validIf kIsControl) 12);
        (pred32 T (validIf kIsControl) 13);
        (pred32 T (validIf kIsControl) 14);
        (pred32 T (validIf kIsControl) 15);
        (pred32 T (validIf kIsControl) 16);
        (pred32 T (validIf kIsControl) 17);
        (pred32 T (validIf kIsControl) 18);
        (pred32 T (validIf kIsControl) 19);
        (pred32 T (validIf kIsControl) 20);
        (pred32 T (validIf kIsControl) 21);
        (pred32 T (validIf kIsControl) 22);
        (pred32 T (validIf kIsControl) 23);
        (pred32 T (validIf kIsControl) 24);
        (pred32 T (validIf kIsControl) 25);
        (pred32 T (validIf kIsControl) 26);
        (pred32 T (validIf kIsControl) 27);
        (pred32 T (validIf kIsControl) 28);
        (pred32 T (validIf kIsControl) 29);
        (pred32 T (validIf kIsControl) 30);
        (pred32 T (validIf kIsControl) 31);
        (pred32 T (validIf kIsControl) 127);
        (pred32 T (validIf kIsControl) 128);
        (pred32 T (validIf kIsControl) 129);
        (pred32 T (validIf kIsControl) 130);
        (pred32 T (validIf kIsControl) 131);
        (pred32 T (validIf kIsControl) 132);
        (pred32 T (validIf kIsControl) 133);
        (pred32 T (validIf kIsControl) 134);
        (pred32 T (validIf kIsControl) 135);
        (pred32 T (validIf kIsControl) 136);
        (pred32 T (validIf kIsControl) 137);
        (pred32 T (validIf kIsControl) 138);
        (pred32 T (validIf kIsControl) 139);
        (pred32 T (validIf kIsControl) 140);
        (pred32 T (validIf kIsControl) 141);
        (pred32 T (validIf kIsControl) 142);
        (pred32 T (validIf kIsControl) 143);
        (pred32 T (validIf kIsControl) 144);
        (pred32 T (validIf kIsControl) 145);
        (pred32 T (validIf kIsControl) 146);
        (pred32 T (validIf kIsControl) 147);
        (pred32 T (validIf kIsControl) 148);
        (pred32 T (validIf kIsControl) 149);
        (pred32 T (validIf kIsControl) 150);
        (pred32 T (validIf kIsControl) 151);
        (pred32 T (validIf kIsControl) 152);
        (pred32 T (validIf kIsControl) 153);
        (pred32 T (validIf kIsControl) 154);
        (pred32 T (validIf kIsControl) 155);
        (pred32 T (validIf kIsControl) 156);
        (pred32 T (validIf kIsControl) 157);
        (pred32 T (validIf kIsControl) 158);
        (pred32 T (validIf kIsControl) 159)].
Example run_testSimpleControlPredicate_passes : forallb (fun V => all_true (run_testSimpleControlPredicate (tables V))) [V7; V8; V9; V10; V11; V12; V13; V14; V15; V16] = true.
Proof. vm_cast_no_check (eq_refl true). Qed.

(* testSimplePrivatesPredicate, 86 checks *)
Definition run_testSimplePrivatesPredicate (T : UnicodeTables) : outcome (list bool) :=
  Done [(pred16 T (validIfNot kIsAssigned) 57344);
        (pred16 T (validIfNot kIsAssigned) 57600);
        (pred16 T (validIfNot kIsAssigned) 57856);
        (pred16 T (validIfNot kIsAssigned) 58112);
        (pred16 T (validIfNot kIsAssigned) 58368);
        (pred16 T (validIfNot kIsAssigned) 58624);
        (pred16 T (validIfNot kIsAssigned) 58880);
        (pred16 T (validIfNot kIsAssigned) 59136);
        (pred16 T (validIfNot kIsAssigned) 59392);
        (pred16 T (validIfNot kIsAssigned) 59648);
        (pred16 T (validIfNot kIsAssigned) 59904);
        (pred16 T (validIfNot kIsAssigned) 60160);
        (pred16 T (validIfNot kIsAssigned) 60416);
        (pred16 T (validIfNot kIsAssigned) 60672);
        (pred16 T (validIfNot kIsAssigned) 60928);
        (pred16 T (validIfNot kIsAssigned) 61184);
        (pred16 T (validIfNot kIsAssigned) 61440);
        (pred16 T (validIfNot kIsAssigned) 61696);
        (pred16 T (validIfNot kIsAssigned) 61952);
        (pred16 T (validIfNot kIsAssigned) 62208);
        (pred16 T (validIfNot kIsAssigned) 62464);
        (pred16 T (validIfNot kIsAssigned) 62720);
        (pred16 T (validIfNot kIsAssigned) 62976);
        (pred16 T (validIfNot kIsAssigned) 63232);
        (pred16 T (validIfNot kIsAssigned) 63488);
        (pred16 T (validIfNot kIsAssigned) 63743);
        (pred32 T (validIfNot kIsAssigned) 57344);
        (pred32 T (validIfNot kIsAssigned) 57600);
        (pred32 T (validIfNot kIsAssigned) 57856);
        (pred32 T (validIfNot kIsAssigned) 58112);
        (pred32 T (validIfNot kIsAssigned) 58368);
        (pred32 T (validIfNot kIsAssigned) 58624);
        (pred32 T (validIfNot kIsAssigned) 58880);
        (pred32 T (validIfNot kIsAssigned) 59136);
        (pred32 T (validIfNot kIsAssigned) 59392);
        (pred32 T (validIfNot kIsAssigned) 59648);
        (pred32 T (validIfNot kIsAssigned) 59904);
        (pred32 T (validIfNot kIsAssigned) 60160);
        (pred32 T (validIfNot kIsAssigned) 60416);
        (pred32 T (validIfNot kIsAssigned) 60672);
        (pred32 T (validIfNot kIsAssigned) 60928);
        (pred32 T (validIfNot kIsAssigned) 61184);
        (pred32 T (validIfNot kIsAssigned) 61440);
        (pred32 T (validIfNot kIsAssigned) 61696);
        (pred32 T (validIfNot kIsAssigned) 61952);
        (pred32 T (validIfNot kIsAssigned) 62208);
        (pred32 T (validIfNot kIsAssigned) 62464);
        (pred32 T (validIfNot kIsAssigned) 62720);
        (pred32 T (validIfNot kIsAssigned) 62976);
        (pred32 T (validIfNot kIsAssigned) 63232);
        (pred32 T (validIfNot kIsAssigned) 63488);
        (pred32 T (validIfNot kIsAssigned) 63743);
        (pred32 T (validIfNot kIsAssigned) 983040);
        (pred32 T (validIfNot kIsAssigned) 987136);
        (pred32 T (validIfNot kIsAssigned) 991232);
        (pred32 T (validIfNot kIsAssigned) 995328);
        (pred32 T (validIfNot kIsAssigned) 999424);
        (pred32 T (validIfNot kIsAssigned) 1003520);
        (pred32 T (validIfNot kIsAssigned) 1007616);
        (pred32 T (validIfNot kIsAssigned) 1011712);
        (pred32 T (validIfNot kIsAssigned) 1015808);
        (pred32 T (validIfNot kIsAssigned) 1019904);
        (pred32 T (validIfNot kIsAssigned) 1024000);
        (pred32 T (validIfNot kIsAssigned) 1028096);
        (pred32 T (validIfNot kIsAssigned) 1032192);
        (pred32 T (validIfNot kIsAssigned) 1036288);
        (pred32 T (validIfNot kIsAssigned) 1040384);
        (pred32 T (validIfNot kIsAssigned) 1044480);
        (pred32 T (validIfNot kIsAssigned) 1048573);
        (pred32 T (validIfNot kIsAssigned) 1048576);
        (pred32 T (validIfNot kIsAssigned) 1052672);
        (pred32 T (validIfNot kIsAssigned) 1056768);
        (pred32 T (validIfNot kIsAssigned) 1060864);
        (pred32 T (validIfNot kIsAssigned) 1064960);
        (pred32 T (validIfNot kIsAssigned) 1069056);
        (pred32 T (validIfNot kIsAssigned) 1073152);
        (pred32 T (validIfNot kIsAssigned) 1077248);
        (pred32 T (validIfNot kIsAssigned) 1081344);
        (pred32 T (validIfNot kIsAssigned) 1085440);
        (pred32 T (validIfNot kIsAssigned) 1089536);
        (pred32 T (validIfNot kIsAssigned) 1093632);
        (pred32 T (validIfNot kIsAssigned) 1097728);
        (pred32 T (validIfNot kIsAssigned) 1101824);
        (pred32 T (validIfNot kIsAssigned) 1105920);
        (pred32 T (validIfNot kIsAssigned) 1110016);
        (pred32 T (validIfNot kIsAssigned) 1114109)].
Example run_testSimplePrivatesPredicate_passes : forallb (fun V => all_true (run_testSimplePrivatesPredicate (tables V))) [V7; V8; V9; V10; V11; V12; V13; V14; V15; V16] = true.
Proof. vm_cast_no_check (eq_refl true). Qed.

(* testSimpleNonAssignedsPredicate, 51 checks *)
Definition run_testSimpleNonAssignedsPredicate (T : UnicodeTables) : outcome (list bool) :=
  Done [(pred16 T (validIfNot kIsAssigned) 888);
        (pred16 T (validIfNot kIsAssigned) 889);
        (pred16 T (validIfNot kIsAssigned) 4296);
        (pred16 T (validIfNot kIsAssigned) 4297);
        (pred16 T (validIfNot kIsAssigned) 8306);
        (pred16 T (validIfNot kIsAssigned) 8307);
        (pred16 T (validIfNot kIsAssigned) 12831);
        (pred16 T (validIfNot kIsAssigned) 42540);
        (pred16 T (validIfNot kIsAssigned) 42541);
        (pred16 T (validIfNot kIsAssigned) 55204);
        (pred16 T (validIfNot kIsAssigned) 55205);
        (pred16 T (validIfNot kIsAssigned) 55296);
        (pred16 T (validIfNot kIsAssigned) 56320);
        (pred16 T (validIfNot kIsAssigned) 64110);
        (pred16 T (validIfNot kIsAssigned) 64111);
        (pred32 T (validIfNot kIsAssigned) 888);
        (pred32 T (validIfNot kIsAssigned) 889);
        (pred32 T (validIfNot kIsAssigned) 4296);
        (pred32 T (validIfNot kIsAssigned) 4297);
        (pred32 T (validIfNot kIsAssigned) 8306);
        (pred32 T (validIfNot kIsAssigned) 8307);
        (pred32 T (validIfNot kIsAssigned) 12831);
        (pred32 T (validIfNot kIsAssigned) 42540);
        (pred32 T (validIfNot kIsAssigned) 42541);
        (pred32 T (validIfNot kIsAssigned) 55204);
        (pred32 T (validIfNot kIsAssigned) 55205);
        (pred32 T (validIfNot kIsAssigned) 55296);
        (pred32 T (validIfNot kIsAssigned) 56320);
        (pred32 T (validIfNot kIsAssigned) 64110);
        (pred32 T (validIfNot kIsAssigned) 64111);
        (pred32 T (validIfNot kIsAssigned) 65614);
        (pred32 T (validIfNot kIsAssigned) 65615);
        (pred32 T (validIfNot kIsAssigned) 75077);
        (pred32 T (validIfNot kIsAssigned) 75078);
        (pred32 T (validIfNot kIsAssigned) 94200);
        (pred32 T (validIfNot kIsAssigned) 101869);
        (pred32 T (validIfNot kIsAssigned) 127168);
        (pred32 T (validIfNot kIsAssigned) 127184);
        (pred32 T (validIfNot kIsAssigned) 208897);
        (pred32 T (validIfNot kIsAssigned) 262145);
        (pred32 T (validIfNot kIsAssigned) 327681);
        (pred32 T (validIfNot kIsAssigned) 393217);
        (pred32 T (validIfNot kIsAssigned) 458753);
        (pred32 T (validIfNot kIsAssigned) 524289);
        (pred32 T (validIfNot kIsAssigned) 589825);
        (pred32 T (validIfNot kIsAssigned) 655361);
        (pred32 T (validIfNot kIsAssigned) 720897);
        (pred32 T (validIfNot kIsAssigned) 786433);
        (pred32 T (validIfNot kIsAssigned) 851969);
        (pred32 T (validIfNot kIsAssigned) 917504);
        (pred32 T (validIfNot kIsAssigned) 1114112)].
Example run_testSimpleNonAssignedsPredicate_passes : forallb (fun V => all_true (run_testSimpleNonAssignedsPredicate (tables V))) [V7; V8; V9; V10; V11; V12; V13; V14; V15; V16] = true.
Proof. vm_cast_no_check (eq_refl true). Qed.

(* testSimpleNonSpacesPredicate, 99 checks *)
Definition run_testSimpleNonSpacesPredicate (T : UnicodeTables) : outcome (list bool) :=
  Done [(pred8 T (validIfNot kIsWhitespace) 97);
        (pred8 T (validIfNot kIsWhitespace) 81);
        (pred8 T (validIfNot kIsWhitespace) 117);
        (pred8 T (validIfNot kIsWhitespace) 105);
        (pred8 T (validIfNot kIsWhitespace) 99);
        (pred8 T (validIfNot kIsWhitespace) 107);
        (pred8 T (validIfNot kIsWhitespace) 66);
        (pred8 T (validIfNot kIsWhitespace) 114);
        (pred8 T (validIfNot kIsWhitespace) 111);
        (pred8 T (validIfNot kIsWhitespace) 119);
        (pred8 T (validIfNot kIsWhitespace) 110);
        (pred8 T (validIfNot kIsWhitespace) 70);
        (pred8 T (validIfNot kIsWhitespace) 111);
        (pred8 T (validIfNot kIsWhitespace) 120);
        (pred8 T (validIfNot kIsWhitespace) 74);
        (pred8 T (validIfNot kIsWhitespace) 117);
        (pred8 T (validIfNot kIsWhitespace) 109);
        (pred8 T (validIfNot kIsWhitespace) 112);
        (pred8 T (validIfNot kIsWhitespace) 115);
        (pred8 T (validIfNot kIsWhitespace) 79);
        (pred8 T (validIfNot kIsWhitespace) 118);
        (pred8 T (validIfNot kIsWhitespace) 101);
        (pred8 T (validIfNot kIsWhitespace) 114);
        (pred8 T (validIfNot kIsWhitespace) 84);
        (pred8 T (validIfNot kIsWhitespace) 104);
        (pred8 T (validIfNot kIsWhitespace) 101);
        (pred8 T (validIfNot kIsWhitespace) 76);
        (pred8 T (validIfNot kIsWhitespace) 97);
        (pred8 T (validIfNot kIsWhitespace) 122);
        (pred8 T (validIfNot kIsWhitespace) 121);
        (pred8 T (validIfNot kIsWhitespace) 68);
        (pred8 T (validIfNot kIsWhitespace) 111);
        (pred8 T (validIfNot kIsWhitespace) 103);
        (pred16 T (validIfNot kIsWhitespace) 97);
        (pred16 T (validIfNot kIsWhitespace) 81);
        (pred16 T (validIfNot kIsWhitespace) 117);
        (pred16 T (validIfNot kIsWhitespace) 105);
        (pred16 T (validIfNot kIsWhitespace) 99);
        (pred16 T (validIfNot kIsWhitespace) 107);
        (pred16 T (validIfNot kIsWhitespace) 66);
        (pred16 T (validIfNot kIsWhitespace) 114);
        (pred16 T (validIfNot kIsWhitespace) 111);
        (pred16 T (validIfNot kIsWhitespace) 119);
        (pred16 T (validIfNot kIsWhitespace) 110);
        (pred16 T (validIfNot kIsWhitespace) 70);
        (pred16 T (validIfNot kIsWhitespace) 111);
        (pred16 T (validIfNot kIsWhitespace) 120);
        (pred16 T (validIfNot kIsWhitespace) 74);
        (pred16 T (validIfNot kIsWhitespace) 117);
        (pred16 T (validIfNot kIsWhitespace) 109);
        (pred16 T (validIfNot kIsWhitespace) 112);
        (pred16 T (validIfNot kIsWhitespace) 114);
        (pred16 T (validIfNot kIsWhitespace) 79);
        (pred16 T (validIfNot kIsWhitespace) 118);
        (pred16 T (validIfNot kIsWhitespace) 101);
        (pred16 T (validIfNot kIsWhitespace) 114);
        (pred16 T (validIfNot kIsWhitespace) 84);
        (pred16 T (validIfNot kIsWhitespace) 104);
        (pred16 T (validIfNot kIsWhitespace) 101);
        (pred16 T (validIfNot kIsWhitespace) 76);
        (pred16 T (validIfNot kIsWhitespace) 97);
        (pred16 T (validIfNot kIsWhitespace) 122);
        (pred16 T (validIfNot kIsWhitespace) 121);
        (pred16 T (validIfNot kIsWhitespace) 68);
        (pred16 T (validIfNot kIsWhitespace) 111);
        (pred16 T (validIfNot kIsWhitespace) 103);
        (pred32 T (validIfNot kIsWhitespace) 97);
        (pred32 T (validIfNot kIsWhitespace) 81);
        (pred32 T (validIfNot kIsWhitespace) 117);
        (pred32 T (validIfNot kIsWhitespace) 105);
        (pred32 T (validIfNot kIsWhitespace) 99);
        (pred32 T (validIfNot kIsWhitespace) 107);
        (pred32 T (validIfNot kIsWhitespace) 66);
        (pred32 T (validIfNot kIsWhitespace) 114);
        (pred32 T (validIfNot kIsWhitespace) 111);
        (pred32 T (validIfNot kIsWhitespace) 119);
        (pred32 T (validIfNot kIsWhitespace) 110);
        (pred32 T (validIfNot kIsWhitespace) 70);
        (pred32 T (validIfNot kIsWhitespace) 111);
        (pred32 T (validIfNot kIsWhitespace) 120);
        (pred32 T (validIfNot kIsWhitespace) 74);
        (pred32 T (validIfNot kIsWhitespace) 117);
        (pred32 T (validIfNot kIsWhitespace) 109);
        (pred32 T (validIfNot kIsWhitespace) 112);
        (pred32 T (validIfNot kIsWhitespace) 114);
        (pred32 T (validIfNot kIsWhitespace) 79);
        (pred32 T (validIfNot kIsWhitespace) 118);
        (pred32 T (validIfNot kIsWhitespace) 101);
        (pred32 T (validIfNot kIsWhitespace) 114);
        (pred32 T (validIfNot kIsWhitespace) 84);
        (pred32 T (validIfNot kIsWhitespace) 104);
        (pred32 T (validIfNot kIsWhitespace) 101);
        (pred32 T (validIfNot kIsWhitespace) 76);
        (pred32 T (validIfNot kIsWhitespace) 97);
        (pred32 T (validIfNot kIsWhitespace) 122);
        (pred32 T (validIfNot kIsWhitespace) 121);
        (pred32 T (validIfNot kIsWhitespace) 68);
        (pred32 T (validIfNot kIsWhitespace) 111);
        (pred32 T (validIfNot kIsWhitespace) 103)].
Example run_testSimpleNonSpacesPredicate_passes : forallb (fun V => all_true (run_testSimpleNonSpacesPredicate (tables V))) [V7; V8; V9; V10; V11; V12; V13; V14; V15; V16] = true.
Proof. vm_cast_no_check (eq_refl true). Qed.

(* testSimpleNonControlPredicate, 146 checks *)
Definition run_testSimpleNonControlPredicate (T : UnicodeTables) : outcome (list bool) :=
  Done [(pred8 T (validIfNot kIsControl) 84);
        (pred8 T (validIfNot kIsControl) 104);
        (pred8 T (validIfNot kIsControl) 101);
        (pred8 T (validIfNot kIsControl) 32);
        (pred8 T (validIfNot kIsControl) 113);
        (pred8 T (validIfNot kIsControl) 117);
        (pred8 T (validIfNot kIsControl) 105);
        (pred8 T (validIfNot kIsControl) 99);
        (pred8 T (validIfNot kIsControl) 107);
        (pred8 T (validIfNot kIsControl) 32);
        (pred8 T (validIfNot kIsControl) 98);
        (pred8 T (validIfNot kIsControl) 114);
        (pred8 T (validIfNot kIsControl) 111);
        (pred8 T (validIfNot kIsControl) 119);
        (pred8 T (validIfNot kIsControl) 110);
        (pred8 T (validIfNot kIsControl) 32);
        (pred8 T (validIfNot kIsControl) 102);
        (pred8 T (validIfNot kIsControl) 111);
        (pred8 T (validIfNot kIsControl) 120);
        (pred8 T (validIfNot kIsControl) 32);
        (pred8 T (validIfNot kIsControl) 106);
        (pred8 T (validIfNot kIsControl) 117);
        (pred8 T (validIfNot kIsControl) 109);
        (pred8 T (validIfNot kIsControl) 112);
        (pred8 T (validIfNot kIsControl) 115);
        (pred8 T (validIfNot kIsControl) 32);
        (pred8 T (validIfNot kIsControl) 111);
        (pred8 T (validIfNot kIsControl) 118);
        (pred8 T (validIfNot kIsControl) 101);
        (pred8 T (validIfNot kIsControl) 114);
        (pred8 T (validIfNot kIsControl) 32);
        (pred8 T (validIfNot kIsControl) 116);
        (pred8 T (validIfNot kIsControl) 104);
        (pred8 T (validIfNot kIsControl) 101);
        (pred8 T (validIfNot kIsControl) 32);
        (pred8 T (validIfNot kIsControl) 108);
        (pred8 T (validIfNot kIsControl) 97);
        (pred8 T (validIfNot kIsControl) 122);
        (pred8 T (validIfNot kIsControl) 121);
        (pred8 T (validIfNot kIsControl) 32);
        (pred8 T (validIfNot kIsControl) 100);
        (pred8 T (validIfNot kIsControl) 111);
        (pred8 T (validIfNot kIsControl) 103);
        (pred8 T (validIfNot kIsControl) 46);
        (pred16 T (validIfNot kIsControl) 2997);
        (pred16 T (validIfNot kIsControl) 3007);
        (pred16 T (validIfNot kIsControl) 2992);
        (pred16 T (validIfNot kIsControl) 3016);
        (pred16 T (validIfNot kIsControl) 2997);
        (pred16 T (validIfNot kIsControl) 3009);
        (pred16 T (validIfNot kIsControl) 32);
        (pred16 T (validIfNot kIsControl) 2986);
        (pred16 T (validIfNot kIsControl) 2996);
        (pred16 T (validIfNot kIsControl) 3009);
        (pred16 T (validIfNot kIsControl) 2986);
        (pred16 T (validIfNot kIsControl) 3021);
        (pred16 T (validIfNot kIsControl) 2986);
        (pred16 T (validIfNot kIsControl) 3009);
        (pred16 T (validIfNot kIsControl) 32);
        (pred16 T (validIfNot kIsControl) 2984);
        (pred16 T (validIfNot kIsControl) 2992);
        (pred16 T (validIfNot kIsControl) 3007);
        (pred16 T (validIfNot kIsControl) 32);
        (pred16 T (validIfNot kIsControl) 2970);
        (pred16 T (validIfNot kIsControl) 3015);
        (pred16 T (validIfNot kIsControl) 3006);
        (pred16 T (validIfNot kIsControl) 2990);
        (pred16 T (validIfNot kIsControl) 3021);
        (pred16 T (validIfNot kIsControl) 2986);
        (pred16 T (validIfNot kIsControl) 3015);
        (pred16 T (validIfNot kIsControl) 2993);
        (pred16 T (validIfNot kIsControl) 3007);
        (pred16 T (validIfNot kIsControl) 32);
        (pred16 T (validIfNot kIsControl) 2984);
        (pred16 T (validIfNot kIsControl) 3006);
        (pred16 T (validIfNot kIsControl) 2991);
        (pred16 T (validIfNot kIsControl) 3021);
        (pred16 T (validIfNot kIsControl) 32);
        (pred16 T (validIfNot kIsControl) 2990);
        (pred16 T (validIfNot kIsControl) 3008);
        (pred16 T (validIfNot kIsControl) 2980);
        (pred16 T (validIfNot kIsControl) 3009);
        (pred16 T (validIfNot kIsControl) 32);
        (pred16 T (validIfNot kIsControl) 2980);
        (pred16 T (validIfNot kIsControl) 3006);
        (pred16 T (validIfNot kIsControl) 2979);
        (pred16 T (validIfNot kIsControl) 3021);
        (pred16 T (validIfNot kIsControl) 2975);
        (pred16 T (validIfNot kIsControl) 3009);
        (pred16 T (validIfNot kIsControl) 2965);
        (pred16 T (validIfNot kIsControl) 3007);
        (pred16 T (validIfNot kIsControl) 2993);
        (pred16 T (validIfNot kIsControl) 2980);
        (pred16 T (validIfNot kIsControl) 3009);
        (pred16 T (validIfNot kIsControl) 46);
        (pred32 T (validIfNot kIsControl) 2997);
        (pred32 T (validIfNot kIsControl) 3007);
        (pred32 T (validIfNot kIsControl) 2992);
        (pred32 T (validIfNot kIsControl) 3016);
        (pred32 T (validIfNot kIsControl) 2997);
        (pred32 T (validIfNot kIsControl) 3009);
        (pred32 T (validIfNot kIsControl) 32);
        (pred32 T (validIfNot kIsControl) 2986);
        (pred32 T (validIfNot kIsControl) 2996);
        (pred32 T (validIfNot kIsControl) 3009);
        (pred32 T (validIfNot kIsControl) 2986);
        (pred32 T (validIfNot kIsControl) 3021);
        (pred32 T (validIfNot kIsControl) 2986);
        (pred32 T (validIfNot kIsControl) 3009);
        (pred32 T (validIfNot kIsControl) 32);
        (pred32 T (validIfNot kIsControl) 2984);
        (pred32 T (validIfNot kIsControl) 2992);
        (pred32 T (validIfNot kIsControl) 3007);
        (pred32 T (validIfNot kIsControl) 32);
        (pred32 T (validIfNot kIsControl) 2970);
        (pred32 T (validIfNot kIsControl) 3015);
        (pred32 T (validIfNot kIsControl) 3006);
        (pred32 T (validIfNot kIsControl) 2990);
        (pred32 T (validIfNot kIsControl) 3021);
        (pred32 T (validIfNot kIsControl) 2986);
        (pred32 T (validIfNot kIsControl) 3015);
        (pred32 T (validIfNot kIsControl) 2993);
        (pred32 T (validIfNot kIsControl) 3007);
        (pred32 T (validIfNot kIsControl) 32);
        (pred32 T (validIfNot kIsControl) 2984);
        (pred32 T (validIfNot kIsControl) 3006);
        (pred32 T (validIfNot kIsControl) 2991);
        (pred32 T (validIfNot kIsControl) 3021);
        (pred32 T (validIfNot kIsControl) 32);
        (pred32 T (validIfNot kIsControl) 2990);
        (pred32 T (validIfNot kIsControl) 3008);
        (pred32 T (validIfNot kIsControl) 2980);
        (pred32 T (validIfNot kIsControl) 3009);
        (pred32 T (validIfNot kIsControl) 32);
        (pred32 T (validIfNot kIsControl) 2980);
        (pred32 T (validIfNot kIsControl) 3006);
        (pred32 T (validIfNot kIsControl) 2979);
        (pred32 T (validIfNot kIsControl) 3021);
        (pred32 T (validIfNot kIsControl) 2975);
        (pred32 T (validIfNot kIsControl) 3009);
        (pred32 T (validIfNot kIsControl) 2965);
        (pred32 T (validIfNot kIsControl) 3007);
        (pred32 T (validIfNot kIsControl) 2993);
        (pred32 T (validIfNot kIsControl) 2980);
        (pred32 T (validIfNot kIsControl) 3009);
        (pred32 T (validIfNot kIsControl) 46)].
Example run_testSimpleNonControlPredicate_passes : forallb (fun V => all_true (run_testSimpleNonControlPredicate (tables V))) [V7; V8; V9; V10; V11; V12; V13; V14; V15; V16] = true.
Proof. vm_cast_no_check (eq_refl true). Qed.

(* testSimpleNonPrivatesPredicate, 146 checks *)
Definition run_testSimpleNonPrivatesPredicate (T : UnicodeTables) : outcome (list bool) :=
  Done [(pred8 T (validIfNot kIsPrivate) 84);
        (pred8 T (validIfNot kIsPrivate) 104);
        (pred8 T (validIfNot kIsPrivate) 101);
        (pred8 T (validIfNot kIsPrivate) 32);
        (pred8 T (validIfNot kIsPrivate) 113);
        (pred8 T (validIfNot kIsPrivate) 117);
        (pred8 T (validIfNot kIsPrivate) 105);
        (pred8 T (validIfNot kIsPrivate) 99);
        (pred8 T (validIfNot kIsPrivate) 107);
        (pred8 T (validIfNot kIsPrivate) 32);
        (pred8 T (validIfNot kIsPrivate) 98);
        (pred8 T (validIfNot kIsPrivate) 114);
        (pred8 T (validIfNot kIsPrivate) 111);
        (pred8 T (validIfNot kIsPrivate) 119);
        (pred8 T (validIfNot kIsPrivate) 110);
        (pred8 T (validIfNot kIsPrivate) 32);
        (pred8 T (validIfNot kIsPrivate) 102);
        (pred8 T (validIfNot kIsPrivate) 111);
        (pred8 T (validIfNot kIsPrivate) 120);
        (pred8 T (validIfNot kIsPrivate) 32);
        (pred8 T (validIfNot kIsPrivate) 106);
        (pred8 T (validIfNot kIsPrivate) 117);
        (pred8 T (validIfNot kIsPrivate) 109);
        (pred8 T (validIfNot kIsPrivate) 112);
        (pred8 T (validIfNot kIsPrivate) 115);
        (pred8 T (validIfNot kIsPrivate) 32);
        (pred8 T (validIfNot kIsPrivate) 111);
        (pred8 T (validIfNot kIsPrivate) 118);
        (pred8 T (validIfNot kIsPrivate) 101);
        (pred8 T (validIfNot kIsPrivate) 114);
        (pred8 T (validIfNot kIsPrivate) 32);
        (pred8 T (validIfNot kIsPrivate) 116);
        (pred8 T (validIfNot kIsPrivate) 104);
        (pred8 T (validIfNot kIsPrivate) 101);
        (pred8 T (validIfNot kIsPrivate) 32);
        (pred8 T (validIfNot kIsPrivate) 108);
        (pred8 T (validIfNot kIsPrivate) 97);
        (pred8 T (validIfNot kIsPrivate) 122);
        (pred8 T (validIfNot kIsPrivate) 121);
        (pred8 T (validIfNot kIsPrivate) 32);
        (pred8 T (validIfNot kIsPrivate) 100);
        (pred8 T (validIfNot kIsPrivate) 111);
        (pred8 T (validIfNot kIsPrivate) 103);
        (pred8 T (validIfNot kIsPrivate) 46);
        (pred16 T (validIfNot kIsPrivate) 2997);
        (pred16 T (validIfNot kIsPrivate) 3007);
        (pred16 T (validIfNot kIsPrivate) 2992);
        (pred16 T (validIfNot kIsPrivate) 3016);
        (pred16 T (validIfNot kIsPrivate) 2997);
        (pred16 T (validIfNot kIsPrivate) 3009);
        (pred16 T (validIfNot kIsPrivate) 32);
        (pred16 T (validIfNot kIsPrivate) 2986);
        (pred16 T (validIfNot kIsPrivate) 2996);
        (pred16 T (validIfNot kIsPrivate) 3009);
        (pred16 T (validIfNot kIsPrivate) 2986);
        (pred16 T (validIfNot kIsPrivate) 3021);
        (pred16 T (validIfNot kIsPrivate) 2986);
        (pred16 T (validIfNot kIsPrivate) 3009);
        (pred16 T (validIfNot kIsPrivate) 32);
        (pred16 T (validIfNot kIsPrivate) 2984);
        (pred16 T (validIfNot kIsPrivate) 2992);
        (pred16 T (validIfNot kIsPrivate) 3007);
        (pred16 T (validIfNot kIsPrivate) 32);
        (pred16 T (validIfNot kIsPrivate) 2970);
        (pred16 T (validIfNot kIsPrivate) 3015);
        (pred16 T (validIfNot kIsPrivate) 3006);
        (pred16 T (validIfNot kIsPrivate) 2990);
        (pred16 T (validIfNot kIsPrivate) 3021);
        (pred16 T (validIfNot kIsPrivate) 2986);
        (pred16 T (validIfNot kIsPrivate) 3015);
        (pred16 T (validIfNot kIsPrivate) 2993);
        (pred16 T (validIfNot kIsPrivate) 3007);
        (pred16 T (validIfNot kIsPrivate) 32);
        (pred16 T (validIfNot kIsPrivate) 2984);
        (pred16 T (validIfNot kIsPrivate) 3006);
        (pred16 T (validIfNot kIsPrivate) 2991);
        (pred16 T (validIfNot kIsPrivate) 3021);
        (pred16 T (validIfNot kIsPrivate) 32);
        (pred16 T (validIfNot kIsPrivate) 2990);
        (pred16 T (validIfNot kIsPrivate) 3008);
        (pred16 T (validIfNot kIsPrivate) 2980);
        (pred16 T (validIfNot kIsPrivate) 3009);
        (pred16 T (validIfNot kIsPrivate) 32);
        (pred16 T (validIfNot kIsPrivate) 2980);
        (pred16 T (validIfNot kIsPrivate) 3006);
        (pred16 T (validIfNot kIsPrivate) 2979);
        (pred16 T (validIfNot kIsPrivate) 3021);
        (pred16 T (validIfNot kIsPrivate) 2975);
        (pred16 T (validIfNot kIsPrivate) 3009);
        (pred16 T (validIfNot kIsPrivate) 2965);
        (pred16 T (validIfNot kIsPrivate) 3007);
        (pred16 T (validIfNot kIsPrivate) 2993);
        (pred16 T (validIfNot kIsPrivate) 2980);
        (pred16 T (validIfNot kIsPrivate) 3009);
        (pred16 T (validIfNot kIsPrivate) 46);
        (pred32 T (validIfNot kIsPrivate) 2997);
        (pred32 T (validIfNot kIsPrivate) 3007);
        (pred32 T (validIfNot kIsPrivate) 2992);
        (pred32 T (validIfNot kIsPrivate) 3016);
        (pred32 T (validIfNot kIsPrivate) 2997);
        (pred32 T (validIfNot kIsPrivate) 3009);
        (pred32 T (validIfNot kIsPrivate) 32);
        (pred32 T (validIfNot kIsPrivate) 2986);
        (pred32 T (validIfNot kIsPrivate) 2996);
        (pred32 T (validIfNot kIsPrivate) 3009);
        (pred32 T (validIfNot kIsPrivate) 2986);
        (pred32 T (validIfNot kIsPrivate) 3021);
        (pred32 T (validIfNot kIsPrivate) 2986);
        (pred32 T (validIfNot kIsPrivate) 3009);
        (pred32 T (validIfNot kIsPrivate) 32);
        (pred32 T (validIfNot kIsPrivate) 2984);
        (pred32 T (validIfNot kIsPrivate) 2992);
        (pred32 T (validIfNot kIsPrivate) 3007);
        (pred32 T (validIfNot kIsPrivate) 32);
        (pred32 T (validIfNot kIsPrivate) 2970);
        (pred32 T (validIfNot kIsPrivate) 3015);
        (pred32 T (validIfNot kIsPrivate) 3006);
        (pred32 T (validIfNot kIsPrivate) 2990);
        (pred32 T (validIfNot kIsPrivate) 3021);
        (pred32 T (validIfNot kIsPrivate) 2986);
        (pred32 T (validIfNot kIsPrivate) 3015);
        (pred32 T (validIfNot kIsPrivate) 2993);
        (pred32 T (validIfNot kIsPrivate) 3007);
        (pred32 T (validIfNot kIsPrivate) 32);
        (pred32 T (validIfNot kIsPrivate) 2984);
        (pred32 T (validIfNot kIsPrivate) 3006);
        (pred32 T (validIfNot kIsPrivate) 2991);
        (pred32 T (validIfNot kIsPrivate) 3021);
        (pred32 T (validIfNot kIsPrivate) 32);
        (pred32 T (validIfNot kIsPrivate) 2990);
        (pred32 T (validIfNot kIsPrivate) 3008);
        (pred32 T (validIfNot kIsPrivate) 2980);
        (pred32 T (validIfNot kIsPrivate) 3009);
        (pred32 T (validIfNot kIsPrivate) 32);
        (pred32 T (validIfNot kIsPrivate) 2980);
        (pred32 T (validIfNot kIsPrivate) 3006);
        (pred32 T (validIfNot kIsPrivate) 2979);
        (pred32 T (validIfNot kIsPrivate) 3021);
        (pred32 T (validIfNot kIsPrivate) 2975);
        (pred32 T (validIfNot kIsPrivate) 3009);
        (pred32 T (validIfNot kIsPrivate) 2965);
        (pred32 T (validIfNot kIsPrivate) 3007);
        (pred32 T (validIfNot kIsPrivate) 2993);
        (pred32 T (validIfNot kIsPrivate) 2980);
        (pred32 T (validIfNot kIsPrivate) 3009);
        (pred32 T (validIfNot kIsPrivate) 46)].
Example run_testSimpleNonPrivatesPredicate_passes : forallb (fun V => all_true (run_testSimpleNonPrivatesPredicate (tables V))) [V7; V8; V9; V10; V11; V12; V13; V14; V15; V16] = true.
Proof. vm_cast_no_check (eq_refl true). Qed.

(* testCombinedFlagsPredicate, 24 checks *)
Definition run_testCombinedFlagsPredicate (T : UnicodeTables) : outcome (list bool) :=
  Done [(pred8 T (validIf kIsAssigned) 9);
        (negb (pred8 T (andIfNot (andIfNot (andIf (validIf kIsAssigned) kIsWhitespace) kIsControl) kIsPrivate) 9));
        (pred8 T (andIfNot (andIf (andIf (validIf kIsAssigned) kIsWhitespace) kIsControl) kIsPrivate) 9);
        (pred8 T (validIf kIsAssigned) 10);
        (negb (pred8 T (andIfNot (andIfNot (andIf (validIf kIsAssigned) kIsWhitespace) kIsControl) kIsPrivate) 10));
        (pred8 T (andIfNot (andIf (andIf (validIf kIsAssigned) kIsWhitespace) kIsControl) kIsPrivate) 10);
        (pred8 T (validIf kIsAssigned) 11);
        (negb (pred8 T (andIfNot (andIfNot (andIf (validIf kIsAssigned) kIsWhitespace) kIsControl) kIsPrivate) 11));
        (pred8 T (andIfNot (andIf (andIf (validIf kIsAssigned) kIsWhitespace) kIsControl) kIsPrivate) 11);
        (pred8 T (validIf kIsAssigned) 12);
        (negb (pred8 T (andIfNot (andIfNot (andIf (validIf kIsAssigned) kIsWhitespace) kIsControl) kIsPrivate) 12));
        (pred8 T (andIfNot (andIf (andIf (validIf kIsAssigned) kIsWhitespace) kIsControl) kIsPrivate) 12);
        (pred8 T (validIf kIsAssigned) 13);
        (negb (pred8 T (andIfNot (andIfNot (andIf (validIf kIsAssigned) kIsWhitespace) kIsControl) kIsPrivate) 13));
        (pred8 T (andIfNot (andIf (andIf (validIf kIsAssigned) kIsWhitespace) kIsControl) kIsPrivate) 13);
        (pred8 T (validIf kIsAssigned) 32);
        (pred8 T (andIfNot (andIfNot (andIf (validIf kIsAssigned) kIsWhitespace) kIsControl) kIsPrivate) 32);
        (negb (pred8 T (andIfNot (andIf (andIf (validIf kIsAssigned) kIsWhitespace) kIsControl) kIsPrivate) 32));
        (pred8 T (validIf kIsAssigned) 133);
        (negb (pred8 T (andIfNot (andIfNot (andIf (validIf kIsAssigned) kIsWhitespace) kIsControl) kIsPrivate) 133));
        (pred8 T (andIfNot (andIf (andIf (validIf kIsAssigned) kIsWhitespace) kIsControl) kIsPrivate) 133);
        (pred8 T (validIf kIsAssigned) 160);
        (pred8 T (andIfNot (andIfNot (andIf (validIf kIsAssigned) kIsWhitespace) kIsControl) kIsPrivate) 160);
        (negb (pred8 T (andIfNot (andIf (andIf (validIf kIsAssigned) kIsWhitespace) kIsControl) kIsPrivate) 160))].
Example run_testCombinedFlagsPredicate_passes : forallb (fun V => all_true (run_testCombinedFlagsPredicate (tables V))) [V7; V8; V9; V10; V11; V12; V13; V14; V15; V16] = true.
Proof. vm_cast_no_check (eq_refl true). Qed.
