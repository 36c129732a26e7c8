(* Generated by tools/tests2v.py from /repo/test/unit/string_trim_test.cxx -- do not edit.
   The library's own unit tests run on the model: every EXPECT_ of the C++ is one boolean. *)
From Coq Require Import ZArith List Bool.
From Verif Require Import Machine.
From Verif.Model Require Import Internal Decode Tables Predicate Str Lower CodePage SplitJoin Trim Wide Tchar.
From Verif.Tests Require Import Support.
Import ListNotations.
Local Open Scope Z_scope.

(* tabs, 8 checks *)
Definition run_tabs (T : UnicodeTables) : outcome (list bool) :=
  dos t1 <- basic_string (At [9; 9; 9; 9; 0]);
  do t2 <- trimAscii7WhiteSpace t1;
  dos t3 <- basic_string (At [9; 9; 9; 9; 0]);
  do t4 <- trimWhiteSpace_8 t3;
  dos t5 <- basic_string (At [9; 9; 9; 9; 0]);
  do t6 <- trimWhiteSpace_16 t5;
  dos t7 <- basic_string (At [9; 9; 9; 9; 0]);
  do t8 <- trimWhiteSpace_32 t7;
  dos t9 <- basic_string (At [65; 32; 109; 111; 114; 101; 32; 104; 117; 109; 97; 110; 101; 32; 77; 105; 107; 97; 100; 111; 32; 110; 101; 118; 101; 114; 32; 100; 105; 100; 32; 105; 110; 32; 74; 97; 112; 97; 110; 32; 101; 120; 105; 115; 116; 46; 0]);
  dos t10 <- basic_string (At [9; 9; 65; 32; 109; 111; 114; 101; 32; 104; 117; 109; 97; 110; 101; 32; 77; 105; 107; 97; 100; 111; 32; 110; 101; 118; 101; 114; 32; 100; 105; 100; 32; 105; 110; 32; 74; 97; 112; 97; 110; 32; 101; 120; 105; 115; 116; 46; 9; 9; 0]);
  do t11 <- trimAscii7WhiteSpace t10;
  dos t12 <- basic_string (At [9; 9; 65; 32; 109; 111; 114; 101; 32; 104; 117; 109; 97; 110; 101; 32; 77; 105; 107; 97; 100; 111; 32; 110; 101; 118; 101; 114; 32; 100; 105; 100; 32; 105; 110; 32; 74; 97; 112; 97; 110; 32; 101; 120; 105; 115; 116; 46; 9; 9; 0]);
  do t13 <- trimWhiteSpace_8 t12;
  dos t14 <- basic_string (At [9; 9; 65; 32; 109; 111; 114; 101; 32; 104; 117; 109; 97; 110; 101; 32; 77; 105; 107; 97; 100; 111; 32; 110; 101; 118; 101; 114; 32; 100; 105; 100; 32; 105; 110; 32; 74; 97; 112; 97; 110; 32; 101; 120; 105; 115; 116; 46; 9; 9; 0]);
  do t15 <- trimWhiteSpace_16 t14;
  do t16 <- toUtf8_16 (c_str t15);
  dos t17 <- basic_string (At [9; 9; 65; 32; 109; 111; 114; 101; 32; 104; 117; 109; 97; 110; 101; 32; 77; 105; 107; 97; 100; 111; 32; 110; 101; 118; 101; 114; 32; 100; 105; 100; 32; 105; 110; 32; 74; 97; 112; 97; 110; 32; 101; 120; 105; 115; 116; 46; 9; 9; 0]);
  do t18 <- trimWhiteSpace_32 t17;
  do t19 <- toUtf8_32 (c_str t18);
  Done [(match t2 with [] => true | _ => false end);
        (match t4 with [] => true | _ => false end);
        (match t6 with [] => true | _ => false end);
        (match t8 with [] => true | _ => false end);
        (list_eqb t9 t11);
        (list_eqb t9 t13);
        (list_eqb t9 t16);
        (list_eqb t9 t19)].
Example run_tabs_passes : all_true (run_tabs (tables V16)) = true.
Proof. vm_cast_no_check (eq_refl true). Qed.

(* trim, 3 checks *)
Definition run_trim (T : UnicodeTables) : outcome (list bool) :=
  dos t1 <- basic_string (At [65; 32; 109; 111; 114; 101; 32; 104; 117; 109; 97; 110; 101; 32; 77; 105; 107; 97; 100; 111; 32; 110; 101; 118; 101; 114; 32; 100; 105; 100; 32; 105; 110; 32; 74; 97; 112; 97; 110; 32; 101; 120; 105; 115; 116; 46; 0]);
  dos t2 <- basic_string (At [32; 32; 65; 32; 109; 111; 114; 101; 32; 104; 117; 109; 97; 110; 101; 32; 77; 105; 107; 97; 100; 111; 32; 110; 101; 118; 101; 114; 32; 100; 105; 100; 32; 105; 110; 32; 74; 97; 112; 97; 110; 32; 101; 120; 105; 115; 116; 46; 32; 32; 0]);
  do t3 <- trim t2;
  dos t4 <- basic_string (At [32; 32; 65; 32; 109; 111; 114; 101; 32; 104; 117; 109; 97; 110; 101; 32; 77; 105; 107; 97; 100; 111; 32; 110; 101; 118; 101; 114; 32; 100; 105; 100; 32; 105; 110; 32; 74; 97; 112; 97; 110; 32; 101; 120; 105; 115; 116; 46; 32; 32; 0]);
  do t5 <- trim t4;
  do t6 <- toUtf8_16 (c_str t5);
  dos t7 <- basic_string (At [32; 32; 65; 32; 109; 111; 114; 101; 32; 104; 117; 109; 97; 110; 101; 32; 77; 105; 107; 97; 100; 111; 32; 110; 101; 118; 101; 114; 32; 100; 105; 100; 32; 105; 110; 32; 74; 97; 112; 97; 110; 32; 101; 120; 105; 115; 116; 46; 32; 32; 0]);
  do t8 <- trim t7;
  do t9 <- toUtf8_32 (c_str t8);
  Done [(list_eqb t1 t3);
        (list_eqb t1 t6);
        (list_eqb t1 t9)].
Example run_trim_passes : all_true (run_trim (tables V16)) = true.
Proof. vm_cast_no_check (eq_refl true). Qed.

(* otherWhites8, 8 checks *)
Definition run_otherWhites8 (T : UnicodeTables) : outcome (list bool) :=
  dos t1 <- basic_string (At [65; 9; 109; 111; 114; 101; 10; 104; 117; 109; 97; 110; 101; 13; 77; 105; 107; 97; 100; 111; 32; 110; 101; 118; 101; 114; 32; 100; 105; 100; 32; 105; 110; 32; 74; 97; 112; 97; 110; 32; 101; 120; 105; 115; 116; 46; 0]);
  dos t2 <- basic_string (At [9; 65; 9; 109; 111; 114; 101; 10; 104; 117; 109; 97; 110; 101; 13; 77; 105; 107; 97; 100; 111; 32; 110; 101; 118; 101; 114; 32; 100; 105; 100; 32; 105; 110; 32; 74; 97; 112; 97; 110; 32; 101; 120; 105; 115; 116; 46; 9; 0]);
  do t3 <- trim t2;
  dos t4 <- basic_string (At [10; 65; 9; 109; 111; 114; 101; 10; 104; 117; 109; 97; 110; 101; 13; 77; 105; 107; 97; 100; 111; 32; 110; 101; 118; 101; 114; 32; 100; 105; 100; 32; 105; 110; 32; 74; 97; 112; 97; 110; 32; 101; 120; 105; 115; 116; 46; 10; 0]);
  do t5 <- trim t4;
  dos t6 <- basic_string (At [13; 65; 9; 109; 111; 114; 101; 10; 104; 117; 109; 97; 110; 101; 13; 77; 105; 107; 97; 100; 111; 32; 110; 101; 118; 101; 114; 32; 100; 105; 100; 32; 105; 110; 32; 74; 97; 112; 97; 110; 32; 101; 120; 105; 115; 116; 46; 13; 0]);
  do t7 <- trim t6;
  dos t8 <- basic_string (At [32; 65; 9; 109; 111; 114; 101; 10; 104; 117; 109; 97; 110; 101; 13; 77; 105; 107; 97; 100; 111; 32; 110; 101; 118; 101; 114; 32; 100; 105; 100; 32; 105; 110; 32; 74; 97; 112; 97; 110; 32; 101; 120; 105; 115; 116; 46; 32; 0]);
  do t9 <- trim t8;
  dos t10 <- basic_string (At [9; 65; 9; 109; 111; 114; 101; 10; 104; 117; 109; 97; 110; 101; 13; 77; 105; 107; 97; 100; 111; 32; 110; 101; 118; 101; 114; 32; 100; 105; 100; 32; 105; 110; 32; 74; 97; 112; 97; 110; 32; 101; 120; 105; 115; 116; 46; 9; 0]);
  do t11 <- trimWhiteSpace_8 t10;
  dos t12 <- basic_string (At [10; 65; 9; 109; 111; 114; 101; 10; 104; 117; 109; 97; 110; 101; 13; 77; 105; 107; 97; 100; 111; 32; 110; 101; 118; 101; 114; 32; 100; 105; 100; 32; 105; 110; 32; 74; 97; 112; 97; 110; 32; 101; 120; 105; 115; 116; 46; 10; 0]);
  do t13 <- trimWhiteSpace_8 t12;
  dos t14 <- basic_string (At [13; 65; 9; 109; 111; 114; 101; 10; 104; 117; 109; 97; 110; 101; 13; 77; 105; 107; 97; 100; 111; 32; 110; 101; 118; 101; 114; 32; 100; 105; 100; 32; 105; 110; 32; 74; 97; 112; 97; 110; 32; 101; 120; 105; 115; 116; 46; 13; 0]);
  do t15 <- trimWhiteSpace_8 t14;
  dos t16 <- basic_string (At [32; 65; 9; 109; 111; 114; 101; 10; 104; 117; 109; 97; 110; 101; 13; 77; 105; 107; 97; 100; 111; 32; 110; 101; 118; 101; 114; 32; 100; 105; 100; 32; 105; 110; 32; 74; 97; 112; 97; 110; 32; 101; 120; 105; 115; 116; 46; 32; 0]);
  do t17 <- trimWhiteSpace_8 t16;
  Done [(negb (list_eqb t1 t3));
        (negb (list_eqb t1 t5));
        (negb (list_eqb t1 t7));
        (list_eqb t1 t9);
        (list_eqb t1 t11);
        (list_eqb t1 t13);
        (list_eqb t1 t15);
        (list_eqb t1 t17)].
Example run_otherWhites8_passes : all_true (run_otherWhites8 (tables V16)) = true.
Proof. vm_cast_no_check (eq_refl true). Qed.

(* otherWhites16, 19 checks *)
Definition run_otherWhites16 (T : UnicodeTables) : outcome (list bool) :=
  dos t1 <- basic_string (At [65; 9; 109; 111; 114; 101; 10; 104; 117; 109; 97; 110; 101; 13; 77; 105; 107; 97; 100; 111; 160; 110; 101; 118; 101; 114; 8192; 100; 105; 100; 8193; 105; 110; 8194; 74; 97; 112; 97; 110; 8195; 101; 120; 105; 115; 116; 46; 12288; 84; 111; 8196; 110; 111; 98; 111; 100; 121; 8197; 115; 101; 99; 111; 110; 100; 8198; 73; 39; 109; 8199; 99; 101; 114; 116; 97; 105; 110; 108; 121; 8200; 114; 101; 99; 107; 111; 110; 101; 100; 8201; 97; 8202; 116; 114; 117; 101; 8239; 112; 104; 105; 108; 97; 110; 116; 104; 114; 111; 112; 105; 115; 116; 8287; 46; 0]);
  dos t2 <- basic_string (At [9; 65; 9; 109; 111; 114; 101; 10; 104; 117; 109; 97; 110; 101; 13; 77; 105; 107; 97; 100; 111; 160; 110; 101; 118; 101; 114; 8192; 100; 105; 100; 8193; 105; 110; 8194; 74; 97; 112; 97; 110; 8195; 101; 120; 105; 115; 116; 46; 12288; 84; 111; 8196; 110; 111; 98; 111; 100; 121; 8197; 115; 101; 99; 111; 110; 100; 8198; 73; 39; 109; 8199; 99; 101; 114; 116; 97; 105; 110; 108; 121; 8200; 114; 101; 99; 107; 111; 110; 101; 100; 8201; 97; 8202; 116; 114; 117; 101; 8239; 112; 104; 105; 108; 97; 110; 116; 104; 114; 111; 112; 105; 115; 116; 8287; 46; 9; 0]);
  do t3 <- trimWhiteSpace_16 t2;
  dos t4 <- basic_string (At [10; 65; 9; 109; 111; 114; 101; 10; 104; 117; 109; 97; 110; 101; 13; 77; 105; 107; 97; 100; 111; 160; 110; 101; 118; 101; 114; 8192; 100; 105; 100; 8193; 105; 110; 8194; 74; 97; 112; 97; 110; 8195; 101; 120; 105; 115; 116; 46; 12288; 84; 111; 8196; 110; 111; 98; 111; 100; 121; 8197; 115; 101; 99; 111; 110; 100; 8198; 73; 39; 109; 8199; 99; 101; 114; 116; 97; 105; 110; 108; 121; 8200; 114; 101; 99; 107; 111; 110; 101; 100; 8201; 97; 8202; 116; 114; 117; 101; 8239; 112; 104; 105; 108; 97; 110; 116; 104; 114; 111; 112; 105; 115; 116; 8287; 46; 10; 0]);
  do t5 <- trimWhiteSpace_16 t4;
  dos t6 <- basic_string (At [13; 65; 9; 109; 111; 114; 101; 10; 104; 117; 109; 97; 110; 101; 13; 77; 105; 107; 97; 100; 111; 160; 110; 101; 118; 101; 114; 8192; 100; 105; 100; 8193; 105; 110; 8194; 74; 97; 112; 97; 110; 8195; 101; 120; 105; 115; 116; 46; 12288; 84; 111; 8196; 110; 111; 98; 111; 100; 121; 8197; 115; 101; 99; 111; 110; 100; 8198; 73; 39; 109; 8199; 99; 101; 114; 116; 97; 105; 110; 108; 121; 8200; 114; 101; 99; 107; 111; 110; 101; 100; 8201; 97; 8202; 116; 114; 117; 101; 8239; 112; 104; 105; 108; 97; 110; 116; 104; 114; 111; 112; 105; 115; 116; 8287; 46; 13; 0]);
  do t7 <- trimWhiteSpace_16 t6;
  dos t8 <- basic_string (At [32; 65; 9; 109; 111; 114; 101; 10; 104; 117; 109; 97; 110; 101; 13; 77; 105; 107; 97; 100; 111; 160; 110; 101; 118; 101; 114; 8192; 100; 105; 100; 8193; 105; 110; 8194; 74; 97; 112; 97; 110; 8195; 101; 120; 105; 115; 116; 46; 12288; 84; 111; 8196; 110; 111; 98; 111; 100; 121; 8197; 115; 101; 99; 111; 110; 100; 8198; 73; 39; 109; 8199; 99; 101; 114; 116; 97; 105; 110; 108; 121; 8200; 114; 101; 99; 107; 111; 110; 101; 100; 8201; 97; 8202; 116; 114; 117; 101; 8239; 112; 104; 105; 108; 97; 110; 116; 104; 114; 111; 112; 105; 115; 116; 8287; 46; 32; 0]);
  do t9 <- trimWhiteSpace_16 t8;
  dos t10 <- basic_string (At [160; 65; 9; 109; 111; 114; 101; 10; 104; 117; 109; 97; 110; 101; 13; 77; 105; 107; 97; 100; 111; 160; 110; 101; 118; 101; 114; 8192; 100; 105; 100; 8193; 105; 110; 8194; 74; 97; 112; 97; 110; 8195; 101; 120; 105; 115; 116; 46; 12288; 84; 111; 8196; 110; 111; 98; 111; 100; 121; 8197; 115; 101; 99; 111; 110; 100; 8198; 73; 39; 109; 8199; 99; 101; 114; 116; 97; 105; 110; 108; 121; 8200; 114; 101; 99; 107; 111; 110; 101; 100; 8201; 97; 8202; 116; 114; 117; 101; 8239; 112; 104; 105; 108; 97; 110; 116; 104; 114; 111; 112; 105; 115; 116; 8287; 46; 160; 0]);
  do t11 <- trimWhiteSpace_16 t10;
  dos t12 <- basic_string (At [8192; 65; 9; 109; 111; 114; 101; 10; 104; 117; 109; 97; 110; 101; 13; 77; 105; 107; 97; 100; 111; 160; 110; 101; 118; 101; 114; 8192; 100; 105; 100; 8193; 105; 110; 8194; 74; 97; 112; 97; 110; 8195; 101; 120; 105; 115; 116; 46; 12288; 84; 111; 8196; 110; 111; 98; 111; 100; 121; 8197; 115; 101; 99; 111; 110; 100; 8198; 73; 39; 109; 8199; 99; 101; 114; 116; 97; 105; 110; 108; 121; 8200; 114; 101; 99; 107; 111; 110; 101; 100; 8201; 97; 8202; 116; 114; 117; 101; 8239; 112; 104; 105; 108; 97; 110; 116; 104; 114; 111; 112; 105; 115; 116; 8287; 46; 8192; 0]);
  do t13 <- trimWhiteSpace_16 t12;
  dos t14 <- basic_string (At [8193; 65; 9; 109; 111; 114; 101; 10; 104; 117; 109; 97; 110; 101; 13; 77; 105; 107; 97; 100; 111; 160; 110; 101; 118; 101; 114; 8192; 100; 105; 100; 8193; 105; 110; 8194; 74; 97; 112; 97; 110; 8195; 101; 120; 105; 115; 116; 46; 12288; 84; 111; 8196; 110; 111; 98; 111; 100; 121; 8197; 115; 101; 99; 111; 110; 100; 8198; 73; 39; 109; 8199; 99; 101; 114; 116; 97; 105; 110; 108; 121; 8200; 114; 101; 99; 107; 111; 110; 101; 100; 8201; 97; 8202; 116; 114; 117; 101; 8239; 112; 104; 105; 108; 97; 110; 116; 104; 114; 111; 112; 105; 115; 116; 8287; 46; 8193; 0]);
  do t15 <- trimWhiteSpace_16 t14;
  dos t16 <- basic_string (At [8194; 65; 9; 109; 111; 114; 101; 10; 104; 117; 109; 97; 110; 101; 13; 77; 105; 107; 97; 100; 111; 160; 110; 101; 118; 101; 114; 8192; 100; 105; 100; 8193; 105; 110; 8194; 74; 97; 112; 97; 110; 8195; 101; 120; 105; 115; 116; 46; 12288; 84; 111; 8196; 110; 111; 98; 111; 100; 121; 8197; 115; 101; 99; 111; 110; 100; 8198; 73; 39; 109; 8199; 99; 101; 114; 116; 97; 105; 110; 108; 121; 8200; 114; 101; 99; 107; 111; 110; 101; 100; 8201; 97; 8202; 116; 114; 117; 101; 8239; 112; 104; 105; 108; 97; 110; 116; 104; 114; 111; 112; 105; 115; 116; 8287; 46; 8194; 0]);
  do t17 <- trimWhiteSpace_16 t16;
  dos t18 <- basic_string (At [8195; 65; 9; 109; 111; 114; 101; 10; 104; 117; 109; 97; 110; 101; 13; 77; 105; 107; 97; 100; 111; 160; 110; 101; 118; 101; 114; 8192; 100; 105; 100; 8193; 105; 110; 8194; 74; 97; 112; 97; 110; 8195; 101; 120; 105; 115; 116; 46; 12288; 84; 111; 8196; 110; 111; 98; 111; 100; 121; 8197; 115; 101; 99; 111; 110; 100; 8198; 73; 39; 109; 8199; 99; 101; 114; 116; 97; 105; 110; 108; 121; 8200; 114; 101; 99; 107; 111; 110; 101; 100; 8201; 97; 8202; 116; 114; 117; 101; 8239; 112; 104; 105; 108; 97; 110; 116; 104; 114; 111; 112; 105; 115; 116; 8287; 46; 8195; 0]);
  do t19 <- trimWhiteSpace_16 t18;
  dos t20 <- basic_string (At [8196; 65; 9; 109; 111; 114; 101; 10; 104; 117; 109; 97; 110; 101; 13; 77; 105; 107; 97; 100; 111; 160; 110; 101; 118; 101; 114; 8192; 100; 105; 100; 8193; 105; 110; 8194; 74; 97; 112; 97; 110; 8195; 101; 120; 105; 115; 116; 46; 12288; 84; 111; 8196; 110; 111; 98; 111; 100; 121; 8197; 115; 101; 99; 111; 110; 100; 8198; 73; 39; 109; 8199; 99; 101; 114; 116; 97; 105; 110; 108; 121; 8200; 114; 101; 99; 107; 111; 110; 101; 100; 8201; 97; 8202; 116; 114; 117; 101; 8239; 112; 104; 105; 108; 97; 110; 116; 104; 114; 111; 112; 105; 115; 116; 8287; 46; 8196; 0]);
  do t21 <- trimWhiteSpace_16 t20;
  dos t22 <- basic_string (At [8197; 65; 9; 109; 111; 114; 101; 10; 104; 117; 109; 97; 110; 101; 13; 77; 105; 107; 97; 100; 111; 160; 110; 101; 118; 101; 114; 8192; 100; 105; 100; 8193; 105; 110; 8194; 74; 97; 112; 97; 110; 8195; 101; 120; 105; 115; 116; 46; 12288; 84; 111; 8196; 110; 111; 98; 111; 100; 121; 8197; 115; 101; 99; 111; 110; 100; 8198; 73; 39; 109; 8199; 99; 101; 114; 116; 97; 105; 110; 108; 121; 8200; 114; 101; 99; 107; 111; 110; 101; 100; 8201; 97; 8202; 116; 114; 117; 101; 8239; 112; 104; 105; 108; 97; 110; 116; 104; 114; 111; 112; 105; 115; 116; 8287; 46; 8197; 0]);
  do t23 <- trimWhiteSpace_16 t22;
  dos t24 <- basic_string (At [8198; 65; 9; 109; 111; 114; 101; 10; 104; 117; 109; 97; 110; 101; 13; 77; 105; 107; 97; 100; 111; 160; 110; 101; 118; 101; 114; 8192; 100; 105; 100; 8193; 105; 110; 8194; 74; 97; 112; 97; 110; 8195; 101; 120; 105; 115; 116; 46; 12288; 84; 111; 8196; 110; 111; 98; 111; 100; 121; 8197; 115; 101; 99; 111; 110; 100; 8198; 73; 39; 109; 8199; 99; 101; 114; 116; 97; 105; 110; 108; 121; 8200; 114; 101; 99; 107; 111; 110; 101; 100; 8201; 97; 8202; 116; 114; 117; 101; 8239; 112; 104; 105; 108; 97; 110; 116; 104; 114; 111; 112; 105; 115; 116; 8287; 46; 8198; 0]);
  do t25 <- trimWhiteSpace_16 t24;
  dos t26 <- basic_string (At [8199; 65; 9; 109; 111; 114; 101; 10; 104; 117; 109; 97; 110; 101; 13; 77; 105; 107; 97; 100; 111; 160; 110; 101; 118; 101; 114; 8192; 100; 105; 100; 8193; 105; 110; 8194; 74; 97; 112; 97; 110; 8195; 101; 120; 105; 115; 116; 46; 12288; 84; 111; 8196; 110; 111; 98; 111; 100; 121; 8197; 115; 101; 99; 111; 110; 100; 8198; 73; 39; 109; 8199; 99; 101; 114; 116; 97; 105; 110; 108; 121; 8200; 114; 101; 99; 107; 111; 110; 101; 100; 8201; 97; 8202; 116; 114; 117; 101; 8239; 112; 104; 105; 108; 97; 110; 116; 104; 114; 111; 112; 105; 115; 116; 8287; 46; 8199; 0]);
  do t27 <- trimWhiteSpace_16 t26;
  dos t28 <- basic_string (At [8200; 65; 9; 109; 111; 114; 101; 10; 104; 117; 109; 97; 110; 101; 13; 77; 105; 107; 97; 100; 111; 160; 110; 101; 118; 101; 114; 8192; 100; 105; 100; 8193; 105; 110; 8194; 74; 97; 112; 97; 110; 8195; 101; 120; 105; 115; 116; 46; 12288; 84; 111; 8196; 110; 111; 98; 111; 100; 121; 8197; 115; 101; 99; 111; 110; 100; 8198; 73; 39; 109; 8199; 99; 101; 114; 116; 97; 105; 110; 108; 121; 8200; 114; 101; 99; 107; 111; 110; 101; 100; 8201; 97; 8202; 116; 114; 117; 101; 8239; 112; 104; 105; 108; 97; 110; 116; 104; 114; 111; 112; 105; 115; 116; 8287; 46; 8200; 0]);
  do t29 <- trimWhiteSpace_16 t28;
  dos t30 <- basic_string (At [8201; 65; 9; 109; 111; 114; 101; 10; 104; 117; 109; 97; 110; 101; 13; 77; 105; 107; 97; 100; 111; 160; 110; 101; 118; 101; 114; 8192; 100; 105; 100; 8193; 105; 110; 8194; 74; 97; 112; 97; 110; 8195; 101; 120; 105; 115; 116; 46; 12288; 84; 111; 8196; 110; 111; 98; 111; 100; 121; 8197; 115; 101; 99; 111; 110; 100; 8198; 73; 39; 109; 8199; 99; 101; 114; 116; 97; 105; 110; 108; 121; 8200; 114; 101; 99; 107; 111; 110; 101; 100; 8201; 97; 8202; 116; 114; 117; 101; 8239; 112; 104; 105; 108; 97; 110; 116; 104; 114; 111; 112; 105; 115; 116; 8287; 46; 8201; 0]);
  do t31 <- trimWhiteSpace_16 t30;
  dos t32 <- basic_string (At [8202; 65; 9; 109; 111; 114; 101; 10; 104; 117; 109; 97; 110; 101; 13; 77; 105; 107; 97; 100; 111; 160; 110; 101; 118; 101; 114; 8192; 100; 105; 100; 8193; 105; 110; 8194; 74; 97; 112; 97; 110; 8195; 101; 120; 105; 115; 116; 46; 12288; 84; 111; 8196; 110; 111; 98; 111; 100; 121; 8197; 115; 101; 99; 111; 110; 100; 8198; 73; 39; 109; 8199; 99; 101; 114; 116; 97; 105; 110; 108; 121; 8200; 114; 101; 99; 107; 111; 110; 101; 100; 8201; 97; 8202; 116; 114; 117; 101; 8239; 112; 104; 105; 108; 97; 110; 116; 104; 114; 111; 112; 105; 115; 116; 8287; 46; 8202; 0]);
  do t33 <- trimWhiteSpace_16 t32;
  dos t34 <- basic_string (At [8239; 65; 9; 109; 111; 114; 101; 10; 104; 117; 109; 97; 110; 101; 13; 77; 105; 107; 97; 100; 111; 160; 110; 101; 118; 101; 114; 8192; 100; 105; 100; 8193; 105; 110; 8194; 74; 97; 112; 97; 110; 8195; 101; 120; 105; 115; 116; 46; 12288; 84; 111; 8196; 110; 111; 98; 111; 100; 121; 8197; 115; 101; 99; 111; 110; 100; 8198; 73; 39; 109; 8199; 99; 101; 114; 116; 97; 105; 110; 108; 121; 8200; 114; 101; 99; 107; 111; 110; 101; 100; 8201; 97; 8202; 116; 114; 117; 101; 8239; 112; 104; 105; 108; 97; 110; 116; 104; 114; 111; 112; 105; 115; 116; 8287; 46; 8239; 0]);
  do t35 <- trimWhiteSpace_16 t34;
  dos t36 <- basic_string (At [8287; 65; 9; 109; 111; 114; 101; 10; 104; 117; 109; 97; 110; 101; 13; 77; 105; 107; 97; 100; 111; 160; 110; 101; 118; 101; 114; 8192; 100; 105; 100; 8193; 105; 110; 8194; 74; 97; 112; 97; 110; 8195; 101; 120; 105; 115; 116; 46; 12288; 84; 111; 8196; 110; 111; 98; 111; 100; 121; 8197; 115; 101; 99; 111; 110; 100; 8198; 73; 39; 109; 8199; 99; 101; 114; 116; 97; 105; 110; 108; 121; 8200; 114; 101; 99; 107; 111; 110; 101; 100; 8201; 97; 8202; 116; 114; 117; 101; 8239; 112; 104; 105; 108; 97; 110; 116; 104; 114; 111; 112; 105; 115; 116; 8287; 46; 8287; 0]);
  do t37 <- trimWhiteSpace_16 t36;
  dos t38 <- basic_string (At [12288; 65; 9; 109; 111; 114; 101; 10; 104; 117; 109; 97; 110; 101; 13; 77; 105; 107; 97; 100; 111; 160; 110; 101; 118; 101; 114; 8192; 100; 105; 100; 8193; 105; 110; 8194; 74; 97; 112; 97; 110; 8195; 101; 120; 105; 115; 116; 46; 12288; 84; 111; 8196; 110; 111; 98; 111; 100; 121; 8197; 115; 101; 99; 111; 110; 100; 8198; 73; 39; 109; 8199; 99; 101; 114; 116; 97; 105; 110; 108; 121; 8200; 114; 101; 99; 107; 111; 110; 101; 100; 8201; 97; 8202; 116; 114; 117; 101; 8239; 112; 104; 105; 108; 97; 110; 116; 104; 114; 111; 112; 105; 115; 116; 8287; 46; 12288; 0]);
  do t39 <- trimWhiteSpace_16 t38;
  Done [(list_eqb t1 t3);
        (list_eqb t1 t5);
        (list_eqb t1 t7);
        (list_eqb t1 t9);
        (list_eqb t1 t11);
        (list_eqb t1 t13);
        (list_eqb t1 t15);
        (list_eqb t1 t17);
        (list_eqb t1 t19);
        (list_eqb t1 t21);
        (list_eqb t1 t23);
        (list_eqb t1 t25);
        (list_eqb t1 t27);
        (list_eqb t1 t29);
        (list_eqb t1 t31);
        (list_eqb t1 t33);
        (list_eqb t1 t35);
        (list_eqb t1 t37);
        (list_eqb t1 t39)].
Example run_otherWhites16_passes : all_true (run_otherWhites16 (tables V16)) = true.
Proof. vm_cast_no_check (eq_refl true). Qed.

(* otherWhites32, 19 checks *)
Definition run_otherWhites32 (T : UnicodeTables) : outcome (list bool) :=
  dos t1 <- basic_string (At [65; 9; 109; 111; 114; 101; 10; 104; 117; 109; 97; 110; 101; 13; 77; 105; 107; 97; 100; 111; 160; 110; 101; 118; 101; 114; 8192; 100; 105; 100; 8193; 105; 110; 8194; 74; 97; 112; 97; 110; 8195; 101; 120; 105; 115; 116; 46; 12288; 84; 111; 8196; 110; 111; 98; 111; 100; 121; 8197; 115; 101; 99; 111; 110; 100; 8198; 73; 39; 109; 8199; 99; 101; 114; 116; 97; 105; 110; 108; 121; 8200; 114; 101; 99; 107; 111; 110; 101; 100; 8201; 97; 8202; 116; 114; 117; 101; 8239; 112; 104; 105; 108; 97; 110; 116; 104; 114; 111; 112; 105; 115; 116; 8287; 46; 0]);
  dos t2 <- basic_string (At [9; 65; 9; 109; 111; 114; 101; 10; 104; 117; 109; 97; 110; 101; 13; 77; 105; 107; 97; 100; 111; 160; 110; 101; 118; 101; 114; 8192; 100; 105; 100; 8193; 105; 110; 8194; 74; 97; 112; 97; 110; 8195; 101; 120; 105; 115; 116; 46; 12288; 84; 111; 8196; 110; 111; 98; 111; 100; 121; 8197; 115; 101; 99; 111; 110; 100; 8198; 73; 39; 109; 8199; 99; 101; 114; 116; 97; 105; 110; 108; 121; 8200; 114; 101; 99; 107; 111; 110; 101; 100; 8201; 97; 8202; 116; 114; 117; 101; 8239; 112; 104; 105; 108; 97; 110; 116; 104; 114; 111; 112; 105; 115; 116; 8287; 46; 9; 0]);
  do t3 <- trimWhiteSpace_32 t2;
  dos t4 <- basic_string (At [10; 65; 9; 109; 111; 114; 101; 10; 104; 117; 109; 97; 110; 101; 13; 77; 105; 107; 97; 100; 111; 160; 110; 101; 118; 101; 114; 8192; 100; 105; 100; 8193; 105; 110; 8194; 74; 97; 112; 97; 110; 8195; 101; 120; 105; 115; 116; 46; 12288; 84; 111; 8196; 110; 111; 98; 111; 100; 121; 8197; 115; 101; 99; 111; 110; 100; 8198; 73; 39; 109; 8199; 99; 101; 114; 116; 97; 105; 110; 108; 121; 8200; 114; 101; 99; 107; 111; 110; 101; 100; 8201; 97; 8202; 116; 114; 117; 101; 8239; 112; 104; 105; 108; 97; 110; 116; 104; 114; 111; 112; 105; 115; 116; 8287; 46; 10; 0]);
  do t5 <- trimWhiteSpace_32 t4;
  dos t6 <- basic_string (At [13; 65; 9; 109; 111; 114; 101; 10; 104; 117; 109; 97; 110; 101; 13; 77; 105; 107; 97; 100; 111; 160; 110; 101; 118; 101; 114; 8192; 100; 105; 100; 8193; 105; 110; 8194; 74; 97; 112; 97; 110; 8195; 101; 120; 105; 115; 116; 46; 12288; 84; 111; 8196; 110; 111; 98; 111; 100; 121; 8197; 115; 101; 99; 111; 110; 100; 8198; 73; 39; 109; 8199; 99; 101; 114; 116; 97; 105; 110; 108; 121; 8200; 114; 101; 99; 107; 111; 110; 101; 100; 8201; 97; 8202; 116; 114; 117; 101; 8239; 112; 104; 105; 108; 97; 110; 116; 104; 114; 111; 112; 105; 115; 116; 8287; 46; 13; 0]);
  do t7 <- trimWhiteSpace_32 t6;
  dos t8 <- basic_string (At [32; 65; 9; 109; 111; 114; 101; 10; 104; 117; 109; 97; 110; 101; 13; 77; 105; 107; 97; 100; 111; 160; 110; 101; 118; 101; 114; 8192; 100; 105; 100; 8193; 105; 110; 8194; 74; 97; 112; 97; 110; 8195; 101; 120; 105; 115; 116; 46; 12288; 84; 111; 8196; 110; 111; 98; 111; 100; 121; 8197; 115; 101; 99; 111; 110; 100; 8198; 73; 39; 109; 8199; 99; 101; 114; 116; 97; 105; 110; 108; 121; 8200; 114; 101; 99; 107; 111; 110; 101; 100; 8201; 97; 8202; 116; 114; 117; 101; 8239; 112; 104; 105; 108; 97; 110; 116; 104; 114; 111; 112; 105; 115; 116; 8287; 46; 32; 0]);
  do t9 <- trimWhiteSpace_32 t8;
  dos t10 <- basic_string (At [160; 65; 9; 109; 111; 114; 101; 10; 104; 117; 109; 97; 110; 101; 13; 77; 105; 107; 97; 100; 111; 160; 110; 101; 118; 101; 114; 8192; 100; 105; 100; 8193; 105; 110; 8194; 74; 97; 112; 97; 110; 8195; 101; 120; 105; 115; 116; 46; 12288; 84; 111; 8196; 110; 111; 98; 111; 100; 121; 8197; 115; 101; 99; 111; 110; 100; 8198; 73; 39; 109; 8199; 99; 101; 114; 116; 97; 105; 110; 108; 121; 8200; 114; 101; 99; 107; 111; 110; 101; 100; 8201; 97; 8202; 116; 114; 117; 101; 8239; 112; 104; 105; 108; 97; 110; 116; 104; 114; 111; 112; 105; 115; 116; 8287; 46; 160; 0]);
  do t11 <- trimWhiteSpace_32 t10;
  dos t12 <- basic_string (At [8192; 65; 9; 109; 111; 114; 101; 10; 104; 117; 109; 97; 110; 101; 13; 77; 105; 107; 97; 100; 111; 160; 110; 101; 118; 101; 114; 8192; 100; 105; 100; 8193; 105; 110; 8194; 74; 97; 112; 97; 110; 8195; 101; 120; 105; 115; 116; 46; 12288; 84; 111; 8196; 110; 111; 98; 111; 100; 121; 8197; 115; 101; 99; 111; 110; 100; 8198; 73; 39; 109; 8199; 99; 101; 114; 116; 97; 105; 110; 108; 121; 8200; 114; 101; 99; 107; 111; 110; 101; 100; 8201; 97; 8202; 116; 114; 117; 101; 8239; 112; 104; 105; 108; 97; 110; 116; 104; 114; 111; 112; 105; 115; 116; 8287; 46; 8192; 0]);
  do t13 <- trimWhiteSpace_32 t12;
  dos t14 <- basic_string (At [8193; 65; 9; 109; 111; 114; 101; 10; 104; 117; 109; 97; 110; 101; 13; 77; 105; 107; 97; 100; 111; 160; 110; 101; 118; 101; 114; 8192; 100; 105; 100; 8193; 105; 110; 8194; 74; 97; 112; 97; 110; 8195; 101; 120; 105; 115; 116; 46; 12288; 84; 111; 8196; 110; 111; 98; 111; 100; 121; 8197; 115; 101; 99; 111; 110; 100; 8198; 73; 39; 109; 8199; 99; 101; 114; 116; 97; 105; 110; 108; 121; 8200; 114; 101; 99; 107; 111; 110; 101; 100; 8201; 97; 8202; 116; 114; 117; 101; 8239; 112; 104; 105; 108; 97; 110; 116; 104; 114; 111; 112; 105; 115; 116; 8287; 46; 8193; 0]);
  do t15 <- trimWhiteSpace_32 t14;
  dos t16 <- basic_string (At [8194; 65; 9; 109; 111; 114; 101; 10; 104; 117; 109; 97; 110; 101; 13; 77; 105; 107; 97; 100; 111; 160; 110; 101; 118; 101; 114; 8192; 100; 105; 100; 8193; 105; 110; 8194; 74; 97; 112; 97; 110; 8195; 101; 120; 105; 115; 116; 46; 12288; 84; 111; 8196; 110; 111; 98; 111; 100; 121; 8197; 115; 101; 99; 111; 110; 100; 8198; 73; 39; 109; 8199; 99; 101; 114; 116; 97; 105; 110; 108; 121; 8200; 114; 101; 99; 107; 111; 110; 101; 100; 8201; 97; 8202; 116; 114; 117; 101; 8239; 112; 104; 105; 108; 97; 110; 116; 104; 114; 111; 112; 105; 115; 116; 8287; 46; 8194; 0]);
  do t17 <- trimWhiteSpace_32 t16;
  dos t18 <- basic_string (At [8195; 65; 9; 109; 111; 114; 101; 10; 104; 117; 109; 97; 110; 101; 13; 77; 105; 107; 97; 100; 111; 160; 110; 101; 118; 101; 114; 8192; 100; 105; 100; 8193; 105; 110; 8194; 74; 97; 112; 97; 110; 8195; 101; 120; 105; 115; 116; 46; 12288; 84; 111; 8196; 110; 111; 98; 111; 100; 121; 8197; 115; 101; 99; 111; 110; 100; 8198; 73; 39; 109; 8199; 99; 101; 114; 116; 97; 105; 110; 108; 121; 8200; 114; 101; 99; 107; 111; 110; 101; 100; 8201; 97; 8202; 116; 114; 117; 101; 8239; 112; 104; 105; 108; 97; 110; 116; 104; 114; 111; 112; 105; 115; 116; 8287; 46; 8195; 0]);
  do t19 <- trimWhiteSpace_32 t18;
  dos t20 <- basic_string (At [8196; 65; 9; 109; 111; 114; 101; 10; 104; 117; 109; 97; 110; 101; 13; 77; 105; 107; 97; 100; 111; 160; 110; 101; 118; 101; 114; 8192; 100; 105; 100; 8193; 105; 110; 8194; 74; 97; 112; 97; 110; 8195; 101; 120; 105; 115; 116; 46; 12288; 84; 111; 8196; 110; 111; 98; 111; 100; 121; 8197; 115; 101; 99; 111; 110; 100; 8198; 73; 39; 109; 8199; 99; 101; 114; 116; 97; 105; 110; 108; 121; 8200; 114; 101; 99; 107; 111; 110; 101; 100; 8201; 97; 8202; 116; 114; 117; 101; 8239; 112; 104; 105; 108; 97; 110; 116; 104; 114; 111; 112; 105; 115; 116; 8287; 46; 8196; 0]);
  do t21 <- trimWhiteSpace_32 t20;
  dos t22 <- basic_string (At [8197; 65; 9; 109; 111; 114; 101; 10; 104; 117; 109; 97; 110; 101; 13; 77; 105; 107; 97; 100; 111; 160; 110; 101; 118; 101; 114; 8192; 100; 105; 100; 8193; 105; 110; 8194; 74; 97; 112; 97; 110; 8195; 101; 120; 105; 115; 116; 46; 12288; 84; 111; 8196; 110; 111; 98; 111; 100; 121; 8197; 115; 101; 99; 111; 110; 100; 8198; 73; 39; 109; 8199; 99; 101; 114; 116; 97; 105; 110; 108; 121; 8200; 114; 101; 99; 107; 111; 110; 101; 100; 8201; 97; 8202; 116; 114; 117; 101; 8239; 112; 104; 105; 108; 97; 110; 116; 104; 114; 111; 112; 105; 115; 116; 8287; 46; 8197; 0]);
  do t23 <- trimWhiteSpace_32 t22;
  dos t24 <- basic_string (At [8198; 65; 9; 109; 111; 114; 101; 10; 104; 117; 109; 97; 110; 101; 13; 77; 105; 107; 97; 100; 111; 160; 110; 101; 118; 101; 114; 8192; 100; 105; 100; 8193; 105; 110; 8194; 74; 97; 112; 97; 110; 8195; 101; 120; 105; 115; 116; 46; 12288; 84; 111; 8196; 110; 111; 98; 111; 100; 121; 8197; 115; 101; 99; 111; 110; 100; 8198; 73; 39; 109; 8199; 99; 101; 114; 116; 97; 105; 110; 108; 121; 8200; 114; 101; 99; 107; 111; 110; 101; 100; 8201; 97; 8202; 116; 114; 117; 101; 8239; 112; 104; 105; 108; 97; 110; 116; 104; 114; 111; 112; 105; 115; 116; 8287; 46; 8198; 0]);
  do t25 <- trimWhiteSpace_32 t24;
  dos t26 <- basic_string (At [8199; 65; 9; 109; 111; 114; 101; 10; 104; 117; 109; 97; 110; 101; 13; 77; 105; 107; 97; 100; 111; 160; 110; 101; 118; 101; 114; 8192; 100; 105; 100; 8193; 105; 110; 8194; 74; 97; 112; 97; 110; 8195; 101; 120; 105; 115; 116; 46; 12288; 84; 111; 8196; 110; 111; 98; 111; 100; 121; 8197; 115; 101; 99; 111; 110; 100; 8198; 73; 39; 109; 8199; 99; 101; 114; 116; 97; 105; 110; 108; 121; 8200; 114; 101; 99; 107; 111; 110; 101; 100; 8201; 97; 8202; 116; 114; 117; 101; 8239; 112; 104; 105; 108; 97; 110; 116; 104; 114; 111; 112; 105; 115; 116; 8287; 46; 8199; 0]);
  do t27 <- trimWhiteSpace_32 t26;
  dos t28 <- basic_string (At [8200; 65; 9; 109; 111; 114; 101; 10; 104; 117; 109; 97; 110; 101; 13; 77; 105; 107; 97; 100; 111; 160; 110; 101; 118; 101; 114; 8192; 100; 105; 100; 8193; 105; 110; 8194; 74; 97; 112; 97; 110; 8195; 101; 120; 105; 115; 116; 46; 12288; 84; 111; 8196; 110; 111; 98; 111; 100; 121; 8197; 115; 101; 99; 111; 110; 100; 8198; 73; 39; 109; 8199; 99; 101; 114; 116; 97; 105; 110; 108; 121; 8200; 114; 101; 99; 107; 111; 110; 101; 100; 8201; 97; 8202; 116; 114; 117; 101; 8239; 112; 104; 105; 108; 97; 110; 116; 104; 114; 111; 112; 105; 115; 116; 8287; 46; 8200; 0]);
  do t29 <- trimWhiteSpace_32 t28;
  dos t30 <- basic_string (At [8201; 65; 9; 109; 111; 114; 101; 10; 104; 117; 109; 97; 110; 101; 13; 77; 105; 107; 97; 100; 111; 160; 110; 101; 118; 101; 114; 8192; 100; 105; 100; 8193; 105; 110; 8194; 74; 97; 112; 97; 110; 8195; 101; 120; 105; 115; 116; 46; 12288; 84; 111; 8196; 110; 111; 98; 111; 100; 121; 8197; 115; 101; 99; 111; 110; 100; 8198; 73; 39; 109; 8199; 99; 101; 114; 116; 97; 105; 110; 108; 121; 8200; 114; 101; 99; 107; 111; 110; 101; 100; 8201; 97; 8202; 116; 114; 117; 101; 8239; 112; 104; 105; 108; 97; 110; 116; 104; 114; 111; 112; 105; 115; 116; 8287; 46; 8201; 0]);
  do t31 <- trimWhiteSpace_32 t30;
  dos t32 <- basic_string (At [8202; 65; 9; 109; 111; 114; 101; 10; 104; 117; 109; 97; 110; 101; 13; 77; 105; 107; 97; 100; 111; 160; 110; 101; 118; 101; 114; 8192; 100; 105; 100; 8193; 105; 110; 8194; 74; 97; 112; 97; 110; 8195; 101; 120; 105; 115; 116; 46; 12288; 84; 111; 8196; 110; 111; 98; 111; 100; 121; 8197; 115; 101; 99; 111; 110; 100; 8198; 73; 39; 109; 8199; 99; 101; 114; 116; 97; 105; 110; 108; 121; 8200; 114; 101; 99; 107; 111; 110; 101; 100; 8201; 97; 8202; 116; 114; 117; 101; 8239; 112; 104; 105; 108; 97; 110; 116; 104; 114; 111; 112; 105; 115; 116; 8287; 46; 8202; 0]);
  do t33 <- trimWhiteSpace_32 t32;
  dos t34 <- basic_string (At [8239; 65; 9; 109; 111; 114; 101; 10; 104; 117; 109; 97; 110; 101; 13; 77; 105; 107; 97; 100; 111; 160; 110; 101; 118; 101; 114; 8192; 100; 105; 100; 8193; 105; 110; 8194; 74; 97; 112; 97; 110; 8195; 101; 120; 105; 115; 116; 46; 12288; 84; 111; 8196; 110; 111; 98; 111; 100; 121; 8197; 115; 101; 99; 111; 110; 100; 8198; 73; 39; 109; 8199; 99; 101; 114; 116; 97; 105; 110; 108; 121; 8200; 114; 101; 99; 107; 111; 110; 101; 100; 8201; 97; 8202; 116; 114; 117; 101; 8239; 112; 104; 105; 108; 97; 110; 116; 104; 114; 111; 112; 105; 115; 116; 8287; 46; 8239; 0]);
  do t35 <- trimWhiteSpace_32 t34;
  dos t36 <- basic_string (At [8287; 65; 9; 109; 111; 114; 101; 10; 104; 117; 109; 97; 110; 101; 13; 77; 105; 107; 97; 100; 111; 160; 110; 101; 118; 101; 114; 8192; 100; 105; 100; 8193; 105; 110; 8194; 74; 97; 112; 97; 110; 8195; 101; 120; 105; 115; 116; 46; 12288; 84; 111; 8196; 110; 111; 98; 111; 100; 121; 8197; 115; 101; 99; 111; 110; 100; 8198; 73; 39; 109; 8199; 99; 101; 114; 116; 97; 105; 110; 108; 121; 8200; 114; 101; 99; 107; 111; 110; 101; 100; 8201; 97; 8202; 116; 114; 117; 101; 8239; 112; 104; 105; 108; 97; 110; 116; 104; 114; 111; 112; 105; 115; 116; 8287; 46; 8287; 0]);
  do t37 <- trimWhiteSpace_32 t36;
  dos t38 <- basic_string (At [12288; 65; 9; 109; 111; 114; 101; 10; 104; 117; 109; 97; 110; 101; 13; 77; 105; 107; 97; 100; 111; 160; 110; 101; 118; 101; 114; 8192; 100; 105; 100; 8193; 105; 110; 8194; 74; 97; 112; 97; 110; 8195; 101; 120; 105; 115; 116; 46; 12288; 84; 111; 8196; 110; 111; 98; 111; 100; 121; 8197; 115; 101; 99; 111; 110; 100; 8198; 73; 39; 109; 8199; 99; 101; 114; 116; 97; 105; 110; 108; 121; 8200; 114; 101; 99; 107; 111; 110; 101; 100; 8201; 97; 8202; 116; 114; 117; 101; 8239; 112; 104; 105; 108; 97; 110; 116; 104; 114; 111; 112; 105; 115; 116; 8287; 46; 12288; 0]);
  do t39 <- trimWhiteSpace_32 t38;
  Done [(list_eqb t1 t3);
        (list_eqb t1 t5);
        (list_eqb t1 t7);
        (list_eqb t1 t9);
        (list_eqb t1 t11);
        (list_eqb t1 t13);
        (list_eqb t1 t15);
        (list_eqb t1 t17);
        (list_eqb t1 t19);
        (list_eqb t1 t21);
        (list_eqb t1 t23);
        (list_eqb t1 t25);
        (list_eqb t1 t27);
        (list_eqb t1 t29);
        (list_eqb t1 t31);
        (list_eqb t1 t33);
        (list_eqb t1 t35);
        (list_eqb t1 t37);
        (list_eqb t1 t39)].
Example run_otherWhites32_passes : all_true (run_otherWhites32 (tables V16)) = true.
Proof. vm_cast_no_check (eq_refl true). Qed.
