(* C69 - C71: texts that arrive piece by piece, sizes of results. *)
From Coq Require Import ZArith List Bool Lia.
From Verif Require Import Machine.
From Verif.Model Require Import Internal Tables Predicate Str.
From Verif.Spec Require Import Utf Target Result Prefix.
From Verif.Proof Require Import PrefixFacts Witness.
Import ListNotations.
Local Open Scope Z_scope.

(* ---- C69: what passes keeps passing when cut ---- *)
Theorem C69_isUtf8 : forall T pred t, cuts_to_true text8 (fun p => isUtf8 T p (code t) pred).
Proof. exact isUtf8_cuts. Qed.
Print Assumptions C69_isUtf8.

Theorem C69_isUtf16 : forall T pred t, cuts_to_true text16 (fun p => isUtf16 T p (code t) pred).
Proof. exact isUtf16_cuts. Qed.
Print Assumptions C69_isUtf16.

Theorem C69_isUcs2 : forall T pred t, cuts_to_true text16 (fun p => isUcs2 T p (code t) pred).
Proof. exact isUcs2_cuts. Qed.
Print Assumptions C69_isUcs2.

Theorem C69_isUcs4 : forall T pred t, cuts_to_true text32 (fun p => isUcs4 T p (code t) pred).
Proof. exact isUcs4_cuts. Qed.
Print Assumptions C69_isUcs4.

(* U+20AC and U+1F600, cut inside the second sequence; and a text no appending can mend *)
Example C69_case : text8 ([0xE2; 0x82; 0xAC; 0xF0; 0x9F] ++ [0x98; 0x80]) /\
  isUtf8 (tables V7) (At [0xE2; 0x82; 0xAC; 0xF0; 0x9F; 0x98; 0x80; 0]) kUnicode (validIf kIsAssigned) = Done true /\
  isUtf8 (tables V7) (At [0xE2; 0x82; 0xAC; 0xF0; 0x9F; 0]) kUnicode (validIf kIsAssigned) = Done true /\
  isUtf16 (tables V7) (At [0x41; 0xD83D; 0xDE00; 0]) kUnicode nullPredicate = Done true /\
  isUtf16 (tables V7) (At [0x41; 0xD83D; 0]) kUnicode nullPredicate = Done true /\
  isUtf8 (tables V7) (At [0xE2; 0x28; 0]) kUnicode nullPredicate = Done false /\
  isUtf8 (tables V7) (At [0xE2; 0x28; 0xA1; 0]) kUnicode nullPredicate = Done false.
Proof. split; [range|]. repeat split. Qed.

(* ---- C70: converting a beginning gives a beginning ---- *)
Theorem C70_toUcs4_8 : cuts_to_prefix text8 toUcs4_8.
Proof. exact toUcs4_8_cuts. Qed.
Print Assumptions C70_toUcs4_8.

Theorem C70_toUtf16_8 : cuts_to_prefix text8 toUtf16_8.
Proof. exact toUtf16_8_cuts. Qed.
Print Assumptions C70_toUtf16_8.

Theorem C70_toUcs2_8 : cuts_to_prefix text8 toUcs2_8.
Proof. exact toUcs2_8_cuts. Qed.
Print Assumptions C70_toUcs2_8.

Theorem C70_toUcs4_16 : cuts_to_prefix text16 toUcs4_16.
Proof. exact toUcs4_16_cuts. Qed.
Print Assumptions C70_toUcs4_16.

Theorem C70_toUtf8_16 : cuts_to_prefix text16 toUtf8_16.
Proof. exact toUtf8_16_cuts. Qed.
Print Assumptions C70_toUtf8_16.

Theorem C70_toUtf8_32 : cuts_to_prefix text32 toUtf8_32.
Proof. exact toUtf8_32_cuts. Qed.
Print Assumptions C70_toUtf8_32.

Theorem C70_toUtf16_32 : cuts_to_prefix text32 toUtf16_32.
Proof. exact toUtf16_32_cuts. Qed.
Print Assumptions C70_toUtf16_32.

Theorem C70_toUcs2_32 : cuts_to_prefix text32 toUcs2_32.
Proof. exact toUcs2_32_cuts. Qed.
Print Assumptions C70_toUcs2_32.

Example C70_case : toUcs4_8 (At [0x41; 0xE2; 0x82; 0xAC; 0x42; 0]) = Done [0x41; 0x20AC; 0x42] /\
  toUcs4_8 (At [0x41; 0xE2; 0x82; 0]) = Done [0x41] /\ prefix [0x41] [0x41; 0x20AC; 0x42] /\
  toUtf8_16 (At [0x41; 0xD83D; 0xDE00; 0]) = Done [0x41; 0xF0; 0x9F; 0x98; 0x80] /\
  toUtf8_16 (At [0x41; 0xD83D; 0]) = Done [0x41].
Proof. split; [reflexivity|]. split; [reflexivity|]. split; [exists [0x20AC; 0x42]; reflexivity|]. split; reflexivity. Qed.

(* ---- C71: sizes ---- *)
Theorem C71_toUcs4_8 : sized text8 1 6 5 toUcs4_8.
Proof. exact toUcs4_8_sized. Qed.
Print Assumptions C71_toUcs4_8.

Theorem C71_toUtf16_8 : sized text8 1 3 5 toUtf16_8.
Proof. exact toUtf16_8_sized. Qed.
Print Assumptions C71_toUtf16_8.

Theorem C71_toUcs2_8 : sized text8 1 3 5 toUcs2_8.
Proof. exact toUcs2_8_sized. Qed.
Print Assumptions C71_toUcs2_8.

Theorem C71_toUcs4_16 : sized text16 1 2 1 toUcs4_16.
Proof. exact toUcs4_16_sized. Qed.
Print Assumptions C71_toUcs4_16.

Theorem C71_toUtf8_16 : sized text16 3 1 1 toUtf8_16.
Proof. exact toUtf8_16_sized. Qed.
Print Assumptions C71_toUtf8_16.

Theorem C71_toUtf8_32 : sized text32 6 1 0 toUtf8_32.
Proof. exact toUtf8_32_sized. Qed.
Print Assumptions C71_toUtf8_32.

Theorem C71_toUtf16_32 : sized text32 2 1 0 toUtf16_32.
Proof. exact toUtf16_32_sized. Qed.
Print Assumptions C71_toUtf16_32.

Theorem C71_toUcs2_32 : sized text32 1 1 0 toUcs2_32.
Proof. exact toUcs2_32_sized. Qed.
Print Assumptions C71_toUcs2_32.

Theorem C71_toUtf8_32_unicode : sized (Forall scalar) 4 1 0 toUtf8_32.
Proof. exact toUtf8_32_sized_unicode. Qed.
Print Assumptions C71_toUtf8_32_unicode.

(* the bounds are reached *)
Example C71_case : toUcs4_8 (At ([0xFD; 0xBF; 0xBF; 0xBF; 0xBF; 0xBF] ++ [0xFC; 0x84; 0x80; 0x80; 0x80] ++ [0])) = Done [0x7FFFFFFF] /\
  len ([0xFD; 0xBF; 0xBF; 0xBF; 0xBF; 0xBF] ++ [0xFC; 0x84; 0x80; 0x80; 0x80]) = 6 * len [0x7FFFFFFF] + 5 /\
  toUtf16_8 (At [0xE2; 0x82; 0xAC; 0]) = Done [0x20AC] /\
  toUtf8_16 (At [0x20AC; 0xD800; 0]) = Done [0xE2; 0x82; 0xAC] /\
  toUtf8_32 (At [0x10FFFF; 0]) = Done [0xF4; 0x8F; 0xBF; 0xBF] /\
  toUtf8_32 (At [0x7FFFFFFF; 0]) = Done [0xFD; 0xBF; 0xBF; 0xBF; 0xBF; 0xBF].
Proof. repeat split. Qed.
