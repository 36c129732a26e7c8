(* The library source as parsed (Gen/Source.v), run by the semantics of Cxx/Semantics.v, does what the model
   says: C85 (the checks).  Pointers formed outside arrays: C86. *)
From Coq Require Import ZArith List Bool String.
From Verif Require Import Machine.
From Verif.Model Require Import Tables Internal Predicate Decode Str Sugar.
From Verif.Cxx Require Import Syntax Semantics Program Values.
From Verif.Spec Require Import Utf.
From Verif.Proof Require Import CxxMono CxxAnswers.
Import ListNotations.
Local Open Scope string_scope.
Local Open Scope list_scope.
Local Open Scope Z_scope.

(* ---------------------------------------------------------------- C85 *)

Theorem C85_isUtf8 : forall I T,
  (forall arr p t pred, points_into byte arr p -> may_step_back I arr p -> int32 t -> pred_ok pred ->
     runs_to I T "isUtf8" [vptr Char arr p; VI Enum t; vpred pred] (boolean (isUtf8 T p t pred))) /\
  (forall s t pred, Forall byte s -> pointer_checks I = false -> int32 t -> pred_ok pred ->
     runs_to I T "isUtf8" [VS Char s; VI Enum t; vpred pred] (boolean (isUtf8_string T s t pred))) /\
  (forall arr p pred, points_into byte arr p -> may_step_back I arr p -> pred_ok pred ->
     runs_to I T "isUtf8" [vptr Char arr p; vpred pred] (boolean (isUtf8_pred T p pred))) /\
  (forall s pred, Forall byte s -> pointer_checks I = false -> pred_ok pred ->
     runs_to I T "isUtf8" [VS Char s; vpred pred] (boolean (isUtf8_pred T (c_str s) pred))) /\
  (forall arr p, points_into byte arr p -> may_step_back I arr p ->
     runs_to I T "isUtf8" [vptr Char arr p] (boolean (isUtf8_bare T p))) /\
  (forall arr p t, points_into byte arr p -> may_step_back I arr p -> int32 t ->
     runs_to I T "isUtf8" [vptr Char arr p; VI Enum t] (boolean (isUtf8 T p t nullPredicate))) /\
  (forall s, Forall byte s -> pointer_checks I = false ->
     runs_to I T "isUtf8" [VS Char s] (boolean (isUtf8_bare T (c_str s)))) /\
  (forall s t, Forall byte s -> pointer_checks I = false -> int32 t ->
     runs_to I T "isUtf8" [VS Char s; VI Enum t] (boolean (isUtf8 T (c_str s) t nullPredicate))) /\
  (forall arr p n pred, points_into byte arr p -> may_step_back I arr p -> uint32 n -> pred_ok pred ->
     runs_to I T "isUtf8" [vptr Char arr p; VI UInt n; vpred pred] (boolean (isUtf8_length T p n pred))) /\
  (forall arr p n, points_into byte arr p -> may_step_back I arr p -> uint32 n ->
     runs_to I T "isUtf8" [vptr Char arr p; VI UInt n] (boolean (isUtf8_length T p n nullPredicate))).
Proof. exact all_isUtf8. Qed.
Print Assumptions C85_isUtf8.

Theorem C85_isUtf16 : forall I T,
  (forall arr p t pred, points_into unit16 arr p -> int32 t -> pred_ok pred ->
     runs_to I T "isUtf16" [vptr Char16 arr p; VI Enum t; vpred pred] (boolean (isUtf16 T p t pred))) /\
  (forall s t pred, Forall unit16 s -> int32 t -> pred_ok pred ->
     runs_to I T "isUtf16" [VS Char16 s; VI Enum t; vpred pred] (boolean (isUtf16_string T s t pred))) /\
  (forall arr p pred, points_into unit16 arr p -> pred_ok pred ->
     runs_to I T "isUtf16" [vptr Char16 arr p; vpred pred] (boolean (isUtf16_pred T p pred))) /\
  (forall s pred, Forall unit16 s -> pred_ok pred ->
     runs_to I T "isUtf16" [VS Char16 s; vpred pred] (boolean (isUtf16_pred T (c_str s) pred))) /\
  (forall arr p, points_into unit16 arr p ->
     runs_to I T "isUtf16" [vptr Char16 arr p] (boolean (isUtf16_bare T p))) /\
  (forall arr p t, points_into unit16 arr p -> int32 t ->
     runs_to I T "isUtf16" [vptr Char16 arr p; VI Enum t] (boolean (isUtf16 T p t nullPredicate))) /\
  (forall s, Forall unit16 s ->
     runs_to I T "isUtf16" [VS Char16 s] (boolean (isUtf16_bare T (c_str s)))) /\
  (forall s t, Forall unit16 s -> int32 t ->
     runs_to I T "isUtf16" [VS Char16 s; VI Enum t] (boolean (isUtf16 T (c_str s) t nullPredicate))).
Proof. exact all_isUtf16. Qed.
Print Assumptions C85_isUtf16.

Theorem C85_isUcs2 : forall I T,
  (forall arr p t pred, points_into unit16 arr p -> int32 t -> pred_ok pred ->
     runs_to I T "isUcs2" [vptr Char16 arr p; VI Enum t; vpred pred] (boolean (isUcs2 T p t pred))) /\
  (forall s t pred, Forall unit16 s -> int32 t -> pred_ok pred ->
     runs_to I T "isUcs2" [VS Char16 s; VI Enum t; vpred pred] (boolean (isUcs2_string T s t pred))) /\
  (forall arr p pred, points_into unit16 arr p -> pred_ok pred ->
     runs_to I T "isUcs2" [vptr Char16 arr p; vpred pred] (boolean (isUcs2_pred T p pred))) /\
  (forall s pred, Forall unit16 s -> pred_ok pred ->
     runs_to I T "isUcs2" [VS Char16 s; vpred pred] (boolean (isUcs2_pred T (c_str s) pred))) /\
  (forall arr p, points_into unit16 arr p ->
     runs_to I T "isUcs2" [vptr Char16 arr p] (boolean (isUcs2_bare T p))) /\
  (forall arr p t, points_into unit16 arr p -> int32 t ->
     runs_to I T "isUcs2" [vptr Char16 arr p; VI Enum t] (boolean (isUcs2 T p t nullPredicate))) /\
  (forall s, Forall unit16 s ->
     runs_to I T "isUcs2" [VS Char16 s] (boolean (isUcs2_bare T (c_str s)))) /\
  (forall s t, Forall unit16 s -> int32 t ->
     runs_to I T "isUcs2" [VS Char16 s; VI Enum t] (boolean (isUcs2 T (c_str s) t nullPredicate))).
Proof. exact all_isUcs2. Qed.
Print Assumptions C85_isUcs2.

Theorem C85_isUcs4 : forall I T,
  (forall arr p t pred, points_into unit32 arr p -> int32 t -> pred_ok pred ->
     runs_to I T "isUcs4" [vptr Char32 arr p; VI Enum t; vpred pred] (boolean (isUcs4 T p t pred))) /\
  (forall s t pred, Forall unit32 s -> int32 t -> pred_ok pred ->
     runs_to I T "isUcs4" [VS Char32 s; VI Enum t; vpred pred] (boolean (isUcs4_string T s t pred))) /\
  (forall arr p pred, points_into unit32 arr p -> pred_ok pred ->
     runs_to I T "isUcs4" [vptr Char32 arr p; vpred pred] (boolean (isUcs4_pred T p pred))) /\
  (forall s pred, Forall unit32 s -> pred_ok pred ->
     runs_to I T "isUcs4" [VS Char32 s; vpred pred] (boolean (isUcs4_pred T (c_str s) pred))) /\
  (forall arr p, points_into unit32 arr p ->
     runs_to I T "isUcs4" [vptr Char32 arr p] (boolean (isUcs4_bare T p))) /\
  (forall arr p t, points_into unit32 arr p -> int32 t ->
     runs_to I T "isUcs4" [vptr Char32 arr p; VI Enum t] (boolean (isUcs4 T p t nullPredicate))) /\
  (forall s, Forall unit32 s ->
     runs_to I T "isUcs4" [VS Char32 s] (boolean (isUcs4_bare T (c_str s)))) /\
  (forall s t, Forall unit32 s -> int32 t ->
     runs_to I T "isUcs4" [VS Char32 s; VI Enum t] (boolean (isUcs4 T (c_str s) t nullPredicate))).
Proof. exact all_isUcs4. Qed.
Print Assumptions C85_isUcs4.

(* the hypotheses are met and the source runs: C3 A9 is one character, and C3 29 is none; a char of 0xC3 is negative
   under the first implementation and positive under the second *)
Definition signed_chars : implementation := {| char_signed := true; pointer_checks := false; configured := Wchar32 |}.
Definition unsigned_chars : implementation := {| char_signed := false; pointer_checks := false; configured := Wchar32 |}.
Definition strict : implementation := {| char_signed := true; pointer_checks := true; configured := Wchar32 |}.
Definition noControl : EncodingCheckPredicate := {| m_mask := 8; m_value := 0 |}.

Ltac run_it := apply (runs_from _ _ 20 10); [vm_compute; discriminate | vm_compute; reflexivity].

Example C85_case_utf8 :
  Forall byte [0x41; 0xC3; 0xA9] /\ int32 kUtf8 /\ pred_ok noControl /\
  runs_to signed_chars tables16 "isUtf8" [VS Char [0x41; 0xC3; 0xA9]; VI Enum kUtf8; vpred noControl] (Done (VB true)) /\
  runs_to unsigned_chars tables16 "isUtf8" [VS Char [0x41; 0xC3; 0xA9]] (Done (VB true)) /\
  runs_to signed_chars tables16 "isUtf8" [VS Char [0x41; 0xC3; 0x29]] (Done (VB false)) /\
  runs_to signed_chars tables16 "isUtf8" [VS Char [0x41; 0x0A]; vpred noControl] (Done (VB false)).
Proof.
  split; [repeat constructor; discriminate|]. split; [vm_compute; split; congruence|].
  split; [split; vm_compute; split; congruence|]. repeat split; run_it.
Qed.
Example C85_case_pointer :
  points_into byte [0x58; 0x41; 0xC3; 0xA9; 0] (At [0x41; 0xC3; 0xA9; 0]) /\
  may_step_back strict [0x58; 0x41; 0xC3; 0xA9; 0] (At [0x41; 0xC3; 0xA9; 0]) /\ uint32 2 /\
  runs_to strict tables16 "isUtf8" [vptr Char [0x58; 0x41; 0xC3; 0xA9; 0] (At [0x41; 0xC3; 0xA9; 0])] (Done (VB true)) /\
  runs_to strict tables16 "isUtf8" [vptr Char [0x58; 0x41; 0xC3; 0xA9; 0] (At [0x41; 0xC3; 0xA9; 0]); VI UInt 2] (Done (VB true)) /\
  runs_to strict tables16 "isUtf8" [VP Char PNull] (Done (VB true)) /\
  runs_to strict tables16 "isUtf8" [vptr Char [0x58; 0x41] (At [0x41])] Undefined.
Proof.
  split; [split; [exists [0x58]; reflexivity | repeat constructor; discriminate]|].
  split; [right; reflexivity|]. split; [vm_compute; split; congruence|]. repeat split; run_it.
Qed.
Example C85_case_utf16 :
  Forall unit16 [0xD83D; 0xDE00] /\
  runs_to strict tables16 "isUtf16" [VS Char16 [0xD83D; 0xDE00]] (Done (VB true)) /\
  runs_to strict tables16 "isUtf16" [VS Char16 [0xD83D; 0x41]] (Done (VB false)) /\
  runs_to strict tables16 "isUcs2" [VS Char16 [0xD83D; 0xDE00]] (Done (VB false)) /\
  runs_to strict tables16 "isUcs2" [VS Char16 [0xFFFF]; VI Enum kAscii] (Done (VB false)) /\
  runs_to strict tables16 "isUcs4" [VS Char32 [0x1F600]; vpred noControl] (Done (VB true)) /\
  runs_to strict tables16 "isUcs4" [VS Char32 [0xD800]; VI Enum kUnicode] (Done (VB false)).
Proof.
  split; [repeat constructor; discriminate|]. repeat split; run_it.
Qed.

(* ---------------------------------------------------------------- C86 *)

(* By the letter of the standard isUtf8 is undefined for every text that begins its array, as every string does. *)
Theorem C86_isUtf8_refuted : exists I T s, Forall byte s /\ ~ In 0 s /\
  isUtf8_string T s kUtf8 nullPredicate = Done true /\ runs_to I T "isUtf8" [VS Char s] Undefined.
Proof. exact steps_back. Qed.
Print Assumptions C86_isUtf8_refuted.
