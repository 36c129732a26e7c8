(* The library source as parsed, where wchar_t has 16 bits and on Windows: the wchar_t functions (C100), the functions
   on narrow strings and on TCHAR strings (C101) are what the model says; toTstring of a string against toTstring of its
   characters (C102); what the wchar_t functions are in terms of the specification, in every configuration (C103). *)
From Coq Require Import ZArith List Bool String.
From Verif Require Import Machine.
From Verif.Model Require Import Tables Internal Predicate Decode Str Wide Tchar.
From Verif.Cxx Require Import Syntax Semantics Configurations Program Values Linked.
From Verif.Spec Require Import Utf Target Result Version Source Linked WideSource.
From Verif.Proof Require Import TablesFacts CxxMono CxxWides16 CxxWideEnd.
Import ListNotations.
Local Open Scope string_scope.
Local Open Scope list_scope.
Local Open Scope Z_scope.

(* signed char, forming a pointer before an array undefined *)
Definition strict_at (c : configuration) : implementation := {| char_signed := true; pointer_checks := true; configured := c |}.
(* one run settles what a call does *)
Ltac run_it := apply (runs_from _ _ 20 10); [vm_compute; discriminate | vm_compute; reflexivity].
Ltac cases := repeat lazymatch goal with |- _ /\ _ => split end; run_it.

(* ---------------------------------------------------------------- C100 *)

Theorem C100_checks : forall I T, wide16 (configured I) = true ->
  (forall arr p, points_into unit16 arr p ->
     runs_to I T "isUtf8" [vptr WChar16 arr p] (boolean (w16_isUtf8 T p))) /\
  (forall s, Forall unit16 s ->
     runs_to I T "isUtf8" [VS WChar16 s] (boolean (w16_isUtf8 T (c_str s)))) /\
  (forall arr p, points_into unit16 arr p ->
     runs_to I T "isUtf16" [vptr WChar16 arr p] (boolean (w16_isUtf16 T p))) /\
  (forall s, Forall unit16 s ->
     runs_to I T "isUtf16" [VS WChar16 s] (boolean (w16_isUtf16 T (c_str s)))) /\
  (forall arr p, points_into unit16 arr p ->
     runs_to I T "isUcs2" [vptr WChar16 arr p] (boolean (w16_isUcs2 T p))) /\
  (forall s, Forall unit16 s ->
     runs_to I T "isUcs2" [VS WChar16 s] (boolean (w16_isUcs2 T (c_str s)))) /\
  (forall arr p, points_into unit16 arr p ->
     runs_to I T "isUcs4" [vptr WChar16 arr p] (boolean (w16_isUcs4 T p))) /\
  (forall s, Forall unit16 s ->
     runs_to I T "isUcs4" [VS WChar16 s] (boolean (w16_isUcs4 T (c_str s)))).
Proof. exact all_checks16. Qed.
Print Assumptions C100_checks.

Theorem C100_isWstring : forall I T, wide16 (configured I) = true ->
  (forall arr p, points_into byte arr p -> may_step_back I arr p ->
     runs_to I T "isWstring" [vptr Char arr p] (boolean (w16_isWstring_8 T p))) /\
  (forall s, Forall byte s -> pointer_checks I = false ->
     runs_to I T "isWstring" [VS Char s] (boolean (w16_isWstring_8 T (c_str s)))) /\
  (forall arr p, points_into unit16 arr p ->
     runs_to I T "isWstring" [vptr Char16 arr p] (boolean (w16_isWstring_16 T p))) /\
  (forall s, Forall unit16 s ->
     runs_to I T "isWstring" [VS Char16 s] (boolean (w16_isWstring_16 T (c_str s)))) /\
  (forall arr p, points_into unit32 arr p ->
     runs_to I T "isWstring" [vptr Char32 arr p] (boolean (w16_isWstring_32 T p))) /\
  (forall s, Forall unit32 s ->
     runs_to I T "isWstring" [VS Char32 s] (boolean (w16_isWstring_32 T (c_str s)))).
Proof. exact all_isWstring16. Qed.
Print Assumptions C100_isWstring.

Theorem C100_conversions : forall I T, wide16 (configured I) = true ->
  (forall arr p, points_into unit16 arr p ->
     runs_to I T "toUtf8" [vptr WChar16 arr p] (string_of Char (w16_toUtf8 p))) /\
  (forall s, Forall unit16 s ->
     runs_to I T "toUtf8" [VS WChar16 s] (string_of Char (w16_toUtf8 (c_str s)))) /\
  (forall arr p, points_into unit16 arr p ->
     runs_to I T "toUtf16" [vptr WChar16 arr p] (string_of Char16 (w16_toUtf16 T p))) /\
  (forall s, Forall unit16 s ->
     runs_to I T "toUtf16" [VS WChar16 s] (string_of Char16 (w16_toUtf16 T (c_str s)))) /\
  (forall arr p, points_into unit16 arr p ->
     runs_to I T "toUcs2" [vptr WChar16 arr p] (string_of Char16 (w16_toUcs2 T p))) /\
  (forall s, Forall unit16 s ->
     runs_to I T "toUcs2" [VS WChar16 s] (string_of Char16 (w16_toUcs2 T (c_str s)))) /\
  (forall arr p, points_into unit16 arr p ->
     runs_to I T "toUcs4" [vptr WChar16 arr p] (string_of Char32 (w16_toUcs4 p))) /\
  (forall s, Forall unit16 s ->
     runs_to I T "toUcs4" [VS WChar16 s] (string_of Char32 (w16_toUcs4 (c_str s)))).
Proof. exact all_conversions16. Qed.
Print Assumptions C100_conversions.

Theorem C100_toWstring : forall I T, wide16 (configured I) = true ->
  (forall arr p, points_into byte arr p ->
     runs_to I T "toWstring" [vptr Char arr p] (string_of WChar16 (w16_toWstring_8 p))) /\
  (forall s, Forall byte s ->
     runs_to I T "toWstring" [VS Char s] (string_of WChar16 (w16_toWstring_8 (c_str s)))) /\
  (forall arr p, points_into unit16 arr p ->
     runs_to I T "toWstring" [vptr Char16 arr p] (string_of WChar16 (w16_toWstring_16 T p))) /\
  (forall s, Forall unit16 s ->
     runs_to I T "toWstring" [VS Char16 s] (string_of WChar16 (w16_toWstring_16 T (c_str s)))) /\
  (forall arr p, points_into unit32 arr p ->
     runs_to I T "toWstring" [vptr Char32 arr p] (string_of WChar16 (w16_toWstring_32 p))) /\
  (forall s, Forall unit32 s ->
     runs_to I T "toWstring" [VS Char32 s] (string_of WChar16 (w16_toWstring_32 (c_str s)))).
Proof. exact all_toWstring16. Qed.
Print Assumptions C100_toWstring.

Example C100_case : wide16 Wchar16 = true /\ wide16 Win32 = true /\ points_into unit16 [0xD83D; 0xDE00; 0] (At [0xD83D; 0xDE00; 0]) /\
  runs_to (strict_at Wchar16) tables16 "isUcs2" [vptr WChar16 [0xD83D; 0xDE00; 0] (At [0xD83D; 0xDE00; 0])] (Done (VB false)) /\
  runs_to (strict_at Wchar16) tables16 "isUtf16" [VS WChar16 [0xD83D; 0xDE00]] (Done (VB true)) /\
  runs_to (strict_at Wchar16) tables16 "toUcs4" [VS WChar16 [0xD83D; 0xDE00]] (Done (VS Char32 [0x1F600])) /\
  runs_to (strict_at Win32) tables16 "toUtf8" [VS WChar16 [0xE9]] (Done (VS Char [0xC3; 0xA9])) /\
  runs_to (strict_at Win32_unicode) tables16 "toWstring" [VS Char [0xF0; 0x9F; 0x98; 0x80]] (Done (VS WChar16 [0xD83D; 0xDE00])) /\
  runs_to (strict_at Wchar16) tables16 "isWstring" [VS Char32 [0xD800]] (Done (VB false)).
Proof. split; [reflexivity|]. split; [reflexivity|]. split; [split; [exists []; reflexivity | repeat constructor; discriminate]|]. cases. Qed.

(* ---------------------------------------------------------------- C101 *)

Theorem C101_windows : forall I T, windows (configured I) = true ->
  (forall arr p, points_into byte arr p -> may_step_back I arr p ->
     runs_to I T "isUtf16" [vptr Char arr p] (boolean (narrow_isUtf16 T p))) /\
  (forall s, Forall byte s -> pointer_checks I = false ->
     runs_to I T "isUtf16" [VS Char s] (boolean (narrow_isUtf16 T (c_str s)))) /\
  (forall arr p, points_into byte arr p -> may_step_back I arr p ->
     runs_to I T "isUcs2" [vptr Char arr p] (boolean (narrow_isUcs2 T p))) /\
  (forall s, Forall byte s -> pointer_checks I = false ->
     runs_to I T "isUcs2" [VS Char s] (boolean (narrow_isUcs2 T (c_str s)))) /\
  (forall arr p, points_into byte arr p -> may_step_back I arr p ->
     runs_to I T "isUcs4" [vptr Char arr p] (boolean (narrow_isUcs4 T p))) /\
  (forall s, Forall byte s -> pointer_checks I = false ->
     runs_to I T "isUcs4" [VS Char s] (boolean (narrow_isUcs4 T (c_str s)))) /\
  (forall arr p, points_into byte arr p -> may_step_back I arr p ->
     runs_to I T "toUtf8" [vptr Char arr p] (string_of Char (narrow_toUtf8 T p))) /\
  (forall s, Forall byte s -> pointer_checks I = false ->
     runs_to I T "toUtf8" [VS Char s] (string_of Char (narrow_toUtf8 T (c_str s)))).
Proof. exact all_windows. Qed.
Print Assumptions C101_windows.

Theorem C101_mbcs : forall I T, configured I = Win32_mbcs ->
  (forall arr p, points_into byte arr p -> may_step_back I arr p ->
     runs_to I T "isTstring" [vptr Char arr p] (boolean (isTstring_8 T p))) /\
  (forall s, Forall byte s -> pointer_checks I = false ->
     runs_to I T "isTstring" [VS Char s] (boolean (isTstring_8 T (c_str s)))) /\
  (forall arr p, points_into unit16 arr p ->
     runs_to I T "isTstring" [vptr Char16 arr p] (boolean (isTstring_16 T p))) /\
  (forall s, Forall unit16 s ->
     runs_to I T "isTstring" [VS Char16 s] (boolean (isTstring_16 T (c_str s)))) /\
  (forall arr p, points_into unit32 arr p ->
     runs_to I T "isTstring" [vptr Char32 arr p] (boolean (isTstring_32 T p))) /\
  (forall s, Forall unit32 s ->
     runs_to I T "isTstring" [VS Char32 s] (boolean (isTstring_32 T (c_str s)))) /\
  (forall arr p, points_into byte arr p -> may_step_back I arr p ->
     runs_to I T "toTstring" [vptr Char arr p] (string_of Char (mbcs_toTstring_8 T p))) /\
  (forall arr p, points_into unit16 arr p ->
     runs_to I T "toTstring" [vptr Char16 arr p] (string_of Char (mbcs_toTstring_16 T p))) /\
  (forall arr p, points_into unit32 arr p ->
     runs_to I T "toTstring" [vptr Char32 arr p] (string_of Char (mbcs_toTstring_32 T p))).
Proof. exact all_mbcs. Qed.
Print Assumptions C101_mbcs.

Theorem C101_unicode : forall I T, configured I = Win32_unicode ->
  (forall arr p, points_into byte arr p -> may_step_back I arr p ->
     runs_to I T "isTstring" [vptr Char arr p] (boolean (isTstring_8 T p))) /\
  (forall s, Forall byte s -> pointer_checks I = false ->
     runs_to I T "isTstring" [VS Char s] (boolean (isTstring_8 T (c_str s)))) /\
  (forall arr p, points_into unit16 arr p ->
     runs_to I T "isTstring" [vptr Char16 arr p] (boolean (isTstring_16 T p))) /\
  (forall s, Forall unit16 s ->
     runs_to I T "isTstring" [VS Char16 s] (boolean (isTstring_16 T (c_str s)))) /\
  (forall arr p, points_into unit32 arr p ->
     runs_to I T "isTstring" [vptr Char32 arr p] (boolean (isTstring_32 T p))) /\
  (forall s, Forall unit32 s ->
     runs_to I T "isTstring" [VS Char32 s] (boolean (isTstring_32 T (c_str s)))) /\
  (forall arr p, points_into byte arr p ->
     runs_to I T "toTstring" [vptr Char arr p] (string_of WChar16 (unicode_toTstring_8 p))) /\
  (forall s, Forall byte s ->
     runs_to I T "toTstring" [VS Char s] (string_of WChar16 (unicode_toTstring_8_string s))) /\
  (forall arr p, points_into unit16 arr p ->
     runs_to I T "toTstring" [vptr Char16 arr p] (string_of WChar16 (unicode_toTstring_16 p))) /\
  (forall s, runs_to I T "toTstring" [VS Char16 s] (string_of WChar16 (unicode_toTstring_16_string s))) /\
  (forall arr p, points_into unit32 arr p ->
     runs_to I T "toTstring" [vptr Char32 arr p] (string_of WChar16 (unicode_toTstring_32 p))) /\
  (forall s, Forall unit32 s ->
     runs_to I T "toTstring" [VS Char32 s] (string_of WChar16 (unicode_toTstring_32_string s))).
Proof. exact all_unicode. Qed.
Print Assumptions C101_unicode.

Example C101_case : windows Win32 = true /\ windows Win32_mbcs = true /\ Forall byte [0x41; 0xC3; 0xA9] /\
  runs_to (machine true Win32) tables16 "isUcs2" [VS Char [0x41; 0xC3; 0xA9]] (Done (VB true)) /\
  runs_to (machine true Win32_mbcs) tables16 "toTstring" [VP Char16 (PAt [0x41; 0x42; 0] 0)] (Done (VS Char [0x41; 0x42])) /\
  runs_to (machine true Win32_mbcs) tables16 "toTstring" [VP Char16 (PAt [0x41; 0xE9; 0] 0)] (Done (VS Char [])) /\
  runs_to (strict_at Win32_unicode) tables16 "toTstring" [VS Char [0x41; 0xC3; 0xA9]] (Done (VS WChar16 [0x41; 0xE9])) /\
  runs_to (strict_at Win32_unicode) tables16 "isTstring" [VS Char32 [0x1F600]] (Done (VB true)).
Proof. split; [reflexivity|]. split; [reflexivity|]. split; [repeat constructor; discriminate|]. cases. Qed.

(* ---------------------------------------------------------------- C102 *)

(* In full: in every configuration that has toTstring, toTstring(s) returns what toTstring(s.c_str()) returns.
   That is so with _UNICODE; with _MBCS the overloads on strings call themselves for ever. *)
Theorem C102_unicode_partial : forall I T, configured I = Win32_unicode -> let same t s := exists l,
    runs_to I T "toTstring" [VS t s] (Done (VS WChar16 l)) /\ runs_to I T "toTstring" [VP t (PAt (s ++ [0]) 0)] (Done (VS WChar16 l)) in
  (forall s, text8 s -> same Char s) /\ (forall s, text16 s -> same Char16 s) /\ (forall s, text32 s -> same Char32 s).
Proof. exact e_tstring_unicode. Qed.
Print Assumptions C102_unicode_partial.

(* whatever time and stack there is, the call has not returned, and nothing undefined has happened *)
Theorem C102_mbcs_never_partial : forall I T t s fuel depth, configured I = Win32_mbcs -> In t [Char; Char16; Char32] ->
  call I T fuel depth "toTstring" [VS t s] = OutOfFuel.
Proof. exact e_tstring_mbcs. Qed.
Print Assumptions C102_mbcs_never_partial.

Theorem C102_mbcs_refuted : exists I T s, configured I = Win32_mbcs /\
  runs_to I T "toTstring" [VP Char16 (PAt (s ++ [0]) 0)] (Done (VS Char s)) /\ s <> [] /\
  forall r, r <> OutOfFuel -> ~ runs_to I T "toTstring" [VS Char16 s] r.
Proof. exact e_tstring_refuted. Qed.
Print Assumptions C102_mbcs_refuted.

Example C102_case : text16 [0xD83D; 0xDE00] /\ configured (strict_at Win32_unicode) = Win32_unicode /\ configured (strict_at Win32_mbcs) = Win32_mbcs /\
  runs_to (strict_at Win32_unicode) tables16 "toTstring" [VS Char16 [0xD83D; 0xDE00]] (Done (VS WChar16 [0xD83D; 0xDE00])) /\
  runs_to (strict_at Win32_unicode) tables16 "toTstring" [VP Char16 (PAt [0xD83D; 0xDE00; 0] 0)] (Done (VS WChar16 [0xD83D; 0xDE00])).
Proof. split; [repeat constructor|]. split; [reflexivity|]. split; [reflexivity|]. cases. Qed.

(* ---------------------------------------------------------------- C103 *)

Theorem C103_wide32 : forall I T, configured I = Wchar32 -> forall us, text32 us ->
  call_answers I T "isUtf8" [VS WChar32 us] (Forall (range_isUcs4 Utf16) us) /\
  call_answers I T "isUtf16" [VS WChar32 us] (Forall (range_isUcs4 Utf16) us) /\
  call_answers I T "isUcs2" [VS WChar32 us] (Forall bmp us) /\
  call_answers I T "isUcs4" [VS WChar32 us] (Forall (range_isUcs4 Utf16) us) /\
  call_converts I T "toUtf8" [VS WChar32 us] Char (fun cs => cs = us /\ Forall encodable8 cs) (flat_map utf8_bytes) /\
  call_converts I T "toUtf16" [VS WChar32 us] Char16 (fun cs => cs = us /\ Forall scalar cs) (flat_map utf16_units) /\
  call_converts I T "toUcs2" [VS WChar32 us] Char16 (fun cs => cs = us /\ Forall bmp cs) (fun cs => cs) /\
  call_converts I T "toUcs4" [VS WChar32 us] Char32 (fun cs => cs = us /\ Forall (range_isUcs4 Utf16) cs) (fun cs => cs).
Proof. exact e_wide32. Qed.
Print Assumptions C103_wide32.

Theorem C103_to_wide32 : forall I T, configured I = Wchar32 ->
  (forall bs, text8 bs -> call_converts I T "toWstring" [VS Char bs] WChar32 (fun cs => reads_as cs bs) (fun cs => cs)) /\
  (forall us, text16 us -> call_converts I T "toWstring" [VS Char16 us] WChar32 (fun cs => reads_as16 cs us) (fun cs => cs)) /\
  (forall us, text32 us -> call_converts I T "toWstring" [VS Char32 us] WChar32 (fun cs => cs = us /\ Forall (range_isUcs4 Utf16) cs) (fun cs => cs)).
Proof. exact e_to_wide32. Qed.
Print Assumptions C103_to_wide32.

Theorem C103_wide16 : forall I T, wide16 (configured I) = true -> forall us, text16 us ->
  call_answers I T "isUtf8" [VS WChar16 us] (exists cs, reads_as16 cs us) /\
  call_answers I T "isUtf16" [VS WChar16 us] (exists cs, reads_as16 cs us) /\
  call_answers I T "isUcs2" [VS WChar16 us] (Forall bmp us) /\
  call_answers I T "isUcs4" [VS WChar16 us] (exists cs, reads_as16 cs us) /\
  call_converts I T "toUtf8" [VS WChar16 us] Char (fun cs => lenient_as16 cs us) (flat_map utf8_bytes) /\
  call_converts I T "toUtf16" [VS WChar16 us] Char16 (fun x => x = us /\ exists cs, reads_as16 cs us) (fun x => x) /\
  call_converts I T "toUcs2" [VS WChar16 us] Char16 (fun cs => cs = us /\ Forall bmp cs) (fun cs => cs) /\
  call_converts I T "toUcs4" [VS WChar16 us] Char32 (fun cs => reads_as16 cs us) (fun cs => cs).
Proof. exact e_wide16. Qed.
Print Assumptions C103_wide16.

Theorem C103_to_wide16 : forall I T, wide16 (configured I) = true ->
  (forall bs, text8 bs -> call_converts I T "toWstring" [VS Char bs] WChar16 (fun cs => reads_as cs bs /\ Forall upto cs) (flat_map utf16_units)) /\
  (forall us, text16 us -> call_converts I T "toWstring" [VS Char16 us] WChar16 (fun x => x = us /\ exists cs, reads_as16 cs us) (fun x => x)) /\
  (forall us, text32 us -> call_converts I T "toWstring" [VS Char32 us] WChar16 (fun cs => cs = us /\ Forall scalar cs) (flat_map utf16_units)).
Proof. exact e_to_wide16. Qed.
Print Assumptions C103_to_wide16.

Theorem C103_round_trip : forall I T cs, Forall scalar cs -> let c := configured I in let w := VS (wchar c) (wide_text c cs) in
  (exists bs, runs_to I T "toUtf8" [w] (Done (VS Char bs)) /\ runs_to I T "toWstring" [VS Char bs] (Done w)) /\
  (exists us, runs_to I T "toUtf16" [w] (Done (VS Char16 us)) /\ runs_to I T "toWstring" [VS Char16 us] (Done w)) /\
  runs_to I T "toUcs4" [w] (Done (VS Char32 cs)) /\ runs_to I T "toWstring" [VS Char32 cs] (Done w).
Proof. exact e_wide_round. Qed.
Print Assumptions C103_round_trip.

Theorem C103_linked_round_trip : forall I v cs, Forall scalar cs -> let c := configured I in let w := VS (wchar c) (wide_text c cs) in
  (exists bs, linked_runs_to I v "toUtf8" [w] (Done (VS Char bs)) /\ linked_runs_to I v "toWstring" [VS Char bs] (Done w)) /\
  (exists us, linked_runs_to I v "toUtf16" [w] (Done (VS Char16 us)) /\ linked_runs_to I v "toWstring" [VS Char16 us] (Done w)) /\
  linked_runs_to I v "toUcs4" [w] (Done (VS Char32 cs)) /\ linked_runs_to I v "toWstring" [VS Char32 cs] (Done w).
Proof. exact l_wide_round. Qed.
Print Assumptions C103_linked_round_trip.

Example C103_case : Forall scalar [0x41; 0x1F600] /\ wide_text Wchar32 [0x41; 0x1F600] = [0x41; 0x1F600] /\
  wide_text Win32 [0x41; 0x1F600] = [0x41; 0xD83D; 0xDE00] /\ text16 [0x41; 0xD83D; 0xDE00] /\ text32 [0x41; 0x1F600] /\
  text8 [0x41; 0xF0; 0x9F; 0x98; 0x80] /\
  runs_to (strict_at Wchar32) tables16 "toWstring" [VS Char [0x41; 0xF0; 0x9F; 0x98; 0x80]] (Done (VS WChar32 [0x41; 0x1F600])) /\
  runs_to (strict_at Win32_mbcs) tables16 "toWstring" [VS Char [0x41; 0xF0; 0x9F; 0x98; 0x80]] (Done (VS WChar16 [0x41; 0xD83D; 0xDE00])).
Proof.
  split; [exact TcharFacts.case_scalars|]. split; [reflexivity|]. split; [reflexivity|].
  split; [repeat constructor|]. split; [repeat constructor|]. split; [repeat constructor|]. cases.
Qed.
