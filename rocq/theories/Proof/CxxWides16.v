(* The statements of Props/SourceWide.v from the lemmas about calls with given room. *)
From Coq Require Import ZArith List Bool String Lia.
From Verif Require Import Machine.
From Verif.Model Require Import Tables Internal Predicate Decode Str Wide Tchar.
From Verif.Cxx Require Import Syntax Semantics Configurations Program Values.
From Verif.Spec Require Import Utf Source.
From Verif.Proof Require Import Bits CxxTools CxxSugar CxxMono CxxPred CxxConvert CxxWide CxxWide16 CxxAnswers CxxResults CxxMore CxxWides.
Import ListNotations.
Local Open Scope string_scope.
Local Open Scope list_scope.
Local Open Scope Z_scope.

Lemma all_checks16 : forall I T, wide16 (configured I) = true ->
  (forall arr p, points_into unit16 arr p ->
     runs_to I T "isUtf8" [vptr WChar16 arr p] (boolean (w16_isUtf8 T p))) /\
  (forall s, Forall unit16 s ->
     runs_to I T "isUtf8" [VS WChar16 s] (boolean (w16_isUtf8 T (c_str s)))) /\
  (forall arr p, points_into unit16 arr p ->
     runs_to I T "isUtf16" [vptr WChar16 arr p] (boolean (w16_isUtf16 T p))) /\
  (forall s, Forall unit16 s ->
     runs_to I T "isUtf16" [VS WChar16 s] (boolean (w16_isUtf16 T (c_str s)))) /\
  (forall arr p, points_into unit16 arr p ->
     runs_to I T "isUcs2" [vptr WChar16 arr p] (boolean (w16_isUcs2 T p))) /\
  (forall s, Forall unit16 s ->
     runs_to I T "isUcs2" [VS WChar16 s] (boolean (w16_isUcs2 T (c_str s)))) /\
  (forall arr p, points_into unit16 arr p ->
     runs_to I T "isUcs4" [vptr WChar16 arr p] (boolean (w16_isUcs4 T p))) /\
  (forall s, Forall unit16 s ->
     runs_to I T "isUcs4" [VS WChar16 s] (boolean (w16_isUcs4 T (c_str s)))).
Proof.
  intros I T H. parts; intros.
  - by_call 5%nat (room p) x_isUtf8.
  - by_call 6%nat (S (S (List.length s))) x_isUtf8_string.
  - by_call 5%nat (room p) x_isUtf16.
  - by_call 6%nat (S (S (List.length s))) x_isUtf16_string.
  - by_call 5%nat (room p) x_isUcs2.
  - by_call 6%nat (S (S (List.length s))) x_isUcs2_string.
  - by_call 5%nat (room p) x_isUcs4.
  - by_call 6%nat (S (S (List.length s))) x_isUcs4_string.
Qed.

Lemma all_isWstring16 : forall I T, wide16 (configured I) = true ->
  (forall arr p, points_into byte arr p -> may_step_back I arr p ->
     runs_to I T "isWstring" [vptr Char arr p] (boolean (w16_isWstring_8 T p))) /\
  (forall s, Forall byte s -> pointer_checks I = false ->
     runs_to I T "isWstring" [VS Char s] (boolean (w16_isWstring_8 T (c_str s)))) /\
  (forall arr p, points_into unit16 arr p ->
     runs_to I T "isWstring" [vptr Char16 arr p] (boolean (w16_isWstring_16 T p))) /\
  (forall s, Forall unit16 s ->
     runs_to I T "isWstring" [VS Char16 s] (boolean (w16_isWstring_16 T (c_str s)))) /\
  (forall arr p, points_into unit32 arr p ->
     runs_to I T "isWstring" [vptr Char32 arr p] (boolean (w16_isWstring_32 T p))) /\
  (forall s, Forall unit32 s ->
     runs_to I T "isWstring" [VS Char32 s] (boolean (w16_isWstring_32 T (c_str s)))).
Proof.
  intros I T H. parts; intros.
  - by_call 6%nat (room p) x_isWstring_8.
  - by_call 6%nat (S (S (List.length s))) x_isWstring_8_string.
  - by_call 5%nat (room p) x_isWstring_16.
  - by_call 6%nat (S (S (List.length s))) x_isWstring_16_string.
  - by_call 5%nat (room p) x_isWstring_32.
  - by_call 6%nat (S (S (List.length s))) x_isWstring_32_string.
Qed.

Lemma all_conversions16 : forall I T, wide16 (configured I) = true ->
  (forall arr p, points_into unit16 arr p ->
     runs_to I T "toUtf8" [vptr WChar16 arr p] (string_of Char (w16_toUtf8 p))) /\
  (forall s, Forall unit16 s ->
     runs_to I T "toUtf8" [VS WChar16 s] (string_of Char (w16_toUtf8 (c_str s)))) /\
  (forall arr p, points_into unit16 arr p ->
     runs_to I T "toUtf16" [vptr WChar16 arr p] (string_of Char16 (w16_toUtf16 T p))) /\
  (forall s, Forall unit16 s ->
     runs_to I T "toUtf16" [VS WChar16 s] (string_of Char16 (w16_toUtf16 T (c_str s)))) /\
  (forall arr p, points_into unit16 arr p ->
     runs_to I T "toUcs2" [vptr WChar16 arr p] (string_of Char16 (w16_toUcs2 T p))) /\
  (forall s, Forall unit16 s ->
     runs_to I T "toUcs2" [VS WChar16 s] (string_of Char16 (w16_toUcs2 T (c_str s)))) /\
  (forall arr p, points_into unit16 arr p ->
     runs_to I T "toUcs4" [vptr WChar16 arr p] (string_of Char32 (w16_toUcs4 p))) /\
  (forall s, Forall unit16 s ->
     runs_to I T "toUcs4" [VS WChar16 s] (string_of Char32 (w16_toUcs4 (c_str s)))).
Proof.
  intros I T H. parts; intros.
  - by_call 5%nat (room p) x_toUtf8.
  - by_call 6%nat (S (S (List.length s))) x_toUtf8_string.
  - by_call 5%nat (room p) x_toUtf16.
  - by_call 6%nat (S (S (List.length s))) x_toUtf16_string.
  - by_call 5%nat (room p) x_toUcs2.
  - by_call 6%nat (S (S (List.length s))) x_toUcs2_string.
  - by_call 5%nat (room p) x_toUcs4.
  - by_call 6%nat (S (S (List.length s))) x_toUcs4_string.
Qed.

Lemma all_toWstring16 : forall I T, wide16 (configured I) = true ->
  (forall arr p, points_into byte arr p ->
     runs_to I T "toWstring" [vptr Char arr p] (string_of WChar16 (w16_toWstring_8 p))) /\
  (forall s, Forall byte s ->
     runs_to I T "toWstring" [VS Char s] (string_of WChar16 (w16_toWstring_8 (c_str s)))) /\
  (forall arr p, points_into unit16 arr p ->
     runs_to I T "toWstring" [vptr Char16 arr p] (string_of WChar16 (w16_toWstring_16 T p))) /\
  (forall s, Forall unit16 s ->
     runs_to I T "toWstring" [VS Char16 s] (string_of WChar16 (w16_toWstring_16 T (c_str s)))) /\
  (forall arr p, points_into unit32 arr p ->
     runs_to I T "toWstring" [vptr Char32 arr p] (string_of WChar16 (w16_toWstring_32 p))) /\
  (forall s, Forall unit32 s ->
     runs_to I T "toWstring" [VS Char32 s] (string_of WChar16 (w16_toWstring_32 (c_str s)))).
Proof.
  intros I T H. parts; intros.
  - by_call 5%nat (room p) x_toWstring_8.
  - by_call 6%nat (S (S (List.length s))) x_toWstring_8_string.
  - by_call 5%nat (room p) x_toWstring_16.
  - by_call 6%nat (S (S (List.length s))) x_toWstring_16_string.
  - by_call 5%nat (room p) x_toWstring_32.
  - by_call 6%nat (S (S (List.length s))) x_toWstring_32_string.
Qed.

Lemma all_windows : forall I T, windows (configured I) = true ->
  (forall arr p, points_into byte arr p -> may_step_back I arr p ->
     runs_to I T "isUtf16" [vptr Char arr p] (boolean (narrow_isUtf16 T p))) /\
  (forall s, Forall byte s -> pointer_checks I = false ->
     runs_to I T "isUtf16" [VS Char s] (boolean (narrow_isUtf16 T (c_str s)))) /\
  (forall arr p, points_into byte arr p -> may_step_back I arr p ->
     runs_to I T "isUcs2" [vptr Char arr p] (boolean (narrow_isUcs2 T p))) /\
  (forall s, Forall byte s -> pointer_checks I = false ->
     runs_to I T "isUcs2" [VS Char s] (boolean (narrow_isUcs2 T (c_str s)))) /\
  (forall arr p, points_into byte arr p -> may_step_back I arr p ->
     runs_to I T "isUcs4" [vptr Char arr p] (boolean (narrow_isUcs4 T p))) /\
  (forall s, Forall byte s -> pointer_checks I = false ->
     runs_to I T "isUcs4" [VS Char s] (boolean (narrow_isUcs4 T (c_str s)))) /\
  (forall arr p, points_into byte arr p -> may_step_back I arr p ->
     runs_to I T "toUtf8" [vptr Char arr p] (string_of Char (narrow_toUtf8 T p))) /\
  (forall s, Forall byte s -> pointer_checks I = false ->
     runs_to I T "toUtf8" [VS Char s] (string_of Char (narrow_toUtf8 T (c_str s)))).
Proof.
  intros I T H. parts; intros.
  - by_call 6%nat (room p) n_isUtf16.
  - by_call 7%nat (S (S (List.length s))) n_isUtf16_string.
  - by_call 6%nat (room p) n_isUcs2.
  - by_call 7%nat (S (S (List.length s))) n_isUcs2_string.
  - by_call 6%nat (room p) n_isUcs4.
  - by_call 7%nat (S (S (List.length s))) n_isUcs4_string.
  - by_call 6%nat (room p) n_toUtf8.
  - by_call 7%nat (S (S (List.length s))) n_toUtf8_string.
Qed.

Lemma all_mbcs : forall I T, configured I = Win32_mbcs ->
  (forall arr p, points_into byte arr p -> may_step_back I arr p ->
     runs_to I T "isTstring" [vptr Char arr p] (boolean (isTstring_8 T p))) /\
  (forall s, Forall byte s -> pointer_checks I = false ->
     runs_to I T "isTstring" [VS Char s] (boolean (isTstring_8 T (c_str s)))) /\
  (forall arr p, points_into unit16 arr p ->
     runs_to I T "isTstring" [vptr Char16 arr p] (boolean (isTstring_16 T p))) /\
  (forall s, Forall unit16 s ->
     runs_to I T "isTstring" [VS Char16 s] (boolean (isTstring_16 T (c_str s)))) /\
  (forall arr p, points_into unit32 arr p ->
     runs_to I T "isTstring" [vptr Char32 arr p] (boolean (isTstring_32 T p))) /\
  (forall s, Forall unit32 s ->
     runs_to I T "isTstring" [VS Char32 s] (boolean (isTstring_32 T (c_str s)))) /\
  (forall arr p, points_into byte arr p -> may_step_back I arr p ->
     runs_to I T "toTstring" [vptr Char arr p] (string_of Char (mbcs_toTstring_8 T p))) /\
  (forall arr p, points_into unit16 arr p ->
     runs_to I T "toTstring" [vptr Char16 arr p] (string_of Char (mbcs_toTstring_16 T p))) /\
  (forall arr p, points_into unit32 arr p ->
     runs_to I T "toTstring" [vptr Char32 arr p] (string_of Char (mbcs_toTstring_32 T p))).
Proof.
  intros I T H. parts; intros.
  - by_call 6%nat (room p) m_isTstring_8.
  - by_call 6%nat (S (S (List.length s))) m_isTstring_8_string.
  - by_call 6%nat (room p) m_isTstring_16.
  - by_call 6%nat (S (S (List.length s))) m_isTstring_16_string.
  - by_call 6%nat (room p) m_isTstring_32.
  - by_call 6%nat (S (S (List.length s))) m_isTstring_32_string.
  - by_call 6%nat (room p) m_toTstring_8.
  - by_call 6%nat (room p) m_toTstring_16.
  - by_call 6%nat (room p) m_toTstring_32.
Qed.

Lemma all_unicode : forall I T, configured I = Win32_unicode ->
  (forall arr p, points_into byte arr p -> may_step_back I arr p ->
     runs_to I T "isTstring" [vptr Char arr p] (boolean (isTstring_8 T p))) /\
  (forall s, Forall byte s -> pointer_checks I = false ->
     runs_to I T "isTstring" [VS Char s] (boolean (isTstring_8 T (c_str s)))) /\
  (forall arr p, points_into unit16 arr p ->
     runs_to I T "isTstring" [vptr Char16 arr p] (boolean (isTstring_16 T p))) /\
  (forall s, Forall unit16 s ->
     runs_to I T "isTstring" [VS Char16 s] (boolean (isTstring_16 T (c_str s)))) /\
  (forall arr p, points_into unit32 arr p ->
     runs_to I T "isTstring" [vptr Char32 arr p] (boolean (isTstring_32 T p))) /\
  (forall s, Forall unit32 s ->
     runs_to I T "isTstring" [VS Char32 s] (boolean (isTstring_32 T (c_str s)))) /\
  (forall arr p, points_into byte arr p ->
     runs_to I T "toTstring" [vptr Char arr p] (string_of WChar16 (unicode_toTstring_8 p))) /\
  (forall s, Forall byte s ->
     runs_to I T "toTstring" [VS Char s] (string_of WChar16 (unicode_toTstring_8_string s))) /\
  (forall arr p, points_into unit16 arr p ->
     runs_to I T "toTstring" [vptr Char16 arr p] (string_of WChar16 (unicode_toTstring_16 p))) /\
  (forall s, runs_to I T "toTstring" [VS Char16 s] (string_of WChar16 (unicode_toTstring_16_string s))) /\
  (forall arr p, points_into unit32 arr p ->
     runs_to I T "toTstring" [vptr Char32 arr p] (string_of WChar16 (unicode_toTstring_32 p))) /\
  (forall s, Forall unit32 s ->
     runs_to I T "toTstring" [VS Char32 s] (string_of WChar16 (unicode_toTstring_32_string s))).
Proof.
  intros I T H. parts; intros.
  - by_call 6%nat (room p) u_isTstring_8.
  - by_call 6%nat (S (S (List.length s))) u_isTstring_8_string.
  - by_call 6%nat (room p) u_isTstring_16.
  - by_call 6%nat (S (S (List.length s))) u_isTstring_16_string.
  - by_call 6%nat (room p) u_isTstring_32.
  - by_call 6%nat (S (S (List.length s))) u_isTstring_32_string.
  - by_call 6%nat (room p) u_toTstring_8.
  - by_call 6%nat (S (S (List.length s))) u_toTstring_8_string.
  - by_call 1%nat (room p) u_toTstring_16.
  - by_call 1%nat O u_toTstring_16_string.
  - by_call 6%nat (room p) u_toTstring_32.
  - by_call 6%nat (S (S (List.length s))) u_toTstring_32_string.
Qed.

