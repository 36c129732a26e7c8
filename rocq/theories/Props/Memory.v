(* C21-C25: what the functions read. *)
From Coq Require Import ZArith List Bool Lia.
From Verif Require Import Machine.
From Verif.Model Require Import Internal Decode Tables Predicate Str Lower CodePage Wide.
From Verif.Spec Require Import Utf Target Result Bounded Case.
From Verif.Proof Require Import Witness CaseWitness MemoryWitness MemoryCases.
Import ListNotations.
Local Open Scope Z_scope.

(* ---- C21: nothing beyond the first zero ----
   [settled f us]: f applied to an array holding us, a zero and anything else returns, and what it
   returns is the same for everything else (in particular for nothing else). *)
Theorem C21_is_functions : forall T r pred,
  (forall us, text8 us -> settled (fun p => isUtf8 T p r pred) us) /\
  (forall us, text16 us -> settled (fun p => isUtf16 T p r pred) us) /\
  (forall us, text16 us -> settled (fun p => isUcs2 T p r pred) us) /\
  (forall us, text32 us -> settled (fun p => isUcs4 T p r pred) us).
Proof. exact settled_is. Qed.
Print Assumptions C21_is_functions.

Theorem C21_to_functions :
  (forall us, text8 us -> settled toUcs4_8 us /\ settled toUtf16_8 us /\ settled toUcs2_8 us) /\
  (forall us, text16 us -> settled toUcs4_16 us /\ settled toUtf8_16 us) /\
  (forall us, text32 us -> settled toUtf8_32 us /\ settled toUtf16_32 us /\ settled toUcs2_32 us).
Proof. exact settled_to. Qed.
Print Assumptions C21_to_functions.

Theorem C21_lengths :
  (forall us, text8 us -> settled (fun p => unicodeLength8 p 0) us) /\
  (forall us, text16 us -> settled (fun p => unicodeLength16 p 0) us) /\
  (forall us, text32 us -> settled (fun p => unicodeLength32 p 0) us).
Proof. exact settled_lengths. Qed.
Print Assumptions C21_lengths.

(* without the zero an array can be overrun *)
Example C21_case : text8 [0x41; 0xE2; 0x82] /\ toUcs4_8 (At [0x41; 0xE2; 0x82; 0; 0xAC]) = Done [0x41] /\
  toUcs4_8 (At [0x41; 0xE2; 0x82; 0]) = Done [0x41] /\ toUcs4_8 (At [0x41; 0xE2; 0x82]) = Undefined.
Proof. split; [range|]. repeat split. Qed.

(* ---- C22: std::basic_string overloads ---- *)
Theorem C22_is_functions : forall T r pred more,
  (forall us, text8 us -> isUtf8_string T (us ++ 0 :: more) r pred = isUtf8_string T us r pred) /\
  (forall us, text16 us -> isUtf16_string T (us ++ 0 :: more) r pred = isUtf16_string T us r pred) /\
  (forall us, text16 us -> isUcs2_string T (us ++ 0 :: more) r pred = isUcs2_string T us r pred) /\
  (forall us, text32 us -> isUcs4_string T (us ++ 0 :: more) r pred = isUcs4_string T us r pred).
Proof. exact embedded_is. Qed.
Print Assumptions C22_is_functions.

Theorem C22_to_functions : forall more,
  (forall us, text8 us -> toUcs4_8_string (us ++ 0 :: more) = toUcs4_8_string us /\
     toUtf16_8_string (us ++ 0 :: more) = toUtf16_8_string us /\ toUcs2_8_string (us ++ 0 :: more) = toUcs2_8_string us) /\
  (forall us, text16 us -> toUcs4_16_string (us ++ 0 :: more) = toUcs4_16_string us /\
     toUtf8_16_string (us ++ 0 :: more) = toUtf8_16_string us) /\
  (forall us, text32 us -> toUtf8_32_string (us ++ 0 :: more) = toUtf8_32_string us /\
     toUtf16_32_string (us ++ 0 :: more) = toUtf16_32_string us /\ toUcs2_32_string (us ++ 0 :: more) = toUcs2_32_string us).
Proof. exact embedded_to. Qed.
Print Assumptions C22_to_functions.

Theorem C22_lengths : forall more,
  (forall us, text8 us -> unicodeLength8_string (us ++ 0 :: more) = unicodeLength8_string us) /\
  (forall us, text16 us -> unicodeLength16_string (us ++ 0 :: more) = unicodeLength16_string us) /\
  (forall us, text32 us -> unicodeLength32_string (us ++ 0 :: more) = unicodeLength32_string us).
Proof. exact embedded_lengths. Qed.
Print Assumptions C22_lengths.

Theorem C22_toLower : forall T lang more,
  (forall us, text8 us -> toLower_8 T (us ++ 0 :: more) lang = toLower_8 T us lang) /\
  (forall us, text16 us -> toLower_16 T (us ++ 0 :: more) lang = toLower_16 T us lang).
Proof. exact embedded_lower. Qed.
Print Assumptions C22_toLower.

Theorem C22_toLower_ucs4 : forall v lang a b, language lang -> exists ra rb,
  toLower_32 (tables v) a lang = Done ra /\ toLower_32 (tables v) b lang = Done rb /\
  toLower_32 (tables v) (a ++ 0 :: b) lang = Done (ra ++ 0 :: rb).
Proof. exact embedded_lower_32. Qed.
Print Assumptions C22_toLower_ucs4.

Example C22_case : text8 [0x41] /\ toUcs4_8_string [0x41; 0; 0x80] = Done [0x41] /\
  isUtf8_string (tables V7) [0x41; 0; 0x80] kUtf8 nullPredicate = Done true /\
  toLower_8 (tables V7) [0x41; 0; 0x42] Null = Done [0x61] /\
  language Null /\ toLower_32 (tables V7) [0x41; 0; 0x42] Null = Done [0x61; 0; 0x62].
Proof. split; [range|]. split; [reflexivity|]. split; [reflexivity|]. split; [reflexivity|]. split; [exact null_language|reflexivity]. Qed.

(* ---- C23: null pointers ----
   Full statement (false): every is-function answers true, every to-function returns the empty string
   and every unicodeLength returns 0 for a null pointer.  The char16_t and char32_t forms of
   unicodeLength dereference it, as do (through basic_string(nullptr)) the wchar_t conversions that
   only copy. *)
Theorem C23_unicodeLength_refuted : exists p, p = Null /\
  forall n, unicodeLength16 p n = Undefined /\ unicodeLength32 p n = Undefined.
Proof. exact (ex_intro _ Null (conj eq_refl null_lengths)). Qed.
Print Assumptions C23_unicodeLength_refuted.

Theorem C23_wide_refuted : exists p, p = Null /\ forall T, w32_toUcs4 T p = Undefined /\ w32_toWstring_32 T p = Undefined /\
  w16_toUtf16 T p = Undefined /\ w16_toUcs2 T p = Undefined /\ w16_toWstring_16 T p = Undefined.
Proof. exact (ex_intro _ Null (conj eq_refl null_wide)). Qed.
Print Assumptions C23_wide_refuted.

Theorem C23_is_functions_partial : forall T t pred,
  isUtf8 T Null (code t) pred = Done true /\ isUtf16 T Null (code t) pred = Done true /\
  isUcs2 T Null (code t) pred = Done true /\ isUcs4 T Null (code t) pred = Done true.
Proof. exact null_is. Qed.
Print Assumptions C23_is_functions_partial.

Theorem C23_to_functions_partial : forall src,
  toUtf8_16 Null = Done [] /\ toUtf8_32 Null = Done [] /\ toUcs2_8 Null = Done [] /\ toUcs2_32 Null = Done [] /\
  toUtf16_8 Null = Done [] /\ toUtf16_32 Null = Done [] /\ toUcs4_8 Null = Done [] /\ toUcs4_16 Null = Done [] /\
  toUtf8_cp Null src = Done [].
Proof. exact null_to. Qed.
Print Assumptions C23_to_functions_partial.

Theorem C23_bounded_partial : forall T n pred, isUtf8_length T Null n pred = Done true /\ unicodeLength8 Null n = Done 0.
Proof. exact null_bounded. Qed.
Print Assumptions C23_bounded_partial.

Theorem C23_wide_partial : forall T,
  w32_isUtf8 T Null = Done true /\ w32_isUtf16 T Null = Done true /\ w32_isUcs2 T Null = Done true /\ w32_isUcs4 T Null = Done true /\
  w32_isWstring_8 T Null = Done true /\ w32_isWstring_16 T Null = Done true /\ w32_isWstring_32 T Null = Done true /\
  w32_toUtf8 Null = Done [] /\ w32_toUtf16 Null = Done [] /\ w32_toUcs2 Null = Done [] /\
  w32_toWstring_8 Null = Done [] /\ w32_toWstring_16 Null = Done [] /\
  w16_isUtf8 T Null = Done true /\ w16_isUtf16 T Null = Done true /\ w16_isUcs2 T Null = Done true /\ w16_isUcs4 T Null = Done true /\
  w16_isWstring_8 T Null = Done true /\ w16_isWstring_16 T Null = Done true /\ w16_isWstring_32 T Null = Done true /\
  w16_toUtf8 Null = Done [] /\ w16_toUcs4 Null = Done [] /\ w16_toWstring_8 Null = Done [] /\ w16_toWstring_32 Null = Done [].
Proof. exact null_wide_good. Qed.
Print Assumptions C23_wide_partial.

Example C23_case : isUtf8 (tables V7) Null kAscii nullPredicate = Done true /\ toUcs4_8 Null = Done [] /\
  unicodeLength16 (At [0]) 0 = Done 0 /\ w32_toUcs4 (tables V7) (At [0]) = Done [].
Proof. repeat split. Qed.

(* ---- C24: isUtf8(p, n) ----
   Full statement (false): for n > 0 elements bs, isUtf8_length on an array holding just bs returns.
   With two bytes left of a sequence that announces three, the surrogate test reads a third. *)
Theorem C24_stays_inside_refuted : exists bs, bytes bs /\ len bs = 3 /\
  (forall T, isUtf8_length T (At bs) 3 nullPredicate = Undefined) /\ unicodeLength8 (At bs) 3 = Undefined.
Proof. exact over_read_8. Qed.
Print Assumptions C24_stays_inside_refuted.

(* What holds: that is the only way out of the n bytes, it goes one byte far, and the answer does not
   depend on the byte read (C26_exact_answer_partial). *)
Theorem C24_over_read_partial : forall T pred bs after, bytes (bs ++ after) -> bs <> [] -> len bs < 0x100000000 ->
  (isUtf8_length T (At (bs ++ after)) (len bs) pred = Undefined <->
     after = [] /\ two_of_three (fun c => pred32 T pred c = true) bs) /\
  (isUtf8_length T (At (bs ++ after)) (len bs) pred = Undefined \/
     exists b, isUtf8_length T (At (bs ++ after)) (len bs) pred = Done b).
Proof. exact bounded_over. Qed.
Print Assumptions C24_over_read_partial.

Example C24_case : bytes [0x61; 0xE2; 0x82] /\ two_of_three (fun c => pred32 (tables V7) nullPredicate c = true) [0x61; 0xE2; 0x82] /\
  isUtf8_length (tables V7) (At [0x61; 0xE2; 0x82; 0xFF]) 3 nullPredicate = Done true /\
  isUtf8_length (tables V7) (At [0x61; 0xC3]) 2 nullPredicate = Done true /\
  isUtf8_length (tables V7) (At [0x61; 0xC3; 0xA9]) 3 nullPredicate = Done true.
Proof. split; [exact case_bytes|]. split; [exact case_two_of_three|]. repeat split. Qed.

(* ---- C25: unicodeLength(p, n) ----
   Full statement (false for char and char16_t): for n > 0 elements us, unicodeLength on an array
   holding just us returns. *)
Theorem C25_utf8_refuted : exists bs, bytes bs /\ len bs = 3 /\
  (forall T, isUtf8_length T (At bs) 3 nullPredicate = Undefined) /\ unicodeLength8 (At bs) 3 = Undefined.
Proof. exact over_read_8. Qed.
Print Assumptions C25_utf8_refuted.

Theorem C25_utf16_refuted : exists us, Forall unit16 us /\ len us = 1 /\ unicodeLength16 (At us) 1 = Undefined.
Proof. exact over_read_16. Qed.
Print Assumptions C25_utf16_refuted.

Theorem C25_utf8_partial : forall bs after, bytes (bs ++ after) -> bs <> [] -> len bs < 0x100000000 ->
  (unicodeLength8 (At (bs ++ after)) (len bs) = Undefined <-> after = [] /\ two_of_three upto bs) /\
  (unicodeLength8 (At (bs ++ after)) (len bs) = Undefined \/ exists v, unicodeLength8 (At (bs ++ after)) (len bs) = Done v).
Proof. exact length8_over. Qed.
Print Assumptions C25_utf8_partial.

(* the unit after the n-th is read exactly when the text is well formed and ends in a single-unit character *)
Theorem C25_utf16_partial : forall us after, Forall unit16 us -> us <> [] -> len us < 0x100000000 ->
  (unicodeLength16 (At (us ++ after)) (len us) = Undefined <-> after = [] /\ ends_single us) /\
  (unicodeLength16 (At (us ++ after)) (len us) = Undefined \/ exists v, unicodeLength16 (At (us ++ after)) (len us) = Done v).
Proof. exact length16_over. Qed.
Print Assumptions C25_utf16_partial.

Theorem C25_ucs4 : forall us after, Forall unit32 us -> us <> [] -> len us < 0x100000000 ->
  exists v, unicodeLength32 (At (us ++ after)) (len us) = Done v.
Proof. exact length32_inside. Qed.
Print Assumptions C25_ucs4.

Example C25_case : ends_single [0xD83D; 0xDE00; 0x41] /\ unicodeLength16 (At [0xD83D; 0xDE00; 0x41]) 3 = Undefined /\
  unicodeLength16 (At [0xD83D; 0xDE00; 0x41; 0xDC00]) 3 = Done 2 /\ unicodeLength16 (At [0x41; 0xD83D; 0xDE00]) 3 = Done 2 /\
  unicodeLength8 (At [0x41; 0xE2; 0x82; 0xAC]) 4 = Done 2 /\ unicodeLength32 (At [0x41; 0x1F600]) 2 = Done 2.
Proof. split; [exact case_ends_single|]. repeat split. Qed.
