(* C55 - C57, C62 - C65: wchar_t and TCHAR entry points, shortened overloads, version *)
From Coq Require Import ZArith List Bool String.
From Verif Require Import Machine.
From Verif.Model Require Import Tables Predicate Str Wide Sugar Tchar.
From Verif.Spec Require Import Utf Target Result Version.
From Verif.Proof Require Import WideFacts TcharFacts.
Import ListNotations.
Local Open Scope Z_scope.

(* ---- C55: the wchar_t entry points, 32 bits ---- *)
Theorem C55_w32_checks : forall T us junk, text32 us -> let p := At (us ++ 0 :: junk) in
  answers Done (w32_isUtf8 T p) (Forall (range_isUcs4 Utf16) us) /\ answers Done (w32_isUtf16 T p) (Forall (range_isUcs4 Utf16) us) /\
  answers Done (w32_isUcs4 T p) (Forall (range_isUcs4 Utf16) us) /\ answers Done (w32_isUcs2 T p) (Forall bmp us).
Proof. exact w32_checks. Qed.
Print Assumptions C55_w32_checks.

Theorem C55_w32_to : forall us junk, text32 us -> let p := At (us ++ 0 :: junk) in
  encodes_or_empty encodable8 utf8_bytes us (w32_toUtf8 p) /\ encodes_or_empty scalar utf16_units us (w32_toUtf16 p) /\
  encodes_or_empty bmp (fun c => [c]) us (w32_toUcs2 p).
Proof. exact w32_to. Qed.
Print Assumptions C55_w32_to.

Theorem C55_w32_copies : forall T us junk, text32 us -> let p := At (us ++ 0 :: junk) in
  (Forall (range_isUcs4 Utf16) us -> w32_toUcs4 T p = Done us /\ w32_toWstring_32 T p = Done us) /\
  (~ Forall (range_isUcs4 Utf16) us -> w32_toUcs4 T p = Done [] /\ w32_toWstring_32 T p = Done []).
Proof. exact w32_copies. Qed.
Print Assumptions C55_w32_copies.

Theorem C55_w32_from_utf8 : forall bs junk, text8 bs ->
  exact_conversion (fun cs => reads_as cs bs) (fun cs => cs) (w32_toWstring_8 (At (bs ++ 0 :: junk))).
Proof. exact w32_from8. Qed.
Print Assumptions C55_w32_from_utf8.

Theorem C55_w32_from_utf16 : forall us junk, text16 us ->
  exact_conversion (fun cs => reads_as16 cs us) (fun cs => cs) (w32_toWstring_16 (At (us ++ 0 :: junk))).
Proof. exact w32_from16. Qed.
Print Assumptions C55_w32_from_utf16.

Theorem C55_w32_inverse : forall T cs, Forall scalar cs -> exists b u,
  w32_toUtf8 (c_str cs) = Done b /\ w32_toWstring_8 (c_str b) = Done cs /\ w32_toUtf16 (c_str cs) = Done u /\ w32_toWstring_16 (c_str u) = Done cs /\
  w32_toUcs4 T (c_str cs) = Done cs /\ w32_toWstring_32 T (c_str cs) = Done cs.
Proof. exact w32_inverse. Qed.
Print Assumptions C55_w32_inverse.

(* ---- 16 bits; toUtf8 is as lenient with low surrogates as the char16_t function (C08) ---- *)
Theorem C55_w16_checks : forall T us junk, text16 us -> let p := At (us ++ 0 :: junk) in
  answers Done (w16_isUtf8 T p) (exists cs, reads_as16 cs us) /\ answers Done (w16_isUtf16 T p) (exists cs, reads_as16 cs us) /\
  answers Done (w16_isUcs4 T p) (exists cs, reads_as16 cs us) /\ answers Done (w16_isUcs2 T p) (Forall bmp us).
Proof. exact w16_checks. Qed.
Print Assumptions C55_w16_checks.

Theorem C55_w16_to : forall us junk, text16 us -> let p := At (us ++ 0 :: junk) in
  exact_conversion (fun cs => lenient_as16 cs us) (flat_map utf8_bytes) (w16_toUtf8 p) /\
  exact_conversion (fun cs => reads_as16 cs us) (fun cs => cs) (w16_toUcs4 p).
Proof. exact w16_to. Qed.
Print Assumptions C55_w16_to.

Theorem C55_w16_copies : forall T us junk, text16 us -> let p := At (us ++ 0 :: junk) in
  ((exists cs, reads_as16 cs us) -> w16_toUtf16 T p = Done us /\ w16_toWstring_16 T p = Done us) /\
  ((forall cs, ~ reads_as16 cs us) -> w16_toUtf16 T p = Done [] /\ w16_toWstring_16 T p = Done []).
Proof. exact w16_copies. Qed.
Print Assumptions C55_w16_copies.

Theorem C55_w16_ucs2 : forall T us junk, text16 us -> encodes_or_empty bmp (fun c => [c]) us (w16_toUcs2 T (At (us ++ 0 :: junk))).
Proof. exact w16_ucs2. Qed.
Print Assumptions C55_w16_ucs2.

Theorem C55_w16_from_utf8 : forall bs junk, text8 bs ->
  exact_conversion (fun cs => reads_as cs bs /\ Forall upto cs) (flat_map utf16_units) (w16_toWstring_8 (At (bs ++ 0 :: junk))).
Proof. exact w16_from8. Qed.
Print Assumptions C55_w16_from_utf8.

Theorem C55_w16_from_ucs4 : forall us junk, text32 us -> encodes_or_empty scalar utf16_units us (w16_toWstring_32 (At (us ++ 0 :: junk))).
Proof. exact w16_from32. Qed.
Print Assumptions C55_w16_from_ucs4.

Theorem C55_w16_inverse : forall T cs us, utf16_text cs us -> exists b,
  w16_toUtf8 (c_str us) = Done b /\ w16_toWstring_8 (c_str b) = Done us /\ w16_toUcs4 (c_str us) = Done cs /\ w16_toWstring_32 (c_str cs) = Done us /\
  w16_toUtf16 T (c_str us) = Done us /\ w16_toWstring_16 T (c_str us) = Done us.
Proof. exact w16_inverse. Qed.
Print Assumptions C55_w16_inverse.

Example C55_case : Forall scalar [0x41; 0x1F600] /\
  w32_isUtf8 (tables V7) (c_str [0x41; 0x1F600]) = Done true /\ w32_isUcs2 (tables V7) (c_str [0x41; 0x1F600]) = Done false /\
  w32_toUtf8 (c_str [0x41; 0x1F600]) = Done [0x41; 0xF0; 0x9F; 0x98; 0x80] /\
  w32_toWstring_8 (c_str [0x41; 0xF0; 0x9F; 0x98; 0x80]) = Done [0x41; 0x1F600] /\
  w16_isUcs2 (tables V7) (c_str [0x41; 0xD83D; 0xDE00]) = Done false /\ w16_isUcs4 (tables V7) (c_str [0x41; 0xD83D; 0xDE00]) = Done true /\
  w16_toUcs2 (tables V7) (c_str [0x41; 0xE9]) = Done [0x41; 0xE9] /\
  w16_toWstring_8 (c_str [0x41; 0xF0; 0x9F; 0x98; 0x80]) = Done [0x41; 0xD83D; 0xDE00].
Proof. split; [exact case_scalars|]. repeat split. Qed.

(* ---- C56: isWstring guarantees toWstring ----
   Full statement: the six theorems below, each with the conclusion "toWstring returns the wide re-encoding of
   all code points read".  True for 32 bits; for 16 bits values above 0x10FFFF pass isWstring and then give
   the empty string, and a lone high surrogate at the end of UTF-16 text is copied. *)
Theorem C56_w32_utf8 : forall T bs junk, text8 bs -> w32_isWstring_8 T (At (bs ++ 0 :: junk)) = Done true ->
  exists cs, reads_as cs bs /\ w32_toWstring_8 (At (bs ++ 0 :: junk)) = Done cs.
Proof. exact w32_says8. Qed.
Print Assumptions C56_w32_utf8.

Theorem C56_w32_utf16 : forall T us junk, text16 us -> w32_isWstring_16 T (At (us ++ 0 :: junk)) = Done true ->
  exists cs, reads_as16 cs us /\ w32_toWstring_16 (At (us ++ 0 :: junk)) = Done cs.
Proof. exact w32_says16. Qed.
Print Assumptions C56_w32_utf16.

Theorem C56_w32_ucs4 : forall T us junk, text32 us -> w32_isWstring_32 T (At (us ++ 0 :: junk)) = Done true ->
  w32_toWstring_32 T (At (us ++ 0 :: junk)) = Done us.
Proof. exact w32_says32. Qed.
Print Assumptions C56_w32_ucs4.

Theorem C56_w16_utf8_partial : forall T bs junk, text8 bs -> w16_isWstring_8 T (At (bs ++ 0 :: junk)) = Done true ->
  exists cs, reads_as cs bs /\ Forall (range_isUtf8 Utf16) cs /\
    (Forall upto cs -> w16_toWstring_8 (At (bs ++ 0 :: junk)) = Done (flat_map utf16_units cs)) /\
    (~ Forall upto cs -> w16_toWstring_8 (At (bs ++ 0 :: junk)) = Done []).
Proof. exact w16_says8. Qed.
Print Assumptions C56_w16_utf8_partial.

Theorem C56_w16_utf16_partial : forall T us junk, text16 us -> w16_isWstring_16 T (At (us ++ 0 :: junk)) = Done true ->
  w16_toWstring_16 T (At (us ++ 0 :: junk)) = Done us.
Proof. exact w16_says16. Qed.
Print Assumptions C56_w16_utf16_partial.

Theorem C56_w16_ucs4_partial : forall T us junk, text32 us -> w16_isWstring_32 T (At (us ++ 0 :: junk)) = Done true ->
  Forall (range_isUcs4 Utf16) us /\
    (Forall upto us -> w16_toWstring_32 (At (us ++ 0 :: junk)) = Done (flat_map utf16_units us)) /\
    (~ Forall upto us -> w16_toWstring_32 (At (us ++ 0 :: junk)) = Done []).
Proof. exact w16_says32. Qed.
Print Assumptions C56_w16_ucs4_partial.

Theorem C56_w16_big_refuted : exists bs us, forall T, w16_isWstring_8 T (c_str bs) = Done true /\ w16_toWstring_8 (c_str bs) = Done [] /\ bs <> [] /\
  w16_isWstring_32 T (c_str us) = Done true /\ w16_toWstring_32 (c_str us) = Done [] /\ us <> [].
Proof. exact w16_big_refuted. Qed.
Print Assumptions C56_w16_big_refuted.

Theorem C56_w16_tail_refuted : exists cs us, reads_as16 cs us /\ forall T, w16_isWstring_16 T (c_str us) = Done true /\
  w16_toWstring_16 T (c_str us) <> Done (flat_map utf16_units cs).
Proof. exact w16_tail_refuted. Qed.
Print Assumptions C56_w16_tail_refuted.

Example C56_case : w32_isWstring_8 (tables V16) (c_str [0xC3; 0xA9; 0xF0; 0x9F; 0x98; 0x80]) = Done true /\
  w32_toWstring_8 (c_str [0xC3; 0xA9; 0xF0; 0x9F; 0x98; 0x80]) = Done [0xE9; 0x1F600] /\
  w16_isWstring_32 (tables V16) (c_str [0xE9; 0x1F600]) = Done true /\ w16_toWstring_32 (c_str [0xE9; 0x1F600]) = Done [0xE9; 0xD83D; 0xDE00].
Proof. repeat split. Qed.

(* ---- C57: the version string ---- *)
Theorem C57_version : forall v, getUnicodeVersionSupported (tables v) = append (decimal (number v)) ".0.0"%string.
Proof. exact version_string. Qed.
Print Assumptions C57_version.

Example C57_case : getUnicodeVersionSupported (tables V7) = "7.0.0"%string /\ getUnicodeVersionSupported (tables V16) = "16.0.0"%string.
Proof. split; reflexivity. Qed.

(* ---- C62: bare checks ---- *)
Theorem C62_utf8 : forall T bs junk, text8 bs -> answers Done (isUtf8_bare T (At (bs ++ 0 :: junk))) (exists cs, reads_as cs bs).
Proof. exact bare8. Qed.
Print Assumptions C62_utf8.

Theorem C62_utf16 : forall T us junk, text16 us -> answers Done (isUtf16_bare T (At (us ++ 0 :: junk))) (exists cs, reads_as16 cs us).
Proof. exact bare16. Qed.
Print Assumptions C62_utf16.

Theorem C62_ucs2 : forall T us junk, text16 us -> answers Done (isUcs2_bare T (At (us ++ 0 :: junk))) (Forall bmp us).
Proof. exact bare2. Qed.
Print Assumptions C62_ucs2.

Theorem C62_ucs4 : forall T us junk, text32 us -> answers Done (isUcs4_bare T (At (us ++ 0 :: junk))) (Forall (fun c => ~ surrogate c) us).
Proof. exact bare32. Qed.
Print Assumptions C62_ucs4.

Theorem C62_utf8_converts : forall T bs junk, text8 bs -> isUtf8_bare T (At (bs ++ 0 :: junk)) = Done true ->
  exists cs, reads_as cs bs /\ toUcs4_8 (At (bs ++ 0 :: junk)) = Done cs.
Proof. exact bare8_converts. Qed.
Print Assumptions C62_utf8_converts.

Theorem C62_utf8_rejects : forall T bs junk, text8 bs -> isUtf8_bare T (At (bs ++ 0 :: junk)) = Done false ->
  toUcs4_8 (At (bs ++ 0 :: junk)) = Done [].
Proof. exact bare8_rejects. Qed.
Print Assumptions C62_utf8_rejects.

Theorem C62_utf8_predicate : forall T bs junk pred, text8 bs -> isUtf8_pred T (At (bs ++ 0 :: junk)) pred = Done true <->
  exists cs, reads_as cs bs /\ Forall (fun c => pred32 T pred c = true) cs.
Proof. exact sugar8. Qed.
Print Assumptions C62_utf8_predicate.

(* full statement: with pred32 T pred c in place of pred16 T pred (hd 0 (utf16_units c)); false, see C37_utf16_refuted *)
Theorem C62_utf16_predicate_partial : forall T us junk pred, text16 us -> isUtf16_pred T (At (us ++ 0 :: junk)) pred = Done true <->
  exists cs, reads_as16 cs us /\ Forall (fun c => pred16 T pred (hd 0 (utf16_units c)) = true) cs.
Proof. exact sugar16. Qed.
Print Assumptions C62_utf16_predicate_partial.

Theorem C62_ucs2_predicate : forall T us junk pred, text16 us -> isUcs2_pred T (At (us ++ 0 :: junk)) pred = Done true <->
  Forall bmp us /\ Forall (fun c => pred16 T pred c = true) us.
Proof. exact sugar2. Qed.
Print Assumptions C62_ucs2_predicate.

Theorem C62_ucs4_predicate : forall T us junk pred, text32 us -> isUcs4_pred T (At (us ++ 0 :: junk)) pred = Done true <->
  Forall (fun c => ~ surrogate c) us /\ Forall (fun c => pred32 T pred c = true) us.
Proof. exact sugar32. Qed.
Print Assumptions C62_ucs4_predicate.

Example C62_case : isUtf8_bare (tables V7) (At [0xC3; 0xA9; 0xE2; 0]) = Done true /\ isUtf8_bare (tables V7) (At [0xC3; 0x41; 0]) = Done false /\
  isUtf16_bare (tables V7) (At [0xD83D; 0xDE00; 0]) = Done true /\ isUcs2_bare (tables V7) (At [0xD83D; 0xDE00; 0]) = Done false /\
  isUcs4_bare (tables V7) (At [0xFFFFFFFF; 0]) = Done true /\ isUcs4_pred (tables V7) (At [0x41; 0x20; 0]) (validIfNot 4) = Done false /\
  isUtf8_pred (tables V7) (At [0x41; 0xC3; 0xA9; 0]) (validIf 1) = Done true.
Proof. repeat split. Qed.

(* ---- C63: narrow overloads on WIN32 ----
   Full statement: also narrow_toUtf8 T Null = Done []; false, the null pointer is copied from. *)
Theorem C63_checks : forall T bs junk, text8 bs -> let p := At (bs ++ 0 :: junk) in
  answers Done (narrow_isUtf16 T p) (acceptable8 (range_isUtf8 Utf16) (possible_lead Utf16) bs) /\
  answers Done (narrow_isUcs2 T p) (acceptable8 (documented Ucs2) (possible_lead Ucs2) bs) /\
  answers Done (narrow_isUcs4 T p) (exists cs, reads_as cs bs).
Proof. exact narrow_checks. Qed.
Print Assumptions C63_checks.

Theorem C63_toUtf8_partial : forall T bs junk, text8 bs ->
  ((exists cs, reads_as cs bs) -> narrow_toUtf8 T (At (bs ++ 0 :: junk)) = Done bs) /\
  ((forall cs, ~ reads_as cs bs) -> narrow_toUtf8 T (At (bs ++ 0 :: junk)) = Done []).
Proof. exact narrow_copies. Qed.
Print Assumptions C63_toUtf8_partial.

Theorem C63_null_refuted : exists p, forall T, narrow_isUtf16 T p = Done true /\ narrow_isUcs2 T p = Done true /\ narrow_isUcs4 T p = Done true /\
  narrow_toUtf8 T p = Undefined.
Proof. exact narrow_null_refuted. Qed.
Print Assumptions C63_null_refuted.

Example C63_case : narrow_toUtf8 (tables V7) (At [0x41; 0xC3; 0xA9; 0]) = Done [0x41; 0xC3; 0xA9] /\ narrow_toUtf8 (tables V7) (At [0x41; 0xFF; 0]) = Done [] /\
  narrow_isUcs2 (tables V7) (At [0xF0; 0x9F; 0x98; 0x80; 0]) = Done false /\ narrow_isUtf16 (tables V7) (At [0xF0; 0x9F; 0x98; 0x80; 0]) = Done true.
Proof. repeat split. Qed.

(* ---- C64: isTstring guarantees toTstring ----
   Full statement: isTstring x = true -> toTstring x is x re-encoded, isTstring x = false -> toTstring x is empty.
   False for _MBCS (only ASCII is converted), for _UNICODE above 0x10FFFF and for unchecked UTF-16;
   the partial theorems are the exact results. *)
Theorem C64_mbcs_utf8_partial : forall T bs junk, text8 bs ->
  (Forall ascii bs -> mbcs_toTstring_8 T (At (bs ++ 0 :: junk)) = Done bs) /\
  (~ Forall ascii bs -> mbcs_toTstring_8 T (At (bs ++ 0 :: junk)) = Done []).
Proof. exact mbcs_8. Qed.
Print Assumptions C64_mbcs_utf8_partial.

Theorem C64_mbcs_utf16_partial : forall T us junk, text16 us ->
  (Forall ascii us -> mbcs_toTstring_16 T (At (us ++ 0 :: junk)) = Done us) /\
  (~ Forall ascii us -> mbcs_toTstring_16 T (At (us ++ 0 :: junk)) = Done []).
Proof. exact mbcs_16. Qed.
Print Assumptions C64_mbcs_utf16_partial.

Theorem C64_mbcs_ucs4_partial : forall T us junk, text32 us ->
  (Forall ascii us -> mbcs_toTstring_32 T (At (us ++ 0 :: junk)) = Done us) /\
  (~ Forall ascii us -> mbcs_toTstring_32 T (At (us ++ 0 :: junk)) = Done []).
Proof. exact mbcs_32. Qed.
Print Assumptions C64_mbcs_ucs4_partial.

Theorem C64_unicode_utf8_partial : forall T bs junk, text8 bs -> isTstring_8 T (At (bs ++ 0 :: junk)) = Done true ->
  exists cs, reads_as cs bs /\ Forall (range_isUtf8 Utf16) cs /\
    (Forall upto cs -> unicode_toTstring_8 (At (bs ++ 0 :: junk)) = Done (flat_map utf16_units cs)) /\
    (~ Forall upto cs -> unicode_toTstring_8 (At (bs ++ 0 :: junk)) = Done []).
Proof. exact unicode_says_8. Qed.
Print Assumptions C64_unicode_utf8_partial.

Theorem C64_unicode_utf16_partial : forall us junk, Forall nonzero us -> unicode_toTstring_16 (At (us ++ 0 :: junk)) = Done us.
Proof. exact unicode_16. Qed.
Print Assumptions C64_unicode_utf16_partial.

Theorem C64_unicode_ucs4_partial : forall T us junk, text32 us -> isTstring_32 T (At (us ++ 0 :: junk)) = Done true ->
  Forall (range_isUcs4 Utf16) us /\
    (Forall upto us -> unicode_toTstring_32 (At (us ++ 0 :: junk)) = Done (flat_map utf16_units us)) /\
    (~ Forall upto us -> unicode_toTstring_32 (At (us ++ 0 :: junk)) = Done []).
Proof. exact unicode_says_32. Qed.
Print Assumptions C64_unicode_ucs4_partial.

Theorem C64_mbcs_refuted : exists bs us, forall T, isTstring_8 T (c_str bs) = Done true /\ mbcs_toTstring_8 T (c_str bs) = Done [] /\ bs <> [] /\
  isTstring_16 T (c_str us) = Done true /\ mbcs_toTstring_16 T (c_str us) = Done [] /\ us <> [] /\
  isTstring_32 T (c_str us) = Done true /\ mbcs_toTstring_32 T (c_str us) = Done [].
Proof. exact mbcs_says_refuted. Qed.
Print Assumptions C64_mbcs_refuted.

Theorem C64_unicode_refuted : exists bs us, forall T, isTstring_8 T (c_str bs) = Done true /\ unicode_toTstring_8 (c_str bs) = Done [] /\ bs <> [] /\
  isTstring_32 T (c_str us) = Done true /\ unicode_toTstring_32 (c_str us) = Done [] /\ us <> [].
Proof. exact unicode_says_refuted. Qed.
Print Assumptions C64_unicode_refuted.

Theorem C64_unchecked_refuted : exists us, forall T, isTstring_16 T (c_str us) = Done false /\ unicode_toTstring_16 (c_str us) = Done us.
Proof. exact unicode_unchecked_refuted. Qed.
Print Assumptions C64_unchecked_refuted.

Example C64_case : mbcs_toTstring_16 (tables V7) (c_str [0x41; 0x42]) = Done [0x41; 0x42] /\ mbcs_toTstring_16 (tables V7) (c_str [0x41; 0xE9]) = Done [] /\
  unicode_toTstring_8 (c_str [0x41; 0xC3; 0xA9]) = Done [0x41; 0xE9] /\ unicode_toTstring_16 (At [0x41; 0xE9; 0]) = Done [0x41; 0xE9].
Proof. repeat split. Qed.

(* ---- C65: toTstring of strings ----
   Full statement: mbcs_toTstring_string returns what the overload on the pointer returns.  False: it calls itself
   for ever.  The _UNICODE overloads meet it. *)
Theorem C65_unicode : forall test, unicode_toTstring_8_string test = unicode_toTstring_8 (c_str test) /\
  unicode_toTstring_16_string test = unicode_toTstring_16 (c_str test) /\
  unicode_toTstring_32_string test = unicode_toTstring_32 (c_str test).
Proof. exact unicode_strings. Qed.
Print Assumptions C65_unicode.

Theorem C65_mbcs_never_returns_partial : forall fuel test, mbcs_toTstring_string fuel test = OutOfFuel.
Proof. exact mbcs_string_loops. Qed.
Print Assumptions C65_mbcs_never_returns_partial.

Theorem C65_mbcs_refuted : exists test, forall T r, mbcs_toTstring_8 T (c_str test) = Done test /\
  forall fuel, mbcs_toTstring_string fuel test <> Done r.
Proof. exact mbcs_string_refuted. Qed.
Print Assumptions C65_mbcs_refuted.

Example C65_case : mbcs_toTstring_8 (tables V7) (c_str [0x41]) = Done [0x41] /\ mbcs_toTstring_string 1000 [0x41] = OutOfFuel /\
  unicode_toTstring_8_string [0xC3; 0x80] = Done [0xC0].
Proof. repeat split; reflexivity. Qed.
