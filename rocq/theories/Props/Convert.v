(* C01-C08: the conversions are exact.

   In all statements [At (bs ++ 0 :: junk)] is a pointer to an array holding the text [bs] (no zero
   inside), its terminating zero and whatever else follows. *)
From Coq Require Import ZArith List Bool Lia.
From Verif Require Import Machine.
From Verif.Model Require Import Str.
From Verif.Spec Require Import Utf Target Result.
From Verif.Proof Require Import ToFuncs Lenient Consequences Witness.
Import ListNotations.
Local Open Scope Z_scope.

(* ---- C01: toUcs4(const char* ) ---- *)
Theorem C01_toUcs4_of_utf8 : forall bs junk, text8 bs ->
  exact_conversion (fun cs => reads_as cs bs) (fun cs => cs) (toUcs4_8 (At (bs ++ 0 :: junk))).
Proof. exact toUcs4_8_exact. Qed.
Print Assumptions C01_toUcs4_of_utf8.

(* 'A', U+20AC in three bytes, U+1F600 as a surrogate pair, then a sequence cut short *)
Example C01_case :
  let bs := [0x41; 0xE2; 0x82; 0xAC; 0xED; 0xA0; 0xBD; 0xED; 0xB8; 0x80; 0xE2; 0x82] in
  text8 bs /\ reads_as [0x41; 0x20AC; 0x1F600] bs /\
  toUcs4_8 (At (bs ++ [0; 7])) = Done [0x41; 0x20AC; 0x1F600].
Proof. exact (conj (proj1 case_utf8) (conj (proj2 case_utf8) eq_refl)). Qed.
Example C01_case_bad : toUcs4_8 (At ([0x41; 0xC0; 0x80; 0x42] ++ [0])) = Done [].
Proof. reflexivity. Qed.

(* ---- C02: toUtf16(const char* ) ---- *)
Theorem C02_toUtf16_of_utf8 : forall bs junk, text8 bs ->
  exact_conversion (fun cs => reads_as cs bs /\ Forall (fun c => c <= 0x10FFFF) cs)
    (flat_map utf16_units) (toUtf16_8 (At (bs ++ 0 :: junk))).
Proof. exact toUtf16_8_exact. Qed.
Print Assumptions C02_toUtf16_of_utf8.

Example C02_case :
  toUtf16_8 (At ([0x41; 0xE2; 0x82; 0xAC; 0xF0; 0x9F; 0x98; 0x80] ++ [0])) = Done [0x41; 0x20AC; 0xD83D; 0xDE00] /\
  toUtf16_8 (At ([0x41; 0xF4; 0x90; 0x80; 0x80] ++ [0])) = Done [].
Proof. split; reflexivity. Qed.

(* ---- C03: toUcs2(const char* ) ---- *)
Theorem C03_toUcs2_of_utf8 : forall bs junk, text8 bs ->
  exact_conversion (fun cs => reads_as cs bs /\ Forall (fun c => c <= 0xFFFF) cs)
    (fun cs => cs) (toUcs2_8 (At (bs ++ 0 :: junk))).
Proof. exact toUcs2_8_exact. Qed.
Print Assumptions C03_toUcs2_of_utf8.

Example C03_case :
  toUcs2_8 (At ([0x41; 0xEF; 0xBF; 0xBF] ++ [0])) = Done [0x41; 0xFFFF] /\
  toUcs2_8 (At ([0x41; 0xF0; 0x90; 0x80; 0x80] ++ [0])) = Done [].
Proof. split; reflexivity. Qed.

(* ---- C04: toUtf8(const char32_t* ) ---- *)
Theorem C04_toUtf8_of_ucs4 : forall us junk, text32 us ->
  encodes_or_empty encodable8 utf8_bytes us (toUtf8_32 (At (us ++ 0 :: junk))).
Proof. exact toUtf8_32_exact. Qed.
Print Assumptions C04_toUtf8_of_ucs4.

Example C04_case :
  Forall encodable8 [0x41; 0x20AC; 0x7FFFFFFF] /\
  toUtf8_32 (At ([0x41; 0x20AC; 0x7FFFFFFF] ++ [0])) = Done [0x41; 0xE2; 0x82; 0xAC; 0xFD; 0xBF; 0xBF; 0xBF; 0xBF; 0xBF] /\
  toUtf8_32 (At ([0x41; 0xD800] ++ [0])) = Done [].
Proof. split; [repeat constructor; unfold surrogate; lia|split; reflexivity]. Qed.

(* ---- C05: toUtf16(const char32_t* ) ---- *)
Theorem C05_toUtf16_of_ucs4 : forall us junk, text32 us ->
  encodes_or_empty scalar utf16_units us (toUtf16_32 (At (us ++ 0 :: junk))).
Proof. exact toUtf16_32_exact. Qed.
Print Assumptions C05_toUtf16_of_ucs4.

Example C05_case :
  Forall scalar [0x41; 0x10FFFF] /\
  toUtf16_32 (At ([0x41; 0x10FFFF] ++ [0])) = Done [0x41; 0xDBFF; 0xDFFF] /\
  toUtf16_32 (At ([0x41; 0x110000] ++ [0])) = Done [].
Proof. split; [repeat constructor; unfold surrogate; lia|split; reflexivity]. Qed.

(* ---- C06: toUcs2(const char32_t* ) ---- *)
Theorem C06_toUcs2_of_ucs4 : forall us junk, text32 us ->
  encodes_or_empty bmp (fun c => [c]) us (toUcs2_32 (At (us ++ 0 :: junk))).
Proof. exact toUcs2_32_exact. Qed.
Print Assumptions C06_toUcs2_of_ucs4.

Example C06_case :
  Forall bmp [0x41; 0xFFFF] /\ toUcs2_32 (At ([0x41; 0xFFFF] ++ [0])) = Done [0x41; 0xFFFF] /\
  toUcs2_32 (At ([0x41; 0x10000] ++ [0])) = Done [].
Proof. split; [repeat constructor; unfold surrogate; lia|split; reflexivity]. Qed.

(* ---- C07: toUcs4(const char16_t* ) ---- *)
Theorem C07_toUcs4_of_utf16 : forall us junk, text16 us ->
  exact_conversion (fun cs => reads_as16 cs us) (fun cs => cs) (toUcs4_16 (At (us ++ 0 :: junk))).
Proof. exact toUcs4_16_exact. Qed.
Print Assumptions C07_toUcs4_of_utf16.

Example C07_case :
  reads_as16 [0x41; 0x1F600] [0x41; 0xD83D; 0xDE00; 0xD83D] /\
  toUcs4_16 (At ([0x41; 0xD83D; 0xDE00; 0xD83D] ++ [0])) = Done [0x41; 0x1F600] /\
  toUcs4_16 (At ([0x41; 0xDE00; 0x42] ++ [0])) = Done [].
Proof. exact (conj case_utf16 (conj eq_refl eq_refl)). Qed.

(* ---- C08: toUtf8(const char16_t* ) ----
   Full statement (false):
     forall us junk, text16 us ->
       exact_conversion (fun cs => reads_as16 cs us) (flat_map utf8_bytes) (toUtf8_16 (At (us ++ 0 :: junk))).
   A low surrogate without a high one before it is not rejected but written as three bytes. *)
Theorem C08_toUtf8_of_utf16_refuted : exists us, text16 us /\ (forall cs, ~ reads_as16 cs us) /\
  toUtf8_16 (At (us ++ [0])) = Done [0x41; 0xED; 0xB8; 0x80].
Proof. exact stray_low_surrogate. Qed.
Print Assumptions C08_toUtf8_of_utf16_refuted.

(* What holds: well-formed text is converted correctly, and text with an unpaired high surrogate
   is rejected; precisely, the function is exact for the reading that lets low surrogates stand
   alone.  Missing: rejection of stray low surrogates. *)
Theorem C08_toUtf8_of_utf16_partial : forall us junk, text16 us ->
  (forall cs, reads_as16 cs us -> toUtf8_16 (At (us ++ 0 :: junk)) = Done (flat_map utf8_bytes cs)) /\
  exact_conversion (fun cs => lenient_as16 cs us) (flat_map utf8_bytes) (toUtf8_16 (At (us ++ 0 :: junk))).
Proof. exact toUtf8_16_both. Qed.
Print Assumptions C08_toUtf8_of_utf16_partial.

Example C08_case :
  reads_as16 [0x41; 0x1F600] [0x41; 0xD83D; 0xDE00; 0xD83D] /\
  toUtf8_16 (At ([0x41; 0xD83D; 0xDE00; 0xD83D] ++ [0])) = Done [0x41; 0xF0; 0x9F; 0x98; 0x80] /\
  toUtf8_16 (At ([0x41; 0xD83D; 0x42] ++ [0])) = Done [].
Proof. exact (conj case_utf16 (conj eq_refl eq_refl)). Qed.
