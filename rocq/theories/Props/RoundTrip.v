(* C09-C13, C58-C61: round trips, validity of outputs, concatenation, ASCII, order, tails. *)
From Coq Require Import ZArith List Bool Lia.
From Verif Require Import Machine.
From Verif.Model Require Import Internal Tables Predicate Str.
From Verif.Spec Require Import Utf Target Result Lex.
From Verif.Proof Require Import Round Consequences Order Witness.
Import ListNotations.
Local Open Scope Z_scope.

(* ---- C09 ---- *)
Theorem C09_ucs4_utf8_ucs4 : forall s, Forall encodable8 s ->
  exists bs, toUtf8_32_string s = Done bs /\ toUcs4_8_string bs = Done s.
Proof. exact ucs4_utf8_ucs4. Qed.
Print Assumptions C09_ucs4_utf8_ucs4.

Example C09_case : Forall encodable8 [1; 0x7FF; 0xFFFF; 0x10FFFF; 0x7FFFFFFF].
Proof. repeat constructor; unfold surrogate; lia. Qed.

(* ---- C10 ---- *)
Theorem C10_ucs4_utf16_ucs4 : forall s, Forall scalar s ->
  exists us, toUtf16_32_string s = Done us /\ toUcs4_16_string us = Done s.
Proof. exact ucs4_utf16_ucs4. Qed.
Print Assumptions C10_ucs4_utf16_ucs4.

Example C10_case : Forall scalar [1; 0xD7FF; 0xE000; 0x10000; 0x10FFFF].
Proof. repeat constructor; unfold surrogate; lia. Qed.

(* ---- C11 ---- *)
Theorem C11_utf16_utf8_utf16 : forall cs us, utf16_text cs us ->
  exists bs, toUtf8_16_string us = Done bs /\ utf8_text cs bs /\ toUtf16_8_string bs = Done us.
Proof. exact utf16_utf8_utf16. Qed.
Print Assumptions C11_utf16_utf8_utf16.

Theorem C11_utf16_ucs4_utf16 : forall cs us, utf16_text cs us ->
  toUcs4_16_string us = Done cs /\ toUtf16_32_string cs = Done us.
Proof. exact utf16_ucs4_utf16. Qed.
Print Assumptions C11_utf16_ucs4_utf16.

Example C11_case : utf16_text [0x41; 0x1F600] [0x41; 0xD83D; 0xDE00].
Proof. exact case_utf16_whole. Qed.

(* ---- C12 ---- *)
Theorem C12_utf8_ucs4_utf8 : forall cs, Forall encodable8 cs ->
  exists us, toUcs4_8_string (flat_map utf8_bytes cs) = Done us /\
    toUtf8_32_string us = Done (flat_map utf8_bytes cs).
Proof. exact utf8_plain_round. Qed.
Print Assumptions C12_utf8_ucs4_utf8.

Theorem C12_utf8_normalised : forall cs bs, text8 bs -> reads_as cs bs ->
  toUcs4_8_string bs = Done cs /\ toUtf8_32_string cs = Done (flat_map utf8_bytes cs).
Proof. exact utf8_ucs4_utf8. Qed.
Print Assumptions C12_utf8_normalised.

Example C12_case :
  let bs := [0x41; 0xE2; 0x82; 0xAC; 0xED; 0xA0; 0xBD; 0xED; 0xB8; 0x80; 0xE2; 0x82] in
  text8 bs /\ reads_as [0x41; 0x20AC; 0x1F600] bs.
Proof. exact case_utf8. Qed.

(* ---- C13 ----
   Full statement (false): every output of a to-function passes the is-function of its encoding.
   toUtf8(const char16_t* ) writes stray low surrogates as three bytes that are not valid UTF-8. *)
Theorem C13_outputs_valid_refuted : exists us r, text16 us /\ toUtf8_16 (At (us ++ [0])) = Done r /\
  forall v, isUtf8_string (tables v) r kUtf8 nullPredicate = Done false.
Proof. exact invalid_output. Qed.
Print Assumptions C13_outputs_valid_refuted.

(* What holds: seven of the eight conversions always, the eighth on well-formed UTF-16. *)
Theorem C13_outputs_valid_partial : forall T,
  (forall us, text32 us -> valid_output toUtf8_32 (fun r => isUtf8_string T r kUtf8 nullPredicate) us) /\
  (forall us cs, text16 us -> reads_as16 cs us -> valid_output toUtf8_16 (fun r => isUtf8_string T r kUtf8 nullPredicate) us) /\
  (forall us, text32 us -> valid_output toUtf16_32 (fun r => isUtf16_string T r kUtf16 nullPredicate) us) /\
  (forall bs, text8 bs -> valid_output toUtf16_8 (fun r => isUtf16_string T r kUtf16 nullPredicate) bs) /\
  (forall us, text32 us -> valid_output toUcs2_32 (fun r => isUcs2_string T r kUcs2 nullPredicate) us) /\
  (forall bs, text8 bs -> valid_output toUcs2_8 (fun r => isUcs2_string T r kUcs2 nullPredicate) bs) /\
  (forall bs, text8 bs -> valid_output toUcs4_8 (fun r => isUcs4_string T r kUcs4 nullPredicate) bs) /\
  (forall us, text16 us -> valid_output toUcs4_16 (fun r => isUcs4_string T r kUcs4 nullPredicate) us).
Proof. exact outputs_valid. Qed.
Print Assumptions C13_outputs_valid_partial.

Example C13_case : reads_as16 [0x41; 0x1F600] [0x41; 0xD83D; 0xDE00; 0xD83D].
Proof. exact case_utf16. Qed.

(* ---- C58 ---- *)
Theorem C58_checks_of_concatenation : forall T t pred,
  (forall cs a b, utf8_text cs a -> text8 b ->
     conj_of (isUtf8_string T (a ++ b) (code t) pred) (isUtf8_string T a (code t) pred) (isUtf8_string T b (code t) pred)) /\
  (forall cs a b, utf16_text cs a -> text16 b ->
     conj_of (isUtf16_string T (a ++ b) (code t) pred) (isUtf16_string T a (code t) pred) (isUtf16_string T b (code t) pred)) /\
  (forall a b, text16 a -> text16 b ->
     conj_of (isUcs2_string T (a ++ b) (code t) pred) (isUcs2_string T a (code t) pred) (isUcs2_string T b (code t) pred)) /\
  (forall a b, text32 a -> text32 b ->
     conj_of (isUcs4_string T (a ++ b) (code t) pred) (isUcs4_string T a (code t) pred) (isUcs4_string T b (code t) pred)).
Proof. exact concat_checks. Qed.
Print Assumptions C58_checks_of_concatenation.

Theorem C58_conversions_of_concatenation :
  (forall cs1 a cs2 b, utf8_text cs1 a -> text8 b -> reads_as cs2 b ->
     exists r1 r2, toUcs4_8_string a = Done r1 /\ toUcs4_8_string b = Done r2 /\ toUcs4_8_string (a ++ b) = Done (r1 ++ r2)) /\
  (forall cs1 a cs2 b, utf8_text cs1 a -> text8 b -> reads_as cs2 b -> Forall scalar cs1 -> Forall scalar cs2 ->
     exists r1 r2, toUtf16_8_string a = Done r1 /\ toUtf16_8_string b = Done r2 /\ toUtf16_8_string (a ++ b) = Done (r1 ++ r2)) /\
  (forall cs1 a cs2 b, utf8_text cs1 a -> text8 b -> reads_as cs2 b -> Forall bmp cs1 -> Forall bmp cs2 ->
     exists r1 r2, toUcs2_8_string a = Done r1 /\ toUcs2_8_string b = Done r2 /\ toUcs2_8_string (a ++ b) = Done (r1 ++ r2)) /\
  (forall cs1 a cs2 b, utf16_text cs1 a -> text16 b -> reads_as16 cs2 b ->
     exists r1 r2, toUtf8_16_string a = Done r1 /\ toUtf8_16_string b = Done r2 /\ toUtf8_16_string (a ++ b) = Done (r1 ++ r2)) /\
  (forall cs1 a cs2 b, utf16_text cs1 a -> text16 b -> reads_as16 cs2 b ->
     exists r1 r2, toUcs4_16_string a = Done r1 /\ toUcs4_16_string b = Done r2 /\ toUcs4_16_string (a ++ b) = Done (r1 ++ r2)) /\
  (forall a b, Forall encodable8 a -> Forall encodable8 b ->
     exists r1 r2, toUtf8_32_string a = Done r1 /\ toUtf8_32_string b = Done r2 /\ toUtf8_32_string (a ++ b) = Done (r1 ++ r2)) /\
  (forall a b, Forall scalar a -> Forall scalar b ->
     exists r1 r2, toUtf16_32_string a = Done r1 /\ toUtf16_32_string b = Done r2 /\ toUtf16_32_string (a ++ b) = Done (r1 ++ r2)) /\
  (forall a b, Forall bmp a -> Forall bmp b ->
     exists r1 r2, toUcs2_32_string a = Done r1 /\ toUcs2_32_string b = Done r2 /\ toUcs2_32_string (a ++ b) = Done (r1 ++ r2)).
Proof. exact concat_conversions. Qed.
Print Assumptions C58_conversions_of_concatenation.

(* the hypothesis "ends on a sequence boundary" is needed: the two halves of a sequence *)
Example C58_case :
  utf8_text [0x41; 0x20AC] [0x41; 0xE2; 0x82; 0xAC] /\
  toUcs4_8_string [0xE2; 0x82] = Done [] /\ toUcs4_8_string [0xAC] = Done [] /\ toUcs4_8_string ([0xE2; 0x82] ++ [0xAC]) = Done [0x20AC].
Proof. exact (conj case_utf8_whole (conj eq_refl (conj eq_refl eq_refl))). Qed.

(* ---- C59 ---- *)
Theorem C59_ascii_accepted : forall T cs t, Forall ascii cs ->
  isUtf8_string T cs (code t) nullPredicate = Done true /\ isUtf16_string T cs (code t) nullPredicate = Done true /\
  isUcs2_string T cs (code t) nullPredicate = Done true /\ isUcs4_string T cs (code t) nullPredicate = Done true.
Proof. exact ascii_accepted. Qed.
Print Assumptions C59_ascii_accepted.

Theorem C59_ascii_converts : forall cs, Forall ascii cs ->
  toUcs4_8_string cs = Done cs /\ toUtf16_8_string cs = Done cs /\ toUcs2_8_string cs = Done cs /\
  toUcs4_16_string cs = Done cs /\ toUtf8_16_string cs = Done cs /\
  toUtf8_32_string cs = Done cs /\ toUtf16_32_string cs = Done cs /\ toUcs2_32_string cs = Done cs.
Proof. exact ascii_converts. Qed.
Print Assumptions C59_ascii_converts.

Example C59_case : Forall ascii [1; 0x41; 0x7F].
Proof. repeat constructor; lia. Qed.

(* ---- C60 ---- *)
Theorem C60_utf8_injective_and_ordered : forall a b, Forall encodable8 a -> Forall encodable8 b ->
  exists ra rb, toUtf8_32_string a = Done ra /\ toUtf8_32_string b = Done rb /\
    (lex_lt ra rb <-> lex_lt a b) /\ (ra = rb <-> a = b).
Proof. exact toUtf8_32_ordered. Qed.
Print Assumptions C60_utf8_injective_and_ordered.

Theorem C60_utf16_injective : forall a b, Forall scalar a -> Forall scalar b ->
  exists ra rb, toUtf16_32_string a = Done ra /\ toUtf16_32_string b = Done rb /\ (ra = rb <-> a = b).
Proof. exact toUtf16_32_injective. Qed.
Print Assumptions C60_utf16_injective.

Example C60_case : Forall encodable8 [0x41; 0xFFFF] /\ Forall encodable8 [0x41; 0x10000] /\ lex_lt [0x41; 0xFFFF] [0x41; 0x10000].
Proof. split; [|split]; repeat constructor; unfold surrogate; lia. Qed.

(* ---- C61 ----
   Full statement (false): an incomplete sequence at the end is ignored only if it could have been
   completed to a valid one.  A lone 0xC0 (which starts no valid sequence) is ignored as well. *)
Theorem C61_only_completable_tails_refuted : exists cs body tail, utf8_text cs body /\ tail <> [] /\ ~ completable tail /\
  toUcs4_8 (At ((body ++ tail) ++ [0])) = Done [0x41] /\ toUtf16_8 (At ((body ++ tail) ++ [0])) = Done [0x41] /\
  toUcs2_8 (At ((body ++ tail) ++ [0])) = Done [0x41].
Proof. exact overlong_tail. Qed.
Print Assumptions C61_only_completable_tails_refuted.

(* What holds: every completable tail is ignored. *)
Theorem C61_completable_tails_ignored_partial : forall cs body tail junk, utf8_text cs body -> completable tail ->
  let p := At ((body ++ tail) ++ 0 :: junk) in
  toUcs4_8 p = Done cs /\
  (Forall (fun c => c <= 0x10FFFF) cs -> toUtf16_8 p = Done (flat_map utf16_units cs)) /\
  (Forall (fun c => c <= 0xFFFF) cs -> toUcs2_8 p = Done cs).
Proof. exact completable_ignored. Qed.
Print Assumptions C61_completable_tails_ignored_partial.

Example C61_case : completable [0xE2; 0x82].
Proof. exact case_completable. Qed.
