(* C14-C20, C37, C38: the is-functions. *)
From Coq Require Import ZArith List Bool Lia.
From Verif Require Import Machine.
From Verif.Model Require Import Internal Decode Tables Predicate Str.
From Verif.Spec Require Import Utf Target Result.
From Verif.Proof Require Import IsFuncs Consequences Calls Witness ValidateWitness.
Import ListNotations.
Local Open Scope Z_scope.

(* ---- C14: isUtf8 ----
   Full statement (false): for every bs and t, isUtf8 answers [documented8 t bs], i.e. all characters
   in the documented range, and at the end at most a sequence that could have been completed.
   Two things go wrong: kUtf16 lets characters from 0x110000 up to 0x13FFFF through, and some tails
   that cannot be completed are ignored. *)
Theorem C14_documented_range_refuted : exists bs, text8 bs /\
  (forall T, isUtf8 T (At (bs ++ [0])) (code Utf16) nullPredicate = Done true) /\
  ~ documented8 Utf16 bs /\ toUtf16_8 (At (bs ++ [0])) = Done [].
Proof. exact utf16_target_too_wide. Qed.
Print Assumptions C14_documented_range_refuted.

Theorem C14_documented_tail_refuted : exists bs, text8 bs /\
  (forall T, isUtf8 T (At (bs ++ [0])) (code Utf8) nullPredicate = Done true) /\ ~ documented8 Utf8 bs.
Proof. exact impossible_tail. Qed.
Print Assumptions C14_documented_tail_refuted.

(* What holds.  The exact answer, for every string, target and predicate, differs from the documented
   one by [range_isUtf8] (wider for kUtf16 only) and by judging a cut-short tail on its lead byte. *)
Theorem C14_exact_answer_partial : forall T bs junk t pred, text8 bs ->
  answers Done (isUtf8 T (At (bs ++ 0 :: junk)) (code t) pred)
    (acceptable8 (fun c => range_isUtf8 t c /\ pred32 T pred c = true) (possible_lead t) bs).
Proof. exact isUtf8_exact. Qed.
Print Assumptions C14_exact_answer_partial.

(* nothing documented as acceptable is refused *)
Theorem C14_accepts_documented_partial : forall T bs junk t, text8 bs -> documented8 t bs ->
  isUtf8 T (At (bs ++ 0 :: junk)) (code t) nullPredicate = Done true.
Proof. exact documented8_true. Qed.
Print Assumptions C14_accepts_documented_partial.

(* for texts that end on a sequence boundary and the other five targets the answer is the documented one *)
Theorem C14_whole_texts_partial : forall T cs bs junk t, t <> Utf16 -> utf8_text cs bs ->
  answers Done (isUtf8 T (At (bs ++ 0 :: junk)) (code t) nullPredicate) (Forall (documented t) cs).
Proof. exact whole_texts. Qed.
Print Assumptions C14_whole_texts_partial.

Example C14_case :
  documented8 Unicode [0x41; 0xE2; 0x82] /\ text8 [0x41; 0xE2; 0x82] /\
  isUtf8 (tables V7) (At [0x41; 0xE2; 0x82; 0]) kUnicode nullPredicate = Done true /\
  isUtf8 (tables V7) (At [0x41; 0xE2; 0x82; 0]) kAscii nullPredicate = Done false /\
  isUtf8 (tables V7) (At [0x41; 0xE2; 0x42; 0]) kUnicode nullPredicate = Done false /\
  isUtf8 (tables V7) (At [0xF0; 0x9F; 0x98; 0x80; 0]) kUcs2 nullPredicate = Done false.
Proof. split; [exact case_documented8|]. split; [range|]. repeat split. Qed.

(* ---- C15: isUtf16 ---- *)
Theorem C15_exact_answer : forall T us junk t, text16 us ->
  answers Done (isUtf16 T (At (us ++ 0 :: junk)) (code t) nullPredicate)
    (acceptable16 (documented t) (supplementary_target t) us).
Proof. exact isUtf16_null_exact. Qed.
Print Assumptions C15_exact_answer.

Example C15_case : text16 [0x41; 0xD83D; 0xDE00; 0xD83D] /\
  isUtf16 (tables V7) (At [0x41; 0xD83D; 0xDE00; 0xD83D; 0]) kUtf16 nullPredicate = Done true /\
  isUtf16 (tables V7) (At [0x41; 0xD83D; 0xDE00; 0xD83D; 0]) kUcs2 nullPredicate = Done false /\
  isUtf16 (tables V7) (At [0x41; 0xD83D; 0]) kUcs2 nullPredicate = Done false /\
  isUtf16 (tables V7) (At [0xDE00; 0x41; 0]) kUcs4 nullPredicate = Done false.
Proof. split; [range|]. repeat split. Qed.

(* ---- C16: isUcs2 ---- *)
Theorem C16_exact_answer : forall T us junk t, text16 us ->
  answers Done (isUcs2 T (At (us ++ 0 :: junk)) (code t) nullPredicate) (Forall (fun c => bmp c /\ documented t c) us).
Proof. exact isUcs2_null_exact. Qed.
Print Assumptions C16_exact_answer.

Example C16_case : text16 [0x41; 0xFFFF] /\
  isUcs2 (tables V7) (At [0x41; 0xFFFF; 0]) kUcs2 nullPredicate = Done true /\
  isUcs2 (tables V7) (At [0x41; 0xFFFF; 0]) kAscii nullPredicate = Done false /\
  isUcs2 (tables V7) (At [0xD83D; 0xDE00; 0]) kUtf16 nullPredicate = Done false.
Proof. split; [range|]. repeat split. Qed.

(* ---- C17: isUcs4 ----
   Full statement (false for kUtf16): isUcs4 answers [Forall (documented t) us]. *)
Theorem C17_documented_range_refuted : exists us, text32 us /\
  (forall T, isUcs4 T (At (us ++ [0])) (code Utf16) nullPredicate = Done true) /\
  ~ Forall (documented Utf16) us /\ toUtf16_32 (At (us ++ [0])) = Done [].
Proof. exact isUcs4_too_wide. Qed.
Print Assumptions C17_documented_range_refuted.

(* What holds: [range_isUcs4] is [documented] for the other five targets, and ends at 0x1FFFFF for kUtf16. *)
Theorem C17_exact_answer_partial : forall T us junk t, text32 us ->
  answers Done (isUcs4 T (At (us ++ 0 :: junk)) (code t) nullPredicate) (Forall (range_isUcs4 t) us).
Proof. exact isUcs4_null_exact. Qed.
Print Assumptions C17_exact_answer_partial.

Theorem C17_other_targets_partial : forall T us junk t, text32 us -> t <> Utf16 ->
  answers Done (isUcs4 T (At (us ++ 0 :: junk)) (code t) nullPredicate) (Forall (documented t) us).
Proof. exact isUcs4_other_targets. Qed.
Print Assumptions C17_other_targets_partial.

Example C17_case : text32 [0x41; 0xFFFFFFFF] /\
  isUcs4 (tables V7) (At [0x41; 0xFFFFFFFF; 0]) kUcs4 nullPredicate = Done true /\
  isUcs4 (tables V7) (At [0x41; 0xFFFFFFFF; 0]) kUtf8 nullPredicate = Done false /\
  isUcs4 (tables V7) (At [0x1FFFFF; 0]) kUtf16 nullPredicate = Done true /\
  isUcs4 (tables V7) (At [0x200000; 0]) kUtf16 nullPredicate = Done false.
Proof. split; [range|]. repeat split. Qed.

(* ---- C18: what passes re-encodes ----
   Full statement (false): isX(s, kUtf16) = true implies toUtf16(s) is the UTF-16 form of s. *)
Theorem C18_utf8_source_refuted : exists bs, text8 bs /\
  (forall T, isUtf8 T (At (bs ++ [0])) (code Utf16) nullPredicate = Done true) /\
  ~ documented8 Utf16 bs /\ toUtf16_8 (At (bs ++ [0])) = Done [].
Proof. exact utf16_target_too_wide. Qed.
Print Assumptions C18_utf8_source_refuted.

Theorem C18_ucs4_source_refuted : exists us, text32 us /\
  (forall T, isUcs4 T (At (us ++ [0])) (code Utf16) nullPredicate = Done true) /\
  ~ Forall (documented Utf16) us /\ toUtf16_32 (At (us ++ [0])) = Done [].
Proof. exact isUcs4_too_wide. Qed.
Print Assumptions C18_ucs4_source_refuted.

(* What holds: every other combination, and kUtf16 as well unless some value is above 0x10FFFF. *)
Theorem C18_from_utf8_partial : forall T bs junk t pred, text8 bs ->
  isUtf8 T (At (bs ++ 0 :: junk)) (code t) pred = Done true ->
  exists cs, reads_as cs bs /\ toUcs4_8 (At (bs ++ 0 :: junk)) = Done cs /\
    (t = Ascii \/ t = Ucs2 -> toUcs2_8 (At (bs ++ 0 :: junk)) = Done cs) /\
    (t = Ascii \/ t = Ucs2 \/ t = Unicode \/ (t = Utf16 /\ Forall upto cs) ->
       toUtf16_8 (At (bs ++ 0 :: junk)) = Done (flat_map utf16_units cs)).
Proof. exact reencode_8. Qed.
Print Assumptions C18_from_utf8_partial.

Theorem C18_from_utf16 : forall T us junk t pred, text16 us ->
  isUtf16 T (At (us ++ 0 :: junk)) (code t) pred = Done true ->
  exists cs, reads_as16 cs us /\ Forall (documented t) cs /\ toUcs4_16 (At (us ++ 0 :: junk)) = Done cs /\
    toUtf8_16 (At (us ++ 0 :: junk)) = Done (flat_map utf8_bytes cs).
Proof. exact reencode_16. Qed.
Print Assumptions C18_from_utf16.

Theorem C18_from_ucs2 : forall T us junk t pred, text16 us ->
  isUcs2 T (At (us ++ 0 :: junk)) (code t) pred = Done true ->
  toUcs4_16 (At (us ++ 0 :: junk)) = Done us /\ toUtf8_16 (At (us ++ 0 :: junk)) = Done (flat_map utf8_bytes us).
Proof. exact reencode_ucs2. Qed.
Print Assumptions C18_from_ucs2.

Theorem C18_from_ucs4_partial : forall T us junk t pred, text32 us ->
  isUcs4 T (At (us ++ 0 :: junk)) (code t) pred = Done true ->
  (t <> Ucs4 -> toUtf8_32 (At (us ++ 0 :: junk)) = Done (flat_map utf8_bytes us)) /\
  (t = Ascii \/ t = Ucs2 -> toUcs2_32 (At (us ++ 0 :: junk)) = Done us) /\
  (t = Ascii \/ t = Ucs2 \/ t = Unicode \/ (t = Utf16 /\ Forall upto us) ->
     toUtf16_32 (At (us ++ 0 :: junk)) = Done (flat_map utf16_units us)).
Proof. exact reencode_32. Qed.
Print Assumptions C18_from_ucs4_partial.

Example C18_case : text8 [0xF0; 0x9F; 0x98; 0x80] /\
  isUtf8 (tables V7) (At [0xF0; 0x9F; 0x98; 0x80; 0]) (code Unicode) nullPredicate = Done true /\
  toUtf16_8 (At [0xF0; 0x9F; 0x98; 0x80; 0]) = Done [0xD83D; 0xDE00] /\
  text32 [0x1F600] /\ isUcs4 (tables V7) (At [0x1F600; 0]) (code Unicode) nullPredicate = Done true /\
  text16 [0xD83D; 0xDE00] /\ isUtf16 (tables V7) (At [0xD83D; 0xDE00; 0]) (code Utf16) nullPredicate = Done true /\
  isUcs2 (tables V7) (At [0x20AC; 0]) (code Ucs2) nullPredicate = Done true.
Proof. split; [range|]. split; [reflexivity|]. split; [reflexivity|]. split; [range|]. split; [reflexivity|]. split; [range|]. repeat split. Qed.

(* ---- C19: targets nest ---- *)
Theorem C19_nesting_utf8 : forall T bs junk t t' pred, text8 bs -> narrower t t' ->
  isUtf8 T (At (bs ++ 0 :: junk)) (code t) pred = Done true -> isUtf8 T (At (bs ++ 0 :: junk)) (code t') pred = Done true.
Proof. exact nest_isUtf8. Qed.
Print Assumptions C19_nesting_utf8.

Theorem C19_nesting_utf16 : forall T us junk t t' pred, text16 us -> narrower t t' ->
  isUtf16 T (At (us ++ 0 :: junk)) (code t) pred = Done true -> isUtf16 T (At (us ++ 0 :: junk)) (code t') pred = Done true.
Proof. exact nest_isUtf16. Qed.
Print Assumptions C19_nesting_utf16.

Theorem C19_nesting_ucs2 : forall T us junk t t' pred, text16 us -> narrower t t' ->
  isUcs2 T (At (us ++ 0 :: junk)) (code t) pred = Done true -> isUcs2 T (At (us ++ 0 :: junk)) (code t') pred = Done true.
Proof. exact nest_isUcs2. Qed.
Print Assumptions C19_nesting_ucs2.

Theorem C19_nesting_ucs4 : forall T us junk t t' pred, text32 us -> narrower t t' ->
  isUcs4 T (At (us ++ 0 :: junk)) (code t) pred = Done true -> isUcs4 T (At (us ++ 0 :: junk)) (code t') pred = Done true.
Proof. exact nest_isUcs4. Qed.
Print Assumptions C19_nesting_ucs4.

(* strictly: each step accepts more *)
Example C19_case : narrower Ascii Ucs4 /\
  isUcs4 (tables V7) (At [0x80; 0]) (code Ascii) nullPredicate = Done false /\
  isUcs4 (tables V7) (At [0x80; 0]) (code Ucs2) nullPredicate = Done true /\
  isUcs4 (tables V7) (At [0x10000; 0]) (code Ucs2) nullPredicate = Done false /\
  isUcs4 (tables V7) (At [0x10000; 0]) (code Unicode) nullPredicate = Done true /\
  isUcs4 (tables V7) (At [0x110000; 0]) (code Unicode) nullPredicate = Done false /\
  isUcs4 (tables V7) (At [0x110000; 0]) (code Utf16) nullPredicate = Done true /\
  isUcs4 (tables V7) (At [0x200000; 0]) (code Utf16) nullPredicate = Done false /\
  isUcs4 (tables V7) (At [0x200000; 0]) (code Utf8) nullPredicate = Done true /\
  isUcs4 (tables V7) (At [0x80000000; 0]) (code Utf8) nullPredicate = Done false /\
  isUcs4 (tables V7) (At [0x80000000; 0]) (code Ucs4) nullPredicate = Done true.
Proof. split; [exact ascii_narrowest|]. repeat split. Qed.

(* ---- C20: invalid targets; empty and null strings ---- *)
Theorem C20_invalid_target : forall T r pred p, ~ (0 <= r <= 5) ->
  isUtf8 T p r pred = Done false /\ isUtf16 T p r pred = Done false /\ isUcs2 T p r pred = Done false /\ isUcs4 T p r pred = Done false.
Proof. exact invalid_target. Qed.
Print Assumptions C20_invalid_target.

Theorem C20_empty_accepted : forall T r pred p, 0 <= r <= 5 -> p = Null \/ (exists junk, p = At (0 :: junk)) ->
  isUtf8 T p r pred = Done true /\ isUtf16 T p r pred = Done true /\ isUcs2 T p r pred = Done true /\ isUcs4 T p r pred = Done true.
Proof. exact empty_accepted. Qed.
Print Assumptions C20_empty_accepted.

Example C20_case : ~ (0 <= 6 <= 5) /\ ~ (0 <= -1 <= 5) /\
  isUtf8 (tables V7) (At [0x41; 0]) 6 nullPredicate = Done false /\ isUtf8 (tables V7) (At [0x41; 0]) 5 nullPredicate = Done true /\
  isUtf8 (tables V7) (At [0]) kAscii (validIf kIsAssigned) = Done true.
Proof. split; [lia|]. split; [lia|]. repeat split. Qed.

(* ---- C37: a predicate restricts code point by code point ---- *)
Theorem C37_utf8 : forall T bs junk t pred, text8 bs ->
  isUtf8 T (At (bs ++ 0 :: junk)) (code t) pred = Done true <->
  isUtf8 T (At (bs ++ 0 :: junk)) (code t) nullPredicate = Done true /\
  forall cs, reads_as cs bs -> Forall (fun c => pred32 T pred c = true) cs.
Proof. exact restrict_isUtf8. Qed.
Print Assumptions C37_utf8.

Theorem C37_ucs2 : forall v us junk t pred, text16 us ->
  isUcs2 (tables v) (At (us ++ 0 :: junk)) (code t) pred = Done true <->
  isUcs2 (tables v) (At (us ++ 0 :: junk)) (code t) nullPredicate = Done true /\
  Forall (fun c => pred32 (tables v) pred c = true) us.
Proof. exact restrict_ucs2_32. Qed.
Print Assumptions C37_ucs2.

Theorem C37_ucs4 : forall T us junk t pred, text32 us ->
  isUcs4 T (At (us ++ 0 :: junk)) (code t) pred = Done true <->
  isUcs4 T (At (us ++ 0 :: junk)) (code t) nullPredicate = Done true /\ Forall (fun c => pred32 T pred c = true) us.
Proof. exact restrict_isUcs4. Qed.
Print Assumptions C37_ucs4.

(* Full statement for UTF-16 (false): as for UTF-8, with the code points the units encode.  The predicate
   is applied to the high surrogate instead of the code point. *)
Theorem C37_utf16_refuted : exists us cs, text16 us /\ reads_as16 cs us /\ forall v,
  isUtf16 (tables v) (At (us ++ [0])) kUtf16 nullPredicate = Done true /\
  Forall (fun c => pred32 (tables v) (validIf kIsAssigned) c = true) cs /\
  isUtf16 (tables v) (At (us ++ [0])) kUtf16 (validIf kIsAssigned) = Done false.
Proof. exact utf16_predicate_refuted. Qed.
Print Assumptions C37_utf16_refuted.

(* What holds for UTF-16: the first unit of every character is checked ... *)
Theorem C37_utf16_first_units_partial : forall T us junk t pred, text16 us ->
  isUtf16 T (At (us ++ 0 :: junk)) (code t) pred = Done true <->
  isUtf16 T (At (us ++ 0 :: junk)) (code t) nullPredicate = Done true /\
  forall cs, reads_as16 cs us -> Forall (fun c => pred16 T pred (hd 0 (utf16_units c)) = true) cs.
Proof. exact restrict_isUtf16. Qed.
Print Assumptions C37_utf16_first_units_partial.

(* ... which is the character itself in texts without surrogates *)
Theorem C37_utf16_bmp_partial : forall v us junk t pred, text16 us -> Forall bmp us ->
  isUtf16 (tables v) (At (us ++ 0 :: junk)) (code t) pred = Done true <->
  isUtf16 (tables v) (At (us ++ 0 :: junk)) (code t) nullPredicate = Done true /\
  Forall (fun c => pred32 (tables v) pred c = true) us.
Proof. exact restrict_utf16_bmp. Qed.
Print Assumptions C37_utf16_bmp_partial.

Example C37_case : text8 [0x41; 0xCD; 0xB8] /\ reads_as [0x41; 0x378] [0x41; 0xCD; 0xB8] /\
  isUtf8 (tables V7) (At [0x41; 0xCD; 0xB8; 0]) kUnicode nullPredicate = Done true /\
  isUtf8 (tables V7) (At [0x41; 0xCD; 0xB8; 0]) kUnicode (validIf kIsAssigned) = Done false /\
  isUcs4 (tables V7) (At [0x41; 0x1F600; 0]) kUnicode (validIf kIsAssigned) = Done true /\
  isUcs2 (tables V7) (At [0x41; 0x378; 0]) kUnicode (validIf kIsAssigned) = Done false.
Proof. split; [range|]. split; [exact case_unassigned|]. repeat split. Qed.

(* ---- C38: the same text gets the same answer in every encoding ----
   Full statement (false): isUtf16 us t pred = isUtf8 bs t pred = isUcs4 cs t pred for every text. *)
Theorem C38_utf16_differs_refuted : exists cs bs us, utf8_text cs bs /\ utf16_text cs us /\ forall v,
  isUtf16_string (tables v) us kUtf16 (validIf kIsAssigned) = Done false /\
  isUtf8_string (tables v) bs kUtf16 (validIf kIsAssigned) = Done true /\
  isUcs4_string (tables v) cs kUtf16 (validIf kIsAssigned) = Done true.
Proof. exact encoding_matters. Qed.
Print Assumptions C38_utf16_differs_refuted.

(* What holds: UTF-8 and UCS-4 agree on all Unicode text; UTF-16 joins them without a predicate ... *)
Theorem C38_utf8_ucs4 : forall T cs bs t pred, utf8_text cs bs -> (t <> Utf16 \/ Forall scalar cs) ->
  isUtf8_string T bs (code t) pred = isUcs4_string T cs (code t) pred.
Proof. exact verdict_8_32. Qed.
Print Assumptions C38_utf8_ucs4.

Theorem C38_utf16_no_predicate_partial : forall T cs us t, utf16_text cs us ->
  isUtf16_string T us (code t) nullPredicate = isUcs4_string T cs (code t) nullPredicate.
Proof. exact verdict_16_null. Qed.
Print Assumptions C38_utf16_no_predicate_partial.

(* ... and with one on texts of the basic plane *)
Theorem C38_basic_plane_partial : forall v cs bs t pred, utf8_text cs bs -> Forall bmp cs ->
  isUtf8_string (tables v) bs (code t) pred = isUcs4_string (tables v) cs (code t) pred /\
  isUtf16_string (tables v) cs (code t) pred = isUcs4_string (tables v) cs (code t) pred /\
  isUcs2_string (tables v) cs (code t) pred = isUcs4_string (tables v) cs (code t) pred.
Proof. exact verdict_bmp. Qed.
Print Assumptions C38_basic_plane_partial.

Example C38_case : utf8_text [0x41; 0x20AC] [0x41; 0xE2; 0x82; 0xAC] /\ Forall bmp [0x41; 0x20AC] /\
  isUtf8_string (tables V7) [0x41; 0xE2; 0x82; 0xAC] kUcs2 (validIf kIsAssigned) = Done true /\
  isUtf8_string (tables V7) [0x41; 0xE2; 0x82; 0xAC] kAscii (validIf kIsAssigned) = Done false.
Proof. split; [exact case_utf8_whole|]. split; [range|]. repeat split. Qed.
