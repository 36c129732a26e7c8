(* C72 - C83: laws relating calls to one another. *)
From Coq Require Import ZArith List Bool Lia.
From Verif Require Import Machine.
From Verif.Model Require Import Internal Tables Predicate Str Lower CodePage SplitJoin Trim.
From Verif.Spec Require Import Utf Target Result Ucd Lowercase Case Chain Text CodePage Version Laws.
From Verif.Proof Require Import Predicates PredicateWitness LowerMore VersionFacts Algebra LawsWitness.
Import ListNotations.
Local Open Scope Z_scope.

(* ---- C72: lower-casing changes no verdict ----
   Full statement for ASCII too: false for the Turkic languages only. *)
Theorem C72_ucs4 : forall v lang s t pred, language lang -> text32 s -> t <> Ascii -> exists low,
  toLower_32 (tables v) s lang = Done low /\
  isUcs4_string (tables v) low (code t) pred = isUcs4_string (tables v) s (code t) pred.
Proof. exact lower_verdict_32. Qed.
Print Assumptions C72_ucs4.

Theorem C72_utf8 : forall v lang cs bs t pred, language lang -> utf8_text cs bs -> t <> Ascii -> exists low,
  toLower_8 (tables v) bs lang = Done low /\
  isUtf8_string (tables v) low (code t) pred = isUtf8_string (tables v) bs (code t) pred.
Proof. exact lower_verdict_8. Qed.
Print Assumptions C72_utf8.

Theorem C72_utf16 : forall v lang cs us t, language lang -> utf16_text cs us -> t <> Ascii -> exists low,
  toLower_16 (tables v) us lang = Done low /\
  isUtf16_string (tables v) low (code t) nullPredicate = isUtf16_string (tables v) us (code t) nullPredicate.
Proof. exact lower_verdict_16. Qed.
Print Assumptions C72_utf16.

Theorem C72_ascii : forall v lang s, language lang -> ~ turkic lang -> Forall ascii s ->
  exists low, toLower_32 (tables v) s lang = Done low /\ Forall ascii low.
Proof. exact lower_ascii. Qed.
Print Assumptions C72_ascii.

Theorem C72_turkic_refuted : exists lang s, language lang /\ Forall ascii s /\
  forall v, exists low, toLower_32 (tables v) s lang = Done low /\ ~ Forall ascii low.
Proof. exact turkic_leaves_ascii. Qed.
Print Assumptions C72_turkic_refuted.

Example C72_case : toLower_8 (tables V16) [0xC3; 0x80; 0x20; 0x41] Null = Done [0xC3; 0xA0; 0x20; 0x61] /\
  isUtf8_string (tables V16) [0xC3; 0x80; 0x20; 0x41] kUcs2 (validIfNot kIsWhitespace) = Done false /\
  isUtf8_string (tables V16) [0xC3; 0xA0; 0x20; 0x61] kUcs2 (validIfNot kIsWhitespace) = Done false /\
  isUtf8_string (tables V16) [0xC3; 0xA0; 0x61] kUcs2 (validIfNot kIsWhitespace) = Done true.
Proof. repeat split. Qed.

(* ---- C73: lower-casing and trimming commute ---- *)
Theorem C73_ucs4 : forall v lang s, language lang -> Forall unit32 s -> exists low r x,
  toLower_32 (tables v) s lang = Done low /\ trimWhiteSpace_32 s = Done r /\
  trimWhiteSpace_32 low = Done x /\ toLower_32 (tables v) r lang = Done x.
Proof. exact lower_trim_32. Qed.
Print Assumptions C73_ucs4.

Theorem C73_utf16 : forall v lang cs us, language lang -> utf16_text cs us -> exists low r x,
  toLower_16 (tables v) us lang = Done low /\ trimWhiteSpace_16 us = Done r /\
  trimWhiteSpace_16 low = Done x /\ toLower_16 (tables v) r lang = Done x.
Proof. exact lower_trim_16. Qed.
Print Assumptions C73_utf16.

Theorem C73_utf8 : forall v lang cs bs, language lang -> text8 bs -> reads_as cs bs -> Forall upto cs -> exists low r x,
  toLower_8 (tables v) bs lang = Done low /\ trimWhiteSpace_8 bs = Done r /\
  trimWhiteSpace_8 low = Done x /\ toLower_8 (tables v) r lang = Done x.
Proof. exact lower_trim_8. Qed.
Print Assumptions C73_utf8.

Example C73_case : toLower_8 (tables V7) [0x20; 0x41; 0xC2; 0xA0] Null = Done [0x20; 0x61; 0xC2; 0xA0] /\
  trimWhiteSpace_8 [0x20; 0x61; 0xC2; 0xA0] = Done [0x61] /\ trimWhiteSpace_8 [0x20; 0x41; 0xC2; 0xA0] = Done [0x41] /\
  toLower_8 (tables V7) [0x41] Null = Done [0x61].
Proof. repeat split. Qed.

(* ---- C74: lower-casing, splitting and joining, at a delimiter that is the lower case of nothing else ---- *)
Theorem C74_split : forall v lang s d, language lang -> Forall unit32 s ->
  (forall c, unit32 c -> toLower_32 (tables v) [c] lang = Done [d] <-> c = d) -> occurrences d s < 0x80000000 ->
  exists low ps lows, toLower_32 (tables v) s lang = Done low /\ split s d = Done ps /\ split low d = Done lows /\
    Forall2 (fun p q => toLower_32 (tables v) p lang = Done q) ps lows.
Proof. exact lower_split. Qed.
Print Assumptions C74_split.

Theorem C74_join : forall v lang ps d, language lang ->
  (forall c, unit32 c -> toLower_32 (tables v) [c] lang = Done [d] <-> c = d) -> unit32 d ->
  exists s lows low, join ps d = Done s /\ toLower_32 (tables v) s lang = Done low /\
    Forall2 (fun p q => toLower_32 (tables v) p lang = Done q) ps lows /\ join lows d = Done low.
Proof. exact lower_join. Qed.
Print Assumptions C74_join.

(* the comma, in every version and language *)
Example C74_case : (forall v lang, language lang -> forall c, unit32 c -> toLower_32 (tables v) [c] lang = Done [0x2C] <-> c = 0x2C) /\
  toLower_32 (tables V7) [0x41; 0x2C; 0x42] Null = Done [0x61; 0x2C; 0x62] /\
  split [0x41; 0x2C; 0x42] 0x2C = Done [[0x41]; [0x42]] /\ split [0x61; 0x2C; 0x62] 0x2C = Done [[0x61]; [0x62]].
Proof. exact (conj comma_caseless (conj eq_refl (conj eq_refl eq_refl))). Qed.

(* ---- C75: sizes of lower-cased texts ---- *)
Theorem C75_utf16 : forall v lang cs us, language lang -> utf16_text cs us -> exists low,
  toLower_16 (tables v) us lang = Done low /\ len low = len us.
Proof. exact lower_size_16. Qed.
Print Assumptions C75_utf16.

Theorem C75_utf8 : forall v lang cs bs, language lang -> utf8_text cs bs -> exists low,
  toLower_8 (tables v) bs lang = Done low /\ len low <= 2 * len bs /\ (~ turkic lang -> 2 * len low <= 3 * len bs).
Proof. exact lower_size_8. Qed.
Print Assumptions C75_utf8.

(* both bounds are reached: dotless i, and U+023A *)
Example C75_case : toLower_8 (tables V7) [0x49] (At [0x74; 0x72; 0]) = Done [0xC4; 0xB1] /\
  toLower_8 (tables V7) [0xC8; 0xBA] Null = Done [0xE2; 0xB1; 0xA5] /\
  toLower_16 (tables V7) [0xD801; 0xDC00; 0x41] Null = Done [0xD801; 0xDC28; 0x61].
Proof. repeat split. Qed.

(* ---- C76: later Unicode versions accept what earlier ones did ---- *)
Theorem C76_predicates : forall v w chain c, number v <= number w -> unit32 c ->
  ~ forbids chain Assigned \/ requires chain Assigned ->
  pred32 (tables v) (build chain) c = true -> pred32 (tables w) (build chain) c = true.
Proof. exact chain_stays. Qed.
Print Assumptions C76_predicates.

Theorem C76_same_without_assigned : forall v w chain c, unit32 c -> ~ forbids chain Assigned -> ~ requires chain Assigned ->
  pred32 (tables v) (build chain) c = pred32 (tables w) (build chain) c.
Proof. exact chain_same. Qed.
Print Assumptions C76_same_without_assigned.

Theorem C76_isUcs4 : forall v w s t chain, number v <= number w -> text32 s -> ~ forbids chain Assigned \/ requires chain Assigned ->
  isUcs4_string (tables v) s (code t) (build chain) = Done true -> isUcs4_string (tables w) s (code t) (build chain) = Done true.
Proof. exact isUcs4_stays. Qed.
Print Assumptions C76_isUcs4.

Theorem C76_isUtf8 : forall v w s t chain, number v <= number w -> text8 s -> ~ forbids chain Assigned \/ requires chain Assigned ->
  isUtf8_string (tables v) s (code t) (build chain) = Done true -> isUtf8_string (tables w) s (code t) (build chain) = Done true.
Proof. exact isUtf8_stays. Qed.
Print Assumptions C76_isUtf8.

(* U+1F900 came with version 10 *)
Example C76_case : ~ forbids [(true, 1); (false, 3)] Assigned /\
  isUcs4_string (tables V9) [0x41; 0x1F900] kUnicode (build [(true, 1); (false, 3)]) = Done false /\
  isUcs4_string (tables V10) [0x41; 0x1F900] kUnicode (build [(true, 1); (false, 3)]) = Done true /\
  isUcs4_string (tables V16) [0x41; 0x1F900] kUnicode (build [(true, 1); (false, 3)]) = Done true.
Proof. split; [exact no_forbid|]. repeat split. Qed.

(* ---- C77: later Unicode versions keep the mappings of earlier ones ---- *)
Theorem C77_lower : forall v w lang s, number v <= number w -> language lang -> Forall unit32 s -> exists old new,
  toLower_32 (tables v) s lang = Done old /\ toLower_32 (tables w) s lang = Done new /\
  Forall2 (fun c pq => fst pq = c \/ snd pq = fst pq) s (combine old new) /\
  toLower_32 (tables w) old lang = Done new /\ toLower_32 (tables v) new lang = Done new.
Proof. exact lower_versions. Qed.
Print Assumptions C77_lower.

(* Cherokee letters got their lower case in version 8 *)
Example C77_case : toLower_32 (tables V7) [0x41; 0x13A0] Null = Done [0x61; 0x13A0] /\
  toLower_32 (tables V8) [0x41; 0x13A0] Null = Done [0x61; 0xAB70] /\ toLower_32 (tables V16) [0x61; 0x13A0] Null = Done [0x61; 0xAB70].
Proof. repeat split. Qed.

(* ---- C78: splitting and joining texts put together ---- *)
Theorem C78_split_at_delimiter : forall a b d, a <> [] -> b <> [] -> occurrences d a + occurrences d b < 0x7FFFFFFF -> exists u w,
  split a d = Done u /\ split b d = Done w /\ split (a ++ d :: b) d = Done (u ++ w).
Proof. exact split_at_delimiter. Qed.
Print Assumptions C78_split_at_delimiter.

Theorem C78_join_append : forall u w d, d <> 0 -> u <> [] -> w <> [] -> exists a b,
  join u d = Done a /\ join w d = Done b /\ join (u ++ w) d = Done (a ++ d :: b).
Proof. exact join_append. Qed.
Print Assumptions C78_join_append.

Theorem C78_replace : forall s d e, e <> 0 -> occurrences d s < 0x80000000 -> exists ps,
  split s d = Done ps /\ join ps e = Done (replaced d e s).
Proof. exact join_other. Qed.
Print Assumptions C78_replace.

Example C78_case : split [0x61; 0x2C; 0x62; 0x2C; 0x2C] 0x2C = Done [[0x61]; [0x62]; []; []] /\
  join [[0x61]; [0x62]; []; []] 0x3B = Done [0x61; 0x3B; 0x62; 0x3B; 0x3B] /\
  replaced 0x2C 0x3B [0x61; 0x2C; 0x62; 0x2C; 0x2C] = [0x61; 0x3B; 0x62; 0x3B; 0x3B] /\
  split [0x2C] 0x2C = Done [[]; []] /\ split ([0x61] ++ 0x2C :: [0x2C]) 0x2C = Done ([[0x61]] ++ [[]; []]).
Proof. repeat split. Qed.

(* ---- C79: trimming ---- *)
Theorem C79_around : forall l a s b, Forall (fun c => In c l) a -> Forall (fun c => In c l) b -> trim_set (a ++ s ++ b) l = trim_set s l.
Proof. exact trim_set_around. Qed.
Print Assumptions C79_around.

Theorem C79_around_blank : forall a s b, Forall (fun c => c = 0x20) a -> Forall (fun c => c = 0x20) b -> trim (a ++ s ++ b) = trim s.
Proof. exact trim_around. Qed.
Print Assumptions C79_around_blank.

Theorem C79_around_white_space : forall a s b, Forall wide_blank a -> Forall wide_blank b ->
  trimWhiteSpace_32 (a ++ s ++ b) = trimWhiteSpace_32 s /\ trimWhiteSpace_16 (a ++ s ++ b) = trimWhiteSpace_16 s.
Proof. exact trim_white_space_around. Qed.
Print Assumptions C79_around_white_space.

Theorem C79_unchanged : forall l s, trim_set s l = Done s <-> s = [] \/ ~ In (hd 0 s) l /\ ~ In (last s 0) l.
Proof. exact trim_set_self. Qed.
Print Assumptions C79_unchanged.

Theorem C79_unchanged_blank : forall s, trim s = Done s <-> s = [] \/ hd 0 s <> 0x20 /\ last s 0 <> 0x20.
Proof. exact trim_self. Qed.
Print Assumptions C79_unchanged_blank.

Theorem C79_unchanged_white_space : forall s,
  (trimWhiteSpace_32 s = Done s <-> s = [] \/ ~ wide_blank (hd 0 s) /\ ~ wide_blank (last s 0)) /\
  (trimWhiteSpace_16 s = Done s <-> s = [] \/ ~ wide_blank (hd 0 s) /\ ~ wide_blank (last s 0)).
Proof. exact trim_white_space_self. Qed.
Print Assumptions C79_unchanged_white_space.

Theorem C79_larger_set : forall l m, (forall c, In c l -> In c m) ->
  forall s, exists r x, trim_set s l = Done r /\ trim_set s m = Done x /\ trim_set r m = Done x /\ trim_set x l = Done x.
Proof. exact trim_set_coarser. Qed.
Print Assumptions C79_larger_set.

Theorem C79_kinds : forall s, exists r x y, trim s = Done r /\ trimAscii7WhiteSpace s = Done x /\ trimWhiteSpace_32 s = Done y /\
  trimAscii7WhiteSpace r = Done x /\ trimWhiteSpace_32 r = Done y /\ trimWhiteSpace_32 x = Done y /\
  trim x = Done x /\ trim y = Done y /\ trimAscii7WhiteSpace y = Done y.
Proof. exact trim_kinds. Qed.
Print Assumptions C79_kinds.

Example C79_case : trim [0x20; 0x09; 0x3000; 0x61; 0x20; 0x62] = Done [0x09; 0x3000; 0x61; 0x20; 0x62] /\
  trimAscii7WhiteSpace [0x20; 0x09; 0x3000; 0x61; 0x20; 0x62] = Done [0x3000; 0x61; 0x20; 0x62] /\
  trimWhiteSpace_32 [0x20; 0x09; 0x3000; 0x61; 0x20; 0x62] = Done [0x61; 0x20; 0x62] /\ wide_blank 0x3000 /\ ~ wide_blank 0x61.
Proof. split; [reflexivity|]. split; [reflexivity|]. split; [reflexivity|]. unfold wide_blank, ascii_blank. lia. Qed.

(* ---- C80: chains ----
   Full statement of C80_restricts_partial, without [consistent b]: false, see C80_widens_refuted. *)
Theorem C80_order_and_repetition : forall a b, (forall q, In q a <-> In q b) ->
  predicateEq (build a) (build b) = true /\ build a = build b.
Proof. exact same_calls. Qed.
Print Assumptions C80_order_and_repetition.

Theorem C80_restricts_partial : forall v a b c, unit32 c -> consistent b -> (forall q, In q a -> In q b) ->
  pred32 (tables v) (build b) c = true -> pred32 (tables v) (build a) c = true.
Proof. exact restricts. Qed.
Print Assumptions C80_restricts_partial.

Theorem C80_restricts_strings_partial : forall v a b s t, consistent b -> (forall q, In q a -> In q b) ->
  (text8 s -> isUtf8_string (tables v) s (code t) (build b) = Done true -> isUtf8_string (tables v) s (code t) (build a) = Done true) /\
  (text32 s -> isUcs4_string (tables v) s (code t) (build b) = Done true -> isUcs4_string (tables v) s (code t) (build a) = Done true).
Proof. exact restricts_strings. Qed.
Print Assumptions C80_restricts_strings_partial.

(* validIfNot(kIsControl) rejects U+0085, validIfNot(kIsControl).andIf(kIsControl) accepts it *)
Theorem C80_widens_refuted : exists v a q c, unit32 c /\
  pred32 (tables v) (build a) c = false /\ pred32 (tables v) (build (a ++ [q])) c = true.
Proof. exact widens. Qed.
Print Assumptions C80_widens_refuted.

Example C80_case : consistent [(true, 1); (false, 3); (false, 4)] /\
  build [(true, 1); (false, 3); (false, 4)] = build [(false, 4); (true, 1); (false, 3); (true, 1)] /\
  pred32 (tables V7) (build [(true, 1); (false, 3); (false, 4)]) 0x41 = true /\
  pred32 (tables V7) (build [(true, 1); (false, 3)]) 0x20 = true /\
  pred32 (tables V7) (build [(true, 1); (false, 3); (false, 4)]) 0x20 = false.
Proof. exact (conj header_consistent (conj eq_refl (conj eq_refl (conj eq_refl eq_refl)))). Qed.

(* ---- C81: how the classes lie ---- *)
Theorem C81_classes : forall v c, unit32 c ->
  let is k := pred32 (tables v) (validIf (class_code k)) c = true in
  ~ (is Private /\ is Assigned) /\ (is Control -> is Assigned) /\ (is Whitespace -> is Assigned) /\
  (never_character c -> forall k, ~ is k).
Proof. exact class_relations. Qed.
Print Assumptions C81_classes.

Example C81_case : never_character 0x4FFFE /\ never_character 0xFDD0 /\ never_character 0xDFFF /\ never_character 0x110000 /\
  pred32 (tables V16) (validIf kIsPrivate) 0xFFFFD = true /\ pred32 (tables V16) (validIf kIsPrivate) 0xFFFFE = false /\
  pred32 (tables V16) (validIf kIsControl) 0x85 = true /\ pred32 (tables V16) (validIf kIsAssigned) 0x85 = true.
Proof. unfold never_character, surrogate. repeat split; cbn; lia. Qed.

(* ---- C82: lengths ---- *)
Theorem C82_utf8 : forall cs ds a b, utf8_text cs a -> utf8_text ds b -> Forall upto cs -> Forall upto ds -> adds_up unicodeLength8_string a b.
Proof. exact length8_adds. Qed.
Print Assumptions C82_utf8.

Theorem C82_utf16 : forall cs ds a b, utf16_text cs a -> utf16_text ds b -> adds_up unicodeLength16_string a b.
Proof. exact length16_adds. Qed.
Print Assumptions C82_utf16.

Theorem C82_ucs4 : forall a b, text32 a -> text32 b -> Forall (fun c => ~ surrogate c) a -> Forall (fun c => ~ surrogate c) b ->
  adds_up unicodeLength32_string a b.
Proof. exact length32_adds. Qed.
Print Assumptions C82_ucs4.

Theorem C82_lower : forall v lang cs bs us, language lang -> utf8_text cs bs -> utf16_text cs us -> exists l8 l16 l32,
  toLower_8 (tables v) bs lang = Done l8 /\ unicodeLength8_string l8 = unicodeLength8_string bs /\
  toLower_16 (tables v) us lang = Done l16 /\ unicodeLength16_string l16 = unicodeLength16_string us /\
  toLower_32 (tables v) cs lang = Done l32 /\ unicodeLength32_string l32 = unicodeLength32_string cs.
Proof. exact lower_length. Qed.
Print Assumptions C82_lower.

(* the condition of well-formedness matters: half a pair counts -1 *)
Example C82_case : unicodeLength16_string [0xD801; 0xDC00] = Done 1 /\ unicodeLength16_string [0x41] = Done 1 /\
  unicodeLength16_string [0x41; 0xD801; 0xDC00] = Done 2 /\ unicodeLength8_string [0xC8; 0xBA; 0x41] = Done 2 /\
  unicodeLength8_string [0xE2; 0xB1; 0xA5; 0x61] = Done 2.
Proof. repeat split. Qed.

(* ---- C83: code pages ---- *)
Theorem C83_append : forall n a b ra rb, n = kSrcCP1252 \/ n = kSrcCP1250 -> text8 a -> text8 b ->
  toUtf8_cp (c_str a) n = Done ra -> toUtf8_cp (c_str b) n = Done rb -> a = [] \/ ra <> [] -> b = [] \/ rb <> [] ->
  toUtf8_cp (c_str (a ++ b)) n = Done (ra ++ rb).
Proof. exact cp_append_good. Qed.
Print Assumptions C83_append.

Theorem C83_append_failing : forall n a b ra rb, n = kSrcCP1252 \/ n = kSrcCP1250 -> text8 a -> text8 b ->
  toUtf8_cp (c_str a) n = Done ra -> toUtf8_cp (c_str b) n = Done rb -> a <> [] /\ ra = [] \/ b <> [] /\ rb = [] ->
  toUtf8_cp (c_str (a ++ b)) n = Done [].
Proof. exact cp_append_bad. Qed.
Print Assumptions C83_append_failing.

Theorem C83_ascii : forall n bs, n = kSrcCP1252 \/ n = kSrcCP1250 -> Forall ascii bs -> toUtf8_cp (c_str bs) n = Done bs.
Proof. exact cp_ascii. Qed.
Print Assumptions C83_ascii.

Theorem C83_sizes : forall n bs r, n = kSrcCP1252 \/ n = kSrcCP1250 -> text8 bs -> toUtf8_cp (c_str bs) n = Done r ->
  r = [] \/ len bs <= len r <= 3 * len bs.
Proof. exact cp_sizes. Qed.
Print Assumptions C83_sizes.

Theorem C83_is_utf8 : forall T n bs r, n = kSrcCP1252 \/ n = kSrcCP1250 -> text8 bs -> toUtf8_cp (c_str bs) n = Done r ->
  isUtf8_string T r (code Ucs2) nullPredicate = Done true.
Proof. exact cp_is_utf8. Qed.
Print Assumptions C83_is_utf8.

Example C83_case : toUtf8_cp (c_str [0x41; 0x80]) kSrcCP1252 = Done [0x41; 0xE2; 0x82; 0xAC] /\
  toUtf8_cp (c_str [0xE8]) kSrcCP1250 = Done [0xC4; 0x8D] /\ toUtf8_cp (c_str [0x81]) kSrcCP1250 = Done [] /\
  toUtf8_cp (c_str ([0xE8] ++ [0x81])) kSrcCP1250 = Done [].
Proof. repeat split. Qed.
