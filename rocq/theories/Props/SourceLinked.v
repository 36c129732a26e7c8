(* The library linked with the parsed source/bits<N>: the functions of the characters (C98), and the whole (C99).
   Every function called is one of the parsed text. *)
From Coq Require Import ZArith List Bool String.
From Verif Require Import Machine.
From Verif.Model Require Import Tables Internal Predicate CodePage.
From Verif.Cxx Require Import Syntax Semantics Program Values Linked.
From Verif.Spec Require Import Utf Target Result Text Chain Ucd Lowercase Case CodePage Version Source Linked.
From Verif.Proof Require Import CxxWhole.
Import ListNotations.
Local Open Scope string_scope.
Local Open Scope list_scope.
Local Open Scope Z_scope.

(* ---------------------------------------------------------------- C98 *)

Theorem C98_characters : forall I v,
  (forall c, unit16 c -> linked_runs_to I v "isUnicodeAssigned" [VI Char16 c] (Done (VB (t_assigned16 (tables v) c)))) /\
  (forall c, unit32 c -> linked_runs_to I v "isUnicodeAssigned" [VI Char32 c] (Done (VB (t_assigned32 (tables v) c)))) /\
  (forall c, unit16 c -> linked_runs_to I v "isUnicodePrivate" [VI Char16 c] (Done (VB (t_private16 (tables v) c)))) /\
  (forall c, unit32 c -> linked_runs_to I v "isUnicodePrivate" [VI Char32 c] (Done (VB (t_private32 (tables v) c)))) /\
  (forall c, byte c -> linked_runs_to I v "isControlChar" [VI Char (norm I Char c)] (Done (VB (t_control8 (tables v) c)))) /\
  (forall c, unit16 c -> linked_runs_to I v "isControlChar" [VI Char16 c] (Done (VB (t_control16 (tables v) c)))) /\
  (forall c, unit32 c -> linked_runs_to I v "isControlChar" [VI Char32 c] (Done (VB (t_control32 (tables v) c)))) /\
  (forall c, byte c -> linked_runs_to I v "isWhitespaceChar" [VI Char (norm I Char c)] (Done (VB (t_space8 (tables v) c)))) /\
  (forall c, unit16 c -> linked_runs_to I v "isWhitespaceChar" [VI Char16 c] (Done (VB (t_space16 (tables v) c)))) /\
  (forall c, unit32 c -> linked_runs_to I v "isWhitespaceChar" [VI Char32 c] (Done (VB (t_space32 (tables v) c)))) /\
  (forall c, unit32 c -> linked_runs_to I v "internal::toLower" [VI Char32 c] (Done (VI Char32 (t_lower (tables v) c)))) /\
  (forall c, unit32 c -> linked_runs_to I v "internal::turkicToLower" [VI Char32 c] (Done (VI Char32 (t_turkic (tables v) c)))).
Proof. exact l_characters. Qed.
Print Assumptions C98_characters.

Theorem C98_classes : forall I v k,
  let f := match k with Assigned => "isUnicodeAssigned" | Private => "isUnicodePrivate" | Control => "isControlChar" | Whitespace => "isWhitespaceChar" end in
  (forall c, byte c -> linked_answers I v f [VI Char (norm I Char c)] (member v k c)) /\
  (forall c, unit16 c -> linked_answers I v f [VI Char16 c] (member v k c)) /\
  (forall c, unit32 c -> linked_answers I v f [VI Char32 c] (member v k c)).
Proof. exact l_classes. Qed.
Print Assumptions C98_classes.

Theorem C98_version : forall I v,
  linked_runs_to I v "getUnicodeVersionSupported" [] (Done (VS Char (text (append (decimal (number v)) ".0.0")))).
Proof. exact l_version_text. Qed.
Print Assumptions C98_version.
Example C98_case : unit32 0x1E921 /\ member V16 Private 0xE000 /\ ~ member V7 Assigned 0x1E921 /\
  linked strict V16 20 10 "isUnicodeAssigned" [VI Char32 0x1E921] = Done (VB true, [None]) /\
  linked strict V7 20 10 "isUnicodeAssigned" [VI Char32 0x1E921] = Done (VB false, [None]) /\
  linked strict V16 20 10 "isUnicodePrivate" [VI Char16 0xE000] = Done (VB true, [None]) /\
  linked strict V12 20 10 "isWhitespaceChar" [VI Char (-0x60)] = Done (VB true, [None]) /\
  linked strict V16 20 10 "internal::toLower" [VI Char32 0x1E921] = Done (VI Char32 0x1E943, [None]) /\
  linked strict V9 20 10 "internal::turkicToLower" [VI Char32 0x49] = Done (VI Char32 0x131, [None]) /\
  linked strict V13 20 10 "getUnicodeVersionSupported" [] = Done (VS Char [0x31; 0x33; 0x2E; 0x30; 0x2E; 0x30], []).
Proof. exact case_characters. Qed.

(* ---------------------------------------------------------------- C99 *)

Theorem C99_transfer : forall I v f args r,
  Forall (in_range I) args -> r <> OutOfFuel ->
  (runs_to I (tables v) f args r -> linked_runs_to I v f args r) /\
  (leaves I (tables v) f args r -> linked_leaves I v f args r).
Proof. exact l_transfer. Qed.
Print Assumptions C99_transfer.

Theorem C99_once : forall I v f args r r',
  linked_runs_to I v f args r -> linked_runs_to I v f args r' -> r = r'.
Proof. exact l_once. Qed.
Print Assumptions C99_once.

Theorem C99_conversions : forall I v,
  (forall bs, text8 bs -> linked_converts I v "toUcs4" [VS Char bs] Char32 (fun cs => reads_as cs bs) (fun cs => cs)) /\
  (forall bs, text8 bs -> linked_converts I v "toUtf16" [VS Char bs] Char16
     (fun cs => reads_as cs bs /\ Forall (fun c => c <= 0x10FFFF) cs) (flat_map utf16_units)) /\
  (forall bs, text8 bs -> linked_converts I v "toUcs2" [VS Char bs] Char16
     (fun cs => reads_as cs bs /\ Forall (fun c => c <= 0xFFFF) cs) (fun cs => cs)) /\
  (forall us, text32 us -> linked_converts I v "toUtf8" [VS Char32 us] Char
     (fun cs => cs = us /\ Forall encodable8 cs) (flat_map utf8_bytes)) /\
  (forall us, text32 us -> linked_converts I v "toUtf16" [VS Char32 us] Char16
     (fun cs => cs = us /\ Forall scalar cs) (flat_map utf16_units)) /\
  (forall us, text32 us -> linked_converts I v "toUcs2" [VS Char32 us] Char16
     (fun cs => cs = us /\ Forall bmp cs) (fun cs => cs)) /\
  (forall us, text16 us -> linked_converts I v "toUcs4" [VS Char16 us] Char32
     (fun cs => reads_as16 cs us) (fun cs => cs)) /\
  (forall us, text16 us -> linked_converts I v "toUtf8" [VS Char16 us] Char
     (fun cs => lenient_as16 cs us) (flat_map utf8_bytes)).
Proof. exact l_conversions. Qed.
Print Assumptions C99_conversions.

Theorem C99_checks : forall I v,
  (forall bs t, pointer_checks I = false -> text8 bs ->
     linked_answers I v "isUtf8" [VS Char bs; VI Enum (code t)] (acceptable8 (range_isUtf8 t) (possible_lead t) bs)) /\
  (forall us t, text16 us ->
     linked_answers I v "isUtf16" [VS Char16 us; VI Enum (code t)] (acceptable16 (documented t) (supplementary_target t) us)) /\
  (forall us t, text16 us ->
     linked_answers I v "isUcs2" [VS Char16 us; VI Enum (code t)] (Forall (fun c => bmp c /\ documented t c) us)) /\
  (forall us t, text32 us ->
     linked_answers I v "isUcs4" [VS Char32 us; VI Enum (code t)] (Forall (range_isUcs4 t) us)).
Proof. exact l_checks. Qed.
Print Assumptions C99_checks.

Theorem C99_toLower : forall I v,
  (forall s, Forall unit32 s -> exists r, linked_runs_to I v "toLower" [VS Char32 s] (Done (VS Char32 r)) /\
     Forall2 (fun c d => (lowers_to v c d <-> ~ departs v c) /\
       (in_ranges (lower_missing v) c -> d = c) /\ (forall d', In (c, d') (lower_extra v) -> d = d')) s r) /\
  (forall bs cs, text8 bs -> reads_as cs bs -> exists low,
     linked_runs_to I v "toLower" [VS Char32 cs] (Done (VS Char32 low)) /\
     linked_runs_to I v "toLower" [VS Char bs] (Done (VS Char (flat_map utf8_bytes low)))) /\
  (forall bs, text8 bs -> (forall cs, ~ reads_as cs bs) -> linked_runs_to I v "toLower" [VS Char bs] (Done (VS Char []))) /\
  (forall us cs, text16 us -> reads_as16 cs us -> exists low,
     linked_runs_to I v "toLower" [VS Char32 cs] (Done (VS Char32 low)) /\
     linked_runs_to I v "toLower" [VS Char16 us] (Done (VS Char16 (flat_map utf16_units low)))) /\
  (forall us, text16 us -> (forall cs, ~ reads_as16 cs us) -> linked_runs_to I v "toLower" [VS Char16 us] (Done (VS Char16 []))).
Proof. exact l_lower. Qed.
Print Assumptions C99_toLower.

Theorem C99_predicates : forall I v chain,
  chain <> [] -> Forall (fun c => int32 (snd c)) chain -> consistent chain ->
  exists p, makes I v chain p /\
  (forall c, byte c -> linked_answers I v "EncodingCheckPredicate::operator()" [p; VI Char (norm I Char c)] (meets v chain c)) /\
  (forall c, unit16 c -> linked_answers I v "EncodingCheckPredicate::operator()" [p; VI Char16 c] (meets v chain c)) /\
  (forall c, unit32 c -> linked_answers I v "EncodingCheckPredicate::operator()" [p; VI Char32 c] (meets v chain c)).
Proof. exact l_chains. Qed.
Print Assumptions C99_predicates.

Theorem C99_strings : forall I v,
  (forall t P s sp, string_type t P -> Forall P s -> holds s -> holds sp ->
     exists r, linked_leaves I v "trim" [VS t s; VS t sp] (Done (VS t r)) /\ trimmed (fun c => In c sp) s r) /\
  (forall bs cs, text8 bs -> holds bs -> reads_as cs bs -> Forall upto cs -> exists r, trimmed wide_blank cs r /\
     linked_leaves I v "trimWhiteSpace" [VS Char bs] (Done (VS Char (flat_map utf8_bytes r)))) /\
  (forall t P s d, string_type t P -> P d -> holds s -> s <> [] -> occurrences d s < 0x80000000 ->
     exists w, linked_runs_to I v "split" [VS t s; VI t (norm I t d)] (Done (VVec t w)) /\ cut_at d s w) /\
  (forall t P s d, string_type t P -> P d -> holds s -> 0x80000000 <= occurrences d s ->
     linked_runs_to I v "split" [VS t s; VI t (norm I t d)] Undefined) /\
  (forall t P ss d, string_type t P -> P d -> d <> 0 ->
     linked_runs_to I v "join" [VVec t ss; VI t (norm I t d)] (Done (VS t (glue d ss)))) /\
  (forall bs, text8 bs ->
     linked_converts I v "toUtf8" [VP Char (PAt (bs ++ [0]) 0); VI Enum kSrcCP1252] Char (stand_for page1252 bs) (flat_map utf8_bytes) /\
     linked_converts I v "toUtf8" [VP Char (PAt (bs ++ [0]) 0); VI Enum kSrcCP1250] Char (stand_for page1250 bs) (flat_map utf8_bytes)).
Proof. exact l_strings. Qed.
Print Assumptions C99_strings.
Example C99_case : text8 [0x49; 0xC3; 0x89] /\ reads_as [0x49; 0xC9] [0x49; 0xC3; 0x89] /\
  linked strict V9 20 10 "toLower" [VS Char [0x49; 0xC3; 0x89]] = Done (VS Char [0x69; 0xC3; 0xA9], [None; None]) /\
  linked strict V16 20 10 "toUtf16" [VS Char [0xF0; 0x9F; 0x98; 0x80]] = Done (VS Char16 [0xD83D; 0xDE00], [None]) /\
  consistent [(true, kIsAssigned); (false, kIsWhitespace)] /\ meets V16 [(true, kIsAssigned); (false, kIsWhitespace)] 0x41 /\
  linked strict V16 20 10 "validIf" [VI Enum kIsAssigned] = Done (VPred 1 1, [None]) /\
  linked strict V16 20 10 "EncodingCheckPredicate::andIfNot" [VPred 1 1; VI Enum kIsWhitespace] = Done (VPred 9 1, [Some (VPred 9 1); None]) /\
  linked strict V16 20 10 "EncodingCheckPredicate::operator()" [VPred 9 1; VI Char32 0x41] = Done (VB true, [None; None]) /\
  linked strict V16 20 10 "EncodingCheckPredicate::operator()" [VPred 9 1; VI Char32 0x3000] = Done (VB false, [None; None]) /\
  linked strict V16 20 10 "isUtf16" [VS Char16 [0x41; 0xD83D; 0xDE00]; VI Enum kUnicode] = Done (VB true, [None; None; None]).
Proof. exact case_linked. Qed.
