(* The library source as parsed (Gen/Source.v), run by the semantics of Cxx/Semantics.v: toLower (C91), the code
   pages (C92), trimming (C93), split and join (C94), the wchar_t functions where wchar_t has 32 bits (C95) and the
   predicates (C96) are what the model says; what that is in terms of the specification (C97); for C89 see also
   Props/SourceResults.v. *)
From Coq Require Import ZArith List Bool String.
From Verif Require Import Machine.
From Verif.Model Require Import Tables Internal Predicate Decode Str Lower CodePage Trim SplitJoin Wide.
From Verif.Cxx Require Import Syntax Semantics Program Values.
From Verif.Spec Require Import Utf Target Result Text Chain Ucd Lowercase Case CodePage Source.
From Verif.Proof Require Import TablesFacts CxxMono CxxMore CxxWides CxxRest.
Import ListNotations.
Local Open Scope string_scope.
Local Open Scope list_scope.
Local Open Scope Z_scope.

Definition strict : implementation := {| char_signed := true; pointer_checks := true; configured := Wchar32 |}.
Definition strict_unsigned : implementation := {| char_signed := false; pointer_checks := true; configured := Wchar32 |}.
(* one run settles what a call does *)
Ltac run_it := apply (runs_from _ _ 20 10); [vm_compute; discriminate | vm_compute; reflexivity].
Ltac leave_it := apply (leaves_from _ _ 20 10); [vm_compute; discriminate | vm_compute; reflexivity].
Ltac cases := repeat lazymatch goal with |- _ /\ _ => split end; lazymatch goal with |- leaves _ _ _ _ _ => leave_it | |- _ => run_it end.

(* ---------------------------------------------------------------- C91 *)

Theorem C91_toLower : forall I T, units_to_units T ->
  (forall s arr p, Forall byte s -> points_into byte arr p ->
     runs_to I T "toLower" [VS Char s; vptr Char arr p] (string_of Char (toLower_8 T s p))) /\
  (forall s arr p, Forall unit16 s -> points_into byte arr p ->
     runs_to I T "toLower" [VS Char16 s; vptr Char arr p] (string_of Char16 (toLower_16 T s p))) /\
  (forall s arr p, Forall unit32 s -> points_into byte arr p ->
     runs_to I T "toLower" [VS Char32 s; vptr Char arr p] (string_of Char32 (toLower_32 T s p))) /\
  (forall s, Forall byte s -> runs_to I T "toLower" [VS Char s] (string_of Char (toLower_8 T s Null))) /\
  (forall s, Forall unit16 s -> runs_to I T "toLower" [VS Char16 s] (string_of Char16 (toLower_16 T s Null))) /\
  (forall s, Forall unit32 s -> runs_to I T "toLower" [VS Char32 s] (string_of Char32 (toLower_32 T s Null))).
Proof. exact all_lower. Qed.
Print Assumptions C91_toLower.
(* the tables of every version meet the hypothesis *)
Theorem C91_tables : forall v, units_to_units (tables v).
Proof. exact tables_units. Qed.
Print Assumptions C91_tables.
Example C91_case : points_into byte [0x58; 0x74; 0x72; 0] (At [0x74; 0x72; 0]) /\
  runs_to strict tables16 "toLower" [VS Char [0x49; 0xC3; 0x89]] (Done (VS Char [0x69; 0xC3; 0xA9])) /\
  runs_to strict_unsigned tables16 "toLower" [VS Char [0x49; 0xC3; 0x89]; vptr Char [0x58; 0x74; 0x72; 0] (At [0x74; 0x72; 0])]
    (Done (VS Char [0xC4; 0xB1; 0xC3; 0xA9])) /\
  runs_to strict tables7 "toLower" [VS Char32 [0x1E921]] (Done (VS Char32 [0x1E921])) /\
  runs_to strict tables16 "toLower" [VS Char16 [0xD83A; 0xDD21]] (Done (VS Char16 [0xD83A; 0xDD43])).
Proof. split; [split; [exists [0x58]; reflexivity | repeat constructor; discriminate]|]. cases. Qed.

(* ---------------------------------------------------------------- C92 *)

Theorem C92_code_pages : forall I T arr p t, points_into byte arr p -> int32 t ->
  runs_to I T "toUtf8" [vptr Char arr p; VI Enum t] (string_of Char (toUtf8_cp p t)).
Proof. exact a_page. Qed.
Print Assumptions C92_code_pages.
Example C92_case : int32 kSrcCP1252 /\
  runs_to strict tables16 "toUtf8" [vptr Char [0x41; 0x80; 0] (At [0x41; 0x80; 0]); VI Enum kSrcCP1252] (Done (VS Char [0x41; 0xE2; 0x82; 0xAC])) /\
  runs_to strict_unsigned tables16 "toUtf8" [vptr Char [0x41; 0xE8; 0] (At [0x41; 0xE8; 0]); VI Enum kSrcCP1250] (Done (VS Char [0x41; 0xC4; 0x8D])) /\
  runs_to strict tables16 "toUtf8" [vptr Char [0x41; 0x81; 0] (At [0x41; 0x81; 0]); VI Enum kSrcCP1252] (Done (VS Char [])) /\
  runs_to strict tables16 "toUtf8" [VP Char PNull; VI Enum kSrcCP1250] (Done (VS Char [])).
Proof. split; [vm_compute; split; congruence|]. cases. Qed.

(* ---------------------------------------------------------------- C93 *)

Theorem C93_trim : forall I T,
  (forall s, Forall byte s -> holds s -> leaves I T "trim" [VS Char s] (string_of Char (trim s))) /\
  (forall s, Forall unit16 s -> holds s -> leaves I T "trim" [VS Char16 s] (string_of Char16 (trim s))) /\
  (forall s, Forall unit32 s -> holds s -> leaves I T "trim" [VS Char32 s] (string_of Char32 (trim s))) /\
  (forall s sp, Forall byte s -> holds s -> holds sp ->
     leaves I T "trim" [VS Char s; VS Char sp] (string_of Char (trim_set s sp))) /\
  (forall s sp, Forall unit16 s -> holds s -> holds sp ->
     leaves I T "trim" [VS Char16 s; VS Char16 sp] (string_of Char16 (trim_set s sp))) /\
  (forall s sp, Forall unit32 s -> holds s -> holds sp ->
     leaves I T "trim" [VS Char32 s; VS Char32 sp] (string_of Char32 (trim_set s sp))).
Proof. exact all_trim. Qed.
Print Assumptions C93_trim.

Theorem C93_trimWhiteSpace : forall I T,
  (forall s, Forall byte s -> holds s -> leaves I T "trimAscii7WhiteSpace" [VS Char s] (string_of Char (trimAscii7WhiteSpace s))) /\
  (forall s, Forall unit32 s -> holds s -> leaves I T "trimWhiteSpace" [VS Char32 s] (string_of Char32 (trimWhiteSpace_32 s))) /\
  (forall s, Forall unit16 s -> holds s -> leaves I T "trimWhiteSpace" [VS Char16 s] (string_of Char16 (trimWhiteSpace_16 s))) /\
  (forall s, Forall byte s -> holds s -> leaves I T "trimWhiteSpace" [VS Char s] (string_of Char (trimWhiteSpace_8 s))).
Proof. exact all_trims. Qed.
Print Assumptions C93_trimWhiteSpace.
Example C93_case : holds [0x20; 0x61; 0x20] /\
  leaves strict tables16 "trim" [VS Char [0x20; 0x61; 0x20]] (Done (VS Char [0x61])) /\
  leaves strict tables16 "trim" [VS Char32 [0x78; 0x61; 0x20; 0x79]; VS Char32 [0x79; 0x78]] (Done (VS Char32 [0x61; 0x20])) /\
  leaves strict tables16 "trimAscii7WhiteSpace" [VS Char [9; 0x61; 0xC3; 0xA9; 13; 10]] (Done (VS Char [0x61; 0xC3; 0xA9])) /\
  leaves strict_unsigned tables16 "trimWhiteSpace" [VS Char [0x20; 0xE3; 0x80; 0x80; 0x61; 0xC2; 0xA0]] (Done (VS Char [0x61])) /\
  leaves strict tables16 "trimWhiteSpace" [VS Char16 [0x3000; 0x61; 0x2028]] (Done (VS Char16 [0x61; 0x2028])).
Proof. split; [reflexivity|]. cases. Qed.

(* ---------------------------------------------------------------- C94 *)

Theorem C94_split : forall I T,
  (forall s x, byte x -> holds s ->
     runs_to I T "split" [VS Char s; VI Char (norm I Char x)] (strings_of Char (split s x))) /\
  (forall s x, unit16 x -> holds s ->
     runs_to I T "split" [VS Char16 s; VI Char16 (norm I Char16 x)] (strings_of Char16 (split s x))) /\
  (forall s x, unit32 x -> holds s ->
     runs_to I T "split" [VS Char32 s; VI Char32 (norm I Char32 x)] (strings_of Char32 (split s x))).
Proof. exact all_split. Qed.
Print Assumptions C94_split.

Theorem C94_join : forall I T,
  (forall ss x, byte x ->
     runs_to I T "join" [VVec Char ss; VI Char (norm I Char x)] (string_of Char (join ss x))) /\
  (forall ss x, unit16 x ->
     runs_to I T "join" [VVec Char16 ss; VI Char16 (norm I Char16 x)] (string_of Char16 (join ss x))) /\
  (forall ss x, unit32 x ->
     runs_to I T "join" [VVec Char32 ss; VI Char32 (norm I Char32 x)] (string_of Char32 (join ss x))).
Proof. exact all_join. Qed.
Print Assumptions C94_join.
Example C94_case : byte 0xE9 /\ norm strict Char 0xE9 = -23 /\
  runs_to strict tables16 "split" [VS Char [0x61; 0xE9; 0xE9; 0x62]; VI Char (-23)] (Done (VVec Char [[0x61]; []; [0x62]])) /\
  runs_to strict_unsigned tables16 "split" [VS Char [0x61; 0xE9]; VI Char 0xE9] (Done (VVec Char [[0x61]; []])) /\
  runs_to strict tables16 "join" [VVec Char [[0x61]; []; [0x62]]; VI Char (-23)] (Done (VS Char [0x61; 0xE9; 0xE9; 0x62])) /\
  runs_to strict tables16 "join" [VVec Char32 [[0x61]; [0x62]]; VI Char32 0] (Done (VS Char32 [0x61; 0x62])) /\
  runs_to strict tables16 "split" [VS Char16 []; VI Char16 0x2C] (Done (VVec Char16 [])).
Proof. split; [vm_compute; split; congruence|]. split; [reflexivity|]. cases. Qed.

(* ---------------------------------------------------------------- C95 *)

Theorem C95_checks : forall I T, configured I = Wchar32 ->
  (forall arr p, points_into unit32 arr p -> 
     runs_to I T "isUtf8" [vptr WChar32 arr p] (boolean (w32_isUtf8 T p))) /\
  (forall s, Forall unit32 s -> 
     runs_to I T "isUtf8" [VS WChar32 s] (boolean (w32_isUtf8 T (c_str s)))) /\
  (forall arr p, points_into unit32 arr p -> 
     runs_to I T "isUtf16" [vptr WChar32 arr p] (boolean (w32_isUtf16 T p))) /\
  (forall s, Forall unit32 s -> 
     runs_to I T "isUtf16" [VS WChar32 s] (boolean (w32_isUtf16 T (c_str s)))) /\
  (forall arr p, points_into unit32 arr p -> 
     runs_to I T "isUcs2" [vptr WChar32 arr p] (boolean (w32_isUcs2 T p))) /\
  (forall s, Forall unit32 s -> 
     runs_to I T "isUcs2" [VS WChar32 s] (boolean (w32_isUcs2 T (c_str s)))) /\
  (forall arr p, points_into unit32 arr p -> 
     runs_to I T "isUcs4" [vptr WChar32 arr p] (boolean (w32_isUcs4 T p))) /\
  (forall s, Forall unit32 s -> 
     runs_to I T "isUcs4" [VS WChar32 s] (boolean (w32_isUcs4 T (c_str s)))).
Proof. exact all_wide_checks. Qed.
Print Assumptions C95_checks.

Theorem C95_isWstring : forall I T, configured I = Wchar32 ->
  (forall arr p, points_into byte arr p -> may_step_back I arr p -> 
     runs_to I T "isWstring" [vptr Char arr p] (boolean (w32_isWstring_8 T p))) /\
  (forall s, Forall byte s -> pointer_checks I = false -> 
     runs_to I T "isWstring" [VS Char s] (boolean (w32_isWstring_8 T (c_str s)))) /\
  (forall arr p, points_into unit16 arr p -> 
     runs_to I T "isWstring" [vptr Char16 arr p] (boolean (w32_isWstring_16 T p))) /\
  (forall s, Forall unit16 s -> 
     runs_to I T "isWstring" [VS Char16 s] (boolean (w32_isWstring_16 T (c_str s)))) /\
  (forall arr p, points_into unit32 arr p -> 
     runs_to I T "isWstring" [vptr Char32 arr p] (boolean (w32_isWstring_32 T p))) /\
  (forall s, Forall unit32 s -> 
     runs_to I T "isWstring" [VS Char32 s] (boolean (w32_isWstring_32 T (c_str s)))).
Proof. exact all_isWstring. Qed.
Print Assumptions C95_isWstring.

Theorem C95_conversions : forall I T, configured I = Wchar32 ->
  (forall arr p, points_into unit32 arr p -> 
     runs_to I T "toUtf8" [vptr WChar32 arr p] (string_of Char (w32_toUtf8 p))) /\
  (forall s, Forall unit32 s -> 
     runs_to I T "toUtf8" [VS WChar32 s] (string_of Char (w32_toUtf8 (c_str s)))) /\
  (forall arr p, points_into unit32 arr p -> 
     runs_to I T "toUtf16" [vptr WChar32 arr p] (string_of Char16 (w32_toUtf16 p))) /\
  (forall s, Forall unit32 s -> 
     runs_to I T "toUtf16" [VS WChar32 s] (string_of Char16 (w32_toUtf16 (c_str s)))) /\
  (forall arr p, points_into unit32 arr p -> 
     runs_to I T "toUcs2" [vptr WChar32 arr p] (string_of Char16 (w32_toUcs2 p))) /\
  (forall s, Forall unit32 s -> 
     runs_to I T "toUcs2" [VS WChar32 s] (string_of Char16 (w32_toUcs2 (c_str s)))) /\
  (forall arr p, points_into unit32 arr p -> 
     runs_to I T "toUcs4" [vptr WChar32 arr p] (string_of Char32 (w32_toUcs4 T p))) /\
  (forall s, Forall unit32 s -> 
     runs_to I T "toUcs4" [VS WChar32 s] (string_of Char32 (w32_toUcs4 T (c_str s)))).
Proof. exact all_wide_conversions. Qed.
Print Assumptions C95_conversions.

Theorem C95_toWstring : forall I T, configured I = Wchar32 ->
  (forall arr p, points_into byte arr p -> 
     runs_to I T "toWstring" [vptr Char arr p] (string_of WChar32 (w32_toWstring_8 p))) /\
  (forall s, Forall byte s -> 
     runs_to I T "toWstring" [VS Char s] (string_of WChar32 (w32_toWstring_8 (c_str s)))) /\
  (forall arr p, points_into unit16 arr p -> 
     runs_to I T "toWstring" [vptr Char16 arr p] (string_of WChar32 (w32_toWstring_16 p))) /\
  (forall s, Forall unit16 s -> 
     runs_to I T "toWstring" [VS Char16 s] (string_of WChar32 (w32_toWstring_16 (c_str s)))) /\
  (forall arr p, points_into unit32 arr p -> 
     runs_to I T "toWstring" [vptr Char32 arr p] (string_of WChar32 (w32_toWstring_32 T p))) /\
  (forall s, Forall unit32 s -> 
     runs_to I T "toWstring" [VS Char32 s] (string_of WChar32 (w32_toWstring_32 T (c_str s)))).
Proof. exact all_toWstring. Qed.
Print Assumptions C95_toWstring.
Example C95_case : points_into unit32 [0x1F600; 0] (At [0x1F600; 0]) /\
  runs_to strict tables16 "isUcs2" [vptr WChar32 [0x1F600; 0] (At [0x1F600; 0])] (Done (VB false)) /\
  runs_to strict tables16 "toUtf16" [VS WChar32 [0x1F600]] (Done (VS Char16 [0xD83D; 0xDE00])) /\
  runs_to strict tables16 "toWstring" [VS Char [0xC3; 0xA9]] (Done (VS WChar32 [0xE9])) /\
  runs_to strict tables16 "toWstring" [VP Char PNull] (Done (VS WChar32 [])) /\
  runs_to strict tables16 "isWstring" [VS Char32 [0x110000]] (Done (VB true)) /\
  runs_to strict tables16 "isWstring" [VS Char32 [0xD800]] (Done (VB false)).
Proof. split; [split; [exists []; reflexivity | repeat constructor; discriminate]|]. cases. Qed.

(* ---------------------------------------------------------------- C96 *)

Theorem C96_predicates : forall I T,
  (forall t, int32 t -> runs_to I T "validIf" [VI Enum t] (Done (vpred (validIf t)))) /\
  (forall t, int32 t -> runs_to I T "validIfNot" [VI Enum t] (Done (vpred (validIfNot t)))) /\
  (forall t, int32 t -> runs_to I T "EncodingCheckPredicate::checkIf" [VI Enum t] (Done (vpred (validIf t)))) /\
  (forall t, int32 t -> runs_to I T "EncodingCheckPredicate::checkIfNot" [VI Enum t] (Done (vpred (validIfNot t)))) /\
  (forall p t, pred_ok p -> int32 t -> runs_to I T "EncodingCheckPredicate::andIf" [vpred p; VI Enum t] (Done (vpred (andIf p t)))) /\
  (forall p t, pred_ok p -> int32 t -> runs_to I T "EncodingCheckPredicate::andIfNot" [vpred p; VI Enum t] (Done (vpred (andIfNot p t)))) /\
  (forall p t, pred_ok p -> int32 t -> leaves I T "EncodingCheckPredicate::andIf" [vpred p; VI Enum t] (Done (vpred (andIf p t)))) /\
  (forall p t, pred_ok p -> int32 t -> leaves I T "EncodingCheckPredicate::andIfNot" [vpred p; VI Enum t] (Done (vpred (andIfNot p t)))) /\
  (forall p q, pred_ok p -> pred_ok q -> runs_to I T "EncodingCheckPredicate::operator==" [vpred p; vpred q] (Done (VB (predicateEq p q)))) /\
  (forall p q, pred_ok p -> pred_ok q -> runs_to I T "EncodingCheckPredicate::operator!=" [vpred p; vpred q] (Done (VB (negb (predicateEq p q))))) /\
  (forall p c, pred_ok p -> byte c -> t_assigned8 T c = true -> t_private8 T c = false ->
     runs_to I T "EncodingCheckPredicate::operator()" [vpred p; VI Char (norm I Char c)] (Done (VB (pred8 T p c)))) /\
  (forall p c, pred_ok p -> unit16 c ->
     runs_to I T "EncodingCheckPredicate::operator()" [vpred p; VI Char16 c] (Done (VB (pred16 T p c)))) /\
  (forall p c, pred_ok p -> unit32 c ->
     runs_to I T "EncodingCheckPredicate::operator()" [vpred p; VI Char32 c] (Done (VB (pred32 T p c)))).
Proof. exact all_predicates. Qed.
Print Assumptions C96_predicates.
(* the hypotheses about single bytes hold of the tables of every version *)
Theorem C96_tables : forall v c, t_assigned8 (tables v) c = true /\ t_private8 (tables v) c = false.
Proof. exact tables_bytes. Qed.
Print Assumptions C96_tables.
Example C96_case : int32 kIsAssigned /\ pred_ok (validIf kIsAssigned) /\
  runs_to strict tables16 "validIf" [VI Enum kIsAssigned] (Done (vpred (validIf kIsAssigned))) /\
  leaves strict tables16 "EncodingCheckPredicate::andIfNot" [vpred (validIf kIsAssigned); VI Enum kIsWhitespace]
    (Done (vpred (andIfNot (validIf kIsAssigned) kIsWhitespace))) /\
  runs_to strict tables16 "EncodingCheckPredicate::operator()" [vpred (andIfNot (validIf kIsAssigned) kIsWhitespace); VI Char32 0x20] (Done (VB false)) /\
  runs_to strict tables16 "EncodingCheckPredicate::operator()" [vpred (andIfNot (validIf kIsAssigned) kIsWhitespace); VI Char 0x41] (Done (VB true)) /\
  runs_to strict tables16 "EncodingCheckPredicate::operator!=" [vpred (validIf kIsAssigned); vpred (validIfNot kIsAssigned)] (Done (VB true)).
Proof. split; [vm_compute; split; congruence|]. split; [split; vm_compute; split; congruence|]. cases. Qed.

(* ---------------------------------------------------------------- C97 *)

Theorem C97_trim : forall I T,
  (forall t P s, string_type t P -> Forall P s -> holds s ->
     exists r, leaves I T "trim" [VS t s] (Done (VS t r)) /\ trimmed (fun c => c = 0x20) s r) /\
  (forall t P s sp, string_type t P -> Forall P s -> holds s -> holds sp ->
     exists r, leaves I T "trim" [VS t s; VS t sp] (Done (VS t r)) /\ trimmed (fun c => In c sp) s r) /\
  (forall s, Forall byte s -> holds s ->
     exists r, leaves I T "trimAscii7WhiteSpace" [VS Char s] (Done (VS Char r)) /\ trimmed ascii_blank s r) /\
  (forall t P s, string_type t P -> t <> Char -> Forall P s -> holds s ->
     exists r, leaves I T "trimWhiteSpace" [VS t s] (Done (VS t r)) /\ trimmed wide_blank s r) /\
  (forall bs, text8 bs -> holds bs ->
     (forall cs, reads_as cs bs -> Forall upto cs -> exists r, trimmed wide_blank cs r /\
        leaves I T "trimWhiteSpace" [VS Char bs] (Done (VS Char (flat_map utf8_bytes r)))) /\
     ((forall cs, reads_as cs bs -> ~ Forall upto cs) -> leaves I T "trimWhiteSpace" [VS Char bs] (Done (VS Char [])))).
Proof. exact r_trims. Qed.
Print Assumptions C97_trim.

(* from 2^31 delimiters on the count overflows, see C46 *)
Theorem C97_split : forall I T,
  (forall t P s d, string_type t P -> P d -> holds s -> s <> [] -> occurrences d s < 0x80000000 ->
     exists v, runs_to I T "split" [VS t s; VI t (norm I t d)] (Done (VVec t v)) /\ cut_at d s v) /\
  (forall t P d, string_type t P -> P d ->
     runs_to I T "split" [VS t []; VI t (norm I t d)] (Done (VVec t []))) /\
  (forall t P s d, string_type t P -> P d -> holds s -> 0x80000000 <= occurrences d s ->
     runs_to I T "split" [VS t s; VI t (norm I t d)] Undefined).
Proof. exact r_splits. Qed.
Print Assumptions C97_split.

Theorem C97_join : forall I T t P ss d, string_type t P -> P d ->
  (d <> 0 -> runs_to I T "join" [VVec t ss; VI t (norm I t d)] (Done (VS t (glue d ss)))) /\
  (d = 0 -> runs_to I T "join" [VVec t ss; VI t (norm I t d)] (Done (VS t (List.concat ss)))).
Proof. exact r_join. Qed.
Print Assumptions C97_join.

Theorem C97_code_pages : forall I T bs, text8 bs ->
  call_converts I T "toUtf8" [VP Char (PAt (bs ++ [0]) 0); VI Enum kSrcCP1252] Char (stand_for page1252 bs) (flat_map utf8_bytes) /\
  call_converts I T "toUtf8" [VP Char (PAt (bs ++ [0]) 0); VI Enum kSrcCP1250] Char (stand_for page1250 bs) (flat_map utf8_bytes) /\
  runs_to I T "toUtf8" [VP Char (PAt (bs ++ [0]) 0); VI Enum kSrcUnicode] (Done (VS Char bs)) /\
  (forall n, int32 n -> n <> kSrcUnicode -> n <> kSrcCP1252 -> n <> kSrcCP1250 ->
     runs_to I T "toUtf8" [VP Char (PAt (bs ++ [0]) 0); VI Enum n] (Done (VS Char []))).
Proof. exact r_pages. Qed.
Print Assumptions C97_code_pages.

Theorem C97_toLower : forall I v, (forall s, Forall unit32 s -> exists r, runs_to I (tables v) "toLower" [VS Char32 s] (Done (VS Char32 r)) /\
     Forall2 (fun c d => (lowers_to v c d <-> ~ departs v c) /\
       (in_ranges (lower_missing v) c -> d = c) /\ (forall d', In (c, d') (lower_extra v) -> d = d')) s r) /\
  (forall bs cs, text8 bs -> reads_as cs bs -> exists low,
     runs_to I (tables v) "toLower" [VS Char32 cs] (Done (VS Char32 low)) /\
     runs_to I (tables v) "toLower" [VS Char bs] (Done (VS Char (flat_map utf8_bytes low)))) /\
  (forall bs, text8 bs -> (forall cs, ~ reads_as cs bs) -> runs_to I (tables v) "toLower" [VS Char bs] (Done (VS Char []))) /\
  (forall us cs, text16 us -> reads_as16 cs us -> exists low,
     runs_to I (tables v) "toLower" [VS Char32 cs] (Done (VS Char32 low)) /\
     runs_to I (tables v) "toLower" [VS Char16 us] (Done (VS Char16 (flat_map utf16_units low)))) /\
  (forall us, text16 us -> (forall cs, ~ reads_as16 cs us) -> runs_to I (tables v) "toLower" [VS Char16 us] (Done (VS Char16 []))).
Proof. exact r_lower. Qed.
Print Assumptions C97_toLower.
Example C97_case : string_type Char byte /\ text8 [0x20; 0xC3; 0x89] /\ reads_as [0x20; 0xC9] [0x20; 0xC3; 0x89] /\ Forall upto [0x20; 0xC9] /\
  trimmed wide_blank [0x20; 0xC9] [0xC9] /\ cut_at 0x20 [0x20; 0xC3; 0x89] [[]; [0xC3; 0x89]] /\ occurrences 0x20 [0x20; 0xC3; 0x89] = 1 /\
  stand_for page1252 [0x20; 0x80] [0x20; 0x20AC].
Proof. exact case_rest. Qed.

(* ---------------------------------------------------------------- C89 *)

Theorem C89_signedness_rest : forall T bs, Forall byte bs -> holds bs -> units_to_units T ->
  (exists r, forall b c, runs_to (machine b c) T "toLower" [VS Char bs] r) /\
  (forall f, In f ["trim"; "trimAscii7WhiteSpace"; "trimWhiteSpace"] -> exists r, forall b c, leaves (machine b c) T f [VS Char bs] r) /\
  (forall x, byte x -> exists r, forall b c, runs_to (machine b c) T "split" [VS Char bs; VI Char (norm (machine b c) Char x)] r) /\
  (forall n, int32 n -> exists r, forall b c, runs_to (machine b c) T "toUtf8" [vptr Char (bs ++ [0]) (At (bs ++ [0])); VI Enum n] r).
Proof. exact r_signedness. Qed.
Print Assumptions C89_signedness_rest.
Example C89_rest_case : Forall byte [0xE9; 0x41] /\ holds [0xE9; 0x41] /\ units_to_units tables16 /\
  runs_to (machine true Wchar32) tables16 "split" [VS Char [0xE9; 0x41]; VI Char (norm (machine true Wchar32) Char 0xE9)] (Done (VVec Char [[]; [0x41]])) /\
  runs_to (machine false Wchar16) tables16 "split" [VS Char [0xE9; 0x41]; VI Char (norm (machine false Wchar16) Char 0xE9)] (Done (VVec Char [[]; [0x41]])).
Proof. split; [repeat constructor; discriminate|]. split; [reflexivity|]. split; [exact (tables_units V16)|]. cases. Qed.
