(* The calls of the public functions on arguments a program may pass: texts that end in a zero.  What is left out is
   what the comments name, each with the theorem that shows it to be undefined or never to return. *)
From Coq Require Import ZArith List Bool String.
From Verif Require Import Machine.
From Verif.Cxx Require Import Syntax Semantics Configurations.
From Verif.Spec Require Import Utf Text Source WideSource.
Import ListNotations.
Local Open Scope string_scope.
Local Open Scope list_scope.
Local Open Scope Z_scope.

(* a text of units of type t: a string, or a pointer into an array with a zero somewhere at or after it *)
Inductive text_of (P : Z -> Prop) (t : ity) : value -> Prop :=
| text_string s : Forall P s -> text_of P t (VS t s)
| text_pointer before us after : Forall P (before ++ us ++ 0 :: after) ->
    text_of P t (VP t (PAt (before ++ us ++ 0 :: after) (size before))).
Inductive text_or_null (P : Z -> Prop) (t : ity) : value -> Prop :=
| text_there a : text_of P t a -> text_or_null P t a
| text_null : text_or_null P t (VP t PNull).
(* a pointer into an array, and n + 1 elements there *)
Inductive has_room (P : Z -> Prop) (t : ity) (n : Z) : value -> Prop :=
| room_for before us : Forall P (before ++ us) -> n < size us -> has_room P t n (VP t (PAt (before ++ us) (size before))).

Definition wide_unit (c : configuration) : Z -> Prop := match c with Wchar32 => unit32 | _ => unit16 end.
Definition is_int (t : Z) : Prop := -0x80000000 <= t < 0x80000000.

Inductive predicate : value -> Prop :=
| a_predicate m x : unit32 m -> unit32 x -> predicate (VPred m x).
(* nothing, a range, a predicate, or both *)
Inductive options : list value -> Prop :=
| no_options : options []
| a_range t : is_int t -> options [VI Enum t]
| only_predicate p : predicate p -> options [p]
| range_and_predicate t p : is_int t -> predicate p -> options [VI Enum t; p].
Inductive maybe_predicate : list value -> Prop :=
| without : maybe_predicate []
| with_predicate p : predicate p -> maybe_predicate [p].

Section Calls.
Context (I : implementation).

(* some functions form the pointer before the first element (C86): that is harmless, or there is an element before it *)
Definition backs (a : value) : Prop :=
  pointer_checks I = false \/ match a with VP _ (PAt _ offset) => 0 < offset | VP _ PNull => True | _ => False end.

Inductive call_of : string -> list value -> Prop :=
| call_isUtf8 a l : text_or_null byte Char a -> backs a -> options l -> call_of "isUtf8" (a :: l)
| call_isUtf16 a l : text_or_null unit16 Char16 a -> options l -> call_of "isUtf16" (a :: l)
| call_isUcs2 a l : text_or_null unit16 Char16 a -> options l -> call_of "isUcs2" (a :: l)
| call_isUcs4 a l : text_or_null unit32 Char32 a -> options l -> call_of "isUcs4" (a :: l)
(* a number of elements: with no element after them, C24 *)
| call_isUtf8_length a n l : has_room byte Char n a -> backs a -> 0 < n < 0x100000000 -> maybe_predicate l -> call_of "isUtf8" (a :: VI UInt n :: l)
| call_toUtf8 a : text_or_null unit16 Char16 a \/ text_or_null unit32 Char32 a -> call_of "toUtf8" [a]
| call_toUcs2 a : text_or_null byte Char a \/ text_or_null unit32 Char32 a -> call_of "toUcs2" [a]
| call_toUtf16 a : text_or_null byte Char a \/ text_or_null unit32 Char32 a -> call_of "toUtf16" [a]
| call_toUcs4 a : text_or_null byte Char a \/ text_or_null unit16 Char16 a -> call_of "toUcs4" [a]
| call_page a t : text_or_null byte Char a -> (forall s, a <> VS Char s) -> is_int t -> call_of "toUtf8" [a; VI Enum t]
(* null: C23; with no element after the n, C25 *)
| call_length8 a : text_or_null byte Char a -> backs a -> call_of "unicodeLength" [a]
| call_length16 a : text_of unit16 Char16 a -> backs a -> call_of "unicodeLength" [a]
| call_length32 a : text_of unit32 Char32 a -> call_of "unicodeLength" [a]
| call_length8_n a n : has_room byte Char n a -> backs a -> 0 < n < 0x100000000 -> call_of "unicodeLength" [a; VI UInt n]
| call_length16_n a n : has_room unit16 Char16 n a -> backs a -> 0 < n < 0x100000000 -> call_of "unicodeLength" [a; VI UInt n]
| call_length32_n a n : has_room unit32 Char32 n a -> 0 < n < 0x100000000 -> call_of "unicodeLength" [a; VI UInt n]
| call_toLower t P s : string_type t P -> Forall P s -> call_of "toLower" [VS t s]
| call_toLower_in t P s lang : string_type t P -> Forall P s -> text_or_null byte Char lang -> (forall s, lang <> VS Char s) ->
    call_of "toLower" [VS t s; lang]
(* more delimiters: C97 *)
| call_split t P s d : string_type t P -> P d -> holds s -> occurrences d s < 0x80000000 -> call_of "split" [VS t s; VI t (norm I t d)]
| call_join t P ss d : string_type t P -> P d -> call_of "join" [VVec t ss; VI t (norm I t d)]
| call_validIf t : is_int t -> call_of "validIf" [VI Enum t]
| call_validIfNot t : is_int t -> call_of "validIfNot" [VI Enum t]
| call_checkIf t : is_int t -> call_of "EncodingCheckPredicate::checkIf" [VI Enum t]
| call_checkIfNot t : is_int t -> call_of "EncodingCheckPredicate::checkIfNot" [VI Enum t]
| call_andIf p t : predicate p -> is_int t -> call_of "EncodingCheckPredicate::andIf" [p; VI Enum t]
| call_andIfNot p t : predicate p -> is_int t -> call_of "EncodingCheckPredicate::andIfNot" [p; VI Enum t]
| call_equal p q : predicate p -> predicate q -> call_of "EncodingCheckPredicate::operator==" [p; q]
| call_unequal p q : predicate p -> predicate q -> call_of "EncodingCheckPredicate::operator!=" [p; q]
| call_apply p t P c : string_type t P -> P c -> predicate p -> call_of "EncodingCheckPredicate::operator()" [p; VI t (norm I t c)]
| call_class f t P c : In f ["isUnicodeAssigned"; "isUnicodePrivate"; "isControlChar"; "isWhitespaceChar"] ->
    string_type t P -> P c -> call_of f [VI t (norm I t c)]
| call_version : call_of "getUnicodeVersionSupported" []
(* wchar_t: 32 or 16 bits *)
| call_wide_check f a : In f ["isUtf8"; "isUtf16"; "isUcs2"; "isUcs4"] -> text_or_null (wide_unit (configured I)) (wchar (configured I)) a -> call_of f [a]
| call_wide_to f a : In f ["toUtf8"; "toUtf16"; "toUcs2"; "toUcs4"] -> text_of (wide_unit (configured I)) (wchar (configured I)) a -> call_of f [a]
| call_isWstring8 a : text_or_null byte Char a -> backs a -> call_of "isWstring" [a]
| call_isWstring a : text_or_null unit16 Char16 a \/ text_or_null unit32 Char32 a -> call_of "isWstring" [a]
| call_toWstring a : text_of byte Char a \/ text_of unit16 Char16 a \/ text_of unit32 Char32 a -> call_of "toWstring" [a]
(* the conversions of wchar_t that take null *)
| call_wide_null f : In f (match configured I with Wchar32 => ["toUtf8"; "toUtf16"; "toUcs2"] | _ => ["toUtf8"; "toUcs4"] end) ->
    call_of f [VP (wchar (configured I)) PNull]
| call_toWstring_null t : In t (match configured I with Wchar32 => [Char; Char16] | _ => [Char; Char32] end) -> call_of "toWstring" [VP t PNull]
| call_toTstring_null t : In t (match configured I with Win32_mbcs => [Char16; Char32] | Win32_unicode => [Char; Char32] | _ => [] end) ->
    call_of "toTstring" [VP t PNull]
(* Windows *)
| call_narrow f a : windows (configured I) = true -> In f ["isUtf16"; "isUcs2"; "isUcs4"] -> text_or_null byte Char a -> backs a -> call_of f [a]
| call_narrow_toUtf8 a : windows (configured I) = true -> text_of byte Char a -> backs a -> call_of "toUtf8" [a]
(* _UNICODE or _MBCS; the strings with _MBCS: C102 *)
| call_isTstring8 a : In (configured I) [Win32_mbcs; Win32_unicode] -> text_or_null byte Char a -> backs a -> call_of "isTstring" [a]
| call_isTstring a : In (configured I) [Win32_mbcs; Win32_unicode] -> text_or_null unit16 Char16 a \/ text_or_null unit32 Char32 a -> call_of "isTstring" [a]
| call_toTstring8 a : In (configured I) [Win32_mbcs; Win32_unicode] -> text_of byte Char a -> backs a ->
    (configured I = Win32_mbcs -> forall s, a <> VS Char s) -> call_of "toTstring" [a]
| call_toTstring a t : In (configured I) [Win32_mbcs; Win32_unicode] -> text_of unit16 Char16 a /\ t = Char16 \/ text_of unit32 Char32 a /\ t = Char32 ->
    (configured I = Win32_mbcs -> forall s, a <> VS t s) -> call_of "toTstring" [a].

(* the calls that change their first argument *)
Inductive edit_of : string -> list value -> Prop :=
| edit_trim t P s : string_type t P -> Forall P s -> holds s -> edit_of "trim" [VS t s]
| edit_trim_set t P s sp : string_type t P -> Forall P s -> holds s -> holds sp -> edit_of "trim" [VS t s; VS t sp]
| edit_ascii s : Forall byte s -> holds s -> edit_of "trimAscii7WhiteSpace" [VS Char s]
| edit_white t P s : string_type t P -> Forall P s -> holds s -> edit_of "trimWhiteSpace" [VS t s]
| edit_andIf p t : predicate p -> is_int t -> edit_of "EncodingCheckPredicate::andIf" [p; VI Enum t]
| edit_andIfNot p t : predicate p -> is_int t -> edit_of "EncodingCheckPredicate::andIfNot" [p; VI Enum t].
End Calls.

(* what no program calls: what is in the anonymous namespaces, in the internal headers or private; and toTstring as an
   overload of it sees itself *)
Definition helpers : list string :=
  ["toTstring (seen by sChar)"; "toTstring (seen by sChar16)"; "toTstring (seen by sChar32)"; "getUnicodeEncodableRangeFlag"; "getCharEncodableRangeFlags";
   "getRangeFlag"; "charToEncodingTypeMask"; "isFirstHalfUtf16"; "isSecondHalfUtf16"; "rawDecodeUtf8"; "encodeUtf8"; "rawDecodeUtf16"; "rawEncodeUtf16";
   "decodeUtf8"; "isUtf16Encodable"; "isUtf16EscapedRange"; "sequenceSizeCharStarts"; "isFirstHalfUtf16AsUtf8"; "isSecondHalfUtf16AsUtf8"; "isTurkicLang";
   "EncodingCheckPredicate::EncodingCheckPredicate"].
