(* The parsed source of string_internal.hxx does what Model/Internal.v says. *)
From Coq Require Import ZArith List Bool String Lia.
From Verif Require Import Machine.
From Verif.Model Require Import Tables Internal Predicate.
From Verif.Cxx Require Import Syntax Semantics Program Values.
From Verif.Gen Require Import Source.
From Verif.Proof Require Import Bits CxxTools.
Import ListNotations.
Local Open Scope string_scope.
Local Open Scope list_scope.
Local Open Scope Z_scope.

Section Internal.
Context (I : implementation) (T : UnicodeTables) (fuel d : nat).

Lemma c_getRangeFlag8 u : 0 <= u < 256 ->
  call I T fuel (S d) "getRangeFlag" [VI Char (norm I Char u)] = Done (VI Enum (getRangeFlag8 u), [None]).
Proof.
  intros Hu. enter c_getRangeFlag_Char. go_all; unfold getRangeFlag8; finish.
Qed.

Lemma c_getRangeFlag16 u : 0 <= u < 0x10000 ->
  call I T fuel (S d) "getRangeFlag" [VI Char16 u] = Done (VI Enum (getRangeFlag16 u), [None]).
Proof.
  intros Hu. enter c_getRangeFlag_Char16. go_all; unfold getRangeFlag16; finish.
Qed.

Lemma c_isFirstHalf16 u : 0 <= u < 0x10000 ->
  call I T fuel (S d) "isFirstHalfUtf16" [VI Char16 u] = Done (VB (isFirstHalfUtf16 u), [None]).
Proof.
  intros Hu. enter c_isFirstHalfUtf16. go_all; unfold isFirstHalfUtf16; finish.
Qed.
Lemma c_isFirstHalf32 u : 0 <= u < 0x100000000 ->
  call I T fuel (S d) "isFirstHalfUtf16" [VI Char32 u] = Done (VB (isFirstHalfUtf16 u), [None]).
Proof.
  intros Hu. enter c_isFirstHalfUtf16. go_all; unfold isFirstHalfUtf16; finish.
Qed.
Lemma c_isSecondHalf16 u : 0 <= u < 0x10000 ->
  call I T fuel (S d) "isSecondHalfUtf16" [VI Char16 u] = Done (VB (isSecondHalfUtf16 u), [None]).
Proof.
  intros Hu. enter c_isSecondHalfUtf16. go_all; unfold isSecondHalfUtf16; finish.
Qed.
Lemma c_isSecondHalf32 u : 0 <= u < 0x100000000 ->
  call I T fuel (S d) "isSecondHalfUtf16" [VI Char32 u] = Done (VB (isSecondHalfUtf16 u), [None]).
Proof.
  intros Hu. enter c_isSecondHalfUtf16. go_all; unfold isSecondHalfUtf16; finish.
Qed.

Lemma c_rawDecode2 a b : 0 <= a < 256 -> 0 <= b < 256 ->
  call I T fuel (S d) "rawDecodeUtf8" [VI UChar a; VI UChar b] = Done (VI Char16 (rawDecodeUtf8_2 a b), [None; None]).
Proof.
  intros Ha Hb. enter c_rawDecodeUtf8_Char_Char. do 3 f_equal. unfold rawDecodeUtf8_2, wrap16. bl.
Qed.
Lemma c_rawDecode3 a b c : 0 <= a < 256 -> 0 <= b < 256 -> 0 <= c < 256 ->
  call I T fuel (S d) "rawDecodeUtf8" [VI UChar a; VI UChar b; VI UChar c]
  = Done (VI Char16 (rawDecodeUtf8_3 a b c), [None; None; None]).
Proof.
  intros. enter c_rawDecodeUtf8_Char_Char_Char. do 3 f_equal. unfold rawDecodeUtf8_3, wrap16. bl.
Qed.
Lemma c_rawDecode4 a b c x : 0 <= a < 256 -> 0 <= b < 256 -> 0 <= c < 256 -> 0 <= x < 256 ->
  call I T fuel (S d) "rawDecodeUtf8" [VI UChar a; VI UChar b; VI UChar c; VI UChar x]
  = Done (VI Char32 (rawDecodeUtf8_4 a b c x), [None; None; None; None]).
Proof.
  intros. enter c_rawDecodeUtf8_Char_Char_Char_Char. do 3 f_equal. unfold rawDecodeUtf8_4, wrap32. bl.
Qed.
Lemma c_rawDecode5 a b c x y : 0 <= a < 256 -> 0 <= b < 256 -> 0 <= c < 256 -> 0 <= x < 256 -> 0 <= y < 256 ->
  call I T fuel (S d) "rawDecodeUtf8" [VI UChar a; VI UChar b; VI UChar c; VI UChar x; VI UChar y]
  = Done (VI Char32 (rawDecodeUtf8_5 a b c x y), [None; None; None; None; None]).
Proof.
  intros. enter c_rawDecodeUtf8_Char_Char_Char_Char_Char. do 3 f_equal. unfold rawDecodeUtf8_5, wrap32. bl.
Qed.
Lemma c_rawDecode6 a b c x y z :
  0 <= a < 256 -> 0 <= b < 256 -> 0 <= c < 256 -> 0 <= x < 256 -> 0 <= y < 256 -> 0 <= z < 256 ->
  call I T fuel (S d) "rawDecodeUtf8" [VI UChar a; VI UChar b; VI UChar c; VI UChar x; VI UChar y; VI UChar z]
  = Done (VI Char32 (rawDecodeUtf8_6 a b c x y z), [None; None; None; None; None; None]).
Proof.
  intros. enter c_rawDecodeUtf8_Char_Char_Char_Char_Char_Char. do 3 f_equal. unfold rawDecodeUtf8_6, wrap32. bl.
Qed.

Lemma c_rawDecodeUtf16' a b : 0 <= a < 0x10000 -> 0 <= b < 0x10000 ->
  call I T fuel (S d) "rawDecodeUtf16" [VI Char16 a; VI Char16 b] = Done (VI Char32 (rawDecodeUtf16 a b), [None; None]).
Proof.
  intros Ha Hb. enter c_rawDecodeUtf16. do 3 f_equal. unfold rawDecodeUtf16, wrap32. bl.
Qed.

Lemma c_rawEncodeUtf16' c s : 0 <= c < 0x100000000 ->
  call I T fuel (S d) "rawEncodeUtf16" [VI Char32 c; VS Char16 s]
  = Done (VVoid, [None; Some (VS Char16 (s ++ rawEncodeUtf16 c))]).
Proof.
  intros H. enter c_rawEncodeUtf16. split_if; go; unfold rawEncodeUtf16; decide_eqs.
  - unfold wrap16. rewrite Z.mod_small by lia. reflexivity.
  - rewrite <- app_assoc. cbn [List.app]. replace (wrap32 (c - 0x10000)) with (c - 0x10000) by (unfold wrap32; lia).
    unfold wrap16. rewrite !Z.mod_small by bl. reflexivity.
Qed.

Lemma c_encodeUtf8_Char32 c s : 0 <= c < 0x100000000 ->
  call I T fuel (S d) "encodeUtf8" [VI Char32 c; VS Char s] = Done (VVoid, [None; Some (VS Char (s ++ encodeUtf8 c))]).
Proof.
  intros H. enter c_encodeUtf8. go_all; unfold encodeUtf8; decide_eqs; rewrite <- ?app_assoc, ?app_nil_r; first [reflexivity | exfalso; lia].
Qed.

Lemma c_encodeUtf8_Char16 c s : 0 <= c < 0x10000 ->
  call I T fuel (S d) "encodeUtf8" [VI Char16 c; VS Char s] = Done (VVoid, [None; Some (VS Char (s ++ encodeUtf8 c))]).
Proof.
  intros H. enter c_encodeUtf8. go_all; unfold encodeUtf8; decide_eqs; rewrite <- ?app_assoc, ?app_nil_r; first [reflexivity | exfalso; lia].
Qed.

Lemma c_encodeUtf8_UChar c s : 0 <= c < 256 ->
  call I T fuel (S d) "encodeUtf8" [VI UChar c; VS Char s] = Done (VVoid, [None; Some (VS Char (s ++ encodeUtf8 c))]).
Proof.
  intros H. enter c_encodeUtf8. go_all; unfold encodeUtf8; decide_eqs; rewrite <- ?app_assoc, ?app_nil_r; first [reflexivity | exfalso; lia].
Qed.

Lemma c_encodable_Char32 c : 0 <= c < 0x100000000 ->
  call I T fuel (S d) "getUnicodeEncodableRangeFlag" [VI Char32 c] = Done (VI Enum (getUnicodeEncodableRangeFlag c), [None]).
Proof.
  intros H. enter c_getUnicodeEncodableRangeFlag. go_all; unfold getUnicodeEncodableRangeFlag; finish.
Qed.

Lemma c_encodable_Char16 c : 0 <= c < 0x10000 ->
  call I T fuel (S d) "getUnicodeEncodableRangeFlag" [VI Char16 c] = Done (VI Enum (getUnicodeEncodableRangeFlag c), [None]).
Proof.
  intros H. enter c_getUnicodeEncodableRangeFlag. go_all; unfold getUnicodeEncodableRangeFlag; finish.
Qed.

Lemma flags_range c : 0 <= getUnicodeEncodableRangeFlag c <= 32.
Proof. unfold getUnicodeEncodableRangeFlag. destruct (_ : bool); unfold kUnicodeFlag, kNoFlag; lia. Qed.
Lemma c_isUnicodeAssigned8 c :
  call I T fuel (S d) "isUnicodeAssigned" [VI Char c] = Done (VB true, [None]).
Proof. enter c_isUnicodeAssigned. reflexivity. Qed.
Lemma c_isUnicodePrivate8 c :
  call I T fuel (S d) "isUnicodePrivate" [VI Char c] = Done (VB false, [None]).
Proof. enter c_isUnicodePrivate. reflexivity. Qed.
End Internal.
