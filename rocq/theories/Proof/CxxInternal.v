(* The parsed source of string_internal.hxx does what Model/Internal.v says. *)
From Coq Require Import ZArith List Bool String Lia.
From Verif Require Import Machine.
From Verif.Model Require Import Tables Internal Predicate.
From Verif.Cxx Require Import Syntax Semantics Program Values.
From Verif.Gen Require Import Source.
From Verif.Proof Require Import Bits CxxTools CxxRaw.
Import ListNotations.
Local Open Scope string_scope.
Local Open Scope list_scope.
Local Open Scope Z_scope.

(* what the tables say, as calls *)
Ltac external_call :=
  lazymatch goal with
  | |- context [call ?I ?T ?fuel (S ?d) ?f ?vs] =>
    rewrite (call_S I T fuel d f vs);
    let v := eval lazy beta iota zeta delta [external] in (external T f vs) in
    lazymatch v with
    | Some _ => change (external T f vs) with v; cbv iota beta; cbn [map]
    end
  end.

Ltac call_internal r :=
  lazymatch r with
  | call _ _ _ _ "getUnicodeEncodableRangeFlag" [VI Char32 _] => rewrite c_encodable_Char32 by bl
  | call _ _ _ _ "getUnicodeEncodableRangeFlag" [VI Char16 _] => rewrite c_encodable_Char16 by bl
  | call _ _ _ _ "getRangeFlag" [VI Char _] => rewrite c_getRangeFlag8 by bl
  | call _ _ _ _ "getRangeFlag" [VI Char16 _] => rewrite c_getRangeFlag16 by bl
  | call _ _ _ _ "isFirstHalfUtf16" [VI Char16 _] => rewrite c_isFirstHalf16 by bl
  | call _ _ _ _ "isFirstHalfUtf16" [VI Char32 _] => rewrite c_isFirstHalf32 by bl
  | call _ _ _ _ "isSecondHalfUtf16" [VI Char16 _] => rewrite c_isSecondHalf16 by bl
  | call _ _ _ _ "isSecondHalfUtf16" [VI Char32 _] => rewrite c_isSecondHalf32 by bl
  | call _ _ _ _ "rawDecodeUtf16" _ => rewrite c_rawDecodeUtf16' by bl
  | call _ _ _ _ "rawEncodeUtf16" _ => rewrite c_rawEncodeUtf16' by bl
  | call _ _ _ _ "encodeUtf8" [VI Char32 _; _] => rewrite c_encodeUtf8_Char32 by bl
  | call _ _ _ _ "encodeUtf8" [VI Char16 _; _] => rewrite c_encodeUtf8_Char16 by bl
  | call _ _ _ _ "encodeUtf8" [VI UChar _; _] => rewrite c_encodeUtf8_UChar by bl
  | call _ _ _ _ "isUnicodeAssigned" [VI Char _] => rewrite c_isUnicodeAssigned8
  | call _ _ _ _ "isUnicodePrivate" [VI Char _] => rewrite c_isUnicodePrivate8
  | call _ _ _ _ _ _ => external_call
  end.
Ltac known r ::= call_internal r.

Section Internal2.
Context (I : implementation) (T : UnicodeTables) (fuel d : nat).

Lemma c_flags32 c : 0 <= c < 0x100000000 ->
  call I T fuel (S (S d)) "getCharEncodableRangeFlags" [VI Char32 c] = Done (VI Enum (getCharEncodableRangeFlags c), [None]).
Proof.
  intros H. pose proof (flags_range c). enter c_getCharEncodableRangeFlags. go_all; unfold getCharEncodableRangeFlags; finish.
Qed.
Lemma c_flags16 c : 0 <= c < 0x10000 ->
  call I T fuel (S (S d)) "getCharEncodableRangeFlags" [VI Char16 c] = Done (VI Enum (getCharEncodableRangeFlags c), [None]).
Proof.
  intros H. pose proof (flags_range c). enter c_getCharEncodableRangeFlags. go_all; unfold getCharEncodableRangeFlags; finish.
Qed.
Lemma c_flags8 c : 0 <= c < 256 ->
  call I T fuel (S (S d)) "getCharEncodableRangeFlags" [VI Char (norm I Char c)] = Done (VI Enum (getCharEncodableRangeFlags8 c), [None]).
Proof.
  intros H. enter c_getCharEncodableRangeFlags. rewrite norm_char_land by lia.
  go_all; unfold getCharEncodableRangeFlags8; finish.
Qed.
Lemma c_mask32 c : 0 <= c < 0x100000000 ->
  call I T fuel (S (S d)) "charToEncodingTypeMask" [VI Char32 c] = Done (VI UInt (charToEncodingTypeMask32 T c), [None]).
Proof.
  intros H. enter c_charToEncodingTypeMask. go_all; unfold charToEncodingTypeMask32; finish.
Qed.
Lemma c_mask16 c : 0 <= c < 0x10000 ->
  call I T fuel (S (S d)) "charToEncodingTypeMask" [VI Char16 c] = Done (VI UInt (charToEncodingTypeMask16 T c), [None]).
Proof.
  intros H. enter c_charToEncodingTypeMask. go_all; unfold charToEncodingTypeMask16; finish.
Qed.
Lemma c_mask8 c : 0 <= c < 256 -> t_assigned8 T c = true -> t_private8 T c = false ->
  call I T fuel (S (S d)) "charToEncodingTypeMask" [VI Char (norm I Char c)] = Done (VI UInt (charToEncodingTypeMask8 T c), [None]).
Proof.
  intros H Ha Hp. assert (W : wrap8 c = c) by (unfold wrap8; lia).
  enter c_charToEncodingTypeMask. go_all; unfold charToEncodingTypeMask8; rewrite W in *; rewrite Ha, Hp; finish.
Qed.
End Internal2.
