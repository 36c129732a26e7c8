(* The statements of Props/SourceWide.v from the lemmas about calls with given room. *)
From Coq Require Import ZArith List Bool String Lia.
From Verif Require Import Machine.
From Verif.Model Require Import Tables Internal Predicate Decode Str Wide.
From Verif.Cxx Require Import Syntax Semantics Program Values.
From Verif.Spec Require Import Utf Source.
From Verif.Proof Require Import Bits CxxTools CxxSugar CxxMono CxxPred CxxConvert CxxWide CxxAnswers CxxResults CxxMore.
Import ListNotations.
Local Open Scope string_scope.
Local Open Scope list_scope.
Local Open Scope Z_scope.

Section Wides.
Context (I : implementation) (T : UnicodeTables).

Section Wchar32.
Hypothesis wide : configured I = Wchar32.

Lemma all_wide_checks :
  (forall arr p, points_into unit32 arr p -> 
     runs_to I T "isUtf8" [vptr WChar32 arr p] (boolean (w32_isUtf8 T p))) /\
  (forall s, Forall unit32 s -> 
     runs_to I T "isUtf8" [VS WChar32 s] (boolean (w32_isUtf8 T (c_str s)))) /\
  (forall arr p, points_into unit32 arr p -> 
     runs_to I T "isUtf16" [vptr WChar32 arr p] (boolean (w32_isUtf16 T p))) /\
  (forall s, Forall unit32 s -> 
     runs_to I T "isUtf16" [VS WChar32 s] (boolean (w32_isUtf16 T (c_str s)))) /\
  (forall arr p, points_into unit32 arr p -> 
     runs_to I T "isUcs2" [vptr WChar32 arr p] (boolean (w32_isUcs2 T p))) /\
  (forall s, Forall unit32 s -> 
     runs_to I T "isUcs2" [VS WChar32 s] (boolean (w32_isUcs2 T (c_str s)))) /\
  (forall arr p, points_into unit32 arr p -> 
     runs_to I T "isUcs4" [vptr WChar32 arr p] (boolean (w32_isUcs4 T p))) /\
  (forall s, Forall unit32 s -> 
     runs_to I T "isUcs4" [VS WChar32 s] (boolean (w32_isUcs4 T (c_str s)))).
Proof.
  parts; intros.
  - by_call 5%nat (room p) w_isUtf8.
  - by_call 6%nat (S (S (List.length s))) w_isUtf8_string.
  - by_call 5%nat (room p) w_isUtf16.
  - by_call 6%nat (S (S (List.length s))) w_isUtf16_string.
  - by_call 5%nat (room p) w_isUcs2.
  - by_call 6%nat (S (S (List.length s))) w_isUcs2_string.
  - by_call 5%nat (room p) w_isUcs4.
  - by_call 6%nat (S (S (List.length s))) w_isUcs4_string.
Qed.

Lemma all_isWstring :
  (forall arr p, points_into byte arr p -> may_step_back I arr p -> 
     runs_to I T "isWstring" [vptr Char arr p] (boolean (w32_isWstring_8 T p))) /\
  (forall s, Forall byte s -> pointer_checks I = false -> 
     runs_to I T "isWstring" [VS Char s] (boolean (w32_isWstring_8 T (c_str s)))) /\
  (forall arr p, points_into unit16 arr p -> 
     runs_to I T "isWstring" [vptr Char16 arr p] (boolean (w32_isWstring_16 T p))) /\
  (forall s, Forall unit16 s -> 
     runs_to I T "isWstring" [VS Char16 s] (boolean (w32_isWstring_16 T (c_str s)))) /\
  (forall arr p, points_into unit32 arr p -> 
     runs_to I T "isWstring" [vptr Char32 arr p] (boolean (w32_isWstring_32 T p))) /\
  (forall s, Forall unit32 s -> 
     runs_to I T "isWstring" [VS Char32 s] (boolean (w32_isWstring_32 T (c_str s)))).
Proof.
  parts; intros.
  - by_call 6%nat (room p) w_isWstring_8.
  - by_call 6%nat (S (S (List.length s))) w_isWstring_8_string.
  - by_call 5%nat (room p) w_isWstring_16.
  - by_call 6%nat (S (S (List.length s))) w_isWstring_16_string.
  - by_call 5%nat (room p) w_isWstring_32.
  - by_call 6%nat (S (S (List.length s))) w_isWstring_32_string.
Qed.

Lemma all_wide_conversions :
  (forall arr p, points_into unit32 arr p -> 
     runs_to I T "toUtf8" [vptr WChar32 arr p] (string_of Char (w32_toUtf8 p))) /\
  (forall s, Forall unit32 s -> 
     runs_to I T "toUtf8" [VS WChar32 s] (string_of Char (w32_toUtf8 (c_str s)))) /\
  (forall arr p, points_into unit32 arr p -> 
     runs_to I T "toUtf16" [vptr WChar32 arr p] (string_of Char16 (w32_toUtf16 p))) /\
  (forall s, Forall unit32 s -> 
     runs_to I T "toUtf16" [VS WChar32 s] (string_of Char16 (w32_toUtf16 (c_str s)))) /\
  (forall arr p, points_into unit32 arr p -> 
     runs_to I T "toUcs2" [vptr WChar32 arr p] (string_of Char16 (w32_toUcs2 p))) /\
  (forall s, Forall unit32 s -> 
     runs_to I T "toUcs2" [VS WChar32 s] (string_of Char16 (w32_toUcs2 (c_str s)))) /\
  (forall arr p, points_into unit32 arr p -> 
     runs_to I T "toUcs4" [vptr WChar32 arr p] (string_of Char32 (w32_toUcs4 T p))) /\
  (forall s, Forall unit32 s -> 
     runs_to I T "toUcs4" [VS WChar32 s] (string_of Char32 (w32_toUcs4 T (c_str s)))).
Proof.
  parts; intros.
  - by_call 5%nat (room p) w_toUtf8.
  - by_call 6%nat (S (S (List.length s))) w_toUtf8_string.
  - by_call 5%nat (room p) w_toUtf16.
  - by_call 6%nat (S (S (List.length s))) w_toUtf16_string.
  - by_call 5%nat (room p) w_toUcs2.
  - by_call 6%nat (S (S (List.length s))) w_toUcs2_string.
  - by_call 5%nat (room p) w_toUcs4.
  - by_call 6%nat (S (S (List.length s))) w_toUcs4_string.
Qed.

Lemma all_toWstring :
  (forall arr p, points_into byte arr p -> 
     runs_to I T "toWstring" [vptr Char arr p] (string_of WChar32 (w32_toWstring_8 p))) /\
  (forall s, Forall byte s -> 
     runs_to I T "toWstring" [VS Char s] (string_of WChar32 (w32_toWstring_8 (c_str s)))) /\
  (forall arr p, points_into unit16 arr p -> 
     runs_to I T "toWstring" [vptr Char16 arr p] (string_of WChar32 (w32_toWstring_16 p))) /\
  (forall s, Forall unit16 s -> 
     runs_to I T "toWstring" [VS Char16 s] (string_of WChar32 (w32_toWstring_16 (c_str s)))) /\
  (forall arr p, points_into unit32 arr p -> 
     runs_to I T "toWstring" [vptr Char32 arr p] (string_of WChar32 (w32_toWstring_32 T p))) /\
  (forall s, Forall unit32 s -> 
     runs_to I T "toWstring" [VS Char32 s] (string_of WChar32 (w32_toWstring_32 T (c_str s)))).
Proof.
  parts; intros.
  - by_call 5%nat (room p) w_toWstring_8.
  - by_call 6%nat (S (S (List.length s))) w_toWstring_8_string.
  - by_call 5%nat (room p) w_toWstring_16.
  - by_call 6%nat (S (S (List.length s))) w_toWstring_16_string.
  - by_call 5%nat (room p) w_toWstring_32.
  - by_call 6%nat (S (S (List.length s))) w_toWstring_32_string.
Qed.

End Wchar32.

Ltac by_value k L := apply (runs_at _ _ _ _ _ k O); intros; cbn [Nat.add]; rewrite L by assumption; reflexivity.
Ltac by_leaving_value k L := apply (leaves_at _ _ _ _ _ k O); intros; cbn [Nat.add]; rewrite L by assumption; reflexivity.

Lemma all_predicates :
  (forall t, int32 t -> runs_to I T "validIf" [VI Enum t] (Done (vpred (validIf t)))) /\
  (forall t, int32 t -> runs_to I T "validIfNot" [VI Enum t] (Done (vpred (validIfNot t)))) /\
  (forall t, int32 t -> runs_to I T "EncodingCheckPredicate::checkIf" [VI Enum t] (Done (vpred (validIf t)))) /\
  (forall t, int32 t -> runs_to I T "EncodingCheckPredicate::checkIfNot" [VI Enum t] (Done (vpred (validIfNot t)))) /\
  (forall p t, pred_ok p -> int32 t -> runs_to I T "EncodingCheckPredicate::andIf" [vpred p; VI Enum t] (Done (vpred (andIf p t)))) /\
  (forall p t, pred_ok p -> int32 t -> runs_to I T "EncodingCheckPredicate::andIfNot" [vpred p; VI Enum t] (Done (vpred (andIfNot p t)))) /\
  (forall p t, pred_ok p -> int32 t -> leaves I T "EncodingCheckPredicate::andIf" [vpred p; VI Enum t] (Done (vpred (andIf p t)))) /\
  (forall p t, pred_ok p -> int32 t -> leaves I T "EncodingCheckPredicate::andIfNot" [vpred p; VI Enum t] (Done (vpred (andIfNot p t)))) /\
  (forall p q, pred_ok p -> pred_ok q -> runs_to I T "EncodingCheckPredicate::operator==" [vpred p; vpred q] (Done (VB (predicateEq p q)))) /\
  (forall p q, pred_ok p -> pred_ok q -> runs_to I T "EncodingCheckPredicate::operator!=" [vpred p; vpred q] (Done (VB (negb (predicateEq p q))))) /\
  (forall p c, pred_ok p -> byte c -> t_assigned8 T c = true -> t_private8 T c = false ->
     runs_to I T "EncodingCheckPredicate::operator()" [vpred p; VI Char (norm I Char c)] (Done (VB (pred8 T p c)))) /\
  (forall p c, pred_ok p -> unit16 c ->
     runs_to I T "EncodingCheckPredicate::operator()" [vpred p; VI Char16 c] (Done (VB (pred16 T p c)))) /\
  (forall p c, pred_ok p -> unit32 c ->
     runs_to I T "EncodingCheckPredicate::operator()" [vpred p; VI Char32 c] (Done (VB (pred32 T p c)))).
Proof.
  parts; intros.
  - by_value 3%nat c_validIf'.
  - by_value 3%nat c_validIfNot'.
  - by_value 2%nat c_checkIf.
  - by_value 2%nat c_checkIfNot.
  - by_value 2%nat c_andIf.
  - by_value 2%nat c_andIfNot.
  - by_leaving_value 2%nat c_andIf.
  - by_leaving_value 2%nat c_andIfNot.
  - by_value 1%nat c_predEq.
  - by_value 2%nat c_predNe.
  - by_value 3%nat c_pred8.
  - by_value 3%nat c_pred16.
  - by_value 3%nat c_pred32.
Qed.
End Wides.
