(* The parsed source of the checking functions of string.cxx does what Model/Str.v says. *)
From Coq Require Import ZArith List Bool String Lia.
From Verif Require Import Machine.
From Verif.Model Require Import Tables Internal Predicate Decode Str.
From Verif.Cxx Require Import Syntax Semantics Program Values.
From Verif.Gen Require Import Source.
From Verif.Proof Require Import Bits CxxTools CxxRaw CxxInternal CxxDecode CxxPred CxxHelpers.
Import ListNotations.
Local Open Scope string_scope.
Local Open Scope list_scope.
Local Open Scope Z_scope.

Ltac call_helper r :=
  lazymatch r with
  | call _ _ _ _ "isUtf16EscapedRange" [VI Char32 ?c] => rewrite c_escaped32 by lia
  | call _ _ _ _ "isUtf16EscapedRange" [VI Char16 ?c] => rewrite c_escaped16 by lia
  | call _ _ _ _ "isUtf16Encodable" [VI Char32 ?c] => rewrite c_encodable32 by lia
  | call _ _ _ _ "isFirstHalfUtf16AsUtf8" _ => rewrite c_firstAsUtf8 by assumption
  | call _ _ _ _ "isSecondHalfUtf16AsUtf8" _ => rewrite c_secondAsUtf8 by assumption
  | call _ _ _ _ "sequenceSizeCharStarts" _ => rewrite c_starts by assumption
  | call _ _ _ _ "decodeUtf8" _ => rewrite c_decode by assumption
  | _ => call_check r
  end.
Ltac known r ::= call_helper r.

Section Checks.
Context (I : implementation) (T : UnicodeTables) (fuel d : nat).

Lemma c_isUcs4_32 arr rest t pred : suffix rest arr -> Forall unit32 rest -> (List.length rest < fuel)%nat ->
  -0x80000000 <= t < 0x80000000 -> pred_ok pred ->
  call I T fuel (S (S (S (S d)))) "isUcs4" [VP Char32 (into arr rest); VI Enum t; vpred pred]
  = do b <- isUcs4 T (At rest) t pred; Done (VB b, [None; None; None]).
Proof.
  intros Hs Hb Hf Ht Hp. unfold isUcs4. check_start c_isUcs4_pChar32_Enum_Pred Et.
  read_unit unit32; go; [reflexivity|].
  split_if; go; cbn [deref bind]; decide_eqs; [reflexivity|].
  loop_over "p"; over_rest.
  induction n as [|n IH]; intros l Hl Bl Fl; [lia|].
  rewrite loop_S. go. read_unit unit32; go; [reflexivity|].
  cbn [isUcs4_loop]. cbn [List.length] in Fl.
  repeat (split_if; go); decide_eqs; cbn [negb andb orb bind]; try reflexivity; apply IH; first [assumption | lia].
Qed.
Lemma c_isUcs2_16 arr rest t pred : suffix rest arr -> Forall unit16 rest -> (List.length rest < fuel)%nat ->
  -0x80000000 <= t < 0x80000000 -> pred_ok pred ->
  call I T fuel (S (S (S (S d)))) "isUcs2" [VP Char16 (into arr rest); VI Enum t; vpred pred]
  = do b <- isUcs2 T (At rest) t pred; Done (VB b, [None; None; None]).
Proof.
  intros Hs Hb Hf Ht Hp. unfold isUcs2. check_start c_isUcs2_pChar16_Enum_Pred Et.
  read_unit unit16; go; [reflexivity|].
  split_if; go; cbn [deref bind]; decide_eqs; [reflexivity|].
  loop_over "p"; over_rest.
  induction n as [|n IH]; intros l Hl Bl Fl; [lia|].
  rewrite loop_S. go. read_unit unit16; go; [reflexivity|].
  cbn [isUcs2_loop]. cbn [List.length] in Fl.
  repeat (split_if; go); decide_eqs; cbn [negb andb orb bind]; try reflexivity; apply IH; first [assumption | lia].
Qed.
Lemma c_isUtf16_16 arr rest t pred : suffix rest arr -> Forall unit16 rest -> (List.length rest < fuel)%nat ->
  -0x80000000 <= t < 0x80000000 -> pred_ok pred ->
  call I T fuel (S (S (S (S d)))) "isUtf16" [VP Char16 (into arr rest); VI Enum t; vpred pred]
  = do b <- isUtf16 T (At rest) t pred; Done (VB b, [None; None; None]).
Proof.
  intros Hs Hb Hf Ht Hp. unfold isUtf16. check_start c_isUtf16_pChar16_Enum_Pred Et.
  read_unit unit16; go; [reflexivity|].
  split_if; go; cbn [deref bind]; decide_eqs; [reflexivity|].
  loop_over "p"; over_rest.
  induction n as [|n IH]; intros l Hl Bl Fl; [lia|].
  rewrite loop_S. go. read_unit unit16; go; [reflexivity|].
  cbn [isUtf16_loop]. set (fl := k21BitUnicodeFlags). vm_compute in fl. subst fl. cbn [List.length] in Fl.
  repeat (first [split_if | read_unit unit16]; go).
  all: decide_eqs; cbn [negb andb orb bind]; try reflexivity.
  all: try (apply IH; first [assumption | cbn [List.length] in *; lia]).
Qed.
End Checks.
