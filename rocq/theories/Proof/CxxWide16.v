(* The parsed source of the wchar_t functions where wchar_t has 16 bits, and of what is added under WIN32, does
   what Model/Wide.v and Model/Tchar.v say. *)
From Coq Require Import ZArith List Bool String Lia.
From Verif Require Import Machine.
From Verif.Model Require Import Tables Internal Predicate Decode Str CodePage Wide Tchar.
From Verif.Cxx Require Import Syntax Semantics Configurations Program Values.
From Verif.Gen Require Import Source.
From Verif.Proof Require Import Bits CxxTools CxxRaw CxxInternal CxxDecode CxxPred CxxHelpers CxxChecks CxxUtf8 CxxSugar CxxConvert CxxRanges CxxCodePage CxxWide.
Import ListNotations.
Local Open Scope string_scope.
Local Open Scope list_scope.
Local Open Scope Z_scope.

Ltac call_wide16 r :=
  lazymatch r with
  | call _ _ _ _ _ (VP _ (PAt (?s ++ [0]) 0) :: _) => rewrite (into_all (s ++ [0]))
  | call _ _ _ _ _ (VP WChar16 _ :: _) => fail
  | call _ _ _ _ "toUtf8" (VP Char _ :: _) => fail
  | call _ _ _ _ "toTstring" _ => fail
  | _ => call_wide r
  end.
Ltac known r ::= call_wide16 r.

Section Wide16.
Context (I : implementation) (T : UnicodeTables) (fuel d : nat).
Hypothesis conf : wide16 (configured I) = true.

Lemma x_isUtf8 arr p : points unit16 fuel arr p ->
  call I T fuel (S (S (S (S (S d))))) "isUtf8" [vptr WChar16 arr p] = do b <- w16_isUtf8 T p; Done (VB b, [None]).
Proof.
  intros. unfold w16_isUtf8. destruct (same_place WChar16 Char16 arr p) as (q & E & E'). rewrite E. enter c16_isUtf8_pWChar16.
  rewrite isUtf16_ptr_range, <- ?E, <- ?E', c_isUtf16 by side. destruct (isUtf16 _ _ _ _); reflexivity.
Qed.
Lemma x_isUtf16 arr p : points unit16 fuel arr p ->
  call I T fuel (S (S (S (S (S d))))) "isUtf16" [vptr WChar16 arr p] = do b <- w16_isUtf16 T p; Done (VB b, [None]).
Proof.
  intros. unfold w16_isUtf16. destruct (same_place WChar16 Char16 arr p) as (q & E & E'). rewrite E. enter c16_isUtf16_pWChar16.
  rewrite isUtf16_ptr_range, <- ?E, <- ?E', c_isUtf16 by side. destruct (isUtf16 _ _ _ _); reflexivity.
Qed.
Lemma x_isUcs2 arr p : points unit16 fuel arr p ->
  call I T fuel (S (S (S (S (S d))))) "isUcs2" [vptr WChar16 arr p] = do b <- w16_isUcs2 T p; Done (VB b, [None]).
Proof.
  intros. unfold w16_isUcs2. destruct (same_place WChar16 Char16 arr p) as (q & E & E'). rewrite E. enter c16_isUcs2_pWChar16.
  rewrite isUtf16_ptr_range, <- ?E, <- ?E', c_isUtf16 by side. destruct (isUtf16 _ _ _ _); reflexivity.
Qed.
Lemma x_isUcs4 arr p : points unit16 fuel arr p ->
  call I T fuel (S (S (S (S (S d))))) "isUcs4" [vptr WChar16 arr p] = do b <- w16_isUcs4 T p; Done (VB b, [None]).
Proof.
  intros. unfold w16_isUcs4. destruct (same_place WChar16 Char16 arr p) as (q & E & E'). rewrite E. enter c16_isUcs4_pWChar16.
  rewrite isUtf16_ptr_range, <- ?E, <- ?E', c_isUtf16 by side. destruct (isUtf16 _ _ _ _); reflexivity.
Qed.
Lemma x_isWstring_8 arr p : points byte fuel arr p -> may_step_back I arr p ->
  call I T fuel (S (S (S (S (S (S d)))))) "isWstring" [vptr Char arr p] = do b <- w16_isWstring_8 T p; Done (VB b, [None]).
Proof.
  intros. unfold w16_isWstring_8. destruct (same_place Char Char arr p) as (q & E & E'). rewrite E. enter c16_isWstring_pChar.
  rewrite isUtf8_ptr_range, <- ?E, <- ?E', c_isUtf8 by side. destruct (isUtf8 _ _ _ _); reflexivity.
Qed.
Lemma x_isWstring_16 arr p : points unit16 fuel arr p ->
  call I T fuel (S (S (S (S (S d))))) "isWstring" [vptr Char16 arr p] = do b <- w16_isWstring_16 T p; Done (VB b, [None]).
Proof.
  intros. unfold w16_isWstring_16. destruct (same_place Char16 Char16 arr p) as (q & E & E'). rewrite E. enter c16_isWstring_pChar16.
  rewrite isUtf16_ptr_bare, <- ?E, <- ?E', c_isUtf16 by side. destruct (isUtf16 _ _ _ _); reflexivity.
Qed.
Lemma x_isWstring_32 arr p : points unit32 fuel arr p ->
  call I T fuel (S (S (S (S (S d))))) "isWstring" [vptr Char32 arr p] = do b <- w16_isWstring_32 T p; Done (VB b, [None]).
Proof.
  intros. unfold w16_isWstring_32. destruct (same_place Char32 Char32 arr p) as (q & E & E'). rewrite E. enter c16_isWstring_pChar32.
  rewrite isUcs4_ptr_range, <- ?E, <- ?E', c_isUcs4 by side. destruct (isUcs4 _ _ _ _); reflexivity.
Qed.
Lemma x_isWstring_8_string s : Forall byte s -> (S (List.length s) < fuel)%nat -> pointer_checks I = false ->
  call I T fuel (S (S (S (S (S (S d)))))) "isWstring" [VS Char s] = do b <- w16_isWstring_8 T (c_str s); Done (VB b, [None]).
Proof.
  intros. unfold w16_isWstring_8. enter c16_isWstring_sChar. rewrite isUtf8_str_range, c_isUtf8_string by side.
  change (isUtf8_string T s _ _) with (isUtf8 T (c_str s) kUtf16 nullPredicate). destruct (isUtf8 _ _ _ _); reflexivity.
Qed.
Lemma x_isWstring_16_string s : Forall unit16 s -> (S (List.length s) < fuel)%nat ->
  call I T fuel (S (S (S (S (S (S d)))))) "isWstring" [VS Char16 s] = do b <- w16_isWstring_16 T (c_str s); Done (VB b, [None]).
Proof.
  intros. unfold w16_isWstring_16. enter c16_isWstring_sChar16. rewrite isUtf16_str_bare, c_isUtf16_string by side.
  unfold isUtf16_string. destruct (isUtf16 _ _ _ _); reflexivity.
Qed.
Lemma x_isWstring_32_string s : Forall unit32 s -> (S (List.length s) < fuel)%nat ->
  call I T fuel (S (S (S (S (S (S d)))))) "isWstring" [VS Char32 s] = do b <- w16_isWstring_32 T (c_str s); Done (VB b, [None]).
Proof.
  intros. unfold w16_isWstring_32. enter c16_isWstring_sChar32. rewrite isUcs4_str_range, c_isUcs4_string by side.
  unfold isUcs4_string. destruct (isUcs4 _ _ _ _); reflexivity.
Qed.
Lemma x_toUtf8 arr p : points unit16 fuel arr p ->
  call I T fuel (S (S (S (S (S d))))) "toUtf8" [vptr WChar16 arr p] = do r <- w16_toUtf8 p; Done (VS Char r, [None]).
Proof.
  intros. unfold w16_toUtf8. destruct (same_place WChar16 Char16 arr p) as (q & E & E'). rewrite E. enter c16_toUtf8_pWChar16.
  rewrite <- E', c_toUtf8_16_any by side. destruct (toUtf8_16 p); reflexivity.
Qed.
Lemma x_toUtf16 arr p : points unit16 fuel arr p ->
  call I T fuel (S (S (S (S (S d))))) "toUtf16" [vptr WChar16 arr p] = do r <- w16_toUtf16 T p; Done (VS Char16 r, [None]).
Proof.
  intros H. intros. unfold w16_toUtf16. destruct (same_place WChar16 Char16 arr p) as (q & E & E'). destruct (same_place WChar16 Char16 arr p) as (q' & E1 & E2).
  assert (q' = q) by congruence. subst q'. rewrite E. enter c16_toUtf16_pWChar16. rewrite isUtf16_ptr_bare, <- ?E', c_isUtf16 by side.
  destruct (isUtf16 _ _ _ _) as [[|]| |]; [|go; reflexivity|reflexivity|reflexivity]. go.
  rewrite <- E2, (construct_any _ I fuel _ Char16 arr p H). destruct (basic_string p); reflexivity.
Qed.
Lemma x_toUcs2 arr p : points unit16 fuel arr p ->
  call I T fuel (S (S (S (S (S d))))) "toUcs2" [vptr WChar16 arr p] = do r <- w16_toUcs2 T p; Done (VS Char16 r, [None]).
Proof.
  intros H. intros. unfold w16_toUcs2. destruct (same_place WChar16 Char16 arr p) as (q & E & E'). destruct (same_place WChar16 Char16 arr p) as (q' & E1 & E2).
  assert (q' = q) by congruence. subst q'. rewrite E. enter c16_toUcs2_pWChar16. rewrite isUcs2_ptr_bare, <- ?E', c_isUcs2 by side.
  destruct (isUcs2 _ _ _ _) as [[|]| |]; [|go; reflexivity|reflexivity|reflexivity]. go.
  rewrite <- E2, (construct_any _ I fuel _ Char16 arr p H). destruct (basic_string p); reflexivity.
Qed.
Lemma x_toUcs4 arr p : points unit16 fuel arr p ->
  call I T fuel (S (S (S (S (S d))))) "toUcs4" [vptr WChar16 arr p] = do r <- w16_toUcs4 p; Done (VS Char32 r, [None]).
Proof.
  intros. unfold w16_toUcs4. destruct (same_place WChar16 Char16 arr p) as (q & E & E'). rewrite E. enter c16_toUcs4_pWChar16.
  rewrite <- E', c_toUcs4_16_any by side. destruct (toUcs4_16 p); reflexivity.
Qed.
Lemma x_toWstring_8 arr p : points byte fuel arr p ->
  call I T fuel (S (S (S (S (S d))))) "toWstring" [vptr Char arr p] = do r <- w16_toWstring_8 p; Done (VS WChar16 r, [None]).
Proof.
  intros. unfold w16_toWstring_8. wide_ptr c16_toWstring_pChar Char arr p. rewrite <- E, c_toUtf16_8_any by side.
  destruct (toUtf16_8 p) as [s| |]; [|reflexivity|reflexivity]. go. rewrite construct_whole. cbn [bind].
  destruct (basic_string (c_str s)); reflexivity.
Qed.
Lemma x_toWstring_16 arr p : points unit16 fuel arr p ->
  call I T fuel (S (S (S (S (S d))))) "toWstring" [vptr Char16 arr p] = do r <- w16_toWstring_16 T p; Done (VS WChar16 r, [None]).
Proof.
  intros H. intros. unfold w16_toWstring_16. destruct (same_place Char16 Char16 arr p) as (q & E & E'). destruct (same_place Char16 WChar16 arr p) as (q' & E1 & E2).
  assert (q' = q) by congruence. subst q'. rewrite E. enter c16_toWstring_pChar16. rewrite isUtf16_ptr_bare, <- ?E', c_isUtf16 by side.
  destruct (isUtf16 _ _ _ _) as [[|]| |]; [|go; reflexivity|reflexivity|reflexivity]. go.
  rewrite <- E2, (construct_any _ I fuel _ WChar16 arr p H). destruct (basic_string p); reflexivity.
Qed.
Lemma x_toWstring_32 arr p : points unit32 fuel arr p ->
  call I T fuel (S (S (S (S (S d))))) "toWstring" [vptr Char32 arr p] = do r <- w16_toWstring_32 p; Done (VS WChar16 r, [None]).
Proof.
  intros. unfold w16_toWstring_32. wide_ptr c16_toWstring_pChar32 Char32 arr p. rewrite <- E, c_toUtf16_32_any by side.
  destruct (toUtf16_32 p) as [s| |]; [|reflexivity|reflexivity]. go. rewrite construct_whole. cbn [bind].
  destruct (basic_string (c_str s)); reflexivity.
Qed.
End Wide16.

Section Wide16Strings.
Context (I : implementation) (T : UnicodeTables) (fuel d : nat).
Hypothesis conf : wide16 (configured I) = true.

Lemma x_isUtf8_string s : Forall unit16 s -> (S (List.length s) < fuel)%nat ->
  call I T fuel (S (S (S (S (S (S d)))))) "isUtf8" [VS WChar16 s] = do r <- w16_isUtf8 T (c_str s); Done (VB r, [None]).
Proof.
  intros. enter c16_isUtf8_sWChar16. change (VP WChar16 (into (s ++ [0]) (s ++ [0]))) with (vptr WChar16 (s ++ [0]) (c_str s)).
  rewrite x_isUtf8 by side. destruct (w16_isUtf8 T (c_str s)); reflexivity.
Qed.
Lemma x_isUtf16_string s : Forall unit16 s -> (S (List.length s) < fuel)%nat ->
  call I T fuel (S (S (S (S (S (S d)))))) "isUtf16" [VS WChar16 s] = do r <- w16_isUtf16 T (c_str s); Done (VB r, [None]).
Proof.
  intros. enter c16_isUtf16_sWChar16. change (VP WChar16 (into (s ++ [0]) (s ++ [0]))) with (vptr WChar16 (s ++ [0]) (c_str s)).
  rewrite x_isUtf16 by side. destruct (w16_isUtf16 T (c_str s)); reflexivity.
Qed.
Lemma x_isUcs2_string s : Forall unit16 s -> (S (List.length s) < fuel)%nat ->
  call I T fuel (S (S (S (S (S (S d)))))) "isUcs2" [VS WChar16 s] = do r <- w16_isUcs2 T (c_str s); Done (VB r, [None]).
Proof.
  intros. enter c16_isUcs2_sWChar16. change (VP WChar16 (into (s ++ [0]) (s ++ [0]))) with (vptr WChar16 (s ++ [0]) (c_str s)).
  rewrite x_isUcs2 by side. destruct (w16_isUcs2 T (c_str s)); reflexivity.
Qed.
Lemma x_isUcs4_string s : Forall unit16 s -> (S (List.length s) < fuel)%nat ->
  call I T fuel (S (S (S (S (S (S d)))))) "isUcs4" [VS WChar16 s] = do r <- w16_isUcs4 T (c_str s); Done (VB r, [None]).
Proof.
  intros. enter c16_isUcs4_sWChar16. change (VP WChar16 (into (s ++ [0]) (s ++ [0]))) with (vptr WChar16 (s ++ [0]) (c_str s)).
  rewrite x_isUcs4 by side. destruct (w16_isUcs4 T (c_str s)); reflexivity.
Qed.
Lemma x_toUtf8_string s : Forall unit16 s -> (S (List.length s) < fuel)%nat ->
  call I T fuel (S (S (S (S (S (S d)))))) "toUtf8" [VS WChar16 s] = do r <- w16_toUtf8 (c_str s); Done (VS Char r, [None]).
Proof.
  intros. enter c16_toUtf8_sWChar16. change (VP WChar16 (into (s ++ [0]) (s ++ [0]))) with (vptr WChar16 (s ++ [0]) (c_str s)).
  rewrite x_toUtf8 by side. destruct (w16_toUtf8 (c_str s)); reflexivity.
Qed.
Lemma x_toUtf16_string s : Forall unit16 s -> (S (List.length s) < fuel)%nat ->
  call I T fuel (S (S (S (S (S (S d)))))) "toUtf16" [VS WChar16 s] = do r <- w16_toUtf16 T (c_str s); Done (VS Char16 r, [None]).
Proof.
  intros. enter c16_toUtf16_sWChar16. change (VP WChar16 (into (s ++ [0]) (s ++ [0]))) with (vptr WChar16 (s ++ [0]) (c_str s)).
  rewrite x_toUtf16 by side. destruct (w16_toUtf16 T (c_str s)); reflexivity.
Qed.
Lemma x_toUcs2_string s : Forall unit16 s -> (S (List.length s) < fuel)%nat ->
  call I T fuel (S (S (S (S (S (S d)))))) "toUcs2" [VS WChar16 s] = do r <- w16_toUcs2 T (c_str s); Done (VS Char16 r, [None]).
Proof.
  intros. enter c16_toUcs2_sWChar16. change (VP WChar16 (into (s ++ [0]) (s ++ [0]))) with (vptr WChar16 (s ++ [0]) (c_str s)).
  rewrite x_toUcs2 by side. destruct (w16_toUcs2 T (c_str s)); reflexivity.
Qed.
Lemma x_toUcs4_string s : Forall unit16 s -> (S (List.length s) < fuel)%nat ->
  call I T fuel (S (S (S (S (S (S d)))))) "toUcs4" [VS WChar16 s] = do r <- w16_toUcs4 (c_str s); Done (VS Char32 r, [None]).
Proof.
  intros. enter c16_toUcs4_sWChar16. change (VP WChar16 (into (s ++ [0]) (s ++ [0]))) with (vptr WChar16 (s ++ [0]) (c_str s)).
  rewrite x_toUcs4 by side. destruct (w16_toUcs4 (c_str s)); reflexivity.
Qed.
Lemma x_toWstring_8_string s : Forall byte s -> (S (List.length s) < fuel)%nat ->
  call I T fuel (S (S (S (S (S (S d)))))) "toWstring" [VS Char s] = do r <- w16_toWstring_8 (c_str s); Done (VS WChar16 r, [None]).
Proof.
  intros. enter c16_toWstring_sChar. change (VP Char (into (s ++ [0]) (s ++ [0]))) with (vptr Char (s ++ [0]) (c_str s)).
  rewrite x_toWstring_8 by side. destruct (w16_toWstring_8 (c_str s)); reflexivity.
Qed.
Lemma x_toWstring_16_string s : Forall unit16 s -> (S (List.length s) < fuel)%nat ->
  call I T fuel (S (S (S (S (S (S d)))))) "toWstring" [VS Char16 s] = do r <- w16_toWstring_16 T (c_str s); Done (VS WChar16 r, [None]).
Proof.
  intros. enter c16_toWstring_sChar16. change (VP Char16 (into (s ++ [0]) (s ++ [0]))) with (vptr Char16 (s ++ [0]) (c_str s)).
  rewrite x_toWstring_16 by side. destruct (w16_toWstring_16 T (c_str s)); reflexivity.
Qed.
Lemma x_toWstring_32_string s : Forall unit32 s -> (S (List.length s) < fuel)%nat ->
  call I T fuel (S (S (S (S (S (S d)))))) "toWstring" [VS Char32 s] = do r <- w16_toWstring_32 (c_str s); Done (VS WChar16 r, [None]).
Proof.
  intros. enter c16_toWstring_sChar32. change (VP Char32 (into (s ++ [0]) (s ++ [0]))) with (vptr Char32 (s ++ [0]) (c_str s)).
  rewrite x_toWstring_32 by side. destruct (w16_toWstring_32 (c_str s)); reflexivity.
Qed.
End Wide16Strings.

Section Windows.
Context (I : implementation) (T : UnicodeTables) (fuel d : nat).
Hypothesis conf : windows (configured I) = true.

Lemma n_isUtf16 arr p : points byte fuel arr p -> may_step_back I arr p ->
  call I T fuel (S (S (S (S (S (S d)))))) "isUtf16" [vptr Char arr p] = do b <- narrow_isUtf16 T p; Done (VB b, [None]).
Proof.
  intros. unfold narrow_isUtf16. destruct (same_place Char Char arr p) as (q & E & E'). rewrite E. enter win_isUtf16_pChar.
  rewrite isUtf8_ptr_range, <- ?E, <- ?E', c_isUtf8 by side. destruct (isUtf8 _ _ _ _); reflexivity.
Qed.
Lemma n_isUcs2 arr p : points byte fuel arr p -> may_step_back I arr p ->
  call I T fuel (S (S (S (S (S (S d)))))) "isUcs2" [vptr Char arr p] = do b <- narrow_isUcs2 T p; Done (VB b, [None]).
Proof.
  intros. unfold narrow_isUcs2. destruct (same_place Char Char arr p) as (q & E & E'). rewrite E. enter win_isUcs2_pChar.
  rewrite isUtf8_ptr_range, <- ?E, <- ?E', c_isUtf8 by side. destruct (isUtf8 _ _ _ _); reflexivity.
Qed.
Lemma n_isUcs4 arr p : points byte fuel arr p -> may_step_back I arr p ->
  call I T fuel (S (S (S (S (S (S d)))))) "isUcs4" [vptr Char arr p] = do b <- narrow_isUcs4 T p; Done (VB b, [None]).
Proof.
  intros. unfold narrow_isUcs4. destruct (same_place Char Char arr p) as (q & E & E'). rewrite E. enter win_isUcs4_pChar.
  rewrite isUtf8_ptr_range, <- ?E, <- ?E', c_isUtf8 by side. destruct (isUtf8 _ _ _ _); reflexivity.
Qed.
Lemma n_toUtf8 arr p : points byte fuel arr p -> may_step_back I arr p ->
  call I T fuel (S (S (S (S (S (S d)))))) "toUtf8" [vptr Char arr p] = do r <- narrow_toUtf8 T p; Done (VS Char r, [None]).
Proof.
  intros H. intros. unfold narrow_toUtf8. destruct (same_place Char Char arr p) as (q & E & E'). destruct (same_place Char Char arr p) as (q' & E1 & E2).
  assert (q' = q) by congruence. subst q'. rewrite E. enter win_toUtf8_pChar. rewrite isUtf8_ptr_bare, <- ?E', c_isUtf8 by side.
  destruct (isUtf8 _ _ _ _) as [[|]| |]; [|go; reflexivity|reflexivity|reflexivity]. go.
  rewrite <- E2, (construct_any _ I fuel _ Char arr p H). destruct (basic_string p); reflexivity.
Qed.
End Windows.

Section WindowsStrings.
Context (I : implementation) (T : UnicodeTables) (fuel d : nat).
Hypothesis conf : windows (configured I) = true.

Lemma n_isUtf16_string s : Forall byte s -> (S (List.length s) < fuel)%nat -> pointer_checks I = false ->
  call I T fuel (S (S (S (S (S (S (S d))))))) "isUtf16" [VS Char s] = do r <- narrow_isUtf16 T (c_str s); Done (VB r, [None]).
Proof.
  intros. enter win_isUtf16_sChar. change (VP Char (into (s ++ [0]) (s ++ [0]))) with (vptr Char (s ++ [0]) (c_str s)).
  rewrite n_isUtf16 by side. destruct (narrow_isUtf16 T (c_str s)); reflexivity.
Qed.
Lemma n_isUcs2_string s : Forall byte s -> (S (List.length s) < fuel)%nat -> pointer_checks I = false ->
  call I T fuel (S (S (S (S (S (S (S d))))))) "isUcs2" [VS Char s] = do r <- narrow_isUcs2 T (c_str s); Done (VB r, [None]).
Proof.
  intros. enter win_isUcs2_sChar. change (VP Char (into (s ++ [0]) (s ++ [0]))) with (vptr Char (s ++ [0]) (c_str s)).
  rewrite n_isUcs2 by side. destruct (narrow_isUcs2 T (c_str s)); reflexivity.
Qed.
Lemma n_isUcs4_string s : Forall byte s -> (S (List.length s) < fuel)%nat -> pointer_checks I = false ->
  call I T fuel (S (S (S (S (S (S (S d))))))) "isUcs4" [VS Char s] = do r <- narrow_isUcs4 T (c_str s); Done (VB r, [None]).
Proof.
  intros. enter win_isUcs4_sChar. change (VP Char (into (s ++ [0]) (s ++ [0]))) with (vptr Char (s ++ [0]) (c_str s)).
  rewrite n_isUcs4 by side. destruct (narrow_isUcs4 T (c_str s)); reflexivity.
Qed.
Lemma n_toUtf8_string s : Forall byte s -> (S (List.length s) < fuel)%nat -> pointer_checks I = false ->
  call I T fuel (S (S (S (S (S (S (S d))))))) "toUtf8" [VS Char s] = do r <- narrow_toUtf8 T (c_str s); Done (VS Char r, [None]).
Proof.
  intros. enter win_toUtf8_sChar. change (VP Char (into (s ++ [0]) (s ++ [0]))) with (vptr Char (s ++ [0]) (c_str s)).
  rewrite n_toUtf8 by side. destruct (narrow_toUtf8 T (c_str s)); reflexivity.
Qed.
End WindowsStrings.

Section Tmbcs.
Context (I : implementation) (T : UnicodeTables) (fuel d : nat).
Hypothesis conf : configured I = Win32_mbcs.

Lemma m_isTstring_8 arr p : points byte fuel arr p -> may_step_back I arr p ->
  call I T fuel (S (S (S (S (S (S d)))))) "isTstring" [vptr Char arr p] = do b <- isTstring_8 T p; Done (VB b, [None]).
Proof.
  intros. unfold isTstring_8. destruct (same_place Char Char arr p) as (q & E & E'). rewrite E. enter mbcs_isTstring_pChar.
  rewrite isUtf8_ptr_range, <- ?E, <- ?E', c_isUtf8 by side. destruct (isUtf8 _ _ _ _); reflexivity.
Qed.
Lemma m_isTstring_8_string s : Forall byte s -> (S (List.length s) < fuel)%nat -> pointer_checks I = false ->
  call I T fuel (S (S (S (S (S (S d)))))) "isTstring" [VS Char s] = do b <- isTstring_8 T (c_str s); Done (VB b, [None]).
Proof.
  intros. unfold isTstring_8. enter mbcs_isTstring_sChar. rewrite isUtf8_str_range, c_isUtf8_string by side.
  change (isUtf8_string T s _ _) with (isUtf8 T (c_str s) kUtf16 nullPredicate). destruct (isUtf8 _ _ _ _); reflexivity.
Qed.
Lemma m_isTstring_16 arr p : points unit16 fuel arr p ->
  call I T fuel (S (S (S (S (S (S d)))))) "isTstring" [vptr Char16 arr p] = do b <- isTstring_16 T p; Done (VB b, [None]).
Proof.
  intros. unfold isTstring_16. destruct (same_place Char16 Char16 arr p) as (q & E & E'). rewrite E. enter mbcs_isTstring_pChar16.
  rewrite isUtf16_ptr_bare, <- ?E, <- ?E', c_isUtf16 by side. destruct (isUtf16 _ _ _ _); reflexivity.
Qed.
Lemma m_isTstring_16_string s : Forall unit16 s -> (S (List.length s) < fuel)%nat ->
  call I T fuel (S (S (S (S (S (S d)))))) "isTstring" [VS Char16 s] = do b <- isTstring_16 T (c_str s); Done (VB b, [None]).
Proof.
  intros. unfold isTstring_16. enter mbcs_isTstring_sChar16. rewrite isUtf16_str_bare, c_isUtf16_string by side.
  unfold isUtf16_string. destruct (isUtf16 _ _ _ _); reflexivity.
Qed.
Lemma m_isTstring_32 arr p : points unit32 fuel arr p ->
  call I T fuel (S (S (S (S (S (S d)))))) "isTstring" [vptr Char32 arr p] = do b <- isTstring_32 T p; Done (VB b, [None]).
Proof.
  intros. unfold isTstring_32. destruct (same_place Char32 Char32 arr p) as (q & E & E'). rewrite E. enter mbcs_isTstring_pChar32.
  rewrite isUcs4_ptr_range, <- ?E, <- ?E', c_isUcs4 by side. destruct (isUcs4 _ _ _ _); reflexivity.
Qed.
Lemma m_isTstring_32_string s : Forall unit32 s -> (S (List.length s) < fuel)%nat ->
  call I T fuel (S (S (S (S (S (S d)))))) "isTstring" [VS Char32 s] = do b <- isTstring_32 T (c_str s); Done (VB b, [None]).
Proof.
  intros. unfold isTstring_32. enter mbcs_isTstring_sChar32. rewrite isUcs4_str_range, c_isUcs4_string by side.
  unfold isUcs4_string. destruct (isUcs4 _ _ _ _); reflexivity.
Qed.
Lemma m_toTstring_8 arr p : points byte fuel arr p -> may_step_back I arr p ->
  call I T fuel (S (S (S (S (S (S d)))))) "toTstring" [vptr Char arr p] = do r <- mbcs_toTstring_8 T p; Done (VS Char r, [None]).
Proof.
  intros H. intros. unfold mbcs_toTstring_8. destruct (same_place Char Char arr p) as (q & E & E'). destruct (same_place Char Char arr p) as (q' & E1 & E2).
  assert (q' = q) by congruence. subst q'. rewrite E. enter mbcs_toTstring_pChar. rewrite isUtf8_ptr_range, <- ?E', c_isUtf8 by side.
  destruct (isUtf8 _ _ _ _) as [[|]| |]; [|go; reflexivity|reflexivity|reflexivity]. go.
  rewrite <- E2, (construct_any _ I fuel _ Char arr p H). destruct (basic_string p); reflexivity.
Qed.
Lemma m_toTstring_16 arr p : points unit16 fuel arr p ->
  call I T fuel (S (S (S (S (S (S d)))))) "toTstring" [vptr Char16 arr p] = do r <- mbcs_toTstring_16 T p; Done (VS Char r, [None]).
Proof.
  intros. unfold mbcs_toTstring_16. wide_ptr mbcs_toTstring_pChar16 Char16 arr p. rewrite isUtf16_ptr_range, <- E, c_isUtf16 by side.
  destruct (isUtf16 _ _ _ _) as [[|]| |]; [|go; reflexivity|reflexivity|reflexivity]. go.
  rewrite <- E, c_toUtf8_16_any by side. destruct (toUtf8_16 p) as [s| |]; [|reflexivity|reflexivity]. go.
  rewrite construct_whole. cbn [bind]. destruct (basic_string (c_str s)); reflexivity.
Qed.
Lemma m_toTstring_32 arr p : points unit32 fuel arr p ->
  call I T fuel (S (S (S (S (S (S d)))))) "toTstring" [vptr Char32 arr p] = do r <- mbcs_toTstring_32 T p; Done (VS Char r, [None]).
Proof.
  intros. unfold mbcs_toTstring_32. wide_ptr mbcs_toTstring_pChar32 Char32 arr p. rewrite isUcs4_ptr_range, <- E, c_isUcs4 by side.
  destruct (isUcs4 _ _ _ _) as [[|]| |]; [|go; reflexivity|reflexivity|reflexivity]. go.
  rewrite <- E, c_toUtf8_32_any by side. destruct (toUtf8_32 p) as [s| |]; [|reflexivity|reflexivity]. go.
  rewrite construct_whole. cbn [bind]. destruct (basic_string (c_str s)); reflexivity.
Qed.
End Tmbcs.

Section Tuni.
Context (I : implementation) (T : UnicodeTables) (fuel d : nat).
Hypothesis conf : configured I = Win32_unicode.

Lemma u_isTstring_8 arr p : points byte fuel arr p -> may_step_back I arr p ->
  call I T fuel (S (S (S (S (S (S d)))))) "isTstring" [vptr Char arr p] = do b <- isTstring_8 T p; Done (VB b, [None]).
Proof.
  intros. unfold isTstring_8. destruct (same_place Char Char arr p) as (q & E & E'). rewrite E. enter uni_isTstring_pChar.
  rewrite isUtf8_ptr_range, <- ?E, <- ?E', c_isUtf8 by side. destruct (isUtf8 _ _ _ _); reflexivity.
Qed.
Lemma u_isTstring_8_string s : Forall byte s -> (S (List.length s) < fuel)%nat -> pointer_checks I = false ->
  call I T fuel (S (S (S (S (S (S d)))))) "isTstring" [VS Char s] = do b <- isTstring_8 T (c_str s); Done (VB b, [None]).
Proof.
  intros. unfold isTstring_8. enter uni_isTstring_sChar. rewrite isUtf8_str_range, c_isUtf8_string by side.
  change (isUtf8_string T s _ _) with (isUtf8 T (c_str s) kUtf16 nullPredicate). destruct (isUtf8 _ _ _ _); reflexivity.
Qed.
Lemma u_isTstring_16 arr p : points unit16 fuel arr p ->
  call I T fuel (S (S (S (S (S (S d)))))) "isTstring" [vptr Char16 arr p] = do b <- isTstring_16 T p; Done (VB b, [None]).
Proof.
  intros. unfold isTstring_16. destruct (same_place Char16 Char16 arr p) as (q & E & E'). rewrite E. enter uni_isTstring_pChar16.
  rewrite isUtf16_ptr_bare, <- ?E, <- ?E', c_isUtf16 by side. destruct (isUtf16 _ _ _ _); reflexivity.
Qed.
Lemma u_isTstring_16_string s : Forall unit16 s -> (S (List.length s) < fuel)%nat ->
  call I T fuel (S (S (S (S (S (S d)))))) "isTstring" [VS Char16 s] = do b <- isTstring_16 T (c_str s); Done (VB b, [None]).
Proof.
  intros. unfold isTstring_16. enter uni_isTstring_sChar16. rewrite isUtf16_str_bare, c_isUtf16_string by side.
  unfold isUtf16_string. destruct (isUtf16 _ _ _ _); reflexivity.
Qed.
Lemma u_isTstring_32 arr p : points unit32 fuel arr p ->
  call I T fuel (S (S (S (S (S (S d)))))) "isTstring" [vptr Char32 arr p] = do b <- isTstring_32 T p; Done (VB b, [None]).
Proof.
  intros. unfold isTstring_32. destruct (same_place Char32 Char32 arr p) as (q & E & E'). rewrite E. enter uni_isTstring_pChar32.
  rewrite isUcs4_ptr_range, <- ?E, <- ?E', c_isUcs4 by side. destruct (isUcs4 _ _ _ _); reflexivity.
Qed.
Lemma u_isTstring_32_string s : Forall unit32 s -> (S (List.length s) < fuel)%nat ->
  call I T fuel (S (S (S (S (S (S d)))))) "isTstring" [VS Char32 s] = do b <- isTstring_32 T (c_str s); Done (VB b, [None]).
Proof.
  intros. unfold isTstring_32. enter uni_isTstring_sChar32. rewrite isUcs4_str_range, c_isUcs4_string by side.
  unfold isUcs4_string. destruct (isUcs4 _ _ _ _); reflexivity.
Qed.
Lemma u_toTstring_8 arr p : points byte fuel arr p ->
  call I T fuel (S (S (S (S (S (S d)))))) "toTstring" [vptr Char arr p] = do r <- unicode_toTstring_8 p; Done (VS WChar16 r, [None]).
Proof.
  intros. unfold unicode_toTstring_8. wide_ptr uni_toTstring_pChar Char arr p. rewrite <- E, c_toUtf16_8_any by side.
  destruct (toUtf16_8 p) as [s| |]; [|reflexivity|reflexivity]. go. rewrite construct_whole. cbn [bind].
  destruct (basic_string (c_str s)); reflexivity.
Qed.
Lemma u_toTstring_32 arr p : points unit32 fuel arr p ->
  call I T fuel (S (S (S (S (S (S d)))))) "toTstring" [vptr Char32 arr p] = do r <- unicode_toTstring_32 p; Done (VS WChar16 r, [None]).
Proof.
  intros. unfold unicode_toTstring_32. wide_ptr uni_toTstring_pChar32 Char32 arr p. rewrite <- E, c_toUtf16_32_any by side.
  destruct (toUtf16_32 p) as [s| |]; [|reflexivity|reflexivity]. go. rewrite construct_whole. cbn [bind].
  destruct (basic_string (c_str s)); reflexivity.
Qed.
Lemma u_toTstring_8_string s : Forall byte s -> (S (List.length s) < fuel)%nat ->
  call I T fuel (S (S (S (S (S (S d)))))) "toTstring" [VS Char s] = do r <- unicode_toTstring_8_string s; Done (VS WChar16 r, [None]).
Proof.
  intros. unfold unicode_toTstring_8_string. enter uni_toTstring_sChar. rewrite c_toUtf16_8_string by side.
  destruct (toUtf16_8_string s) as [r| |]; [|reflexivity|reflexivity]. go. rewrite construct_whole. cbn [bind].
  destruct (basic_string (c_str r)); reflexivity.
Qed.
Lemma u_toTstring_32_string s : Forall unit32 s -> (S (List.length s) < fuel)%nat ->
  call I T fuel (S (S (S (S (S (S d)))))) "toTstring" [VS Char32 s] = do r <- unicode_toTstring_32_string s; Done (VS WChar16 r, [None]).
Proof.
  intros. unfold unicode_toTstring_32_string. enter uni_toTstring_sChar32. rewrite c_toUtf16_32_string by side.
  destruct (toUtf16_32_string s) as [r| |]; [|reflexivity|reflexivity]. go. rewrite construct_whole. cbn [bind].
  destruct (basic_string (c_str r)); reflexivity.
Qed.
Lemma u_toTstring_16 arr p : points unit16 fuel arr p ->
  call I T fuel (S d) "toTstring" [vptr Char16 arr p] = do r <- unicode_toTstring_16 p; Done (VS WChar16 r, [None]).
Proof.
  intros H. unfold unicode_toTstring_16. destruct (same_place Char16 WChar16 arr p) as (q & E & E'). rewrite E. enter uni_toTstring_pChar16.
  rewrite <- E', (construct_any _ I fuel _ WChar16 arr p H). destruct (basic_string p); reflexivity.
Qed.
Lemma u_toTstring_16_string s : call I T fuel (S d) "toTstring" [VS Char16 s] = do r <- unicode_toTstring_16_string s; Done (VS WChar16 r, [None]).
Proof.
  unfold unicode_toTstring_16_string. enter uni_toTstring_sChar16. rewrite construct_whole. cbn [bind].
  destruct (basic_string (c_str s)); reflexivity.
Qed.
End Tuni.

(* under _MBCS, toTstring of a string never returns *)
Definition seen_8 : fundef := Eval cbv [seen_as mbcs_toTstring_sChar f_name f_params f_ret f_body] in seen_as "toTstring (seen by sChar)" mbcs_toTstring_sChar.
Definition seen_16 : fundef := Eval cbv [seen_as mbcs_toTstring_sChar16 f_name f_params f_ret f_body] in seen_as "toTstring (seen by sChar16)" mbcs_toTstring_sChar16.
Definition seen_32 : fundef := Eval cbv [seen_as mbcs_toTstring_sChar32 f_name f_params f_ret f_body] in seen_as "toTstring (seen by sChar32)" mbcs_toTstring_sChar32.

Section Loops.
Context (I : implementation) (T : UnicodeTables) (fuel : nat).
Hypothesis conf : configured I = Win32_mbcs.
Ltac known r ::= lazymatch r with call _ _ _ _ _ (VP _ (PAt (?s ++ [0]) 0) :: _) => fail | _ => call_wide16 r end.

Lemma copied s : exists l, c_string (PAt (s ++ [0]) 0) = Done l.
Proof.
  cbn [c_string Z.ltb Z.compare Z.to_nat skipn]. induction s as [|x s [l IH]]; [exists []; reflexivity|]. cbn [app until_zero].
  destruct (x =? 0); [now exists []|]. rewrite IH. now exists (x :: l).
Qed.
Ltac loop c :=
  let d := fresh "d" in let IH := fresh "IH" in let s := fresh "s" in let E := fresh "E" in
  intros d; induction d as [|d IH]; intros s; [reflexivity|]; enter c;
  destruct (copied s) as [? E]; rewrite E; cbn [bind]; go; rewrite IH; reflexivity.

Lemma loops_8 : forall d s, call I T fuel d "toTstring (seen by sChar)" [VP Char (PAt (s ++ [0]) 0)] = OutOfFuel.
Proof. loop seen_8. Qed.
Lemma loops_16 : forall d s, call I T fuel d "toTstring (seen by sChar16)" [VP Char16 (PAt (s ++ [0]) 0)] = OutOfFuel.
Proof. loop seen_16. Qed.
Lemma loops_32 : forall d s, call I T fuel d "toTstring (seen by sChar32)" [VP Char32 (PAt (s ++ [0]) 0)] = OutOfFuel.
Proof. loop seen_32. Qed.

Lemma never_8 d s : call I T fuel d "toTstring" [VS Char s] = OutOfFuel.
Proof. destruct d as [|d]; [reflexivity|]. enter mbcs_toTstring_sChar. rewrite loops_8. reflexivity. Qed.
Lemma never_16 d s : call I T fuel d "toTstring" [VS Char16 s] = OutOfFuel.
Proof. destruct d as [|d]; [reflexivity|]. enter mbcs_toTstring_sChar16. rewrite loops_16. reflexivity. Qed.
Lemma never_32 d s : call I T fuel d "toTstring" [VS Char32 s] = OutOfFuel.
Proof. destruct d as [|d]; [reflexivity|]. enter mbcs_toTstring_sChar32. rewrite loops_32. reflexivity. Qed.
End Loops.
