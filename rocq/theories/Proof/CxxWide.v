(* The parsed source of the wchar_t functions (32-bit wchar_t) does what Model/Wide.v says. *)
From Coq Require Import ZArith List Bool String Lia.
From Verif Require Import Machine.
From Verif.Model Require Import Tables Internal Predicate Decode Str CodePage Wide.
From Verif.Cxx Require Import Syntax Semantics Program Values.
From Verif.Gen Require Import Source.
From Verif.Proof Require Import Bits CxxTools CxxRaw CxxInternal CxxDecode CxxPred CxxHelpers CxxChecks CxxUtf8 CxxSugar CxxConvert CxxRanges CxxCodePage.
Import ListNotations.
Local Open Scope string_scope.
Local Open Scope list_scope.
Local Open Scope Z_scope.

Lemma same_place t t' arr p : exists q, vptr t arr p = VP t q /\ vptr t' arr p = VP t' q.
Proof. destruct p; eexists; split; reflexivity. Qed.
Ltac call_wide r :=
  lazymatch r with
  | if width ?a =? width ?b then ?x else ?y => change r with x
  | call _ _ _ _ _ (VP _ (PAt (?s ++ [0]) 0) :: _) => rewrite (into_all (s ++ [0]))
  | call _ _ _ _ _ (VP WChar32 _ :: _) => fail
  | call _ _ _ _ _ (VP _ (into _ _) :: _) => fail
  | _ => call_convert r
  end.
Ltac known r ::= call_wide r.

Ltac side := first [assumption | lia | points_side | vm_compute; split; congruence | split; vm_compute; split; congruence].
Ltac wide_ptr c t arr p :=
  let q := fresh "q" in let E := fresh "E" in let E' := fresh "E'" in
  destruct (same_place t Char32 arr p) as (q & E & E'); rewrite E; enter c.
Lemma construct_any (P : Z -> Prop) I fuel c t arr p : points P fuel arr p ->
  construct I c (TStr t) [vptr t arr p] = do l <- basic_string p; Done (VS t l).
Proof. destruct p as [|rest]; [destruct t; reflexivity|]. intros (H & _). apply construct_copy. exact H. Qed.
Lemma construct_whole I c t s : construct I c (TStr t) [VP t (PAt (s ++ [0]) 0)] = do l <- basic_string (c_str s); Done (VS t l).
Proof. rewrite into_all. apply construct_copy. exists []. reflexivity. Qed.

Section Wide.
Context (I : implementation) (T : UnicodeTables) (fuel d : nat).
Hypothesis wide : configured I = Wchar32.

Ltac wide_is c t D L :=
  intros; lazymatch goal with |- context [vptr t ?arr ?p] =>
    let q := fresh "q" in let E := fresh "E" in let E' := fresh "E'" in
    destruct (same_place t Char32 arr p) as (q & E & E'); rewrite E; enter c;
    rewrite D, <- ?E, <- ?E', L by side
  end; destruct (isUcs4 _ _ _ _); reflexivity.

Lemma w_isUtf8 arr p : points unit32 fuel arr p ->
  call I T fuel (S (S (S (S (S d))))) "isUtf8" [vptr WChar32 arr p] = do b <- w32_isUtf8 T p; Done (VB b, [None]).
Proof. unfold w32_isUtf8. wide_is c_isUtf8_pWChar32 WChar32 isUcs4_ptr_range c_isUcs4. Qed.
Lemma w_isUtf16 arr p : points unit32 fuel arr p ->
  call I T fuel (S (S (S (S (S d))))) "isUtf16" [vptr WChar32 arr p] = do b <- w32_isUtf16 T p; Done (VB b, [None]).
Proof. unfold w32_isUtf16. wide_is c_isUtf16_pWChar32 WChar32 isUcs4_ptr_range c_isUcs4. Qed.
Lemma w_isUcs2 arr p : points unit32 fuel arr p ->
  call I T fuel (S (S (S (S (S d))))) "isUcs2" [vptr WChar32 arr p] = do b <- w32_isUcs2 T p; Done (VB b, [None]).
Proof. unfold w32_isUcs2. wide_is c_isUcs2_pWChar32 WChar32 isUcs4_ptr_range c_isUcs4. Qed.
Lemma w_isUcs4 arr p : points unit32 fuel arr p ->
  call I T fuel (S (S (S (S (S d))))) "isUcs4" [vptr WChar32 arr p] = do b <- w32_isUcs4 T p; Done (VB b, [None]).
Proof. unfold w32_isUcs4. wide_is c_isUcs4_pWChar32 WChar32 isUcs4_ptr_range c_isUcs4. Qed.

Lemma w_toUtf8 arr p : points unit32 fuel arr p ->
  call I T fuel (S (S (S (S (S d))))) "toUtf8" [vptr WChar32 arr p] = do r <- w32_toUtf8 p; Done (VS Char r, [None]).
Proof. intros. unfold w32_toUtf8. wide_ptr c_toUtf8_pWChar32 WChar32 arr p. rewrite <- E', c_toUtf8_32_any by side. destruct (toUtf8_32 p); reflexivity. Qed.
Lemma w_toUtf16 arr p : points unit32 fuel arr p ->
  call I T fuel (S (S (S (S (S d))))) "toUtf16" [vptr WChar32 arr p] = do r <- w32_toUtf16 p; Done (VS Char16 r, [None]).
Proof. intros. unfold w32_toUtf16. wide_ptr c_toUtf16_pWChar32 WChar32 arr p. rewrite <- E', c_toUtf16_32_any by side. destruct (toUtf16_32 p); reflexivity. Qed.
Lemma w_toUcs2 arr p : points unit32 fuel arr p ->
  call I T fuel (S (S (S (S (S d))))) "toUcs2" [vptr WChar32 arr p] = do r <- w32_toUcs2 p; Done (VS Char16 r, [None]).
Proof. intros. unfold w32_toUcs2. wide_ptr c_toUcs2_pWChar32 WChar32 arr p. rewrite <- E', c_toUcs2_32_any by side. destruct (toUcs2_32 p); reflexivity. Qed.
Lemma w_toUcs4 arr p : points unit32 fuel arr p ->
  call I T fuel (S (S (S (S (S d))))) "toUcs4" [vptr WChar32 arr p] = do r <- w32_toUcs4 T p; Done (VS Char32 r, [None]).
Proof.
  intros H. unfold w32_toUcs4. wide_ptr c_toUcs4_pWChar32 WChar32 arr p. rewrite isUcs4_ptr_range, <- E', c_isUcs4 by side.
  destruct (isUcs4 _ _ _ _) as [[|]| |]; [|go; reflexivity|reflexivity|reflexivity]. go.
  rewrite <- E', (construct_any _ I fuel _ Char32 arr p H). destruct (basic_string p); reflexivity.
Qed.
Lemma w_toWstring_32 arr p : points unit32 fuel arr p ->
  call I T fuel (S (S (S (S (S d))))) "toWstring" [vptr Char32 arr p] = do r <- w32_toWstring_32 T p; Done (VS WChar32 r, [None]).
Proof.
  intros H. unfold w32_toWstring_32. destruct (same_place Char32 WChar32 arr p) as (q & E & E'). rewrite E. enter c_toWstring_pChar32.
  rewrite isUcs4_ptr_range, <- E, c_isUcs4 by side.
  destruct (isUcs4 _ _ _ _) as [[|]| |]; [|go; reflexivity|reflexivity|reflexivity]. go.
  rewrite <- E', (construct_any _ I fuel _ WChar32 arr p H). destruct (basic_string p); reflexivity.
Qed.
Lemma w_toWstring_8 arr p : points byte fuel arr p ->
  call I T fuel (S (S (S (S (S d))))) "toWstring" [vptr Char arr p] = do r <- w32_toWstring_8 p; Done (VS WChar32 r, [None]).
Proof.
  intros. unfold w32_toWstring_8. wide_ptr c_toWstring_pChar Char arr p. rewrite <- E, c_toUcs4_8_any by side.
  destruct (toUcs4_8 p) as [s| |]; [|reflexivity|reflexivity]. go. rewrite construct_whole. cbn [bind].
  destruct (basic_string (c_str s)); reflexivity.
Qed.
Lemma w_toWstring_16 arr p : points unit16 fuel arr p ->
  call I T fuel (S (S (S (S (S d))))) "toWstring" [vptr Char16 arr p] = do r <- w32_toWstring_16 p; Done (VS WChar32 r, [None]).
Proof.
  intros. unfold w32_toWstring_16. wide_ptr c_toWstring_pChar16 Char16 arr p. rewrite <- E, c_toUcs4_16_any by side.
  destruct (toUcs4_16 p) as [s| |]; [|reflexivity|reflexivity]. go. rewrite construct_whole. cbn [bind].
  destruct (basic_string (c_str s)); reflexivity.
Qed.
Lemma w_isWstring_8 arr p : points byte fuel arr p -> may_step_back I arr p ->
  call I T fuel (S (S (S (S (S (S d)))))) "isWstring" [vptr Char arr p] = do b <- w32_isWstring_8 T p; Done (VB b, [None]).
Proof. intros. unfold w32_isWstring_8. wide_ptr c_isWstring_pChar Char arr p. rewrite isUtf8_ptr_range, <- E, c_isUtf8 by side. destruct (isUtf8 _ _ _ _); reflexivity. Qed.
Lemma w_isWstring_16 arr p : points unit16 fuel arr p ->
  call I T fuel (S (S (S (S (S d))))) "isWstring" [vptr Char16 arr p] = do b <- w32_isWstring_16 T p; Done (VB b, [None]).
Proof. intros. unfold w32_isWstring_16. wide_ptr c_isWstring_pChar16 Char16 arr p. rewrite isUtf16_ptr_range, <- E, c_isUtf16 by side. destruct (isUtf16 _ _ _ _); reflexivity. Qed.
Lemma w_isWstring_32 arr p : points unit32 fuel arr p ->
  call I T fuel (S (S (S (S (S d))))) "isWstring" [vptr Char32 arr p] = do b <- w32_isWstring_32 T p; Done (VB b, [None]).
Proof. intros. unfold w32_isWstring_32. wide_ptr c_isWstring_pChar32 Char32 arr p. rewrite isUcs4_ptr_range, <- E, c_isUcs4 by side. destruct (isUcs4 _ _ _ _); reflexivity. Qed.
Lemma w_isWstring_8_string s : Forall byte s -> (S (List.length s) < fuel)%nat -> pointer_checks I = false ->
  call I T fuel (S (S (S (S (S (S d)))))) "isWstring" [VS Char s] = do b <- w32_isWstring_8 T (c_str s); Done (VB b, [None]).
Proof. intros. unfold w32_isWstring_8. enter c_isWstring_sChar. rewrite isUtf8_str_range, c_isUtf8_string by side. change (isUtf8_string T s _ _) with (isUtf8 T (c_str s) kUtf16 nullPredicate). destruct (isUtf8 _ _ _ _); reflexivity. Qed.
Lemma w_isWstring_16_string s : Forall unit16 s -> (S (List.length s) < fuel)%nat ->
  call I T fuel (S (S (S (S (S (S d)))))) "isWstring" [VS Char16 s] = do b <- w32_isWstring_16 T (c_str s); Done (VB b, [None]).
Proof. intros. unfold w32_isWstring_16. enter c_isWstring_sChar16. rewrite isUtf16_str_range, c_isUtf16_string by side. unfold isUtf16_string. destruct (isUtf16 _ _ _ _); reflexivity. Qed.
Lemma w_isWstring_32_string s : Forall unit32 s -> (S (List.length s) < fuel)%nat ->
  call I T fuel (S (S (S (S (S (S d)))))) "isWstring" [VS Char32 s] = do b <- w32_isWstring_32 T (c_str s); Done (VB b, [None]).
Proof. intros. unfold w32_isWstring_32. enter c_isWstring_sChar32. rewrite isUcs4_str_range, c_isUcs4_string by side. unfold isUcs4_string. destruct (isUcs4 _ _ _ _); reflexivity. Qed.
End Wide.

Section WideStrings.
Context (I : implementation) (T : UnicodeTables) (fuel d : nat).
Hypothesis wide : configured I = Wchar32.
Lemma w_isUtf8_string s : Forall unit32 s -> (S (List.length s) < fuel)%nat ->
  call I T fuel (S (S (S (S (S (S d)))))) "isUtf8" [VS WChar32 s] = do r <- w32_isUtf8 T (c_str s); Done (VB r, [None]).
Proof.
  intros. enter c_isUtf8_sWChar32. change (VP WChar32 (into (s ++ [0]) (s ++ [0]))) with (vptr WChar32 (s ++ [0]) (c_str s)).
  rewrite w_isUtf8 by side. destruct (w32_isUtf8 T (c_str s)); reflexivity.
Qed.
Lemma w_isUtf16_string s : Forall unit32 s -> (S (List.length s) < fuel)%nat ->
  call I T fuel (S (S (S (S (S (S d)))))) "isUtf16" [VS WChar32 s] = do r <- w32_isUtf16 T (c_str s); Done (VB r, [None]).
Proof.
  intros. enter c_isUtf16_sWChar32. change (VP WChar32 (into (s ++ [0]) (s ++ [0]))) with (vptr WChar32 (s ++ [0]) (c_str s)).
  rewrite w_isUtf16 by side. destruct (w32_isUtf16 T (c_str s)); reflexivity.
Qed.
Lemma w_isUcs2_string s : Forall unit32 s -> (S (List.length s) < fuel)%nat ->
  call I T fuel (S (S (S (S (S (S d)))))) "isUcs2" [VS WChar32 s] = do r <- w32_isUcs2 T (c_str s); Done (VB r, [None]).
Proof.
  intros. enter c_isUcs2_sWChar32. change (VP WChar32 (into (s ++ [0]) (s ++ [0]))) with (vptr WChar32 (s ++ [0]) (c_str s)).
  rewrite w_isUcs2 by side. destruct (w32_isUcs2 T (c_str s)); reflexivity.
Qed.
Lemma w_isUcs4_string s : Forall unit32 s -> (S (List.length s) < fuel)%nat ->
  call I T fuel (S (S (S (S (S (S d)))))) "isUcs4" [VS WChar32 s] = do r <- w32_isUcs4 T (c_str s); Done (VB r, [None]).
Proof.
  intros. enter c_isUcs4_sWChar32. change (VP WChar32 (into (s ++ [0]) (s ++ [0]))) with (vptr WChar32 (s ++ [0]) (c_str s)).
  rewrite w_isUcs4 by side. destruct (w32_isUcs4 T (c_str s)); reflexivity.
Qed.
Lemma w_toUtf8_string s : Forall unit32 s -> (S (List.length s) < fuel)%nat ->
  call I T fuel (S (S (S (S (S (S d)))))) "toUtf8" [VS WChar32 s] = do r <- w32_toUtf8 (c_str s); Done (VS Char r, [None]).
Proof.
  intros. enter c_toUtf8_sWChar32. change (VP WChar32 (into (s ++ [0]) (s ++ [0]))) with (vptr WChar32 (s ++ [0]) (c_str s)).
  rewrite w_toUtf8 by side. destruct (w32_toUtf8 (c_str s)); reflexivity.
Qed.
Lemma w_toUtf16_string s : Forall unit32 s -> (S (List.length s) < fuel)%nat ->
  call I T fuel (S (S (S (S (S (S d)))))) "toUtf16" [VS WChar32 s] = do r <- w32_toUtf16 (c_str s); Done (VS Char16 r, [None]).
Proof.
  intros. enter c_toUtf16_sWChar32. change (VP WChar32 (into (s ++ [0]) (s ++ [0]))) with (vptr WChar32 (s ++ [0]) (c_str s)).
  rewrite w_toUtf16 by side. destruct (w32_toUtf16 (c_str s)); reflexivity.
Qed.
Lemma w_toUcs2_string s : Forall unit32 s -> (S (List.length s) < fuel)%nat ->
  call I T fuel (S (S (S (S (S (S d)))))) "toUcs2" [VS WChar32 s] = do r <- w32_toUcs2 (c_str s); Done (VS Char16 r, [None]).
Proof.
  intros. enter c_toUcs2_sWChar32. change (VP WChar32 (into (s ++ [0]) (s ++ [0]))) with (vptr WChar32 (s ++ [0]) (c_str s)).
  rewrite w_toUcs2 by side. destruct (w32_toUcs2 (c_str s)); reflexivity.
Qed.
Lemma w_toUcs4_string s : Forall unit32 s -> (S (List.length s) < fuel)%nat ->
  call I T fuel (S (S (S (S (S (S d)))))) "toUcs4" [VS WChar32 s] = do r <- w32_toUcs4 T (c_str s); Done (VS Char32 r, [None]).
Proof.
  intros. enter c_toUcs4_sWChar32. change (VP WChar32 (into (s ++ [0]) (s ++ [0]))) with (vptr WChar32 (s ++ [0]) (c_str s)).
  rewrite w_toUcs4 by side. destruct (w32_toUcs4 T (c_str s)); reflexivity.
Qed.
Lemma w_toWstring_8_string s : Forall byte s -> (S (List.length s) < fuel)%nat ->
  call I T fuel (S (S (S (S (S (S d)))))) "toWstring" [VS Char s] = do r <- w32_toWstring_8 (c_str s); Done (VS WChar32 r, [None]).
Proof.
  intros. enter c_toWstring_sChar. change (VP Char (into (s ++ [0]) (s ++ [0]))) with (vptr Char (s ++ [0]) (c_str s)).
  rewrite w_toWstring_8 by side. destruct (w32_toWstring_8 (c_str s)); reflexivity.
Qed.
Lemma w_toWstring_16_string s : Forall unit16 s -> (S (List.length s) < fuel)%nat ->
  call I T fuel (S (S (S (S (S (S d)))))) "toWstring" [VS Char16 s] = do r <- w32_toWstring_16 (c_str s); Done (VS WChar32 r, [None]).
Proof.
  intros. enter c_toWstring_sChar16. change (VP Char16 (into (s ++ [0]) (s ++ [0]))) with (vptr Char16 (s ++ [0]) (c_str s)).
  rewrite w_toWstring_16 by side. destruct (w32_toWstring_16 (c_str s)); reflexivity.
Qed.
Lemma w_toWstring_32_string s : Forall unit32 s -> (S (List.length s) < fuel)%nat ->
  call I T fuel (S (S (S (S (S (S d)))))) "toWstring" [VS Char32 s] = do r <- w32_toWstring_32 T (c_str s); Done (VS WChar32 r, [None]).
Proof.
  intros. enter c_toWstring_sChar32. change (VP Char32 (into (s ++ [0]) (s ++ [0]))) with (vptr Char32 (s ++ [0]) (c_str s)).
  rewrite w_toWstring_32 by side. destruct (w32_toWstring_32 T (c_str s)); reflexivity.
Qed.
End WideStrings.
