(* The parsed source of the checking functions, all overloads, does what Model/Str.v and Model/Sugar.v say. *)
From Coq Require Import ZArith List Bool String Lia.
From Verif Require Import Machine.
From Verif.Model Require Import Tables Internal Predicate Decode Str Sugar.
From Verif.Cxx Require Import Syntax Semantics Program Values.
From Verif.Gen Require Import Source.
From Verif.Proof Require Import Bits CxxTools CxxRaw CxxInternal CxxDecode CxxPred CxxHelpers CxxChecks CxxUtf8.
Import ListNotations.
Local Open Scope string_scope.
Local Open Scope list_scope.
Local Open Scope Z_scope.

(* a pointer into (or to the end of) an array of such units, or a null pointer *)
Definition points (P : Z -> Prop) (fuel : nat) (arr : list Z) (p : ptr) : Prop :=
  match p with
  | Null => True
  | At rest => suffix rest arr /\ Forall P arr /\ (List.length rest < fuel)%nat
  end.

Lemma into_all arr : PAt arr 0 = into arr arr.
Proof. unfold into. f_equal. lia. Qed.
Lemma points_str (P : Z -> Prop) fuel s : P 0 -> Forall P s -> (S (List.length s) < fuel)%nat -> points P fuel (s ++ [0]) (c_str s).
Proof.
  intros H0 Hs Hf. repeat split.
  - apply suffix_refl.
  - apply Forall_app. split; [assumption | now constructor].
  - rewrite app_length. cbn. lia.
Qed.

(* the functions taking a null pointer *)
Section Null.
Context (I : implementation) (T : UnicodeTables) (fuel d : nat).

Lemma c_isUcs4_32_null t pred : -0x80000000 <= t < 0x80000000 -> pred_ok pred ->
  call I T fuel (S (S (S (S d)))) "isUcs4" [VP Char32 PNull; VI Enum t; vpred pred]
  = do b <- isUcs4 T Null t pred; Done (VB b, [None; None; None]).
Proof.
  intros Ht Hp. unfold isUcs4, badRange, kAscii, kUnicode, vpred. enter c_isUcs4_pChar32_Enum_Pred. go_all; finish.
Qed.
Lemma c_isUcs2_16_null t pred : -0x80000000 <= t < 0x80000000 -> pred_ok pred ->
  call I T fuel (S (S (S (S d)))) "isUcs2" [VP Char16 PNull; VI Enum t; vpred pred]
  = do b <- isUcs2 T Null t pred; Done (VB b, [None; None; None]).
Proof.
  intros Ht Hp. unfold isUcs2, badRange, kAscii, kUnicode, vpred. enter c_isUcs2_pChar16_Enum_Pred. go_all; finish.
Qed.
Lemma c_isUtf16_16_null t pred : -0x80000000 <= t < 0x80000000 -> pred_ok pred ->
  call I T fuel (S (S (S (S d)))) "isUtf16" [VP Char16 PNull; VI Enum t; vpred pred]
  = do b <- isUtf16 T Null t pred; Done (VB b, [None; None; None]).
Proof.
  intros Ht Hp. unfold isUtf16, badRange, kAscii, kUnicode, vpred. enter c_isUtf16_pChar16_Enum_Pred. go_all; finish.
Qed.
Lemma c_isUtf8_null n t pred : 0 <= n < 0x100000000 -> -0x80000000 <= t < 0x80000000 -> pred_ok pred ->
  call I T fuel (S (S (S (S d)))) "isUtf8" [VP Char PNull; VI UInt n; VI Enum t; vpred pred]
  = do b <- isUtf8_impl T Null n t pred; Done (VB b, [None; None; None; None]).
Proof.
  intros Hn Ht Hp. unfold isUtf8_impl, badRange, kAscii, kUnicode, vpred. enter c_isUtf8_pChar_UInt_Enum_Pred. go_all; finish.
Qed.
End Null.

Section Overloads.
Context (I : implementation) (T : UnicodeTables) (fuel : nat).

Lemma c_isUcs4 d arr p t pred : points unit32 fuel arr p -> -0x80000000 <= t < 0x80000000 -> pred_ok pred ->
  call I T fuel (S (S (S (S d)))) "isUcs4" [vptr Char32 arr p; VI Enum t; vpred pred]
  = do b <- isUcs4 T p t pred; Done (VB b, [None; None; None]).
Proof.
  destruct p as [|rest]; [intros; apply c_isUcs4_32_null; assumption|].
  intros (Hs & Ha & Hf) Ht Hp. apply c_isUcs4_32; try assumption. exact (suffix_Forall _ _ _ Hs Ha).
Qed.
Lemma c_isUcs2 d arr p t pred : points unit16 fuel arr p -> -0x80000000 <= t < 0x80000000 -> pred_ok pred ->
  call I T fuel (S (S (S (S d)))) "isUcs2" [vptr Char16 arr p; VI Enum t; vpred pred]
  = do b <- isUcs2 T p t pred; Done (VB b, [None; None; None]).
Proof.
  destruct p as [|rest]; [intros; apply c_isUcs2_16_null; assumption|].
  intros (Hs & Ha & Hf) Ht Hp. apply c_isUcs2_16; try assumption. exact (suffix_Forall _ _ _ Hs Ha).
Qed.
Lemma c_isUtf16 d arr p t pred : points unit16 fuel arr p -> -0x80000000 <= t < 0x80000000 -> pred_ok pred ->
  call I T fuel (S (S (S (S d)))) "isUtf16" [vptr Char16 arr p; VI Enum t; vpred pred]
  = do b <- isUtf16 T p t pred; Done (VB b, [None; None; None]).
Proof.
  destruct p as [|rest]; [intros; apply c_isUtf16_16_null; assumption|].
  intros (Hs & Ha & Hf) Ht Hp. apply c_isUtf16_16; try assumption. exact (suffix_Forall _ _ _ Hs Ha).
Qed.
Lemma c_isUtf8_impl d arr p n t pred : points byte fuel arr p -> may_step_back I arr p ->
  0 <= n < 0x100000000 -> -0x80000000 <= t < 0x80000000 -> pred_ok pred ->
  call I T fuel (S (S (S (S d)))) "isUtf8" [vptr Char arr p; VI UInt n; VI Enum t; vpred pred]
  = do b <- isUtf8_impl T p n t pred; Done (VB b, [None; None; None; None]).
Proof.
  destruct p as [|rest]; [intros; apply c_isUtf8_null; assumption|].
  intros (Hs & Ha & Hf) Hb Hn Ht Hp. assert (n = 0 \/ 0 < n) as [->|Hn'] by lia.
  - apply c_isUtf8_0; assumption.
  - apply c_isUtf8_n; try assumption. lia.
Qed.
End Overloads.

Lemma step_back_null I arr : may_step_back I arr Null.
Proof. right. exact Logic.I. Qed.

(* the literal 0 given for an unsigned parameter *)
Lemma int_zero I T fuel d q t m v :
  call I T fuel (S d) "isUtf8" [VP Char q; VI Int 0; VI Enum t; VPred m v]
  = call I T fuel (S d) "isUtf8" [VP Char q; VI UInt 0; VI Enum t; VPred m v].
Proof.
  rewrite !call_S.
  change (external T "isUtf8" [VP Char q; VI Int 0; VI Enum t; VPred m v]) with (@None value).
  change (external T "isUtf8" [VP Char q; VI UInt 0; VI Enum t; VPred m v]) with (@None value).
  do 2 resolved c_isUtf8_pChar_UInt_Enum_Pred.
  cbv iota beta. rewrite !invoke_eq. unfold c_isUtf8_pChar_UInt_Enum_Pred. cbn [f_params].
  rewrite !params_cons. reflexivity.
Qed.

Ltac pred_side := first [assumption | split; vm_compute; split; congruence].
Ltac points_side :=
  first [ apply points_str; [red; lia | assumption | lia] | left; assumption | exact Logic.I | assumption | apply step_back_null | lia | pred_side
        | (split; [|split]); assumption ].
Ltac call_overload r :=
  lazymatch r with
  | call _ _ _ _ _ (VP _ (PAt (?s ++ [0]) 0) :: _) => rewrite (into_all (s ++ [0]))
  | call ?I ?T ?fuel (S ?d) "isUtf8" [VP Char ?q; VI Int 0; VI Enum ?t; VPred ?m ?v] => rewrite (int_zero I T fuel d q t m v)
  | call ?I ?T ?fuel _ "isUtf8" [VP Char (into ?arr ?rest); VI UInt ?n; VI Enum ?t; VPred (m_mask ?p) _] =>
    rewrite (c_isUtf8_impl I T fuel _ arr (At rest) n t p) by points_side
  | call ?I ?T ?fuel _ "isUtf8" [VP Char PNull; VI UInt ?n; VI Enum ?t; VPred (m_mask ?p) _] =>
    rewrite (c_isUtf8_impl I T fuel _ [] Null n t p) by points_side
  | call ?I ?T ?fuel _ "isUtf16" [VP Char16 (into ?arr ?rest); VI Enum ?t; VPred (m_mask ?p) _] =>
    rewrite (c_isUtf16 I T fuel _ arr (At rest) t p) by points_side
  | call ?I ?T ?fuel _ "isUtf16" [VP Char16 PNull; VI Enum ?t; VPred (m_mask ?p) _] =>
    rewrite (c_isUtf16 I T fuel _ [] Null t p) by points_side
  | call ?I ?T ?fuel _ "isUcs2" [VP Char16 (into ?arr ?rest); VI Enum ?t; VPred (m_mask ?p) _] =>
    rewrite (c_isUcs2 I T fuel _ arr (At rest) t p) by points_side
  | call ?I ?T ?fuel _ "isUcs2" [VP Char16 PNull; VI Enum ?t; VPred (m_mask ?p) _] =>
    rewrite (c_isUcs2 I T fuel _ [] Null t p) by points_side
  | call ?I ?T ?fuel _ "isUcs4" [VP Char32 (into ?arr ?rest); VI Enum ?t; VPred (m_mask ?p) _] =>
    rewrite (c_isUcs4 I T fuel _ arr (At rest) t p) by points_side
  | call ?I ?T ?fuel _ "isUcs4" [VP Char32 PNull; VI Enum ?t; VPred (m_mask ?p) _] =>
    rewrite (c_isUcs4 I T fuel _ [] Null t p) by points_side
  | method _ (VS ?t ?l) "c_str" [] _ => fail
  | isUtf8_impl _ _ _ _ _ => fail
  | isUtf16 _ _ _ _ => fail
  | isUcs2 _ _ _ _ => fail
  | isUcs4 _ _ _ _ => fail
  | _ => first [call_utf8 r | open_body r]
  end.
Ltac known r ::= call_overload r.

Section Wrappers.
Context (I : implementation) (T : UnicodeTables) (fuel d : nat).

(* source/string.cxx:343-346 *)
Lemma c_isUtf8 arr p t pred : points byte fuel arr p -> may_step_back I arr p ->
  -0x80000000 <= t < 0x80000000 -> pred_ok pred ->
  call I T fuel (S (S (S (S (S d))))) "isUtf8" [vptr Char arr p; VI Enum t; vpred pred]
  = do b <- isUtf8 T p t pred; Done (VB b, [None; None; None]).
Proof.
  intros Hp Hb Ht Hq. unfold isUtf8, vpred. destruct p as [|rest]; cbn [vptr]; enter c_isUtf8_pChar_Enum_Pred.
  all: destruct (isUtf8_impl _ _ _ _ _); reflexivity.
Qed.
(* source/string.cxx:348-351 *)
Lemma c_isUtf8_length arr p n pred : points byte fuel arr p -> may_step_back I arr p ->
  0 <= n < 0x100000000 -> pred_ok pred ->
  call I T fuel (S (S (S (S (S d))))) "isUtf8" [vptr Char arr p; VI UInt n; vpred pred]
  = do b <- isUtf8_length T p n pred; Done (VB b, [None; None; None]).
Proof.
  intros Hp Hb Ht Hq. unfold isUtf8_length, vpred. destruct p as [|rest]; cbn [vptr]; enter c_isUtf8_pChar_UInt_Pred.
  all: destruct (isUtf8_impl _ _ _ _ _); reflexivity.
Qed.
(* source/string.cxx:338-341 *)
Lemma c_isUtf8_string s t pred : Forall byte s -> (S (List.length s) < fuel)%nat -> pointer_checks I = false ->
  -0x80000000 <= t < 0x80000000 -> pred_ok pred ->
  call I T fuel (S (S (S (S (S d))))) "isUtf8" [VS Char s; VI Enum t; vpred pred]
  = do b <- isUtf8_string T s t pred; Done (VB b, [None; None; None]).
Proof.
  intros Hs Hf Hc Ht Hq. unfold isUtf8_string, vpred. enter c_isUtf8_sChar_Enum_Pred.
  unfold c_str. destruct (isUtf8_impl _ _ _ _ _); reflexivity.
Qed.
Lemma c_isUtf16_string s t pred : Forall unit16 s -> (S (List.length s) < fuel)%nat ->
  -0x80000000 <= t < 0x80000000 -> pred_ok pred ->
  call I T fuel (S (S (S (S (S d))))) "isUtf16" [VS Char16 s; VI Enum t; vpred pred]
  = do b <- isUtf16_string T s t pred; Done (VB b, [None; None; None]).
Proof.
  intros Hs Hf Ht Hq. unfold isUtf16_string, vpred. enter c_isUtf16_sChar16_Enum_Pred.
  unfold c_str. destruct (isUtf16 _ _ _ _); reflexivity.
Qed.
Lemma c_isUcs2_string s t pred : Forall unit16 s -> (S (List.length s) < fuel)%nat ->
  -0x80000000 <= t < 0x80000000 -> pred_ok pred ->
  call I T fuel (S (S (S (S (S d))))) "isUcs2" [VS Char16 s; VI Enum t; vpred pred]
  = do b <- isUcs2_string T s t pred; Done (VB b, [None; None; None]).
Proof.
  intros Hs Hf Ht Hq. unfold isUcs2_string, vpred. enter c_isUcs2_sChar16_Enum_Pred.
  unfold c_str. destruct (isUcs2 _ _ _ _); reflexivity.
Qed.
Lemma c_isUcs4_string s t pred : Forall unit32 s -> (S (List.length s) < fuel)%nat ->
  -0x80000000 <= t < 0x80000000 -> pred_ok pred ->
  call I T fuel (S (S (S (S (S d))))) "isUcs4" [VS Char32 s; VI Enum t; vpred pred]
  = do b <- isUcs4_string T s t pred; Done (VB b, [None; None; None]).
Proof.
  intros Hs Hf Ht Hq. unfold isUcs4_string, vpred. enter c_isUcs4_sChar32_Enum_Pred.
  unfold c_str. destruct (isUcs4 _ _ _ _); reflexivity.
Qed.
End Wrappers.

(* arguments left out *)
Section Defaults.
Context (I : implementation) (T : UnicodeTables) (fuel d : nat).

Ltac fill c :=
  rewrite !call_S;
  repeat match goal with
         | |- context [external T ?f ?vs] => change (external T f vs) with (@None value)
         | |- context [select (funs _) ?f ?vs] => resolved c
         end;
  cbv iota beta; rewrite !invoke_eq; unfold c; cbn [f_params];
  rewrite !params_cons; destruct I as [[|] [|] ?]; reflexivity.

Lemma isUtf8_ptr_bare q : call I T fuel (S d) "isUtf8" [VP Char q] = call I T fuel (S d) "isUtf8" [VP Char q; VI Enum kUtf8; vpred nullPredicate].
Proof. fill c_isUtf8_pChar_Enum_Pred. Qed.
Lemma isUtf8_ptr_range q t : call I T fuel (S d) "isUtf8" [VP Char q; VI Enum t] = call I T fuel (S d) "isUtf8" [VP Char q; VI Enum t; vpred nullPredicate].
Proof. fill c_isUtf8_pChar_Enum_Pred. Qed.
Lemma isUtf8_str_bare q : call I T fuel (S d) "isUtf8" [VS Char q] = call I T fuel (S d) "isUtf8" [VS Char q; VI Enum kUtf8; vpred nullPredicate].
Proof. fill c_isUtf8_sChar_Enum_Pred. Qed.
Lemma isUtf8_str_range q t : call I T fuel (S d) "isUtf8" [VS Char q; VI Enum t] = call I T fuel (S d) "isUtf8" [VS Char q; VI Enum t; vpred nullPredicate].
Proof. fill c_isUtf8_sChar_Enum_Pred. Qed.
Lemma isUtf16_ptr_bare q : call I T fuel (S d) "isUtf16" [VP Char16 q] = call I T fuel (S d) "isUtf16" [VP Char16 q; VI Enum kUtf16; vpred nullPredicate].
Proof. fill c_isUtf16_pChar16_Enum_Pred. Qed.
Lemma isUtf16_ptr_range q t : call I T fuel (S d) "isUtf16" [VP Char16 q; VI Enum t] = call I T fuel (S d) "isUtf16" [VP Char16 q; VI Enum t; vpred nullPredicate].
Proof. fill c_isUtf16_pChar16_Enum_Pred. Qed.
Lemma isUtf16_str_bare q : call I T fuel (S d) "isUtf16" [VS Char16 q] = call I T fuel (S d) "isUtf16" [VS Char16 q; VI Enum kUtf16; vpred nullPredicate].
Proof. fill c_isUtf16_sChar16_Enum_Pred. Qed.
Lemma isUtf16_str_range q t : call I T fuel (S d) "isUtf16" [VS Char16 q; VI Enum t] = call I T fuel (S d) "isUtf16" [VS Char16 q; VI Enum t; vpred nullPredicate].
Proof. fill c_isUtf16_sChar16_Enum_Pred. Qed.
Lemma isUcs2_ptr_bare q : call I T fuel (S d) "isUcs2" [VP Char16 q] = call I T fuel (S d) "isUcs2" [VP Char16 q; VI Enum kUcs2; vpred nullPredicate].
Proof. fill c_isUcs2_pChar16_Enum_Pred. Qed.
Lemma isUcs2_ptr_range q t : call I T fuel (S d) "isUcs2" [VP Char16 q; VI Enum t] = call I T fuel (S d) "isUcs2" [VP Char16 q; VI Enum t; vpred nullPredicate].
Proof. fill c_isUcs2_pChar16_Enum_Pred. Qed.
Lemma isUcs2_str_bare q : call I T fuel (S d) "isUcs2" [VS Char16 q] = call I T fuel (S d) "isUcs2" [VS Char16 q; VI Enum kUcs2; vpred nullPredicate].
Proof. fill c_isUcs2_sChar16_Enum_Pred. Qed.
Lemma isUcs2_str_range q t : call I T fuel (S d) "isUcs2" [VS Char16 q; VI Enum t] = call I T fuel (S d) "isUcs2" [VS Char16 q; VI Enum t; vpred nullPredicate].
Proof. fill c_isUcs2_sChar16_Enum_Pred. Qed.
Lemma isUcs4_ptr_bare q : call I T fuel (S d) "isUcs4" [VP Char32 q] = call I T fuel (S d) "isUcs4" [VP Char32 q; VI Enum kUcs4; vpred nullPredicate].
Proof. fill c_isUcs4_pChar32_Enum_Pred. Qed.
Lemma isUcs4_ptr_range q t : call I T fuel (S d) "isUcs4" [VP Char32 q; VI Enum t] = call I T fuel (S d) "isUcs4" [VP Char32 q; VI Enum t; vpred nullPredicate].
Proof. fill c_isUcs4_pChar32_Enum_Pred. Qed.
Lemma isUcs4_str_bare q : call I T fuel (S d) "isUcs4" [VS Char32 q] = call I T fuel (S d) "isUcs4" [VS Char32 q; VI Enum kUcs4; vpred nullPredicate].
Proof. fill c_isUcs4_sChar32_Enum_Pred. Qed.
Lemma isUcs4_str_range q t : call I T fuel (S d) "isUcs4" [VS Char32 q; VI Enum t] = call I T fuel (S d) "isUcs4" [VS Char32 q; VI Enum t; vpred nullPredicate].
Proof. fill c_isUcs4_sChar32_Enum_Pred. Qed.
Lemma isUtf8_length_bare q n :
  call I T fuel (S d) "isUtf8" [VP Char q; VI UInt n] = call I T fuel (S d) "isUtf8" [VP Char q; VI UInt n; vpred nullPredicate].
Proof. fill c_isUtf8_pChar_UInt_Pred. Qed.
End Defaults.

Ltac call_wrapped r :=
  lazymatch r with
  | call ?I ?T ?fuel _ "isUtf8" [VP Char (into ?arr ?rest); VI Enum ?t; VPred (m_mask ?p) _] =>
    rewrite (c_isUtf8 I T fuel _ arr (At rest) t p) by points_side
  | call ?I ?T ?fuel _ "isUtf8" [VP Char PNull; VI Enum ?t; VPred (m_mask ?p) _] =>
    rewrite (c_isUtf8 I T fuel _ [] Null t p) by points_side
  | call ?I ?T ?fuel _ "isUtf8" [VS Char ?s; VI Enum ?t; VPred (m_mask ?p) _] =>
    rewrite (c_isUtf8_string I T fuel _ s t p) by points_side
  | call ?I ?T ?fuel _ "isUtf16" [VS Char16 ?s; VI Enum ?t; VPred (m_mask ?p) _] =>
    rewrite (c_isUtf16_string I T fuel _ s t p) by points_side
  | call ?I ?T ?fuel _ "isUcs2" [VS Char16 ?s; VI Enum ?t; VPred (m_mask ?p) _] =>
    rewrite (c_isUcs2_string I T fuel _ s t p) by points_side
  | call ?I ?T ?fuel _ "isUcs4" [VS Char32 ?s; VI Enum ?t; VPred (m_mask ?p) _] =>
    rewrite (c_isUcs4_string I T fuel _ s t p) by points_side
  | isUtf8 _ _ _ _ => fail
  | isUtf8_string _ _ _ _ => fail
  | isUtf16_string _ _ _ _ => fail
  | isUcs2_string _ _ _ _ => fail
  | isUcs4_string _ _ _ _ => fail
  | _ => call_overload r
  end.
Ltac known r ::= call_wrapped r.

(* interface/string.hxx:253-257, 267-271, 292-295, 307-310, 322-325 *)
Section Header.
Context (I : implementation) (T : UnicodeTables) (fuel d : nat).

Lemma c_isUtf8_pred arr p pred : points byte fuel arr p -> may_step_back I arr p -> pred_ok pred ->
  call I T fuel (S (S (S (S (S (S d)))))) "isUtf8" [vptr Char arr p; vpred pred]
  = do b <- isUtf8_pred T p pred; Done (VB b, [None; None]).
Proof.
  intros Hb Hp Hq. unfold isUtf8_pred, vpred. destruct p as [|rest]; cbn [vptr]; enter c_isUtf8_pChar_Pred.
  all: destruct (isUtf8 _ _ _ _); reflexivity.
Qed.
Lemma c_isUtf8_string_pred s pred : Forall byte s -> (S (List.length s) < fuel)%nat -> pointer_checks I = false -> pred_ok pred ->
  call I T fuel (S (S (S (S (S (S d)))))) "isUtf8" [VS Char s; vpred pred]
  = do b <- isUtf8_pred T (c_str s) pred; Done (VB b, [None; None]).
Proof.
  intros Hs Hf Hb Hq. unfold isUtf8_pred, vpred. enter c_isUtf8_sChar_Pred.
  unfold isUtf8_string, isUtf8, c_str. destruct (isUtf8_impl _ _ _ _ _); reflexivity.
Qed.
Lemma c_isUtf16_pred arr p pred : points unit16 fuel arr p -> pred_ok pred ->
  call I T fuel (S (S (S (S (S (S d)))))) "isUtf16" [vptr Char16 arr p; vpred pred]
  = do b <- isUtf16_pred T p pred; Done (VB b, [None; None]).
Proof.
  intros Hp Hq. unfold isUtf16_pred, vpred. destruct p as [|rest]; cbn [vptr]; enter c_isUtf16_pChar16_Pred.
  all: destruct (isUtf16 _ _ _ _); reflexivity.
Qed.
Lemma c_isUtf16_string_pred s pred : Forall unit16 s -> (S (List.length s) < fuel)%nat -> pred_ok pred ->
  call I T fuel (S (S (S (S (S (S d)))))) "isUtf16" [VS Char16 s; vpred pred]
  = do b <- isUtf16_pred T (c_str s) pred; Done (VB b, [None; None]).
Proof.
  intros Hs Hf Hq. unfold isUtf16_pred, vpred. enter c_isUtf16_sChar16_Pred.
  unfold isUtf16_string, c_str. destruct (isUtf16 _ _ _ _); reflexivity.
Qed.
Lemma c_isUcs2_pred arr p pred : points unit16 fuel arr p -> pred_ok pred ->
  call I T fuel (S (S (S (S (S (S d)))))) "isUcs2" [vptr Char16 arr p; vpred pred]
  = do b <- isUcs2_pred T p pred; Done (VB b, [None; None]).
Proof.
  intros Hp Hq. unfold isUcs2_pred, vpred. destruct p as [|rest]; cbn [vptr]; enter c_isUcs2_pChar16_Pred.
  all: destruct (isUcs2 _ _ _ _); reflexivity.
Qed.
Lemma c_isUcs2_string_pred s pred : Forall unit16 s -> (S (List.length s) < fuel)%nat -> pred_ok pred ->
  call I T fuel (S (S (S (S (S (S d)))))) "isUcs2" [VS Char16 s; vpred pred]
  = do b <- isUcs2_pred T (c_str s) pred; Done (VB b, [None; None]).
Proof.
  intros Hs Hf Hq. unfold isUcs2_pred, vpred. enter c_isUcs2_sChar16_Pred.
  unfold isUcs2_string, c_str. destruct (isUcs2 _ _ _ _); reflexivity.
Qed.
Lemma c_isUcs4_pred arr p pred : points unit32 fuel arr p -> pred_ok pred ->
  call I T fuel (S (S (S (S (S (S d)))))) "isUcs4" [vptr Char32 arr p; vpred pred]
  = do b <- isUcs4_pred T p pred; Done (VB b, [None; None]).
Proof.
  intros Hp Hq. unfold isUcs4_pred, vpred. destruct p as [|rest]; cbn [vptr]; enter c_isUcs4_pChar32_Pred.
  all: destruct (isUcs4 _ _ _ _); reflexivity.
Qed.
Lemma c_isUcs4_string_pred s pred : Forall unit32 s -> (S (List.length s) < fuel)%nat -> pred_ok pred ->
  call I T fuel (S (S (S (S (S (S d)))))) "isUcs4" [VS Char32 s; vpred pred]
  = do b <- isUcs4_pred T (c_str s) pred; Done (VB b, [None; None]).
Proof.
  intros Hs Hf Hq. unfold isUcs4_pred, vpred. enter c_isUcs4_sChar32_Pred.
  unfold isUcs4_string, c_str. destruct (isUcs4 _ _ _ _); reflexivity.
Qed.
End Header.
