(* The parsed source of encoding_check_predicate.cxx does what Model/Predicate.v says. *)
From Coq Require Import ZArith List Bool String Lia.
From Verif Require Import Machine.
From Verif.Model Require Import Tables Internal Predicate.
From Verif.Cxx Require Import Syntax Semantics Program Values.
From Verif.Gen Require Import Source.
From Verif.Proof Require Import Bits CxxTools CxxRaw CxxInternal.
Import ListNotations.
Local Open Scope string_scope.
Local Open Scope list_scope.
Local Open Scope Z_scope.


Ltac call_pred0 r :=
  lazymatch r with
  | element ?l ?k => is_num k; let v := eval vm_compute in r in change r with v
  | _ => call_internal r
  end.
Ltac known r ::= call_pred0 r.

Section Make.
Context (I : implementation) (T : UnicodeTables) (fuel d : nat).

Lemma c_make t b : -0x80000000 <= t < 0x80000000 ->
  call I T fuel (S d) "EncodingCheckPredicate::EncodingCheckPredicate" [VPred 0 0; VI Enum t; VB b]
  = Done (vpred (makePredicate t b), [None; None; None]).
Proof.
  intros H. destruct ((t >? 0) && (t <? 5)) eqn:E.
  - assert (t = 1 \/ t = 2 \/ t = 3 \/ t = 4) as [->|[->|[->| ->]]] by lia; destruct b;
      enter c_Pred_EncodingCheckPredicate; go_all; reflexivity.
  - assert (N : ~ 0 < t < 5) by lia. clear E. enter c_Pred_EncodingCheckPredicate.
    go_all; unfold makePredicate, kIsNone, kFirstInvalidEncoding; replace ((t >? 0) && (t <? 5)) with false by lia;
      first [reflexivity | exfalso; lia].
Qed.
Lemma c_make_default t : -0x80000000 <= t < 0x80000000 ->
  call I T fuel (S d) "EncodingCheckPredicate::EncodingCheckPredicate" [VPred 0 0; VI Enum t]
  = Done (vpred (makePredicate t true), [None; None; None]).
Proof.
  intros H. destruct ((t >? 0) && (t <? 5)) eqn:E.
  - assert (t = 1 \/ t = 2 \/ t = 3 \/ t = 4) as [->|[->|[->| ->]]] by lia;
      enter c_Pred_EncodingCheckPredicate; go_all; reflexivity.
  - assert (N : ~ 0 < t < 5) by lia. clear E. enter c_Pred_EncodingCheckPredicate.
    go_all; unfold makePredicate, kIsNone, kFirstInvalidEncoding; replace ((t >? 0) && (t <? 5)) with false by lia;
      first [reflexivity | exfalso; lia].
Qed.
End Make.

Lemma make_ok t b : pred_ok (makePredicate t b).
Proof.
  unfold makePredicate, kIsNone, kFirstInvalidEncoding. destruct ((t >? 0) && (t <? 5)) eqn:E.
  - assert (t = 1 \/ t = 2 \/ t = 3 \/ t = 4) as [->|[->|[->| ->]]] by lia; destruct b; split; split; vm_compute; congruence.
  - split; cbn; lia.
Qed.

Ltac call_pred1 r :=
  lazymatch r with
  | call _ _ _ _ "EncodingCheckPredicate::EncodingCheckPredicate" [_; _; VB _] => rewrite c_make by lia; unfold vpred
  | call _ _ _ _ "EncodingCheckPredicate::EncodingCheckPredicate" [_; _] => rewrite c_make_default by lia; unfold vpred
  | _ => call_internal r
  end.
Ltac known r ::= call_pred1 r.

Lemma mask32_range T c : 0 <= charToEncodingTypeMask32 T c < 16.
Proof. unfold charToEncodingTypeMask32. destruct (t_assigned32 T c), (t_private32 T c), (t_control32 T c), (t_space32 T c); split; vm_compute; congruence. Qed.
Lemma mask16_range T c : 0 <= charToEncodingTypeMask16 T c < 16.
Proof. unfold charToEncodingTypeMask16. destruct (t_assigned16 T c), (t_private16 T c), (t_control16 T c), (t_space16 T c); split; vm_compute; congruence. Qed.
Lemma mask8_range T c : 0 <= charToEncodingTypeMask8 T c < 16.
Proof. unfold charToEncodingTypeMask8. destruct (t_assigned8 T c), (t_private8 T c), (t_control8 T c), (t_space8 T c); split; vm_compute; congruence. Qed.

Lemma lor32 a b : 0 <= a < 0x100000000 -> 0 <= b < 0x100000000 -> 0 <= Z.lor a b < 0x100000000.
Proof.
  intros Ha Hb. split; [apply Z.lor_nonneg; lia|].
  assert (E : Z.lor a b = Z.lor a b mod 2 ^ 32).
  { rewrite <- Z.land_ones by lia. rewrite Z.land_lor_distr_l, !Z.land_ones by lia.
    rewrite !Z.mod_small by (change (2 ^ 32) with 0x100000000; lia). reflexivity. }
  rewrite E. apply Z.mod_pos_bound. reflexivity.
Qed.

Lemma andIf_ok p t : pred_ok p -> pred_ok (andIf p t).
Proof. intros [A B]. destruct (make_ok t true) as [A' B']. split; cbn [andIf m_mask m_value]; apply lor32; assumption. Qed.
Lemma andIfNot_ok p t : pred_ok p -> pred_ok (andIfNot p t).
Proof. intros [A B]. destruct (make_ok t false) as [A' B']. split; cbn [andIfNot m_mask m_value]; apply lor32; assumption. Qed.

Ltac call_pred2 r :=
  lazymatch r with
  | call _ _ _ _ "charToEncodingTypeMask" [VI Char32 _] => rewrite c_mask32 by lia
  | call _ _ _ _ "charToEncodingTypeMask" [VI Char16 _] => rewrite c_mask16 by lia
  | call _ _ _ _ "charToEncodingTypeMask" [VI Char _] => rewrite c_mask8 by (assumption || lia)
  | _ => call_pred1 r
  end.
Ltac known r ::= call_pred2 r.

Ltac land_bounds ::=
  repeat match goal with
  | |- context [Z.land ?a ?m] =>
    is_num m;
    lazymatch goal with H : 0 <= Z.land a m <= m |- _ => fail | _ => idtac end;
    assert (0 <= Z.land a m <= m) by (apply land_range; lia)
  | |- context [Z.land ?a ?m] =>
    lazymatch goal with H : 0 <= Z.land a m <= _ |- _ => fail | _ => idtac end;
    assert (0 <= Z.land a m <= a) by (rewrite Z.land_comm; apply land_range; lia)
  end.

Section Pred.
Context (I : implementation) (T : UnicodeTables) (fuel d : nat).

Lemma c_andIf p t : pred_ok p -> -0x80000000 <= t < 0x80000000 ->
  call I T fuel (S (S d)) "EncodingCheckPredicate::andIf" [vpred p; VI Enum t]
  = Done (vpred (andIf p t), [Some (vpred (andIf p t)); None]).
Proof.
  intros [Hm Hv] H. pose proof (make_ok t true) as [Hm' Hv']. unfold vpred at 1. enter c_Pred_andIf.
  rewrite !norm_uint by (apply lor32; assumption). reflexivity.
Qed.
Lemma c_andIfNot p t : pred_ok p -> -0x80000000 <= t < 0x80000000 ->
  call I T fuel (S (S d)) "EncodingCheckPredicate::andIfNot" [vpred p; VI Enum t]
  = Done (vpred (andIfNot p t), [Some (vpred (andIfNot p t)); None]).
Proof.
  intros [Hm Hv] H. pose proof (make_ok t false) as [Hm' Hv']. unfold vpred at 1. enter c_Pred_andIfNot.
  rewrite !norm_uint by (apply lor32; assumption). reflexivity.
Qed.
Lemma c_checkIf t : -0x80000000 <= t < 0x80000000 ->
  call I T fuel (S (S d)) "EncodingCheckPredicate::checkIf" [VI Enum t] = Done (vpred (validIf t), [None]).
Proof. intros H. enter c_Pred_checkIf. reflexivity. Qed.
Lemma c_checkIfNot t : -0x80000000 <= t < 0x80000000 ->
  call I T fuel (S (S d)) "EncodingCheckPredicate::checkIfNot" [VI Enum t] = Done (vpred (validIfNot t), [None]).
Proof. intros H. enter c_Pred_checkIfNot. reflexivity. Qed.
Lemma c_predEq p q : pred_ok p -> pred_ok q ->
  call I T fuel (S d) "EncodingCheckPredicate::operator==" [vpred p; vpred q] = Done (VB (predicateEq p q), [None; None]).
Proof.
  intros [Hm Hv] [Hm' Hv']. unfold vpred. enter c_Pred_eq. go_all; unfold predicateEq; finish.
Qed.
Lemma c_pred32 p c : pred_ok p -> 0 <= c < 0x100000000 ->
  call I T fuel (S (S (S d))) "EncodingCheckPredicate::operator()" [vpred p; VI Char32 c] = Done (VB (pred32 T p c), [None; None]).
Proof.
  intros [Hm Hv] Hc. unfold vpred. pose proof (mask32_range T c). enter c_Pred_call_Pred_Char32. go_all; unfold pred32; finish.
Qed.
Lemma c_pred16 p c : pred_ok p -> 0 <= c < 0x10000 ->
  call I T fuel (S (S (S d))) "EncodingCheckPredicate::operator()" [vpred p; VI Char16 c] = Done (VB (pred16 T p c), [None; None]).
Proof.
  intros [Hm Hv] Hc. unfold vpred. pose proof (mask16_range T c). enter c_Pred_call_Pred_Char16. go_all; unfold pred16; finish.
Qed.
Lemma c_pred8 p c : pred_ok p -> 0 <= c < 256 -> t_assigned8 T c = true -> t_private8 T c = false ->
  call I T fuel (S (S (S d))) "EncodingCheckPredicate::operator()" [vpred p; VI Char (norm I Char c)]
  = Done (VB (pred8 T p c), [None; None]).
Proof.
  intros [Hm Hv] Hc Ha Hp. unfold vpred. pose proof (mask8_range T c). enter c_Pred_call_Pred_Char. go_all; unfold pred8; finish.
Qed.
End Pred.

Section Pred2.
Context (I : implementation) (T : UnicodeTables) (fuel d : nat).
Ltac known r ::=
  lazymatch r with
  | call _ _ _ _ "EncodingCheckPredicate::checkIf" _ => rewrite c_checkIf by lia
  | call _ _ _ _ "EncodingCheckPredicate::checkIfNot" _ => rewrite c_checkIfNot by lia
  | call _ _ _ _ "EncodingCheckPredicate::operator==" [VPred ?a ?b; VPred ?c ?d] =>
    rewrite (c_predEq _ _ _ _ {| m_mask := a; m_value := b |} {| m_mask := c; m_value := d |} ltac:(split; assumption) ltac:(split; assumption))
  | _ => call_internal r
  end.
Lemma c_validIf' t : -0x80000000 <= t < 0x80000000 ->
  call I T fuel (S (S (S d))) "validIf" [VI Enum t] = Done (vpred (validIf t), [None]).
Proof. intros H. enter c_validIf. reflexivity. Qed.
Lemma c_validIfNot' t : -0x80000000 <= t < 0x80000000 ->
  call I T fuel (S (S (S d))) "validIfNot" [VI Enum t] = Done (vpred (validIfNot t), [None]).
Proof. intros H. enter c_validIfNot. reflexivity. Qed.
Lemma c_predNe p q : pred_ok p -> pred_ok q ->
  call I T fuel (S (S d)) "EncodingCheckPredicate::operator!=" [vpred p; vpred q] = Done (VB (negb (predicateEq p q)), [None; None]).
Proof.
  intros [Hm Hv] [Hm' Hv']. unfold vpred. enter c_Pred_ne. destruct p, q. reflexivity.
Qed.
End Pred2.
