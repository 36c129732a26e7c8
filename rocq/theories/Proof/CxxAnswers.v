(* The statements of Props/Source.v from the lemmas about calls with given room. *)
From Coq Require Import ZArith List Bool String Lia.
From Verif Require Import Machine.
From Verif.Model Require Import Tables Internal Predicate Decode Str Sugar.
From Verif.Cxx Require Import Syntax Semantics Program Values.
From Verif.Gen Require Import Source.
From Verif.Proof Require Import Bits CxxTools CxxRaw CxxInternal CxxDecode CxxPred CxxHelpers CxxChecks CxxUtf8 CxxSugar CxxMono.
Import ListNotations.
Local Open Scope string_scope.
Local Open Scope list_scope.
Local Open Scope Z_scope.

Lemma runs_at I T f args r k n :
  (forall fuel d, (n <= fuel)%nat -> (do a <- call I T fuel (k + d) f args; Done (fst a)) = r) -> runs_to I T f args r.
Proof.
  intros H. exists (max k n). intros fuel depth Hf Hd.
  replace depth with (k + (depth - k))%nat by lia. apply H. lia.
Qed.

Definition room (p : ptr) : nat := match p with Null => O | At rest => S (List.length rest) end.
Lemma points_room (P : Z -> Prop) fuel arr p : points_into P arr p -> (room p <= fuel)%nat -> points P fuel arr p.
Proof. destruct p as [|rest]; [exact (fun _ _ => Logic.I)|]. intros (Hs & Ha) Hf. cbn in *. repeat split; assumption. Qed.

Ltac by_call k n L :=
  apply (runs_at _ _ _ _ _ k n); intros fuel d Hf; cbn [Nat.add]; rewrite L; try assumption;
  [ rewrite bind_bind; reflexivity | .. ];
  try (apply points_room; [assumption | exact Hf]); try lia; try (split; vm_compute; split; congruence).

Ltac by_default k n D L :=
  apply (runs_at _ _ _ _ _ k n); intros fuel d Hf; cbn [Nat.add];
  lazymatch goal with
  | |- context [vptr ?t ?arr ?p] =>
    let E := fresh "E" in
    assert (exists q, vptr t arr p = VP t q) as [q E] by (destruct p; eexists; reflexivity);
    rewrite E, D, <- E
  | |- _ => rewrite D
  end;
  rewrite L; try assumption;
  [ rewrite bind_bind; reflexivity | .. ];
  try (apply points_room; [assumption | exact Hf]); try lia; try (split; vm_compute; split; congruence);
  try (vm_compute; split; congruence).

Section Answers.
Context (I : implementation) (T : UnicodeTables).

Lemma a_isUtf8 arr p t pred : points_into byte arr p -> may_step_back I arr p -> int32 t -> pred_ok pred ->
  runs_to I T "isUtf8" [vptr Char arr p; VI Enum t; vpred pred] (boolean (isUtf8 T p t pred)).
Proof. intros. by_call 5%nat (room p) c_isUtf8. Qed.

Lemma a_isUtf8_string s t pred : Forall byte s -> pointer_checks I = false -> int32 t -> pred_ok pred ->
  runs_to I T "isUtf8" [VS Char s; VI Enum t; vpred pred] (boolean (isUtf8_string T s t pred)).
Proof. intros. by_call 5%nat (S (S (List.length s))) c_isUtf8_string. Qed.

Lemma a_isUtf8_pred arr p pred : points_into byte arr p -> may_step_back I arr p -> pred_ok pred ->
  runs_to I T "isUtf8" [vptr Char arr p; vpred pred] (boolean (isUtf8_pred T p pred)).
Proof. intros. by_call 6%nat (room p) c_isUtf8_pred. Qed.

Lemma a_isUtf8_string_pred s pred : Forall byte s -> pointer_checks I = false -> pred_ok pred ->
  runs_to I T "isUtf8" [VS Char s; vpred pred] (boolean (isUtf8_pred T (c_str s) pred)).
Proof. intros. by_call 6%nat (S (S (List.length s))) c_isUtf8_string_pred. Qed.

Lemma a_isUtf8_bare arr p : points_into byte arr p -> may_step_back I arr p ->
  runs_to I T "isUtf8" [vptr Char arr p] (boolean (isUtf8_bare T p)).
Proof. intros. by_default 5%nat (room p) isUtf8_ptr_bare c_isUtf8. Qed.

Lemma a_isUtf8_range arr p t : points_into byte arr p -> may_step_back I arr p -> int32 t ->
  runs_to I T "isUtf8" [vptr Char arr p; VI Enum t] (boolean (isUtf8 T p t nullPredicate)).
Proof. intros. by_default 5%nat (room p) isUtf8_ptr_range c_isUtf8. Qed.

Lemma a_isUtf8_string_bare s : Forall byte s -> pointer_checks I = false ->
  runs_to I T "isUtf8" [VS Char s] (boolean (isUtf8_bare T (c_str s))).
Proof. intros. by_default 5%nat (S (S (List.length s))) isUtf8_str_bare c_isUtf8_string. Qed.

Lemma a_isUtf8_string_range s t : Forall byte s -> pointer_checks I = false -> int32 t ->
  runs_to I T "isUtf8" [VS Char s; VI Enum t] (boolean (isUtf8 T (c_str s) t nullPredicate)).
Proof. intros. by_default 5%nat (S (S (List.length s))) isUtf8_str_range c_isUtf8_string. Qed.

Lemma a_isUtf16 arr p t pred : points_into unit16 arr p -> int32 t -> pred_ok pred ->
  runs_to I T "isUtf16" [vptr Char16 arr p; VI Enum t; vpred pred] (boolean (isUtf16 T p t pred)).
Proof. intros. by_call 4%nat (room p) c_isUtf16. Qed.

Lemma a_isUtf16_string s t pred : Forall unit16 s -> int32 t -> pred_ok pred ->
  runs_to I T "isUtf16" [VS Char16 s; VI Enum t; vpred pred] (boolean (isUtf16_string T s t pred)).
Proof. intros. by_call 5%nat (S (S (List.length s))) c_isUtf16_string. Qed.

Lemma a_isUtf16_pred arr p pred : points_into unit16 arr p -> pred_ok pred ->
  runs_to I T "isUtf16" [vptr Char16 arr p; vpred pred] (boolean (isUtf16_pred T p pred)).
Proof. intros. by_call 6%nat (room p) c_isUtf16_pred. Qed.

Lemma a_isUtf16_string_pred s pred : Forall unit16 s -> pred_ok pred ->
  runs_to I T "isUtf16" [VS Char16 s; vpred pred] (boolean (isUtf16_pred T (c_str s) pred)).
Proof. intros. by_call 6%nat (S (S (List.length s))) c_isUtf16_string_pred. Qed.

Lemma a_isUtf16_bare arr p : points_into unit16 arr p ->
  runs_to I T "isUtf16" [vptr Char16 arr p] (boolean (isUtf16_bare T p)).
Proof. intros. by_default 4%nat (room p) isUtf16_ptr_bare c_isUtf16. Qed.

Lemma a_isUtf16_range arr p t : points_into unit16 arr p -> int32 t ->
  runs_to I T "isUtf16" [vptr Char16 arr p; VI Enum t] (boolean (isUtf16 T p t nullPredicate)).
Proof. intros. by_default 4%nat (room p) isUtf16_ptr_range c_isUtf16. Qed.

Lemma a_isUtf16_string_bare s : Forall unit16 s ->
  runs_to I T "isUtf16" [VS Char16 s] (boolean (isUtf16_bare T (c_str s))).
Proof. intros. by_default 5%nat (S (S (List.length s))) isUtf16_str_bare c_isUtf16_string. Qed.

Lemma a_isUtf16_string_range s t : Forall unit16 s -> int32 t ->
  runs_to I T "isUtf16" [VS Char16 s; VI Enum t] (boolean (isUtf16 T (c_str s) t nullPredicate)).
Proof. intros. by_default 5%nat (S (S (List.length s))) isUtf16_str_range c_isUtf16_string. Qed.

Lemma a_isUcs2 arr p t pred : points_into unit16 arr p -> int32 t -> pred_ok pred ->
  runs_to I T "isUcs2" [vptr Char16 arr p; VI Enum t; vpred pred] (boolean (isUcs2 T p t pred)).
Proof. intros. by_call 4%nat (room p) c_isUcs2. Qed.

Lemma a_isUcs2_string s t pred : Forall unit16 s -> int32 t -> pred_ok pred ->
  runs_to I T "isUcs2" [VS Char16 s; VI Enum t; vpred pred] (boolean (isUcs2_string T s t pred)).
Proof. intros. by_call 5%nat (S (S (List.length s))) c_isUcs2_string. Qed.

Lemma a_isUcs2_pred arr p pred : points_into unit16 arr p -> pred_ok pred ->
  runs_to I T "isUcs2" [vptr Char16 arr p; vpred pred] (boolean (isUcs2_pred T p pred)).
Proof. intros. by_call 6%nat (room p) c_isUcs2_pred. Qed.

Lemma a_isUcs2_string_pred s pred : Forall unit16 s -> pred_ok pred ->
  runs_to I T "isUcs2" [VS Char16 s; vpred pred] (boolean (isUcs2_pred T (c_str s) pred)).
Proof. intros. by_call 6%nat (S (S (List.length s))) c_isUcs2_string_pred. Qed.

Lemma a_isUcs2_bare arr p : points_into unit16 arr p ->
  runs_to I T "isUcs2" [vptr Char16 arr p] (boolean (isUcs2_bare T p)).
Proof. intros. by_default 4%nat (room p) isUcs2_ptr_bare c_isUcs2. Qed.

Lemma a_isUcs2_range arr p t : points_into unit16 arr p -> int32 t ->
  runs_to I T "isUcs2" [vptr Char16 arr p; VI Enum t] (boolean (isUcs2 T p t nullPredicate)).
Proof. intros. by_default 4%nat (room p) isUcs2_ptr_range c_isUcs2. Qed.

Lemma a_isUcs2_string_bare s : Forall unit16 s ->
  runs_to I T "isUcs2" [VS Char16 s] (boolean (isUcs2_bare T (c_str s))).
Proof. intros. by_default 5%nat (S (S (List.length s))) isUcs2_str_bare c_isUcs2_string. Qed.

Lemma a_isUcs2_string_range s t : Forall unit16 s -> int32 t ->
  runs_to I T "isUcs2" [VS Char16 s; VI Enum t] (boolean (isUcs2 T (c_str s) t nullPredicate)).
Proof. intros. by_default 5%nat (S (S (List.length s))) isUcs2_str_range c_isUcs2_string. Qed.

Lemma a_isUcs4 arr p t pred : points_into unit32 arr p -> int32 t -> pred_ok pred ->
  runs_to I T "isUcs4" [vptr Char32 arr p; VI Enum t; vpred pred] (boolean (isUcs4 T p t pred)).
Proof. intros. by_call 4%nat (room p) c_isUcs4. Qed.

Lemma a_isUcs4_string s t pred : Forall unit32 s -> int32 t -> pred_ok pred ->
  runs_to I T "isUcs4" [VS Char32 s; VI Enum t; vpred pred] (boolean (isUcs4_string T s t pred)).
Proof. intros. by_call 5%nat (S (S (List.length s))) c_isUcs4_string. Qed.

Lemma a_isUcs4_pred arr p pred : points_into unit32 arr p -> pred_ok pred ->
  runs_to I T "isUcs4" [vptr Char32 arr p; vpred pred] (boolean (isUcs4_pred T p pred)).
Proof. intros. by_call 6%nat (room p) c_isUcs4_pred. Qed.

Lemma a_isUcs4_string_pred s pred : Forall unit32 s -> pred_ok pred ->
  runs_to I T "isUcs4" [VS Char32 s; vpred pred] (boolean (isUcs4_pred T (c_str s) pred)).
Proof. intros. by_call 6%nat (S (S (List.length s))) c_isUcs4_string_pred. Qed.

Lemma a_isUcs4_bare arr p : points_into unit32 arr p ->
  runs_to I T "isUcs4" [vptr Char32 arr p] (boolean (isUcs4_bare T p)).
Proof. intros. by_default 4%nat (room p) isUcs4_ptr_bare c_isUcs4. Qed.

Lemma a_isUcs4_range arr p t : points_into unit32 arr p -> int32 t ->
  runs_to I T "isUcs4" [vptr Char32 arr p; VI Enum t] (boolean (isUcs4 T p t nullPredicate)).
Proof. intros. by_default 4%nat (room p) isUcs4_ptr_range c_isUcs4. Qed.

Lemma a_isUcs4_string_bare s : Forall unit32 s ->
  runs_to I T "isUcs4" [VS Char32 s] (boolean (isUcs4_bare T (c_str s))).
Proof. intros. by_default 5%nat (S (S (List.length s))) isUcs4_str_bare c_isUcs4_string. Qed.

Lemma a_isUcs4_string_range s t : Forall unit32 s -> int32 t ->
  runs_to I T "isUcs4" [VS Char32 s; VI Enum t] (boolean (isUcs4 T (c_str s) t nullPredicate)).
Proof. intros. by_default 5%nat (S (S (List.length s))) isUcs4_str_range c_isUcs4_string. Qed.

Lemma a_isUtf8_length arr p n pred : points_into byte arr p -> may_step_back I arr p -> uint32 n -> pred_ok pred ->
  runs_to I T "isUtf8" [vptr Char arr p; VI UInt n; vpred pred] (boolean (isUtf8_length T p n pred)).
Proof. intros. by_call 5%nat (room p) c_isUtf8_length. Qed.

Lemma a_isUtf8_length_bare arr p n : points_into byte arr p -> may_step_back I arr p -> uint32 n ->
  runs_to I T "isUtf8" [vptr Char arr p; VI UInt n] (boolean (isUtf8_length T p n nullPredicate)).
Proof. intros. by_default 5%nat (room p) isUtf8_length_bare c_isUtf8_length. Qed.

Lemma all_isUtf8 :
  (forall arr p t pred, points_into byte arr p -> may_step_back I arr p -> int32 t -> pred_ok pred ->
     runs_to I T "isUtf8" [vptr Char arr p; VI Enum t; vpred pred] (boolean (isUtf8 T p t pred))) /\
  (forall s t pred, Forall byte s -> pointer_checks I = false -> int32 t -> pred_ok pred ->
     runs_to I T "isUtf8" [VS Char s; VI Enum t; vpred pred] (boolean (isUtf8_string T s t pred))) /\
  (forall arr p pred, points_into byte arr p -> may_step_back I arr p -> pred_ok pred ->
     runs_to I T "isUtf8" [vptr Char arr p; vpred pred] (boolean (isUtf8_pred T p pred))) /\
  (forall s pred, Forall byte s -> pointer_checks I = false -> pred_ok pred ->
     runs_to I T "isUtf8" [VS Char s; vpred pred] (boolean (isUtf8_pred T (c_str s) pred))) /\
  (forall arr p, points_into byte arr p -> may_step_back I arr p ->
     runs_to I T "isUtf8" [vptr Char arr p] (boolean (isUtf8_bare T p))) /\
  (forall arr p t, points_into byte arr p -> may_step_back I arr p -> int32 t ->
     runs_to I T "isUtf8" [vptr Char arr p; VI Enum t] (boolean (isUtf8 T p t nullPredicate))) /\
  (forall s, Forall byte s -> pointer_checks I = false ->
     runs_to I T "isUtf8" [VS Char s] (boolean (isUtf8_bare T (c_str s)))) /\
  (forall s t, Forall byte s -> pointer_checks I = false -> int32 t ->
     runs_to I T "isUtf8" [VS Char s; VI Enum t] (boolean (isUtf8 T (c_str s) t nullPredicate))) /\
  (forall arr p n pred, points_into byte arr p -> may_step_back I arr p -> uint32 n -> pred_ok pred ->
     runs_to I T "isUtf8" [vptr Char arr p; VI UInt n; vpred pred] (boolean (isUtf8_length T p n pred))) /\
  (forall arr p n, points_into byte arr p -> may_step_back I arr p -> uint32 n ->
     runs_to I T "isUtf8" [vptr Char arr p; VI UInt n] (boolean (isUtf8_length T p n nullPredicate))).
Proof. repeat split.
  - exact (a_isUtf8).
  - exact (a_isUtf8_string).
  - exact (a_isUtf8_pred).
  - exact (a_isUtf8_string_pred).
  - exact (a_isUtf8_bare).
  - exact (a_isUtf8_range).
  - exact (a_isUtf8_string_bare).
  - exact (a_isUtf8_string_range).
  - exact (a_isUtf8_length).
  - exact (a_isUtf8_length_bare).
Qed.

Lemma all_isUtf16 :
  (forall arr p t pred, points_into unit16 arr p -> int32 t -> pred_ok pred ->
     runs_to I T "isUtf16" [vptr Char16 arr p; VI Enum t; vpred pred] (boolean (isUtf16 T p t pred))) /\
  (forall s t pred, Forall unit16 s -> int32 t -> pred_ok pred ->
     runs_to I T "isUtf16" [VS Char16 s; VI Enum t; vpred pred] (boolean (isUtf16_string T s t pred))) /\
  (forall arr p pred, points_into unit16 arr p -> pred_ok pred ->
     runs_to I T "isUtf16" [vptr Char16 arr p; vpred pred] (boolean (isUtf16_pred T p pred))) /\
  (forall s pred, Forall unit16 s -> pred_ok pred ->
     runs_to I T "isUtf16" [VS Char16 s; vpred pred] (boolean (isUtf16_pred T (c_str s) pred))) /\
  (forall arr p, points_into unit16 arr p ->
     runs_to I T "isUtf16" [vptr Char16 arr p] (boolean (isUtf16_bare T p))) /\
  (forall arr p t, points_into unit16 arr p -> int32 t ->
     runs_to I T "isUtf16" [vptr Char16 arr p; VI Enum t] (boolean (isUtf16 T p t nullPredicate))) /\
  (forall s, Forall unit16 s ->
     runs_to I T "isUtf16" [VS Char16 s] (boolean (isUtf16_bare T (c_str s)))) /\
  (forall s t, Forall unit16 s -> int32 t ->
     runs_to I T "isUtf16" [VS Char16 s; VI Enum t] (boolean (isUtf16 T (c_str s) t nullPredicate))).
Proof. repeat split.
  - exact (a_isUtf16).
  - exact (a_isUtf16_string).
  - exact (a_isUtf16_pred).
  - exact (a_isUtf16_string_pred).
  - exact (a_isUtf16_bare).
  - exact (a_isUtf16_range).
  - exact (a_isUtf16_string_bare).
  - exact (a_isUtf16_string_range).
Qed.

Lemma all_isUcs2 :
  (forall arr p t pred, points_into unit16 arr p -> int32 t -> pred_ok pred ->
     runs_to I T "isUcs2" [vptr Char16 arr p; VI Enum t; vpred pred] (boolean (isUcs2 T p t pred))) /\
  (forall s t pred, Forall unit16 s -> int32 t -> pred_ok pred ->
     runs_to I T "isUcs2" [VS Char16 s; VI Enum t; vpred pred] (boolean (isUcs2_string T s t pred))) /\
  (forall arr p pred, points_into unit16 arr p -> pred_ok pred ->
     runs_to I T "isUcs2" [vptr Char16 arr p; vpred pred] (boolean (isUcs2_pred T p pred))) /\
  (forall s pred, Forall unit16 s -> pred_ok pred ->
     runs_to I T "isUcs2" [VS Char16 s; vpred pred] (boolean (isUcs2_pred T (c_str s) pred))) /\
  (forall arr p, points_into unit16 arr p ->
     runs_to I T "isUcs2" [vptr Char16 arr p] (boolean (isUcs2_bare T p))) /\
  (forall arr p t, points_into unit16 arr p -> int32 t ->
     runs_to I T "isUcs2" [vptr Char16 arr p; VI Enum t] (boolean (isUcs2 T p t nullPredicate))) /\
  (forall s, Forall unit16 s ->
     runs_to I T "isUcs2" [VS Char16 s] (boolean (isUcs2_bare T (c_str s)))) /\
  (forall s t, Forall unit16 s -> int32 t ->
     runs_to I T "isUcs2" [VS Char16 s; VI Enum t] (boolean (isUcs2 T (c_str s) t nullPredicate))).
Proof. repeat split.
  - exact (a_isUcs2).
  - exact (a_isUcs2_string).
  - exact (a_isUcs2_pred).
  - exact (a_isUcs2_string_pred).
  - exact (a_isUcs2_bare).
  - exact (a_isUcs2_range).
  - exact (a_isUcs2_string_bare).
  - exact (a_isUcs2_string_range).
Qed.

Lemma all_isUcs4 :
  (forall arr p t pred, points_into unit32 arr p -> int32 t -> pred_ok pred ->
     runs_to I T "isUcs4" [vptr Char32 arr p; VI Enum t; vpred pred] (boolean (isUcs4 T p t pred))) /\
  (forall s t pred, Forall unit32 s -> int32 t -> pred_ok pred ->
     runs_to I T "isUcs4" [VS Char32 s; VI Enum t; vpred pred] (boolean (isUcs4_string T s t pred))) /\
  (forall arr p pred, points_into unit32 arr p -> pred_ok pred ->
     runs_to I T "isUcs4" [vptr Char32 arr p; vpred pred] (boolean (isUcs4_pred T p pred))) /\
  (forall s pred, Forall unit32 s -> pred_ok pred ->
     runs_to I T "isUcs4" [VS Char32 s; vpred pred] (boolean (isUcs4_pred T (c_str s) pred))) /\
  (forall arr p, points_into unit32 arr p ->
     runs_to I T "isUcs4" [vptr Char32 arr p] (boolean (isUcs4_bare T p))) /\
  (forall arr p t, points_into unit32 arr p -> int32 t ->
     runs_to I T "isUcs4" [vptr Char32 arr p; VI Enum t] (boolean (isUcs4 T p t nullPredicate))) /\
  (forall s, Forall unit32 s ->
     runs_to I T "isUcs4" [VS Char32 s] (boolean (isUcs4_bare T (c_str s)))) /\
  (forall s t, Forall unit32 s -> int32 t ->
     runs_to I T "isUcs4" [VS Char32 s; VI Enum t] (boolean (isUcs4 T (c_str s) t nullPredicate))).
Proof. repeat split.
  - exact (a_isUcs4).
  - exact (a_isUcs4_string).
  - exact (a_isUcs4_pred).
  - exact (a_isUcs4_string_pred).
  - exact (a_isUcs4_bare).
  - exact (a_isUcs4_range).
  - exact (a_isUcs4_string_bare).
  - exact (a_isUcs4_string_range).
Qed.
End Answers.

(* pLast = test - 1 *)
Lemma steps_back : exists I T s, Forall byte s /\ ~ In 0 s /\
  isUtf8_string T s kUtf8 nullPredicate = Done true /\ runs_to I T "isUtf8" [VS Char s] Undefined.
Proof.
  exists {| char_signed := true; pointer_checks := true; configured := Wchar32 |}, tables16, [0x41].
  split; [repeat constructor; discriminate|]. split; [intros [H|[]]; discriminate|]. split; [reflexivity|].
  apply (runs_from _ _ 20 10); [vm_compute; discriminate | vm_compute; reflexivity].
Qed.
