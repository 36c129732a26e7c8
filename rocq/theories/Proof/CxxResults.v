(* The statements of Props/SourceResults.v from the lemmas about calls with given room. *)
From Coq Require Import ZArith List Bool String Lia.
From Verif Require Import Machine.
From Verif.Model Require Import Tables Internal Predicate Decode Str.
From Verif.Cxx Require Import Syntax Semantics Program Values.
From Verif.Gen Require Import Source.
From Verif.Spec Require Import Utf.
From Verif.Proof Require Import Bits CxxTools CxxSugar CxxMono CxxConvert CxxLength CxxLength8 CxxLengths CxxAnswers.
Import ListNotations.
Local Open Scope string_scope.
Local Open Scope list_scope.
Local Open Scope Z_scope.

Lemma step_to_none p : match p with Null => True | At rest => 0 <= size rest end.
Proof. destruct p; [exact Logic.I | apply size_nonneg]. Qed.

Ltac more_side := try (apply points_room; [assumption | lia]); try (left; assumption); try (right; apply step_to_none).

Section Answers.
Context (I : implementation) (T : UnicodeTables).

Lemma a_toUtf8_16 arr p : points_into unit16 arr p ->
  runs_to I T "toUtf8" [vptr Char16 arr p] (string_of Char (toUtf8_16 p)).
Proof. intros. by_call 4%nat (room p) c_toUtf8_16_any; more_side. Qed.

Lemma a_toUtf8_16_string s : Forall unit16 s ->
  runs_to I T "toUtf8" [VS Char16 s] (string_of Char (toUtf8_16_string s)).
Proof. intros. by_call 5%nat (S (S (List.length s))) c_toUtf8_16_string; more_side. Qed.

Lemma a_toUtf8_32 arr p : points_into unit32 arr p ->
  runs_to I T "toUtf8" [vptr Char32 arr p] (string_of Char (toUtf8_32 p)).
Proof. intros. by_call 4%nat (room p) c_toUtf8_32_any; more_side. Qed.

Lemma a_toUtf8_32_string s : Forall unit32 s ->
  runs_to I T "toUtf8" [VS Char32 s] (string_of Char (toUtf8_32_string s)).
Proof. intros. by_call 5%nat (S (S (List.length s))) c_toUtf8_32_string; more_side. Qed.

Lemma a_toUcs2_8 arr p : points_into byte arr p ->
  runs_to I T "toUcs2" [vptr Char arr p] (string_of Char16 (toUcs2_8 p)).
Proof. intros. by_call 4%nat (room p) c_toUcs2_8_any; more_side. Qed.

Lemma a_toUcs2_8_string s : Forall byte s ->
  runs_to I T "toUcs2" [VS Char s] (string_of Char16 (toUcs2_8_string s)).
Proof. intros. by_call 5%nat (S (S (List.length s))) c_toUcs2_8_string; more_side. Qed.

Lemma a_toUcs2_32 arr p : points_into unit32 arr p ->
  runs_to I T "toUcs2" [vptr Char32 arr p] (string_of Char16 (toUcs2_32 p)).
Proof. intros. by_call 4%nat (room p) c_toUcs2_32_any; more_side. Qed.

Lemma a_toUcs2_32_string s : Forall unit32 s ->
  runs_to I T "toUcs2" [VS Char32 s] (string_of Char16 (toUcs2_32_string s)).
Proof. intros. by_call 5%nat (S (S (List.length s))) c_toUcs2_32_string; more_side. Qed.

Lemma a_toUtf16_8 arr p : points_into byte arr p ->
  runs_to I T "toUtf16" [vptr Char arr p] (string_of Char16 (toUtf16_8 p)).
Proof. intros. by_call 4%nat (room p) c_toUtf16_8_any; more_side. Qed.

Lemma a_toUtf16_8_string s : Forall byte s ->
  runs_to I T "toUtf16" [VS Char s] (string_of Char16 (toUtf16_8_string s)).
Proof. intros. by_call 5%nat (S (S (List.length s))) c_toUtf16_8_string; more_side. Qed.

Lemma a_toUtf16_32 arr p : points_into unit32 arr p ->
  runs_to I T "toUtf16" [vptr Char32 arr p] (string_of Char16 (toUtf16_32 p)).
Proof. intros. by_call 4%nat (room p) c_toUtf16_32_any; more_side. Qed.

Lemma a_toUtf16_32_string s : Forall unit32 s ->
  runs_to I T "toUtf16" [VS Char32 s] (string_of Char16 (toUtf16_32_string s)).
Proof. intros. by_call 5%nat (S (S (List.length s))) c_toUtf16_32_string; more_side. Qed.

Lemma a_toUcs4_8 arr p : points_into byte arr p ->
  runs_to I T "toUcs4" [vptr Char arr p] (string_of Char32 (toUcs4_8 p)).
Proof. intros. by_call 4%nat (room p) c_toUcs4_8_any; more_side. Qed.

Lemma a_toUcs4_8_string s : Forall byte s ->
  runs_to I T "toUcs4" [VS Char s] (string_of Char32 (toUcs4_8_string s)).
Proof. intros. by_call 5%nat (S (S (List.length s))) c_toUcs4_8_string; more_side. Qed.

Lemma a_toUcs4_16 arr p : points_into unit16 arr p ->
  runs_to I T "toUcs4" [vptr Char16 arr p] (string_of Char32 (toUcs4_16 p)).
Proof. intros. by_call 4%nat (room p) c_toUcs4_16_any; more_side. Qed.

Lemma a_toUcs4_16_string s : Forall unit16 s ->
  runs_to I T "toUcs4" [VS Char16 s] (string_of Char32 (toUcs4_16_string s)).
Proof. intros. by_call 5%nat (S (S (List.length s))) c_toUcs4_16_string; more_side. Qed.

Lemma a_length8 arr p n : points_into byte arr p -> may_step_back I arr p -> uint32 n ->
  runs_to I T "unicodeLength" [vptr Char arr p; VI UInt n] (integer UInt (unicodeLength8 p n)).
Proof. intros. by_call 4%nat (room p) c_length8_any; more_side. Qed.

Lemma a_length8_bare arr p : points_into byte arr p -> may_step_back I arr p ->
  runs_to I T "unicodeLength" [vptr Char arr p] (integer UInt (unicodeLength8 p 0)).
Proof. intros. by_default 4%nat (room p) length8_bare c_length8_any; more_side. Qed.

Lemma a_length8_string s : Forall byte s -> pointer_checks I = false ->
  runs_to I T "unicodeLength" [VS Char s] (integer UInt (unicodeLength8_string s)).
Proof. intros. by_call 5%nat (S (S (List.length s))) c_length8_string; more_side. Qed.

Lemma a_length16 arr p n : points_into unit16 arr p -> may_step_back I arr p -> uint32 n ->
  runs_to I T "unicodeLength" [vptr Char16 arr p; VI UInt n] (integer UInt (unicodeLength16 p n)).
Proof. intros. by_call 4%nat (room p) c_length16_any; more_side. Qed.

Lemma a_length16_bare arr p : points_into unit16 arr p -> may_step_back I arr p ->
  runs_to I T "unicodeLength" [vptr Char16 arr p] (integer UInt (unicodeLength16 p 0)).
Proof. intros. by_default 4%nat (room p) length16_bare c_length16_any; more_side. Qed.

Lemma a_length16_string s : Forall unit16 s -> pointer_checks I = false ->
  runs_to I T "unicodeLength" [VS Char16 s] (integer UInt (unicodeLength16_string s)).
Proof. intros. by_call 5%nat (S (S (List.length s))) c_length16_string; more_side. Qed.

Lemma a_length32 arr p n : points_into unit32 arr p -> may_step_to I n p -> uint32 n ->
  runs_to I T "unicodeLength" [vptr Char32 arr p; VI UInt n] (integer UInt (unicodeLength32 p n)).
Proof. intros. by_call 4%nat (max 1 (room p)) c_length32_any; more_side. Qed.

Lemma a_length32_bare arr p : points_into unit32 arr p ->
  runs_to I T "unicodeLength" [vptr Char32 arr p] (integer UInt (unicodeLength32 p 0)).
Proof.
  intros Hp. apply (runs_at _ _ _ _ _ 4 (max 1 (room p))). intros fuel d Hf. cbn [Nat.add].
  assert (exists q, vptr Char32 arr p = VP Char32 q) as [q E] by (destruct p; eexists; reflexivity).
  rewrite E, length32_bare, <- E, c_length32_any.
  - rewrite bind_bind. reflexivity.
  - lia.
  - apply points_room; [assumption | lia].
  - right. apply step_to_none.
  - lia.
Qed.

Lemma a_length32_string s : Forall unit32 s ->
  runs_to I T "unicodeLength" [VS Char32 s] (integer UInt (unicodeLength32_string s)).
Proof. intros. by_call 5%nat (S (S (List.length s))) c_length32_string; more_side. Qed.

Lemma all_toUtf8 :
  (forall arr p, points_into unit16 arr p ->
     runs_to I T "toUtf8" [vptr Char16 arr p] (string_of Char (toUtf8_16 p))) /\
  (forall s, Forall unit16 s ->
     runs_to I T "toUtf8" [VS Char16 s] (string_of Char (toUtf8_16_string s))) /\
  (forall arr p, points_into unit32 arr p ->
     runs_to I T "toUtf8" [vptr Char32 arr p] (string_of Char (toUtf8_32 p))) /\
  (forall s, Forall unit32 s ->
     runs_to I T "toUtf8" [VS Char32 s] (string_of Char (toUtf8_32_string s))).
Proof. repeat split.
  - exact (a_toUtf8_16).
  - exact (a_toUtf8_16_string).
  - exact (a_toUtf8_32).
  - exact (a_toUtf8_32_string).
Qed.

Lemma all_toUcs2 :
  (forall arr p, points_into byte arr p ->
     runs_to I T "toUcs2" [vptr Char arr p] (string_of Char16 (toUcs2_8 p))) /\
  (forall s, Forall byte s ->
     runs_to I T "toUcs2" [VS Char s] (string_of Char16 (toUcs2_8_string s))) /\
  (forall arr p, points_into unit32 arr p ->
     runs_to I T "toUcs2" [vptr Char32 arr p] (string_of Char16 (toUcs2_32 p))) /\
  (forall s, Forall unit32 s ->
     runs_to I T "toUcs2" [VS Char32 s] (string_of Char16 (toUcs2_32_string s))).
Proof. repeat split.
  - exact (a_toUcs2_8).
  - exact (a_toUcs2_8_string).
  - exact (a_toUcs2_32).
  - exact (a_toUcs2_32_string).
Qed.

Lemma all_toUtf16 :
  (forall arr p, points_into byte arr p ->
     runs_to I T "toUtf16" [vptr Char arr p] (string_of Char16 (toUtf16_8 p))) /\
  (forall s, Forall byte s ->
     runs_to I T "toUtf16" [VS Char s] (string_of Char16 (toUtf16_8_string s))) /\
  (forall arr p, points_into unit32 arr p ->
     runs_to I T "toUtf16" [vptr Char32 arr p] (string_of Char16 (toUtf16_32 p))) /\
  (forall s, Forall unit32 s ->
     runs_to I T "toUtf16" [VS Char32 s] (string_of Char16 (toUtf16_32_string s))).
Proof. repeat split.
  - exact (a_toUtf16_8).
  - exact (a_toUtf16_8_string).
  - exact (a_toUtf16_32).
  - exact (a_toUtf16_32_string).
Qed.

Lemma all_toUcs4 :
  (forall arr p, points_into byte arr p ->
     runs_to I T "toUcs4" [vptr Char arr p] (string_of Char32 (toUcs4_8 p))) /\
  (forall s, Forall byte s ->
     runs_to I T "toUcs4" [VS Char s] (string_of Char32 (toUcs4_8_string s))) /\
  (forall arr p, points_into unit16 arr p ->
     runs_to I T "toUcs4" [vptr Char16 arr p] (string_of Char32 (toUcs4_16 p))) /\
  (forall s, Forall unit16 s ->
     runs_to I T "toUcs4" [VS Char16 s] (string_of Char32 (toUcs4_16_string s))).
Proof. repeat split.
  - exact (a_toUcs4_8).
  - exact (a_toUcs4_8_string).
  - exact (a_toUcs4_16).
  - exact (a_toUcs4_16_string).
Qed.

Lemma all_unicodeLength :
  (forall arr p n, points_into byte arr p -> may_step_back I arr p -> uint32 n ->
     runs_to I T "unicodeLength" [vptr Char arr p; VI UInt n] (integer UInt (unicodeLength8 p n))) /\
  (forall arr p, points_into byte arr p -> may_step_back I arr p ->
     runs_to I T "unicodeLength" [vptr Char arr p] (integer UInt (unicodeLength8 p 0))) /\
  (forall s, Forall byte s -> pointer_checks I = false ->
     runs_to I T "unicodeLength" [VS Char s] (integer UInt (unicodeLength8_string s))) /\
  (forall arr p n, points_into unit16 arr p -> may_step_back I arr p -> uint32 n ->
     runs_to I T "unicodeLength" [vptr Char16 arr p; VI UInt n] (integer UInt (unicodeLength16 p n))) /\
  (forall arr p, points_into unit16 arr p -> may_step_back I arr p ->
     runs_to I T "unicodeLength" [vptr Char16 arr p] (integer UInt (unicodeLength16 p 0))) /\
  (forall s, Forall unit16 s -> pointer_checks I = false ->
     runs_to I T "unicodeLength" [VS Char16 s] (integer UInt (unicodeLength16_string s))) /\
  (forall arr p n, points_into unit32 arr p -> may_step_to I n p -> uint32 n ->
     runs_to I T "unicodeLength" [vptr Char32 arr p; VI UInt n] (integer UInt (unicodeLength32 p n))) /\
  (forall arr p, points_into unit32 arr p ->
     runs_to I T "unicodeLength" [vptr Char32 arr p] (integer UInt (unicodeLength32 p 0))) /\
  (forall s, Forall unit32 s ->
     runs_to I T "unicodeLength" [VS Char32 s] (integer UInt (unicodeLength32_string s))).
Proof. repeat split.
  - exact (a_length8).
  - exact (a_length8_bare).
  - exact (a_length8_string).
  - exact (a_length16).
  - exact (a_length16_bare).
  - exact (a_length16_string).
  - exact (a_length32).
  - exact (a_length32_bare).
  - exact (a_length32_string).
Qed.
End Answers.
