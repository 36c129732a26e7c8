(* Concrete cases for Props/Memory.v and Props/Length.v, and null pointers in the wchar_t section. *)
From Coq Require Import ZArith List Bool Lia ZifyBool.
From Verif Require Import Machine.
From Verif.Model Require Import Internal Decode Tables Predicate Str Lower CodePage Wide.
From Verif.Spec Require Import Utf Target Result Bounded Case.
From Verif.Proof Require Import Witness.
Import ListNotations.
Local Open Scope Z_scope.

Lemma null_wide T : w32_toUcs4 T Null = Undefined /\ w32_toWstring_32 T Null = Undefined /\
  w16_toUtf16 T Null = Undefined /\ w16_toUcs2 T Null = Undefined /\ w16_toWstring_16 T Null = Undefined.
Proof. repeat split. Qed.
Lemma null_wide_good T :
  w32_isUtf8 T Null = Done true /\ w32_isUtf16 T Null = Done true /\ w32_isUcs2 T Null = Done true /\ w32_isUcs4 T Null = Done true /\
  w32_isWstring_8 T Null = Done true /\ w32_isWstring_16 T Null = Done true /\ w32_isWstring_32 T Null = Done true /\
  w32_toUtf8 Null = Done [] /\ w32_toUtf16 Null = Done [] /\ w32_toUcs2 Null = Done [] /\
  w32_toWstring_8 Null = Done [] /\ w32_toWstring_16 Null = Done [] /\
  w16_isUtf8 T Null = Done true /\ w16_isUtf16 T Null = Done true /\ w16_isUcs2 T Null = Done true /\ w16_isUcs4 T Null = Done true /\
  w16_isWstring_8 T Null = Done true /\ w16_isWstring_16 T Null = Done true /\ w16_isWstring_32 T Null = Done true /\
  w16_toUtf8 Null = Done [] /\ w16_toUcs4 Null = Done [] /\ w16_toWstring_8 Null = Done [] /\ w16_toWstring_32 Null = Done [].
Proof. repeat split. Qed.
Lemma null_language : language Null. Proof. now left. Qed.

Lemma seq_0061 : utf8_seq 0x61 [0x61].
Proof. apply (seq_plain 0x61). unfold encodable8, surrogate. lia. Qed.
Lemma case_bytes : bytes [0x61; 0xE2; 0x82].
Proof. repeat constructor; unfold byte; lia. Qed.
Lemma case_two_of_three : two_of_three (fun c => pred32 (tables V7) nullPredicate c = true) [0x61; 0xE2; 0x82].
Proof.
  exists [0x61], [0x61], 0xE2, 0x82. split; [reflexivity|]. split; [exact (text_cons _ _ _ _ seq_0061 text_nil)|].
  split; [repeat constructor|lia].
Qed.
Lemma case_ends_single : ends_single [0xD83D; 0xDE00; 0x41].
Proof.
  exists [0x1F600], [0xD83D; 0xDE00], 0x41. split; [reflexivity|]. split.
  - split; [|reflexivity]. constructor; [unfold scalar, surrogate; lia|constructor].
  - unfold bmp, surrogate. lia.
Qed.
Lemma case_runs_out : bounded8 (fun c => pred32 (tables V7) nullPredicate c = true) [0x61; 0xE2; 0x82].
Proof.
  exists [0x61], [0x61], [0xE2; 0x82]. split; [reflexivity|]. split; [exact (text_cons _ _ _ _ seq_0061 text_nil)|].
  split; [repeat constructor|]. right. left. split; [reflexivity|]. cbn. lia.
Qed.
Lemma case_text_8 : utf8_text [0x61] [0x61] /\ Forall upto [0x61].
Proof. split; [exact (text_cons _ _ _ _ seq_0061 text_nil)|]. repeat constructor. unfold upto. lia. Qed.
Lemma case_text_16 : utf16_text [0x1F600; 0x41] [0xD83D; 0xDE00; 0x41].
Proof. split; [|reflexivity]. repeat constructor; unfold surrogate; lia. Qed.
