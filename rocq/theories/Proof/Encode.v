(* The single-character encoders against Spec/Utf.v. *)
From Coq Require Import ZArith List Bool Lia ZifyBool.
From Verif Require Import Machine.
From Verif.Model Require Import Internal Str.
From Verif.Spec Require Import Utf.
From Verif.Proof Require Import Bits.
Import ListNotations.
Local Open Scope Z_scope.

Lemma group_0 c : group 0 c = 0x80 + c mod 64.
Proof. unfold group. change (64 ^ 0) with 1. now rewrite Z.div_1_r. Qed.
Lemma group_1 c : group 1 c = 0x80 + (c / 0x40) mod 64. Proof. reflexivity. Qed.
Lemma group_2 c : group 2 c = 0x80 + (c / 0x1000) mod 64. Proof. reflexivity. Qed.
Lemma group_3 c : group 3 c = 0x80 + (c / 0x40000) mod 64. Proof. reflexivity. Qed.
Lemma group_4 c : group 4 c = 0x80 + (c / 0x1000000) mod 64. Proof. reflexivity. Qed.

Lemma group_cont k c : 0x80 <= group k c <= 0xBF.
Proof. unfold group. pose proof (Z.mod_pos_bound (c / 64 ^ k) 64 ltac:(lia)). lia. Qed.

Lemma cont_byte x : wrap8 (Z.lor (Z.land x 0x3f) 0x80) = 0x80 + x mod 64.
Proof.
  rewrite land_3f. pose proof (Z.mod_pos_bound x 64 ltac:(lia)).
  rewrite lor_80 by lia. rewrite wrap8_id by lia. lia.
Qed.

(* encodeUtf8 is the shortest form, for every value it encodes *)
Lemma encodeUtf8_spec c : 0 <= c < 0x80000000 -> encodeUtf8 c = utf8_bytes c.
Proof.
  intros Hc. unfold encodeUtf8, utf8_bytes.
  rewrite land_ffffff80 by lia. rewrite !cont_byte.
  rewrite group_0, group_1, group_2, group_3, group_4.
  change (64 ^ 1) with 0x40. change (64 ^ 2) with 0x1000. change (64 ^ 3) with 0x40000.
  change (64 ^ 4) with 0x1000000. change (64 ^ 5) with 0x40000000.
  autorewrite with bits.
  destruct (Z.ltb_spec c 0x80). { rewrite wrap8_id by lia. reflexivity. }
  destruct (Z.leb_spec c 0x7ff); destruct (Z.ltb_spec c 0x800); try lia.
  { assert (0 <= c / 64 < 32) by lia. rewrite Z.mod_small, lor_c0, wrap8_id by lia.
    f_equal. lia. }
  destruct (Z.leb_spec c 0xffff); destruct (Z.ltb_spec c 0x10000); try lia.
  { assert (0 <= c / 0x1000 < 16) by lia. rewrite Z.mod_small, lor_e0, wrap8_id by lia.
    f_equal. lia. }
  destruct (Z.leb_spec c 0x1fffff); destruct (Z.ltb_spec c 0x200000); try lia.
  { assert (0 <= c / 0x40000 < 8) by lia. rewrite Z.mod_small, lor_f0, wrap8_id by lia.
    f_equal. lia. }
  destruct (Z.leb_spec c 0x3ffffff); destruct (Z.ltb_spec c 0x4000000); try lia.
  { assert (0 <= c / 0x1000000 < 4) by lia. rewrite Z.mod_small, lor_f8, wrap8_id by lia.
    f_equal. lia. }
  destruct (Z.leb_spec c 0x7fffffff); try lia.
  assert (0 <= c / 0x40000000 < 2) by lia. rewrite Z.mod_small, lor_fc, wrap8_id by lia.
  f_equal. lia.
Qed.

Lemma rawEncodeUtf16_spec c : 0 <= c <= 0x10FFFF -> rawEncodeUtf16 c = utf16_units c.
Proof.
  intros Hc. unfold rawEncodeUtf16, utf16_units.
  destruct (Z.ltb_spec c 0x10000). { rewrite wrap16_id by lia. reflexivity. }
  rewrite (wrap32_id (c - 0x10000)) by lia. autorewrite with bits.
  pose proof (Z.mod_pos_bound (c - 0x10000) 0x400 ltac:(lia)).
  assert (0 <= (c - 0x10000) / 0x400 < 0x400) by lia.
  rewrite (Z.mod_small ((c - 0x10000) / 0x400)) by lia.
  rewrite !wrap16_id by lia. reflexivity.
Qed.

Lemma isFirstHalf_spec c : isFirstHalfUtf16 c = true <-> high_surrogate c.
Proof. unfold isFirstHalfUtf16, high_surrogate. lia. Qed.
Lemma isSecondHalf_spec c : isSecondHalfUtf16 c = true <-> low_surrogate c.
Proof. unfold isSecondHalfUtf16, low_surrogate. lia. Qed.

(* a surrogate pair, as value and as units *)
Lemma rawDecodeUtf16_arith h l : high_surrogate h -> low_surrogate l ->
  rawDecodeUtf16 h l = 0x10000 + (h - 0xD800) * 0x400 + (l - 0xDC00).
Proof.
  intros Hh Hl. unfold rawDecodeUtf16, high_surrogate, low_surrogate in *.
  autorewrite with bits.
  replace (h mod 0x400) with (h - 0xD800) by lia.
  replace (l mod 0x400) with (l - 0xDC00) by lia.
  rewrite wrap32_id by lia. reflexivity.
Qed.

Lemma utf16_units_pair h l : high_surrogate h -> low_surrogate l ->
  utf16_units (0x10000 + (h - 0xD800) * 0x400 + (l - 0xDC00)) = [h; l].
Proof.
  intros Hh Hl. unfold utf16_units, high_surrogate, low_surrogate in *.
  destruct (Z.ltb_spec (0x10000 + (h - 0xD800) * 0x400 + (l - 0xDC00)) 0x10000); [lia|].
  repeat f_equal; lia.
Qed.

Lemma utf16_units_supp c : 0x10000 <= c <= 0x10FFFF ->
  exists h l, utf16_units c = [h; l] /\ high_surrogate h /\ low_surrogate l /\
    c = 0x10000 + (h - 0xD800) * 0x400 + (l - 0xDC00).
Proof.
  intros Hc. unfold utf16_units, high_surrogate, low_surrogate.
  destruct (Z.ltb_spec c 0x10000); [lia|].
  exists (0xD800 + (c - 0x10000) / 0x400), (0xDC00 + (c - 0x10000) mod 0x400).
  repeat split; lia.
Qed.

Lemma isUtf16Encodable_spec c : 0 <= c < 0x100000000 -> isUtf16Encodable c = (c <=? 0x10FFFF).
Proof. intros Hc. unfold isUtf16Encodable. rewrite land_ffe00000 by lia. lia. Qed.
