(* Masks, shifts and disjoint ors as arithmetic. *)
From Coq Require Import ZArith List Bool Lia ZifyBool.
From Verif Require Import Machine.
Import ListNotations.
Local Open Scope Z_scope.

Lemma land_1 x : Z.land x 0x01 = x mod 2.
Proof. exact (Z.land_ones x 1 ltac:(lia)). Qed.
Lemma land_3 x : Z.land x 0x03 = x mod 4.
Proof. exact (Z.land_ones x 2 ltac:(lia)). Qed.
Lemma land_7 x : Z.land x 0x07 = x mod 8.
Proof. exact (Z.land_ones x 3 ltac:(lia)). Qed.
Lemma land_f x : Z.land x 0x0f = x mod 16.
Proof. exact (Z.land_ones x 4 ltac:(lia)). Qed.
Lemma land_1f x : Z.land x 0x1f = x mod 32.
Proof. exact (Z.land_ones x 5 ltac:(lia)). Qed.
Lemma land_3f x : Z.land x 0x3f = x mod 64.
Proof. exact (Z.land_ones x 6 ltac:(lia)). Qed.
Lemma land_3ff x : Z.land x 0x3ff = x mod 0x400.
Proof. exact (Z.land_ones x 10 ltac:(lia)). Qed.

Lemma shiftl_6 x : Z.shiftl x 6 = x * 0x40. Proof. now rewrite Z.shiftl_mul_pow2. Qed.
Lemma shiftl_10 x : Z.shiftl x 10 = x * 0x400. Proof. now rewrite Z.shiftl_mul_pow2. Qed.
Lemma shiftl_12 x : Z.shiftl x 12 = x * 0x1000. Proof. now rewrite Z.shiftl_mul_pow2. Qed.
Lemma shiftl_18 x : Z.shiftl x 18 = x * 0x40000. Proof. now rewrite Z.shiftl_mul_pow2. Qed.
Lemma shiftl_24 x : Z.shiftl x 24 = x * 0x1000000. Proof. now rewrite Z.shiftl_mul_pow2. Qed.
Lemma shiftl_30 x : Z.shiftl x 30 = x * 0x40000000. Proof. now rewrite Z.shiftl_mul_pow2. Qed.
Lemma shiftr_6 x : Z.shiftr x 6 = x / 0x40. Proof. now rewrite Z.shiftr_div_pow2. Qed.
Lemma shiftr_10 x : Z.shiftr x 10 = x / 0x400. Proof. now rewrite Z.shiftr_div_pow2. Qed.
Lemma shiftr_12 x : Z.shiftr x 12 = x / 0x1000. Proof. now rewrite Z.shiftr_div_pow2. Qed.
Lemma shiftr_18 x : Z.shiftr x 18 = x / 0x40000. Proof. now rewrite Z.shiftr_div_pow2. Qed.
Lemma shiftr_24 x : Z.shiftr x 24 = x / 0x1000000. Proof. now rewrite Z.shiftr_div_pow2. Qed.
Lemma shiftr_30 x : Z.shiftr x 30 = x / 0x40000000. Proof. now rewrite Z.shiftr_div_pow2. Qed.

(* x below 2^n or'ed with a multiple of 2^n *)
Lemma lor_disjoint n x k : 0 <= n -> 0 <= x < 2 ^ n -> Z.lor x (k * 2 ^ n) = x + k * 2 ^ n.
Proof.
  intros Hn Hx. rewrite <- Z.shiftl_mul_pow2 by lia.
  rewrite Z.add_nocarry_lxor, Z.lxor_lor; [reflexivity| |].
  all: apply Z.bits_inj'; intros i Hi; rewrite Z.land_spec, Z.bits_0;
    destruct (Z.ltb_spec i n) as [Hlt|Hge];
    [ rewrite Z.shiftl_spec_low by lia; apply andb_false_r
    | rewrite <- (Z.mod_small x (2 ^ n)) by lia; rewrite Z.mod_pow2_bits_high by lia; reflexivity ].
Qed.

Lemma lor_80 x : 0 <= x < 64 -> Z.lor x 0x80 = x + 0x80.
Proof. exact (lor_disjoint 6 x 2 ltac:(lia)). Qed.
Lemma lor_c0 x : 0 <= x < 32 -> Z.lor x 0xc0 = x + 0xc0.
Proof. intros H. exact (lor_disjoint 5 x 6 ltac:(lia) H). Qed.
Lemma lor_e0 x : 0 <= x < 16 -> Z.lor x 0xe0 = x + 0xe0.
Proof. intros H. exact (lor_disjoint 4 x 14 ltac:(lia) H). Qed.
Lemma lor_f0 x : 0 <= x < 8 -> Z.lor x 0xf0 = x + 0xf0.
Proof. intros H. exact (lor_disjoint 3 x 30 ltac:(lia) H). Qed.
Lemma lor_f8 x : 0 <= x < 4 -> Z.lor x 0xf8 = x + 0xf8.
Proof. intros H. exact (lor_disjoint 2 x 62 ltac:(lia) H). Qed.
Lemma lor_fc x : 0 <= x < 2 -> Z.lor x 0xfc = x + 0xfc.
Proof. intros H. exact (lor_disjoint 1 x 126 ltac:(lia) H). Qed.

(* c & 0xffffff80 == 0 for a 32-bit c *)
Lemma land_hi_zero n m c : 0 <= n <= m -> 0 <= c < 2 ^ m ->
  Z.land c (2 ^ m - 2 ^ n) = c - c mod 2 ^ n.
Proof.
  intros Hn Hc.
  replace (2 ^ m - 2 ^ n) with (Z.shiftl (Z.ones (m - n)) n).
  2:{ rewrite Z.shiftl_mul_pow2, Z.ones_equiv by lia. rewrite <- Z.sub_1_r, Z.mul_sub_distr_r.
      rewrite <- Z.pow_add_r by lia. replace (m - n + n) with m by lia. lia. }
  replace (c - c mod 2 ^ n) with (Z.shiftl (Z.shiftr c n) n).
  2:{ rewrite Z.shiftl_mul_pow2, Z.shiftr_div_pow2 by lia.
      pose proof (Z.div_mod c (2 ^ n) ltac:(apply Z.pow_nonzero; lia)). lia. }
  apply Z.bits_inj'; intros i Hi. rewrite Z.land_spec.
  destruct (Z.ltb_spec i n) as [Hlt|Hge].
  - rewrite !Z.shiftl_spec_low by lia. apply andb_false_r.
  - rewrite !Z.shiftl_spec by lia. rewrite Z.shiftr_spec by lia.
    replace (i - n + n) with i by lia.
    rewrite Z.testbit_ones_nonneg by lia.
    destruct (Z.ltb_spec (i - n) (m - n)) as [Hlt|Hge2]; [apply andb_true_r|].
    rewrite andb_false_r. symmetry.
    rewrite <- (Z.mod_small c (2 ^ m)) by lia. apply Z.mod_pow2_bits_high. lia.
Qed.

Lemma land_ffffff80 c : 0 <= c < 0x100000000 -> (Z.land c 0xffffff80 =? 0) = (c <? 0x80).
Proof.
  intros Hc. change 0xffffff80 with (2 ^ 32 - 2 ^ 7). rewrite land_hi_zero by lia.
  change (2 ^ 7) with 0x80.
  pose proof (Z.mod_pos_bound c 0x80 ltac:(lia)). pose proof (Z.div_mod c 0x80 ltac:(lia)).
  destruct (Z.ltb_spec c 0x80); [rewrite Z.mod_small by lia|]; lia.
Qed.
Lemma land_80000000 c : 0 <= c < 0x100000000 -> (Z.land c 0x80000000 =? 0) = (c <? 0x80000000).
Proof.
  intros Hc. change 0x80000000 with (2 ^ 32 - 2 ^ 31) at 1. rewrite land_hi_zero by lia.
  change (2 ^ 31) with 0x80000000.
  pose proof (Z.mod_pos_bound c 0x80000000 ltac:(lia)). pose proof (Z.div_mod c 0x80000000 ltac:(lia)).
  destruct (Z.ltb_spec c 0x80000000); [rewrite Z.mod_small by lia|]; lia.
Qed.
Lemma land_ffe00000 c : 0 <= c < 0x100000000 ->
  (Z.land c (wrap32 (Z.lnot 0x1fffff)) =? 0) = (c <? 0x200000).
Proof.
  intros Hc. change (wrap32 (Z.lnot 0x1fffff)) with (2 ^ 32 - 2 ^ 21). rewrite land_hi_zero by lia.
  change (2 ^ 21) with 0x200000.
  pose proof (Z.mod_pos_bound c 0x200000 ltac:(lia)). pose proof (Z.div_mod c 0x200000 ltac:(lia)).
  destruct (Z.ltb_spec c 0x200000); [rewrite Z.mod_small by lia|]; lia.
Qed.

Lemma wrap8_id x : 0 <= x < 0x100 -> wrap8 x = x.
Proof. apply Z.mod_small. Qed.
Lemma wrap16_id x : 0 <= x < 0x10000 -> wrap16 x = x.
Proof. apply Z.mod_small. Qed.
Lemma wrap32_id x : 0 <= x < 0x100000000 -> wrap32 x = x.
Proof. apply Z.mod_small. Qed.

Global Hint Rewrite land_1 land_3 land_7 land_f land_1f land_3f land_3ff
  shiftl_6 shiftl_10 shiftl_12 shiftl_18 shiftl_24 shiftl_30
  shiftr_6 shiftr_10 shiftr_12 shiftr_18 shiftr_24 shiftr_30 : bits.

Ltac Zify.zify_post_hook ::= Z.div_mod_to_equations.
