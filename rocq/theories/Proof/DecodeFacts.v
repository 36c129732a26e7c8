(* decodeUtf8 classified against Spec/Utf.v. *)
From Coq Require Import ZArith List Bool Lia ZifyBool.
From Verif Require Import Machine.
From Verif.Model Require Import Internal Decode.
From Verif.Spec Require Import Utf.
From Verif.Proof Require Import Bits Encode.
Import ListNotations.
Local Open Scope Z_scope.

(* ---------------------------------------------------------------- one sequence, arithmetic *)

Ltac masks :=
  repeat match goal with
  | |- context [?u mod ?m] =>
    match u with _ * _ => fail 1 | _ + _ => fail 1 | _ => idtac end;
    let v := fresh "v" in
    remember (u mod m) as v eqn:?
  end.

Lemma raw2_arith u0 u1 : 0xC0 <= u0 <= 0xDF -> 0x80 <= u1 <= 0xBF ->
  rawDecodeUtf8_2 u0 u1 = (u0 - 0xC0) * 0x40 + (u1 - 0x80).
Proof.
  intros H0 H1. unfold rawDecodeUtf8_2. autorewrite with bits.
  replace (u0 mod 32) with (u0 - 0xC0) by lia. replace (u1 mod 64) with (u1 - 0x80) by lia.
  apply wrap16_id. lia.
Qed.
Lemma raw3_arith u0 u1 u2 : 0xE0 <= u0 <= 0xEF -> 0x80 <= u1 <= 0xBF -> 0x80 <= u2 <= 0xBF ->
  rawDecodeUtf8_3 u0 u1 u2 = (u0 - 0xE0) * 0x1000 + (u1 - 0x80) * 0x40 + (u2 - 0x80).
Proof.
  intros H0 H1 H2. unfold rawDecodeUtf8_3. autorewrite with bits.
  replace (u0 mod 16) with (u0 - 0xE0) by lia. replace (u1 mod 64) with (u1 - 0x80) by lia.
  replace (u2 mod 64) with (u2 - 0x80) by lia. apply wrap16_id. lia.
Qed.
Lemma raw4_arith u0 u1 u2 u3 : 0xF0 <= u0 <= 0xF7 -> 0x80 <= u1 <= 0xBF -> 0x80 <= u2 <= 0xBF ->
  0x80 <= u3 <= 0xBF ->
  rawDecodeUtf8_4 u0 u1 u2 u3 =
  (u0 - 0xF0) * 0x40000 + (u1 - 0x80) * 0x1000 + (u2 - 0x80) * 0x40 + (u3 - 0x80).
Proof.
  intros H0 H1 H2 H3. unfold rawDecodeUtf8_4. autorewrite with bits.
  replace (u0 mod 8) with (u0 - 0xF0) by lia. replace (u1 mod 64) with (u1 - 0x80) by lia.
  replace (u2 mod 64) with (u2 - 0x80) by lia. replace (u3 mod 64) with (u3 - 0x80) by lia.
  apply wrap32_id. lia.
Qed.
Lemma raw5_arith u0 u1 u2 u3 u4 : 0xF8 <= u0 <= 0xFB -> 0x80 <= u1 <= 0xBF -> 0x80 <= u2 <= 0xBF ->
  0x80 <= u3 <= 0xBF -> 0x80 <= u4 <= 0xBF ->
  rawDecodeUtf8_5 u0 u1 u2 u3 u4 =
  (u0 - 0xF8) * 0x1000000 + (u1 - 0x80) * 0x40000 + (u2 - 0x80) * 0x1000 + (u3 - 0x80) * 0x40 + (u4 - 0x80).
Proof.
  intros H0 H1 H2 H3 H4. unfold rawDecodeUtf8_5. autorewrite with bits.
  replace (u0 mod 4) with (u0 - 0xF8) by lia. replace (u1 mod 64) with (u1 - 0x80) by lia.
  replace (u2 mod 64) with (u2 - 0x80) by lia. replace (u3 mod 64) with (u3 - 0x80) by lia.
  replace (u4 mod 64) with (u4 - 0x80) by lia. apply wrap32_id. lia.
Qed.
Lemma raw6_arith u0 u1 u2 u3 u4 u5 : 0xFC <= u0 <= 0xFD -> 0x80 <= u1 <= 0xBF -> 0x80 <= u2 <= 0xBF ->
  0x80 <= u3 <= 0xBF -> 0x80 <= u4 <= 0xBF -> 0x80 <= u5 <= 0xBF ->
  rawDecodeUtf8_6 u0 u1 u2 u3 u4 u5 =
  (u0 - 0xFC) * 0x40000000 + (u1 - 0x80) * 0x1000000 + (u2 - 0x80) * 0x40000 + (u3 - 0x80) * 0x1000
  + (u4 - 0x80) * 0x40 + (u5 - 0x80).
Proof.
  intros H0 H1 H2 H3 H4 H5. unfold rawDecodeUtf8_6. autorewrite with bits.
  replace (u0 mod 2) with (u0 - 0xFC) by lia. replace (u1 mod 64) with (u1 - 0x80) by lia.
  replace (u2 mod 64) with (u2 - 0x80) by lia. replace (u3 mod 64) with (u3 - 0x80) by lia.
  replace (u4 mod 64) with (u4 - 0x80) by lia. replace (u5 mod 64) with (u5 - 0x80) by lia.
  apply wrap32_id. lia.
Qed.

(* the inverse direction: the bytes are the shortest form of the value they carry *)
Lemma dm k a b : 0 <= b < k -> (a * k + b) / k = a /\ (a * k + b) mod k = b.
Proof.
  intros Hb. split.
  - rewrite Z.div_add_l by lia. rewrite Z.div_small by lia. lia.
  - rewrite Z.add_comm, Z.mod_add by lia. apply Z.mod_small. lia.
Qed.

Lemma utf8_bytes_2 u0 u1 c : 0x80 <= u1 <= 0xBF ->
  c = (u0 - 0xC0) * 0x40 + (u1 - 0x80) -> 0x80 <= c < 0x800 -> utf8_bytes c = [u0; u1].
Proof.
  intros H1 Hc Hr. unfold utf8_bytes. rewrite group_0. change (64 ^ 1) with 0x40.
  destruct (Z.ltb_spec c 0x80); [lia|]. destruct (Z.ltb_spec c 0x800); [|lia].
  destruct (dm 64 (u0 - 0xC0) (u1 - 0x80)) as [E1 E2]; [lia|].
  rewrite <- Hc in E1, E2. rewrite E1, E2. repeat f_equal; lia.
Qed.
Lemma utf8_bytes_3 u0 u1 u2 c : 0x80 <= u1 <= 0xBF -> 0x80 <= u2 <= 0xBF ->
  c = (u0 - 0xE0) * 0x1000 + (u1 - 0x80) * 0x40 + (u2 - 0x80) -> 0x800 <= c < 0x10000 ->
  utf8_bytes c = [u0; u1; u2].
Proof.
  intros H1 H2 Hc Hr. unfold utf8_bytes. rewrite group_0, group_1. change (64 ^ 2) with 0x1000.
  destruct (Z.ltb_spec c 0x80); [lia|]. destruct (Z.ltb_spec c 0x800); [lia|].
  destruct (Z.ltb_spec c 0x10000); [|lia].
  assert (E0 : c / 0x1000 = u0 - 0xE0) by lia.
  assert (E1 : (c / 0x40) mod 64 = u1 - 0x80) by lia.
  assert (E2 : c mod 64 = u2 - 0x80) by lia.
  rewrite E0, E1, E2. repeat f_equal; lia.
Qed.

Lemma div_horner c k j : 0 < k -> 0 < j -> c / (k * j) = c / k / j.
Proof. intros. symmetry. apply Z.div_div; lia. Qed.

Lemma utf8_bytes_4 u0 u1 u2 u3 c : 0x80 <= u1 <= 0xBF -> 0x80 <= u2 <= 0xBF -> 0x80 <= u3 <= 0xBF ->
  c = (u0 - 0xF0) * 0x40000 + (u1 - 0x80) * 0x1000 + (u2 - 0x80) * 0x40 + (u3 - 0x80) ->
  0x10000 <= c < 0x200000 ->
  utf8_bytes c = [u0; u1; u2; u3].
Proof.
  intros H1 H2 H3 Hc Hr. unfold utf8_bytes. rewrite group_0, group_1, group_2. change (64 ^ 3) with 0x40000.
  destruct (Z.ltb_spec c 0x80); [lia|]. destruct (Z.ltb_spec c 0x800); [lia|].
  destruct (Z.ltb_spec c 0x10000); [lia|]. destruct (Z.ltb_spec c 0x200000); [|lia].
  destruct (dm 64 (((u0 - 0xF0) * 64 + (u1 - 0x80)) * 64 + (u2 - 0x80)) (u3 - 0x80)) as [A1 B1]; [lia|].
  destruct (dm 64 ((u0 - 0xF0) * 64 + (u1 - 0x80)) (u2 - 0x80)) as [A2 B2]; [lia|].
  destruct (dm 64 (u0 - 0xF0) (u1 - 0x80)) as [A3 B3]; [lia|].
  replace c with ((((u0 - 0xF0) * 64 + (u1 - 0x80)) * 64 + (u2 - 0x80)) * 64 + (u3 - 0x80)) by lia.
  change 0x40000 with (64 * 64 * 64). change 0x1000 with (64 * 64).
  rewrite !div_horner by lia. rewrite A1, B1, A2, B2, A3, B3.
  repeat f_equal; lia.
Qed.
Lemma utf8_bytes_5 u0 u1 u2 u3 u4 c : 0x80 <= u1 <= 0xBF -> 0x80 <= u2 <= 0xBF -> 0x80 <= u3 <= 0xBF ->
  0x80 <= u4 <= 0xBF ->
  c = (u0 - 0xF8) * 0x1000000 + (u1 - 0x80) * 0x40000 + (u2 - 0x80) * 0x1000 + (u3 - 0x80) * 0x40 + (u4 - 0x80) ->
  0x200000 <= c < 0x4000000 ->
  utf8_bytes c = [u0; u1; u2; u3; u4].
Proof.
  intros H1 H2 H3 H4 Hc Hr. unfold utf8_bytes. rewrite group_0, group_1, group_2, group_3.
  change (64 ^ 4) with 0x1000000.
  destruct (Z.ltb_spec c 0x80); [lia|]. destruct (Z.ltb_spec c 0x800); [lia|].
  destruct (Z.ltb_spec c 0x10000); [lia|]. destruct (Z.ltb_spec c 0x200000); [lia|].
  destruct (Z.ltb_spec c 0x4000000); [|lia].
  destruct (dm 64 ((((u0 - 0xF8) * 64 + (u1 - 0x80)) * 64 + (u2 - 0x80)) * 64 + (u3 - 0x80)) (u4 - 0x80)) as [A0 B0]; [lia|].
  destruct (dm 64 (((u0 - 0xF8) * 64 + (u1 - 0x80)) * 64 + (u2 - 0x80)) (u3 - 0x80)) as [A1 B1]; [lia|].
  destruct (dm 64 ((u0 - 0xF8) * 64 + (u1 - 0x80)) (u2 - 0x80)) as [A2 B2]; [lia|].
  destruct (dm 64 (u0 - 0xF8) (u1 - 0x80)) as [A3 B3]; [lia|].
  replace c with (((((u0 - 0xF8) * 64 + (u1 - 0x80)) * 64 + (u2 - 0x80)) * 64 + (u3 - 0x80)) * 64 + (u4 - 0x80)) by lia.
  change 0x1000000 with (64 * 64 * 64 * 64). change 0x40000 with (64 * 64 * 64). change 0x1000 with (64 * 64).
  rewrite !div_horner by lia. rewrite A0, B0, A1, B1, A2, B2, A3, B3.
  repeat f_equal; lia.
Qed.
Lemma utf8_bytes_6 u0 u1 u2 u3 u4 u5 c : 0x80 <= u1 <= 0xBF -> 0x80 <= u2 <= 0xBF -> 0x80 <= u3 <= 0xBF ->
  0x80 <= u4 <= 0xBF -> 0x80 <= u5 <= 0xBF ->
  c = (u0 - 0xFC) * 0x40000000 + (u1 - 0x80) * 0x1000000 + (u2 - 0x80) * 0x40000 + (u3 - 0x80) * 0x1000
      + (u4 - 0x80) * 0x40 + (u5 - 0x80) ->
  0x4000000 <= c ->
  utf8_bytes c = [u0; u1; u2; u3; u4; u5].
Proof.
  intros H1 H2 H3 H4 H5 Hc Hr. unfold utf8_bytes. rewrite group_0, group_1, group_2, group_3, group_4.
  change (64 ^ 5) with 0x40000000.
  destruct (Z.ltb_spec c 0x80); [lia|]. destruct (Z.ltb_spec c 0x800); [lia|].
  destruct (Z.ltb_spec c 0x10000); [lia|]. destruct (Z.ltb_spec c 0x200000); [lia|].
  destruct (Z.ltb_spec c 0x4000000); [lia|].
  destruct (dm 64 (((((u0 - 0xFC) * 64 + (u1 - 0x80)) * 64 + (u2 - 0x80)) * 64 + (u3 - 0x80)) * 64 + (u4 - 0x80)) (u5 - 0x80)) as [A4 B4]; [lia|].
  destruct (dm 64 ((((u0 - 0xFC) * 64 + (u1 - 0x80)) * 64 + (u2 - 0x80)) * 64 + (u3 - 0x80)) (u4 - 0x80)) as [A0 B0]; [lia|].
  destruct (dm 64 (((u0 - 0xFC) * 64 + (u1 - 0x80)) * 64 + (u2 - 0x80)) (u3 - 0x80)) as [A1 B1]; [lia|].
  destruct (dm 64 ((u0 - 0xFC) * 64 + (u1 - 0x80)) (u2 - 0x80)) as [A2 B2]; [lia|].
  destruct (dm 64 (u0 - 0xFC) (u1 - 0x80)) as [A3 B3]; [lia|].
  replace c with ((((((u0 - 0xFC) * 64 + (u1 - 0x80)) * 64 + (u2 - 0x80)) * 64 + (u3 - 0x80)) * 64 + (u4 - 0x80)) * 64 + (u5 - 0x80)) by lia.
  change 0x40000000 with (64 * 64 * 64 * 64 * 64). change 0x1000000 with (64 * 64 * 64 * 64).
  change 0x40000 with (64 * 64 * 64). change 0x1000 with (64 * 64).
  rewrite !div_horner by lia. rewrite A4, B4, A0, B0, A1, B1, A2, B2, A3, B3.
  repeat f_equal; lia.
Qed.

(* the forward direction: the bytes of a value, with their ranges and weights *)
Inductive shape (c : Z) : list Z -> Prop :=
| shape1 : 0 <= c < 0x80 -> shape c [c]
| shape2 u0 u1 : 0xC0 <= u0 <= 0xDF -> 0x80 <= u1 <= 0xBF -> 0x80 <= c < 0x800 ->
    c = (u0 - 0xC0) * 0x40 + (u1 - 0x80) -> shape c [u0; u1]
| shape3 u0 u1 u2 : 0xE0 <= u0 <= 0xEF -> 0x80 <= u1 <= 0xBF -> 0x80 <= u2 <= 0xBF -> 0x800 <= c < 0x10000 ->
    c = (u0 - 0xE0) * 0x1000 + (u1 - 0x80) * 0x40 + (u2 - 0x80) -> shape c [u0; u1; u2]
| shape4 u0 u1 u2 u3 : 0xF0 <= u0 <= 0xF7 -> 0x80 <= u1 <= 0xBF -> 0x80 <= u2 <= 0xBF -> 0x80 <= u3 <= 0xBF ->
    0x10000 <= c < 0x200000 ->
    c = (u0 - 0xF0) * 0x40000 + (u1 - 0x80) * 0x1000 + (u2 - 0x80) * 0x40 + (u3 - 0x80) ->
    shape c [u0; u1; u2; u3]
| shape5 u0 u1 u2 u3 u4 : 0xF8 <= u0 <= 0xFB -> 0x80 <= u1 <= 0xBF -> 0x80 <= u2 <= 0xBF -> 0x80 <= u3 <= 0xBF ->
    0x80 <= u4 <= 0xBF -> 0x200000 <= c < 0x4000000 ->
    c = (u0 - 0xF8) * 0x1000000 + (u1 - 0x80) * 0x40000 + (u2 - 0x80) * 0x1000 + (u3 - 0x80) * 0x40 + (u4 - 0x80) ->
    shape c [u0; u1; u2; u3; u4]
| shape6 u0 u1 u2 u3 u4 u5 : 0xFC <= u0 <= 0xFD -> 0x80 <= u1 <= 0xBF -> 0x80 <= u2 <= 0xBF ->
    0x80 <= u3 <= 0xBF -> 0x80 <= u4 <= 0xBF -> 0x80 <= u5 <= 0xBF -> 0x4000000 <= c < 0x80000000 ->
    c = (u0 - 0xFC) * 0x40000000 + (u1 - 0x80) * 0x1000000 + (u2 - 0x80) * 0x40000 + (u3 - 0x80) * 0x1000
        + (u4 - 0x80) * 0x40 + (u5 - 0x80) ->
    shape c [u0; u1; u2; u3; u4; u5].

Lemma horner c : c = c / 0x40 * 0x40 + c mod 0x40 /\ 0 <= c mod 0x40 < 0x40.
Proof. pose proof (Z.div_mod c 0x40 ltac:(lia)). pose proof (Z.mod_pos_bound c 0x40 ltac:(lia)). lia. Qed.

Lemma utf8_bytes_shape c : 0 <= c < 0x80000000 -> shape c (utf8_bytes c).
Proof.
  intros Hc. unfold utf8_bytes. rewrite group_0, group_1, group_2, group_3, group_4.
  change (64 ^ 1) with 0x40. change (64 ^ 2) with 0x1000. change (64 ^ 3) with 0x40000.
  change (64 ^ 4) with 0x1000000. change (64 ^ 5) with 0x40000000.
  change 0x1000 with (0x40 * 0x40). change 0x40000 with (0x40 * 0x40 * 0x40).
  change 0x1000000 with (0x40 * 0x40 * 0x40 * 0x40).
  change 0x40000000 with (0x40 * 0x40 * 0x40 * 0x40 * 0x40).
  rewrite !div_horner by lia.
  pose proof (horner c). pose proof (horner (c / 0x40)). pose proof (horner (c / 0x40 / 0x40)).
  pose proof (horner (c / 0x40 / 0x40 / 0x40)). pose proof (horner (c / 0x40 / 0x40 / 0x40 / 0x40)).
  remember (c mod 0x40) as m0 eqn:X0; clear X0. remember (c / 0x40) as d1 eqn:X1; clear X1.
  remember (d1 mod 0x40) as m1 eqn:Y1; clear Y1. remember (d1 / 0x40) as d2 eqn:X2; clear X2.
  remember (d2 mod 0x40) as m2 eqn:Y2; clear Y2. remember (d2 / 0x40) as d3 eqn:X3; clear X3.
  remember (d3 mod 0x40) as m3 eqn:Y3; clear Y3. remember (d3 / 0x40) as d4 eqn:X4; clear X4.
  remember (d4 mod 0x40) as m4 eqn:Y4; clear Y4. remember (d4 / 0x40) as d5 eqn:X5; clear X5.
  destruct (Z.ltb_spec c 0x80); [constructor; lia|].
  destruct (Z.ltb_spec c 0x800); [constructor; lia|].
  destruct (Z.ltb_spec c 0x10000); [constructor; lia|].
  destruct (Z.ltb_spec c 0x200000); [constructor; lia|].
  destruct (Z.ltb_spec c 0x4000000); [constructor; lia|].
  constructor; lia.
Qed.

Lemma shape_bytes c s : shape c s -> s = utf8_bytes c.
Proof.
  intros H; symmetry; inversion H; subst s; clear H.
  - unfold utf8_bytes. destruct (Z.ltb_spec c 0x80); [reflexivity|lia].
  - eapply utf8_bytes_2; eassumption.
  - eapply utf8_bytes_3; eassumption.
  - eapply utf8_bytes_4; eassumption.
  - eapply utf8_bytes_5; eassumption.
  - eapply utf8_bytes_6; try eassumption. lia.
Qed.

(* ---------------------------------------------------------------- decodeUtf8, forward *)

Lemma next_in lo hi u v rest k : lo <= v <= hi -> 0 < v ->
  next_byte lo hi (u :: v :: rest) k = k v (v :: rest).
Proof.
  intros H Hv. unfold next_byte. cbn [incr bind deref].
  destruct (Z.eqb_spec v 0); [lia|].
  destruct ((v <? lo) || (v >? hi)) eqn:E; [lia|reflexivity].
Qed.
Lemma next_nul lo hi u junk k :
  next_byte lo hi (u :: 0 :: junk) k = Done (0, At (0 :: junk)).
Proof. reflexivity. Qed.
Lemma next_end lo hi u k : next_byte lo hi [u] k = Undefined.
Proof. reflexivity. Qed.

Ltac dec_if :=
  match goal with
  | |- context [if ?a <=? ?b then _ else _] => destruct (Z.leb_spec a b); [try lia|try lia]
  | |- context [if ?a <? ?b then _ else _] => destruct (Z.ltb_spec a b); [try lia|try lia]
  end.

Lemma decode_shape c s rest : shape c s -> c <> 0 -> ~ surrogate c ->
  decodeUtf8 (s ++ rest) = Done (c, At (last s 0 :: rest)).
Proof.
  intros Hs Hz Hsur. unfold surrogate in Hsur.
  destruct Hs; cbn [app last]; unfold decodeUtf8; cbn [deref bind]; repeat dec_if.
  - reflexivity.
  - rewrite next_in by lia. cbn zeta. rewrite raw2_arith, <- H2 by lia. dec_if. reflexivity.
  - rewrite !next_in by lia. cbn zeta. rewrite raw3_arith, <- H3 by lia.
    destruct (isFirstHalfUtf16 c) eqn:E1; [apply isFirstHalf_spec in E1; unfold high_surrogate in E1; lia|].
    destruct (isSecondHalfUtf16 c) eqn:E2; [apply isSecondHalf_spec in E2; unfold low_surrogate in E2; lia|].
    destruct (Z.ltb_spec c 0x800); [lia|]. reflexivity.
  - rewrite !next_in by lia. cbn zeta. rewrite raw4_arith, <- H4 by lia. dec_if. reflexivity.
  - rewrite !next_in by lia. cbn zeta. rewrite raw5_arith, <- H5 by lia. dec_if. reflexivity.
  - rewrite !next_in by lia. cbn zeta. rewrite raw6_arith, <- H6 by lia. dec_if. reflexivity.
Qed.

Lemma surrogate_shape h s : surrogate h -> shape h s ->
  exists a b, s = [0xED; a; b] /\ 0xA0 <= a <= 0xBF /\ 0x80 <= b <= 0xBF /\
    h = 0xD000 + (a - 0x80) * 0x40 + (b - 0x80).
Proof.
  unfold surrogate. intros H Hs. inversion Hs; subst; try lia.
  exists u1, u2. assert (u0 = 0xED) by lia. subst u0. repeat split; lia.
Qed.

Lemma decode_pair h l rest : high_surrogate h -> low_surrogate l ->
  decodeUtf8 (utf8_bytes h ++ utf8_bytes l ++ rest) =
  Done (0x10000 + (h - 0xD800) * 0x400 + (l - 0xDC00), At (last (utf8_bytes l) 0 :: rest)).
Proof.
  unfold high_surrogate, low_surrogate. intros Hh Hl.
  pose proof (utf8_bytes_shape h ltac:(lia)) as Sh. pose proof (utf8_bytes_shape l ltac:(lia)) as Sl.
  apply surrogate_shape in Sh; [|unfold surrogate; lia].
  apply surrogate_shape in Sl; [|unfold surrogate; lia].
  destruct Sh as (a & b & Eh & Ha & Hb & Ah). destruct Sl as (a' & b' & El & Ha' & Hb' & Al).
  rewrite Eh, El. cbn [app last]. unfold decodeUtf8. cbn [deref bind].
  change (0xED <=? 0x7f) with false. change (0xED <=? 0xbf) with false.
  change (0xED <=? 0xdf) with false. change (0xED <=? 0xef) with true. cbn iota.
  rewrite !next_in by lia. cbn zeta. rewrite raw3_arith by lia.
  replace ((0xED - 0xE0) * 0x1000 + (a - 0x80) * 0x40 + (b - 0x80)) with h by lia.
  assert (E1 : isFirstHalfUtf16 h = true) by (apply isFirstHalf_spec; unfold high_surrogate; lia).
  rewrite E1. rewrite raw3_arith by lia.
  replace ((0xED - 0xE0) * 0x1000 + (a' - 0x80) * 0x40 + (b' - 0x80)) with l by lia.
  assert (E2 : isSecondHalfUtf16 l = true) by (apply isSecondHalf_spec; unfold low_surrogate; lia).
  rewrite E2. do 2 f_equal. fold (rawDecodeUtf16 h l).
  rewrite rawDecodeUtf16_arith by (unfold high_surrogate, low_surrogate; lia). reflexivity.
Qed.

Lemma last_app_cons (l : list Z) x d : last (l ++ [x]) d = x.
Proof. induction l as [|y l IH]; [reflexivity|]. cbn [app]. destruct (l ++ [x]) eqn:E.
  - destruct l; discriminate. - exact IH. Qed.

Lemma last_app_ne (l m : list Z) d : m <> [] -> last (l ++ m) d = last m d.
Proof.
  intros Hm. destruct (exists_last Hm) as (m' & x & ->).
  rewrite app_assoc, !last_app_cons. reflexivity.
Qed.

Lemma utf8_bytes_ne c : utf8_bytes c <> [].
Proof. unfold utf8_bytes. repeat (destruct (_ <? _)); discriminate. Qed.

(* a valid sequence decodes to its value and leaves p on its last byte, whatever follows *)
Lemma decode_valid c s rest : utf8_seq c s ->
  decodeUtf8 (s ++ rest) = Done (c, At (last s 0 :: rest)).
Proof.
  intros H. destruct H as [c [Hr Hn]|c Hc].
  - apply decode_shape; [apply utf8_bytes_shape; lia|lia|exact Hn].
  - destruct (utf16_units_supp c Hc) as (h & l & E & Hh & Hl & Ec). rewrite E.
    cbn [flat_map]. rewrite app_nil_r, <- app_assoc, decode_pair by assumption.
    rewrite last_app_ne by apply utf8_bytes_ne. rewrite <- Ec. reflexivity.
Qed.

(* a sequence cut short by the terminating zero: value 0, p on the zero *)
Lemma Forall_cons_inv {A} (P : A -> Prop) x l : Forall P (x :: l) -> P x /\ Forall P l.
Proof. intros H; inversion H; auto. Qed.

Ltac conts :=
  repeat match goal with
  | H : Forall continuation (_ :: _) |- _ => apply Forall_cons_inv in H; destruct H as [? H]
  | H : continuation _ |- _ => unfold continuation in H
  end.

Ltac nexts := repeat (rewrite next_in by lia); try rewrite next_nul; try rewrite next_end.

Lemma decode_3_high a b : 0xA0 <= a <= 0xAF -> 0x80 <= b <= 0xBF ->
  isFirstHalfUtf16 (rawDecodeUtf8_3 0xED a b) = true.
Proof.
  intros Ha Hb. rewrite raw3_arith by lia. apply isFirstHalf_spec. unfold high_surrogate. lia.
Qed.

Lemma decode_cut_gen t rest res : cut_short t ->
  (rest = [] /\ res = Undefined) \/ (exists junk, rest = 0 :: junk /\ res = Done (0, At (0 :: junk))) ->
  decodeUtf8 (t ++ rest) = res.
Proof.
  intros Ht Hrest.
  assert (N : forall lo hi u k, next_byte lo hi (u :: rest) k = res).
  { intros. destruct Hrest as [[-> ->]|(junk & -> & ->)]; reflexivity. }
  destruct Ht as [b n conts0 Hl Hlen Hc|a b Ha Hb|a b x conts0 Ha Hb Hx Hlen Hc].
  - unfold lead in Hl. unfold decodeUtf8. cbn [app deref bind].
    repeat dec_if; cbn [length] in Hlen;
    repeat (destruct conts0 as [|? conts0];
      [ cbn [app]; repeat (rewrite next_in by lia); apply N
      | let H := fresh "Hcont" in
        apply Forall_cons_inv in Hc; destruct Hc as [H Hc]; unfold continuation in H;
        cbn [length] in Hlen; try lia; cbn [app] ]).
  - unfold continuation in Hb. unfold decodeUtf8. cbn [app deref bind].
    change (0xED <=? 0x7f) with false. change (0xED <=? 0xbf) with false.
    change (0xED <=? 0xdf) with false. change (0xED <=? 0xef) with true. cbn iota.
    rewrite !next_in by lia. cbn zeta. rewrite (decode_3_high a b) by lia. cbn beta iota. apply N.
  - unfold continuation in Hb. unfold lead in Hx. unfold decodeUtf8. cbn [app deref bind].
    change (0xED <=? 0x7f) with false. change (0xED <=? 0xbf) with false.
    change (0xED <=? 0xdf) with false. change (0xED <=? 0xef) with true. cbn iota.
    rewrite !next_in by lia. cbn zeta. rewrite (decode_3_high a b) by lia. cbn beta iota.
    rewrite ?next_in by lia.
    destruct conts0 as [|y conts0]; [apply N|].
    apply Forall_cons_inv in Hc. destruct Hc as [Hc1 Hc]. unfold continuation in Hc1.
    cbn [app]. rewrite ?next_in by lia.
    destruct conts0 as [|z conts0]; [apply N|cbn [length] in Hlen; lia].
Qed.

Lemma decode_cut t junk : cut_short t -> decodeUtf8 (t ++ 0 :: junk) = Done (0, At (0 :: junk)).
Proof. intros H. eapply decode_cut_gen; [exact H|]. right. eauto. Qed.
Lemma decode_cut_end t : cut_short t -> decodeUtf8 t = Undefined.
Proof. intros H. rewrite <- (app_nil_r t). eapply decode_cut_gen; [exact H|]. left. auto. Qed.

(* ---------------------------------------------------------------- decodeUtf8, backward *)

(* what a call can do: the possible results with what they say about the bytes *)
Inductive decoded (p : list Z) : outcome (Z * ptr) -> Prop :=
| dec_ok c s rest : p = s ++ rest -> utf8_seq c s -> decoded p (Done (c, At (last s 0 :: rest)))
| dec_zero rest : p = 0 :: rest -> decoded p (Done (0, At p))
| dec_cut t junk : p = t ++ 0 :: junk -> cut_short t -> decoded p (Done (0, At (0 :: junk)))
| dec_bad : decoded p (Done (0, Null))
| dec_end : p = [] \/ cut_short p -> decoded p Undefined.

Lemma last1 (x : Z) d : last [x] d = x. Proof. reflexivity. Qed.

Lemma next_cases lo hi u rest k (D : outcome (Z * ptr) -> Prop) :
  0 < lo ->
  (rest = [] -> D Undefined) ->
  (forall junk, rest = 0 :: junk -> D (Done (0, At (0 :: junk)))) ->
  D (Done (0, Null)) ->
  (forall v r, rest = v :: r -> lo <= v <= hi -> D (k v (v :: r))) ->
  D (next_byte lo hi (u :: rest) k).
Proof.
  intros Hlo He Hz Hn Hk. unfold next_byte. cbn [incr bind].
  destruct rest as [|v r]; [exact (He eq_refl)|]. cbn [deref bind].
  destruct (Z.eqb_spec v 0) as [->|Hv0]; [exact (Hz r eq_refl)|].
  destruct ((v <? lo) || (v >? hi)) eqn:E; [exact Hn|].
  apply Hk; [reflexivity|lia].
Qed.

Ltac cut_n n :=
  apply (cut_plain _ n); [unfold lead; lia | cbn [length]; lia | repeat constructor; unfold continuation; lia].
Ltac cut_goal := first [cut_n 2 | cut_n 3 | cut_n 4 | cut_n 5 | cut_n 6].

Lemma decodeUtf8_cases p : 0 <= hd 0 p -> decoded p (decodeUtf8 p).
Proof.
  intros Hp. destruct p as [|u0 p]; [cbn; apply dec_end; auto|]. cbn [hd] in Hp.
  unfold decodeUtf8. cbn [deref bind].
  assert (Seq : forall c s rest, u0 :: p = s ++ rest -> shape c s -> c <> 0 -> ~ surrogate c ->
            decoded (u0 :: p) (Done (c, At (last s 0 :: rest)))).
  { intros c s rest E S Z N. apply dec_ok with (s := s); [exact E|].
    rewrite (shape_bytes c s S). constructor. split; [|exact N]. inversion S; lia. }
  destruct (Z.leb_spec u0 0x7f).
  { destruct (Z.eq_dec u0 0) as [->|Hz]; [eapply dec_zero; reflexivity|].
    apply (Seq u0 [u0] p); [reflexivity|constructor; lia|lia|unfold surrogate; lia]. }
  destruct (Z.leb_spec u0 0xbf); [apply dec_bad|].
  destruct (Z.leb_spec u0 0xdf).
  { apply next_cases; [lia|..].
    - intros ->. apply dec_end. right. cut_goal.
    - intros junk ->. apply (dec_cut _ [u0]); [reflexivity|cut_goal].
    - apply dec_bad.
    - intros u1 r -> H1'. cbn zeta. rewrite raw2_arith by lia.
      destruct (Z.ltb_spec ((u0 - 0xC0) * 0x40 + (u1 - 0x80)) 0x80); [apply dec_bad|].
      apply (Seq _ [u0; u1] r); [reflexivity|constructor; lia|lia|unfold surrogate; lia]. }
  destruct (Z.leb_spec u0 0xef).
  { apply next_cases; [lia|..].
    { intros ->. apply dec_end. right. cut_goal. }
    { intros junk ->. apply (dec_cut _ [u0]); [reflexivity|cut_goal]. }
    { apply dec_bad. }
    intros u1 r1 -> H1'. apply next_cases; [lia|..].
    { intros ->. apply dec_end. right. cut_goal. }
    { intros junk ->. apply (dec_cut _ [u0; u1]); [reflexivity|cut_goal]. }
    { apply dec_bad. }
    intros u2 r2 -> H2'. cbn zeta. rewrite raw3_arith by lia.
    remember ((u0 - 0xE0) * 0x1000 + (u1 - 0x80) * 0x40 + (u2 - 0x80)) as w eqn:Ew.
    destruct (isFirstHalfUtf16 w) eqn:E1.
    - apply isFirstHalf_spec in E1. unfold high_surrogate in E1.
      assert (u0 = 0xED) by lia. assert (0xA0 <= u1 <= 0xAF) by lia. subst u0.
      apply next_cases; [lia|..].
      { intros ->. apply dec_end. right. apply cut_pair0; unfold continuation; lia. }
      { intros junk ->. apply (dec_cut _ [0xED; u1; u2]); [reflexivity|].
        apply cut_pair0; unfold continuation; lia. }
      { apply dec_bad. }
      intros u3 r3 -> H3'. apply next_cases; [lia|..].
      { intros ->. apply dec_end. right.
        eapply (cut_pair1 u1 u2 u3 []); [lia|unfold continuation; lia|unfold lead; lia|cbn; lia|constructor]. }
      { intros junk ->. apply (dec_cut _ [0xED; u1; u2; u3]); [reflexivity|].
        eapply (cut_pair1 u1 u2 u3 []); [lia|unfold continuation; lia|unfold lead; lia|cbn; lia|constructor]. }
      { apply dec_bad. }
      intros u4 r4 -> H4'. apply next_cases; [lia|..].
      { intros ->. apply dec_end. right.
        eapply (cut_pair1 u1 u2 u3 [u4]); [lia|unfold continuation; lia|unfold lead; lia|cbn; lia
          |repeat constructor; unfold continuation; lia]. }
      { intros junk ->. apply (dec_cut _ [0xED; u1; u2; u3; u4]); [reflexivity|].
        eapply (cut_pair1 u1 u2 u3 [u4]); [lia|unfold continuation; lia|unfold lead; lia|cbn; lia
          |repeat constructor; unfold continuation; lia]. }
      { apply dec_bad. }
      intros u5 r5 -> H5'. cbn zeta. rewrite raw3_arith by lia.
      remember ((u3 - 0xE0) * 0x1000 + (u4 - 0x80) * 0x40 + (u5 - 0x80)) as w2 eqn:Ew2.
      destruct (isSecondHalfUtf16 w2) eqn:E2; [|apply dec_bad].
      apply isSecondHalf_spec in E2. unfold low_surrogate in E2.
      fold (rawDecodeUtf16 w w2). rewrite rawDecodeUtf16_arith by (unfold high_surrogate, low_surrogate; lia).
      change (decoded (0xED :: u1 :: u2 :: u3 :: u4 :: u5 :: r5)
        (Done (0x10000 + (w - 0xD800) * 0x400 + (w2 - 0xDC00),
               At (last [0xED; u1; u2; u3; u4; u5] 0 :: r5)))).
      apply dec_ok; [reflexivity|].
      assert (Eseq : [0xED; u1; u2; u3; u4; u5] =
        flat_map utf8_bytes (utf16_units (0x10000 + (w - 0xD800) * 0x400 + (w2 - 0xDC00)))).
      { rewrite utf16_units_pair by (unfold high_surrogate, low_surrogate; lia).
        cbn [flat_map]. rewrite (utf8_bytes_3 0xED u1 u2 w), (utf8_bytes_3 u3 u4 u5 w2) by lia. reflexivity. }
      rewrite Eseq. apply seq_pair. lia.
    - destruct ((w <? 0x800) || isSecondHalfUtf16 w) eqn:E2; [apply dec_bad|].
      apply orb_false_iff in E2. destruct E2 as [E2 E3].
      apply (Seq w [u0; u1; u2] r2); [reflexivity|constructor; lia|lia|].
      unfold surrogate. intros Hs.
      assert (isFirstHalfUtf16 w = true \/ isSecondHalfUtf16 w = true) as [F|F]; [|congruence|congruence].
      rewrite isFirstHalf_spec, isSecondHalf_spec. unfold high_surrogate, low_surrogate. lia. }
  destruct (Z.leb_spec u0 0xf7).
  { apply next_cases; [lia|..].
    { intros ->. apply dec_end. right. cut_goal. }
    { intros junk ->. apply (dec_cut _ [u0]); [reflexivity|cut_goal]. }
    { apply dec_bad. }
    intros u1 r1 -> H1'. apply next_cases; [lia|..].
    { intros ->. apply dec_end. right. cut_goal. }
    { intros junk ->. apply (dec_cut _ [u0; u1]); [reflexivity|cut_goal]. }
    { apply dec_bad. }
    intros u2 r2 -> H2'. apply next_cases; [lia|..].
    { intros ->. apply dec_end. right. cut_goal. }
    { intros junk ->. apply (dec_cut _ [u0; u1; u2]); [reflexivity|cut_goal]. }
    { apply dec_bad. }
    intros u3 r3 -> H3'. cbn zeta. rewrite raw4_arith by lia.
    match goal with |- context [if ?a <? ?b then _ else _] => destruct (Z.ltb_spec a b) end; [apply dec_bad|].
    apply (Seq _ [u0; u1; u2; u3] r3); [reflexivity|constructor; lia|lia|unfold surrogate; lia]. }
  destruct (Z.leb_spec u0 0xfb).
  { apply next_cases; [lia|..].
    { intros ->. apply dec_end. right. cut_goal. }
    { intros junk ->. apply (dec_cut _ [u0]); [reflexivity|cut_goal]. }
    { apply dec_bad. }
    intros u1 r1 -> H1'. apply next_cases; [lia|..].
    { intros ->. apply dec_end. right. cut_goal. }
    { intros junk ->. apply (dec_cut _ [u0; u1]); [reflexivity|cut_goal]. }
    { apply dec_bad. }
    intros u2 r2 -> H2'. apply next_cases; [lia|..].
    { intros ->. apply dec_end. right. cut_goal. }
    { intros junk ->. apply (dec_cut _ [u0; u1; u2]); [reflexivity|cut_goal]. }
    { apply dec_bad. }
    intros u3 r3 -> H3'. apply next_cases; [lia|..].
    { intros ->. apply dec_end. right. cut_goal. }
    { intros junk ->. apply (dec_cut _ [u0; u1; u2; u3]); [reflexivity|cut_goal]. }
    { apply dec_bad. }
    intros u4 r4 -> H4'. cbn zeta. rewrite raw5_arith by lia.
    match goal with |- context [if ?a <? ?b then _ else _] => destruct (Z.ltb_spec a b) end; [apply dec_bad|].
    apply (Seq _ [u0; u1; u2; u3; u4] r4); [reflexivity|constructor; lia|lia|unfold surrogate; lia]. }
  destruct (Z.leb_spec u0 0xfd); [|apply dec_bad].
  { apply next_cases; [lia|..].
    { intros ->. apply dec_end. right. cut_goal. }
    { intros junk ->. apply (dec_cut _ [u0]); [reflexivity|cut_goal]. }
    { apply dec_bad. }
    intros u1 r1 -> H1'. apply next_cases; [lia|..].
    { intros ->. apply dec_end. right. cut_goal. }
    { intros junk ->. apply (dec_cut _ [u0; u1]); [reflexivity|cut_goal]. }
    { apply dec_bad. }
    intros u2 r2 -> H2'. apply next_cases; [lia|..].
    { intros ->. apply dec_end. right. cut_goal. }
    { intros junk ->. apply (dec_cut _ [u0; u1; u2]); [reflexivity|cut_goal]. }
    { apply dec_bad. }
    intros u3 r3 -> H3'. apply next_cases; [lia|..].
    { intros ->. apply dec_end. right. cut_goal. }
    { intros junk ->. apply (dec_cut _ [u0; u1; u2; u3]); [reflexivity|cut_goal]. }
    { apply dec_bad. }
    intros u4 r4 -> H4'. apply next_cases; [lia|..].
    { intros ->. apply dec_end. right. cut_goal. }
    { intros junk ->. apply (dec_cut _ [u0; u1; u2; u3; u4]); [reflexivity|cut_goal]. }
    { apply dec_bad. }
    intros u5 r5 -> H5'. cbn zeta. rewrite raw6_arith by lia.
    match goal with |- context [if ?a <? ?b then _ else _] => destruct (Z.ltb_spec a b) end; [apply dec_bad|].
    apply (Seq _ [u0; u1; u2; u3; u4; u5] r5); [reflexivity|constructor; lia|lia|unfold surrogate; lia]. }
Qed.
