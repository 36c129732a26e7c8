(* UTF-8 output is injective and preserves the order of code-point sequences; UTF-16 output is
   injective. *)
From Coq Require Import ZArith List Bool Lia ZifyBool.
From Verif Require Import Machine.
From Verif.Model Require Import Internal Decode Str.
From Verif.Spec Require Import Utf Target Lex Result.
From Verif.Proof Require Import Bits Encode DecodeFacts TextFacts ToFuncs IsFuncs Lenient LengthFuncs Round Consequences.
Import ListNotations.
Local Open Scope Z_scope.

(* ---------------------------------------------------------------- the order itself *)

Lemma lex_irrefl a : ~ lex_lt a a.
Proof. induction a as [|x a IH]; intros H; inversion H; subst; [lia|tauto]. Qed.
Lemma lex_asym a b : lex_lt a b -> ~ lex_lt b a.
Proof. induction 1; intros H'; inversion H'; subst; try lia; tauto. Qed.
Lemma lex_total a b : lex_lt a b \/ a = b \/ lex_lt b a.
Proof.
  revert b. induction a as [|x a IH]; intros [|y b]; [tauto|left; constructor|right; right; constructor|].
  destruct (Z.lt_trichotomy x y) as [H|[->|H]]; [left; now constructor| |right; right; now constructor].
  destruct (IH b) as [H|[->|H]]; [left; now constructor|tauto|right; right; now constructor].
Qed.
Lemma lex_app p a b : lex_lt a b -> lex_lt (p ++ a) (p ++ b).
Proof. intros H. induction p as [|x p IH]; [exact H|]. cbn [app]. now apply lex_next. Qed.

(* ---------------------------------------------------------------- one code point *)

Fixpoint groups (n : nat) (c : Z) : list Z :=
  match n with O => [] | S n => group (Z.of_nat n) c :: groups n c end.

Lemma div_step c n : c / 64 ^ Z.of_nat (S n) = (c / 64 ^ Z.of_nat n) / 64.
Proof. rewrite Nat2Z.inj_succ, Z.pow_succ_r by lia. rewrite Z.mul_comm, Z.div_div by lia. reflexivity. Qed.

Lemma groups_lt n c d x y : 0 <= c -> c < d -> c / 64 ^ Z.of_nat n = d / 64 ^ Z.of_nat n ->
  lex_lt (groups n c ++ x) (groups n d ++ y).
Proof.
  intros Hc Hcd. induction n as [|n IH]; intros E.
  - cbn in E. rewrite !Z.div_1_r in E. lia.
  - rewrite !div_step in E. cbn [groups app]. unfold group.
    pose proof (Z.div_le_mono c d (64 ^ Z.of_nat n) ltac:(lia) ltac:(lia)) as Hle.
    set (q := c / 64 ^ Z.of_nat n) in *. set (r := d / 64 ^ Z.of_nat n) in *.
    destruct (Z.lt_trichotomy (q mod 64) (r mod 64)) as [H|[H|H]].
    + apply lex_here. lia.
    + rewrite H. apply lex_next, IH. lia.
    + exfalso. lia.
Qed.

Lemma lead_groups b n c d x y : 0 <= c -> c < d ->
  lex_lt ((b + c / 64 ^ Z.of_nat n :: groups n c) ++ x) ((b + d / 64 ^ Z.of_nat n :: groups n d) ++ y).
Proof.
  intros Hc Hcd. cbn [app].
  pose proof (Z.div_le_mono c d (64 ^ Z.of_nat n) ltac:(lia) ltac:(lia)) as Hle.
  destruct (Z.eq_dec (c / 64 ^ Z.of_nat n) (d / 64 ^ Z.of_nat n)) as [E|E].
  - rewrite E. apply lex_next. now apply groups_lt.
  - apply lex_here. lia.
Qed.

Lemma utf8_bytes_lt c d x y : encodable8 c -> encodable8 d -> c < d ->
  lex_lt (utf8_bytes c ++ x) (utf8_bytes d ++ y).
Proof.
  intros [Hc _] [Hd _] Hcd.
  assert (Hcases : forall c, 0 < c < 0x80000000 ->
    exists n b, (n <= 5)%nat /\ utf8_bytes c = (b + c / 64 ^ Z.of_nat n) :: groups n c /\
      match n with
      | O => b = 0 /\ c < 0x80
      | 1%nat => b = 0xC0 /\ 0x80 <= c < 0x800
      | 2%nat => b = 0xE0 /\ 0x800 <= c < 0x10000
      | 3%nat => b = 0xF0 /\ 0x10000 <= c < 0x200000
      | 4%nat => b = 0xF8 /\ 0x200000 <= c < 0x4000000
      | _ => b = 0xFC /\ 0x4000000 <= c
      end).
  { clear. intros c Hc. unfold utf8_bytes.
    destruct (Z.ltb_spec c 0x80). { exists 0%nat, 0. cbn. rewrite Z.div_1_r. repeat split; try lia. }
    destruct (Z.ltb_spec c 0x800). { exists 1%nat, 0xC0. repeat split; lia. }
    destruct (Z.ltb_spec c 0x10000). { exists 2%nat, 0xE0. repeat split; lia. }
    destruct (Z.ltb_spec c 0x200000). { exists 3%nat, 0xF0. repeat split; lia. }
    destruct (Z.ltb_spec c 0x4000000). { exists 4%nat, 0xF8. repeat split; lia. }
    exists 5%nat, 0xFC. repeat split; lia. }
  destruct (Hcases c Hc) as (n & b & Hn & -> & Hb). destruct (Hcases d Hd) as (m & b' & Hm & -> & Hb').
  destruct (Nat.eq_dec n m) as [<-|Hnm].
  - assert (b = b') by (destruct n as [|[|[|[|[|?]]]]]; lia). subst b'. apply lead_groups; lia.
  - cbn [app]. apply lex_here.
    destruct n as [|[|[|[|[|[|n]]]]]]; destruct m as [|[|[|[|[|[|m]]]]]]; try lia;
      destruct Hb as [-> Hb]; destruct Hb' as [-> Hb']; cbn [Z.of_nat Pos.of_succ_nat Pos.succ] in *;
      repeat match goal with |- context [64 ^ ?k] => let v := eval compute in (64 ^ k) in change (64 ^ k) with v end; lia.
Qed.

Lemma flat_lt a b : Forall encodable8 a -> Forall encodable8 b -> lex_lt a b ->
  lex_lt (flat_map utf8_bytes a) (flat_map utf8_bytes b).
Proof.
  intros Ha Hb H. induction H as [y ys|x y xs ys H|x xs ys H IH]; cbn [flat_map].
  - pose proof (utf8_bytes_shape y ltac:(apply Forall_cons_inv in Hb; destruct Hb as [[] _]; lia)) as S.
    inversion S; cbn [app]; constructor.
  - apply Forall_cons_inv in Ha. apply Forall_cons_inv in Hb. now apply utf8_bytes_lt.
  - apply Forall_cons_inv in Ha. apply Forall_cons_inv in Hb. apply lex_app. tauto.
Qed.

Lemma flat_order a b : Forall encodable8 a -> Forall encodable8 b ->
  (lex_lt (flat_map utf8_bytes a) (flat_map utf8_bytes b) <-> lex_lt a b) /\
  (flat_map utf8_bytes a = flat_map utf8_bytes b <-> a = b).
Proof.
  intros Ha Hb. destruct (lex_total a b) as [H|[->|H]].
  - pose proof (flat_lt a b Ha Hb H) as H'. split; split; auto.
    + intros E. rewrite E in H'. now apply lex_irrefl in H'.
    + intros ->. now apply lex_irrefl in H.
  - split; [|tauto]. split; intros H; now apply lex_irrefl in H.
  - pose proof (flat_lt b a Hb Ha H) as H'. split; split; auto.
    + intros H1. now apply lex_asym in H1.
    + intros H1. now apply lex_asym in H1.
    + intros E. rewrite E in H'. now apply lex_irrefl in H'.
    + intros ->. now apply lex_irrefl in H.
Qed.

Lemma toUtf8_32_ordered a b : Forall encodable8 a -> Forall encodable8 b ->
  exists ra rb, toUtf8_32_string a = Done ra /\ toUtf8_32_string b = Done rb /\
    (lex_lt ra rb <-> lex_lt a b) /\ (ra = rb <-> a = b).
Proof.
  intros Ha Hb. exists (flat_map utf8_bytes a), (flat_map utf8_bytes b). repeat split.
  - apply (toUtf8_32_exact a []); [now apply encodable8_text32|assumption].
  - apply (toUtf8_32_exact b []); [now apply encodable8_text32|assumption].
  - now apply flat_order.
  - now apply flat_order.
  - now apply flat_order.
  - now intros ->.
Qed.

Lemma toUtf16_32_injective a b : Forall scalar a -> Forall scalar b ->
  exists ra rb, toUtf16_32_string a = Done ra /\ toUtf16_32_string b = Done rb /\ (ra = rb <-> a = b).
Proof.
  intros Ha Hb. exists (flat_map utf16_units a), (flat_map utf16_units b). repeat split.
  - apply (toUtf16_32_exact a []); [now apply encodable8_text32, scalars_encodable8|assumption].
  - apply (toUtf16_32_exact b []); [now apply encodable8_text32, scalars_encodable8|assumption].
  - intros E. apply (reads16_unique (flat_map utf16_units a)); [now apply text16_flat| |].
    + now apply utf16_text_reads, utf16_text_flat.
    + rewrite E. now apply utf16_text_reads, utf16_text_flat.
  - now intros ->.
Qed.
