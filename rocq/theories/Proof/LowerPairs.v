(* What the pairs (code point, lower-case mapping) have in common, for all ten versions. *)
From Coq Require Import ZArith List Bool Lia ZifyBool.
From Verif Require Import Machine.
From Verif.Model Require Import Tables Predicate.
From Verif.Spec Require Import Utf Result Ucd Lowercase Text.
From Verif.Proof Require Import Bits Sweep Classes LowerTools TablesFacts CaseFacts.
Import ListNotations.
Local Open Scope Z_scope.

Definition pairs (v : version) : list (Z * Z) := amended (ucd_lower v) (lower_missing v) (lower_extra v).

Definition plain (c : Z) : bool := (0x20 <? c) && ((c <? 0xD800) || (0xDFFF <? c)) && (c <=? 0x10FFFF).
Definition size8 (c : Z) : Z := if c <? 0x80 then 1 else if c <? 0x800 then 2 else if c <? 0x10000 then 3 else 4.
Definition pair_ok (T : UnicodeTables) (c d : Z) : bool :=
  (charToEncodingTypeMask32 T c =? charToEncodingTypeMask32 T d) && plain c && plain d &&
  negb (t_space32 T c) && Bool.eqb (c <? 0x10000) (d <? 0x10000) && (size8 d <=? 2 * size8 c).
Definition more_ok (c d : Z) : bool := ((0x80 <=? c) || (d <? 0x80)) && (2 * size8 d <=? 3 * size8 c).
Definition all_ok (v : version) : bool := forallb (fun p => pair_ok (tables v) (fst p) (snd p) && more_ok (fst p) (snd p)) (pairs v).
Lemma all_pairs v : all_ok v = true.
Proof. destruct v; vm_cast_no_check (eq_refl true). Qed.

Lemma lower_pair v c : unit32 c -> t_lower (tables v) c = c \/
  pair_ok (tables v) c (t_lower (tables v) c) = true /\ more_ok c (t_lower (tables v) c) = true.
Proof.
  intros Hc. destruct (lower_follows v c Hc) as [Hin|[_ E]]; [right|now left].
  pose proof (all_pairs v) as H. unfold all_ok in H. rewrite forallb_forall in H. specialize (H _ Hin). cbn [fst snd] in H.
  now apply andb_true_iff in H.
Qed.
Lemma dotless_ok v : pair_ok (tables v) 0x49 0x131 = true.
Proof. destruct v; vm_cast_no_check (eq_refl true). Qed.

(* for the mapping of any language *)
Lemma mapping_pair v b c : unit32 c ->
  mapping (tables v) b c = c \/ pair_ok (tables v) c (mapping (tables v) b c) = true.
Proof.
  intros Hc. unfold mapping. destruct b.
  - rewrite turkic_def. destruct (Z.eqb_spec c 0x49) as [->|_]; [right; apply dotless_ok|].
    destruct (lower_pair v c Hc) as [H|[H _]]; [now left|now right].
  - destruct (lower_pair v c Hc) as [H|[H _]]; [now left|now right].
Qed.

(* the classes are the same before and after *)
Lemma mapping_mask v b c : unit32 c ->
  charToEncodingTypeMask32 (tables v) (mapping (tables v) b c) = charToEncodingTypeMask32 (tables v) c.
Proof.
  intros Hc. destruct (mapping_pair v b c Hc) as [->|H]; [reflexivity|]. unfold pair_ok in H. lia.
Qed.
Lemma mapping_pred v b pred c : unit32 c ->
  pred32 (tables v) pred (mapping (tables v) b c) = pred32 (tables v) pred c.
Proof. intros Hc. unfold pred32. now rewrite (mapping_mask v b c Hc). Qed.

Lemma mapping_moved v b c : unit32 c -> mapping (tables v) b c <> c ->
  scalar c /\ scalar (mapping (tables v) b c) /\ (c < 0x10000 <-> mapping (tables v) b c < 0x10000) /\
  0x20 < c /\ 0x20 < mapping (tables v) b c /\ size8 (mapping (tables v) b c) <= 2 * size8 c.
Proof.
  intros Hc Hne. destruct (mapping_pair v b c Hc) as [E|H]; [congruence|]. unfold pair_ok, plain in H.
  unfold scalar, surrogate. lia.
Qed.
