(* The character-class functions against UnicodeData.txt: the classes whose functions are the
   same in all ten versions, and tools for isUnicodeAssigned. *)
From Coq Require Import ZArith List Bool Lia ZifyBool.
From Verif Require Import Machine.
From Verif.Model Require Import Internal Tables Predicate.
From Verif.Spec Require Import Utf Ucd.
From Verif.Proof Require Import Bits Sweep.
From Verif.Gen Require Unicode7 Ucd7.
Import ListNotations.
Local Open Scope Z_scope.

Lemma land_ff x : Z.land x 0xff = x mod 0x100.
Proof. exact (Z.land_ones x 8 ltac:(lia)). Qed.
Lemma land_ffff x : Z.land x 0xffff = x mod 0x10000.
Proof. exact (Z.land_ones x 16 ltac:(lia)). Qed.
Lemma shiftr_4 x : Z.shiftr x 4 = x / 0x10. Proof. now rewrite Z.shiftr_div_pow2. Qed.
Lemma shiftr_8 x : Z.shiftr x 8 = x / 0x100. Proof. now rewrite Z.shiftr_div_pow2. Qed.
Lemma shiftr_16 x : Z.shiftr x 16 = x / 0x10000. Proof. now rewrite Z.shiftr_div_pow2. Qed.
Lemma land_not_ff x : Z.land x (Z.lnot 0xff) = x - x mod 0x100.
Proof.
  assert (E : x = Z.land x 0xff + Z.land x (Z.lnot 0xff)).
  { rewrite Z.add_nocarry_lxor.
    - rewrite Z.lxor_lor.
      + rewrite <- Z.land_lor_distr_r. change (Z.lor 255 (Z.lnot 255)) with (-1). now rewrite Z.land_m1_r.
      + rewrite Z.land_assoc, (Z.land_comm (Z.land x 255)), Z.land_assoc, Z.land_diag, <- Z.land_assoc. apply Z.land_0_r.
    - rewrite Z.land_assoc, (Z.land_comm (Z.land x 255)), Z.land_assoc, Z.land_diag, <- Z.land_assoc. apply Z.land_0_r. }
  rewrite land_ff in E. lia.
Qed.
Global Hint Rewrite land_ff land_ffff shiftr_4 shiftr_8 shiftr_16 land_not_ff : bits.

Lemma in_ranges_nil c : in_ranges [] c <-> False.
Proof. split; [intros (? & ? & [] & _)|intros []]. Qed.
Lemma in_ranges_cons a b l c : in_ranges ((a, b) :: l) c <-> a <= c <= b \/ in_ranges l c.
Proof.
  split.
  - intros (a' & b' & [E|Hin] & Hr); [injection E as <- <-; now left|right]. now exists a', b'.
  - intros [Hr|(a' & b' & Hin & Hr)]; [exists a, b|exists a', b']; cbn [In]; auto.
Qed.
Lemma in_ranges_app l m c : in_ranges (l ++ m) c <-> in_ranges l c \/ in_ranges m c.
Proof.
  induction l as [|[a b] l IH]; cbn [app]; [rewrite in_ranges_nil; tauto|]. rewrite !in_ranges_cons, IH. tauto.
Qed.

(* ------------------------------------------------------------------ *)
(* Private use, control and white space                                *)
(* ------------------------------------------------------------------ *)
Lemma private_exact v c : 0 <= c -> t_private32 (tables v) c = true <-> in_ranges (ucd_private v) c.
Proof.
  intros Hc. replace (t_private32 (tables v)) with Unicode7.isUnicodePrivate_32 by now destruct v.
  replace (ucd_private v) with Ucd7.ucd_private by now destruct v.
  unfold Ucd7.ucd_private. rewrite !in_ranges_cons, in_ranges_nil.
  unfold Unicode7.isUnicodePrivate_32, Unicode7.isUnicodePrivate_16. cbv zeta.
  rewrite !land_ffff. rewrite wrap16_id by lia. autorewrite with bits.
  destruct (Z.eqb_spec (c / 0x10000) 0).
  { destruct (Z.eqb_spec (c mod 0x10000 / 0x100 mod 0x100 / 0x10) 14); [lia|].
    destruct (Z.eqb_spec (c mod 0x10000 / 0x100 mod 0x100 / 0x10) 15); [|split; [discriminate|lia]]. lia. }
  destruct (Z.eqb_spec (c / 0x10000) 15); cbn [orb]; [lia|].
  destruct (Z.eqb_spec (c / 0x10000) 16); [lia|]. split; [discriminate|lia].
Qed.
Lemma private_16 v c : 0 <= c < 0x10000 -> t_private16 (tables v) c = t_private32 (tables v) c.
Proof.
  intros Hc. replace (t_private32 (tables v)) with Unicode7.isUnicodePrivate_32 by now destruct v.
  replace (t_private16 (tables v)) with Unicode7.isUnicodePrivate_16 by now destruct v.
  unfold Unicode7.isUnicodePrivate_32. cbv zeta. rewrite shiftr_16, Z.div_small by lia. cbn [Z.eqb].
  rewrite land_ffff, Z.mod_small, wrap16_id by lia. reflexivity.
Qed.
Lemma private_8 v c : 0 <= c < 0x100 -> t_private8 (tables v) c = t_private32 (tables v) c.
Proof.
  intros Hc. replace (t_private8 (tables v) c) with false by now destruct v.
  symmetry. apply not_true_is_false. rewrite private_exact by lia.
  replace (ucd_private v) with Ucd7.ucd_private by now destruct v.
  unfold Ucd7.ucd_private. rewrite !in_ranges_cons, in_ranges_nil. lia.
Qed.

Lemma control_exact v c : 0 <= c -> t_control32 (tables v) c = true <-> in_ranges (ucd_control v) c.
Proof.
  intros Hc. replace (t_control32 (tables v)) with Unicode7.isControlChar_32 by now destruct v.
  replace (ucd_control v) with Ucd7.ucd_control by now destruct v.
  unfold Ucd7.ucd_control. rewrite !in_ranges_cons, in_ranges_nil.
  unfold Unicode7.isControlChar_32, Unicode7.isControlChar_8, wrap8. cbv zeta. autorewrite with bits.
  rewrite !Zmod_mod. destruct (Z.eqb_spec (c - c mod 0x100) 0); cbn [negb]; [|split; [discriminate|lia]].
  rewrite Z.mod_small by lia. lia.
Qed.
Lemma control_16 v c : 0 <= c < 0x10000 -> t_control16 (tables v) c = t_control32 (tables v) c.
Proof. intros _. now destruct v. Qed.
Lemma control_8 v c : 0 <= c < 0x100 -> t_control8 (tables v) c = t_control32 (tables v) c.
Proof.
  intros Hc. replace (t_control32 (tables v)) with Unicode7.isControlChar_32 by now destruct v.
  replace (t_control8 (tables v)) with Unicode7.isControlChar_8 by now destruct v.
  unfold Unicode7.isControlChar_32. rewrite land_not_ff, land_ff, Z.mod_small by lia.
  rewrite Z.sub_diag. cbn [Z.eqb negb]. now rewrite wrap8_id by lia.
Qed.

Lemma space_exact v c : 0 <= c ->
  t_space32 (tables v) c = true <-> in_ranges (ucd_space v) c \/ in_ranges white_space_controls c.
Proof.
  intros Hc. replace (t_space32 (tables v)) with Unicode7.isWhitespaceChar_32 by now destruct v.
  replace (ucd_space v) with Ucd7.ucd_space by now destruct v.
  unfold Ucd7.ucd_space, white_space_controls. rewrite !in_ranges_cons, in_ranges_nil.
  unfold Unicode7.isWhitespaceChar_32. rewrite Z.gtb_ltb. destruct (Z.ltb_spec 0x3000 c); [split; [discriminate|lia]|].
  rewrite wrap16_id by lia. unfold Unicode7.isWhitespaceChar_16, Unicode7.isWhitespaceChar_8, wrap8. cbv zeta.
  autorewrite with bits. rewrite Zmod_mod.
  destruct (Z.eqb_spec (c mod 0x100) c) as [E|E].
  { rewrite E. match goal with |- context [if ?b then true else false] => replace (if b then true else false) with b by now destruct b end. lia. }
  destruct (Z.eqb_spec (c / 0x100 mod 0x100 / 0x10) 1); [lia|].
  destruct (Z.eqb_spec (c / 0x100 mod 0x100 / 0x10) 2).
  { destruct (Z.eqb_spec (c / 0x100 mod 0x100 mod 0x10) 0); cbn [negb]; [lia|]. split; [discriminate|lia]. }
  destruct (Z.eqb_spec (c / 0x100 mod 0x100 / 0x10) 3); [lia|]. split; [discriminate|lia].
Qed.
Lemma space_16 v c : 0 <= c < 0x10000 -> t_space16 (tables v) c = t_space32 (tables v) c.
Proof.
  intros Hc. replace (t_space32 (tables v)) with Unicode7.isWhitespaceChar_32 by now destruct v.
  replace (t_space16 (tables v)) with Unicode7.isWhitespaceChar_16 by now destruct v.
  unfold Unicode7.isWhitespaceChar_32. rewrite Z.gtb_ltb, wrap16_id by lia. destruct (Z.ltb_spec 0x3000 c); [|reflexivity].
  unfold Unicode7.isWhitespaceChar_16, wrap8. cbv zeta. autorewrite with bits.
  destruct (Z.eqb_spec (c mod 0x100) c) as [E|E]; [lia|].
  destruct (Z.eqb_spec (c / 0x100 mod 0x100 / 0x10) 1); [lia|].
  destruct (Z.eqb_spec (c / 0x100 mod 0x100 / 0x10) 2); [lia|].
  destruct (Z.eqb_spec (c / 0x100 mod 0x100 / 0x10) 3); [lia|reflexivity].
Qed.
Lemma space_8 v c : 0 <= c < 0x100 -> t_space8 (tables v) c = t_space32 (tables v) c.
Proof.
  intros Hc. replace (t_space32 (tables v)) with Unicode7.isWhitespaceChar_32 by now destruct v.
  replace (t_space8 (tables v)) with Unicode7.isWhitespaceChar_8 by now destruct v.
  unfold Unicode7.isWhitespaceChar_32. rewrite Z.gtb_ltb, wrap16_id by lia. destruct (Z.ltb_spec 0x3000 c); [lia|].
  unfold Unicode7.isWhitespaceChar_16. rewrite land_ff, Z.mod_small, Z.eqb_refl by lia. now rewrite wrap8_id by lia.
Qed.

(* the 16-bit overload of isUnicodeAssigned is the 32-bit one on its values *)
Lemma assigned_16 v c : 0 <= c < 0x10000 -> t_assigned16 (tables v) c = t_assigned32 (tables v) c.
Proof.
  intros Hc. assert (E1 : Z.shiftr c 16 = 0) by (rewrite shiftr_16; lia).
  assert (E2 : wrap16 (Z.land c 0xffff) = c) by (rewrite land_ffff, Z.mod_small, wrap16_id by lia; reflexivity).
  destruct v; cbn [tables tables7 tables8 tables9 tables10 tables11 tables12 tables13 tables14 tables15 tables16
    t_assigned16 t_assigned32];
  match goal with |- _ = ?f c => unfold f end; cbv zeta; rewrite E1; cbn [Z.eqb]; now rewrite E2.
Qed.

(* the predicate operators for char16_t and char32_t agree on shared values *)
Lemma pred16_32 v pred c : 0 <= c < 0x10000 -> pred16 (tables v) pred c = pred32 (tables v) pred c.
Proof.
  intros Hc. unfold pred16, pred32, charToEncodingTypeMask16, charToEncodingTypeMask32.
  now rewrite assigned_16, private_16, control_16, space_16 by lia.
Qed.

(* ------------------------------------------------------------------ *)
(* Joining sweeps of neighbouring intervals                            *)
(* ------------------------------------------------------------------ *)
Definition matches (f : Z -> bool) (l : list (Z * Z)) (lo hi : Z) : Prop :=
  forall c, lo <= c < hi -> (f c = true <-> in_ranges l c).

(* the part of the ranges of l inside [lo, hi) *)
Fixpoint clip (lo hi : Z) (l : list (Z * Z)) : list (Z * Z) :=
  match l with
  | [] => []
  | (a, b) :: l =>
    let a' := Z.max a lo in
    let b' := Z.min b (hi - 1) in
    if a' <=? b' then (a', b') :: clip lo hi l else clip lo hi l
  end.
Lemma clip_spec lo hi l c : lo <= c < hi -> in_ranges (clip lo hi l) c <-> in_ranges l c.
Proof.
  intros Hc. induction l as [|[a b] l IH]; cbn [clip]; [tauto|]. cbv zeta.
  destruct (Z.leb_spec (Z.max a lo) (Z.min b (hi - 1))); rewrite !in_ranges_cons, IH; [|split; [tauto|intros [?|?]; [lia|assumption]]].
  split; (intros [?|?]; [left; lia|now right]).
Qed.
Lemma matches_walk f l lo hi : walk f lo (clip lo hi l) hi = true -> matches f l lo hi.
Proof.
  intros H. apply walk_ok in H. destruct H as (_ & _ & H). intros c Hc. rewrite H by assumption. now apply clip_spec.
Qed.
Lemma matches_join f l lo mid hi : matches f l lo mid -> matches f l mid hi -> matches f l lo hi.
Proof. intros H1 H2 c Hc. destruct (Z_lt_dec c mid); [apply H1|apply H2]; lia. Qed.
(* where f is constant it is enough to look at the list *)
Fixpoint avoids (lo hi : Z) (l : list (Z * Z)) : bool :=
  match l with [] => true | (a, b) :: l => if (b <? lo) || (hi <=? a) then avoids lo hi l else false end.
Fixpoint covers (lo hi : Z) (l : list (Z * Z)) : bool :=
  match l with [] => false | (a, b) :: l => if (a <=? lo) && (hi <=? b + 1) then true else covers lo hi l end.
Lemma matches_false f l lo hi : (forall c, lo <= c < hi -> f c = false) -> avoids lo hi l = true -> matches f l lo hi.
Proof.
  intros Hf Hl c Hc. rewrite Hf by assumption. split; [discriminate|]. intros Hr. exfalso. revert Hl Hr.
  induction l as [|[a b] l IH]; [now rewrite in_ranges_nil|]. cbn [avoids]. rewrite in_ranges_cons.
  destruct ((b <? lo) || (hi <=? a)) eqn:E; [|discriminate]. intros H [Hr|Hr]; [lia|tauto].
Qed.
Lemma matches_true f l lo hi : (forall c, lo <= c < hi -> f c = true) -> covers lo hi l = true -> matches f l lo hi.
Proof.
  intros Hf Hl c Hc. rewrite Hf by assumption. split; [|reflexivity]. intros _. revert Hl.
  induction l as [|[a b] l IH]; [discriminate|]. cbn [covers]. rewrite in_ranges_cons.
  destruct ((a <=? lo) && (hi <=? b + 1)) eqn:E; [left; lia|]. right. tauto.
Qed.

(* settles the outermost conditions of nested ifs by arithmetic *)
Ltac decide_if b := first [assert (b = false) as -> by lia | assert (b = true) as -> by lia]; cbv iota.
Ltac decide_ifs := repeat match goal with
  | |- (if ?b then _ else _) = _ => decide_if b
  | |- negb (if ?b then _ else _) = _ => decide_if b
  end; try reflexivity; try lia.
