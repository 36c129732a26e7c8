(* GENERATED by tools/gen_assigned.py.  isUnicodeAssigned of version 13 against its UnicodeData.txt:
   uniform stretches by reasoning about the dispatch, the others by exhaustive computation. *)
From Coq Require Import ZArith List Bool Lia ZifyBool.
From Verif Require Import Machine.
From Verif.Spec Require Import Ucd.
From Verif.Proof Require Import Bits Sweep Classes.
From Verif.Gen Require Import Unicode13.
From Verif.Gen Require Ucd13.
Local Open Scope Z_scope.

Notation data := Ucd13.ucd_assigned (only parsing).

Ltac plane := intros c Hc; unfold isUnicodeAssigned_32; cbv zeta; autorewrite with bits; decide_ifs;
  unfold isInTheGap02, isInTheGap0E, isInTheGap03; cbv zeta; autorewrite with bits; decide_ifs.

Lemma low_part c : 0 <= c < 0x10000 -> isUnicodeAssigned_32 c = isUnicodeAssigned_16 c.
Proof.
  intros Hc. unfold isUnicodeAssigned_32. cbv zeta. rewrite shiftr_16, Z.div_small by lia. cbn [Z.eqb].
  rewrite land_ffff, Z.mod_small, wrap16_id by lia. reflexivity.
Qed.
Lemma low_sweep lo hi : 0 <= lo -> hi <= 0x10000 -> walk isUnicodeAssigned_16 lo (clip lo hi data) hi = true ->
  matches isUnicodeAssigned_32 data lo hi.
Proof. intros H1 H2 H c Hc. rewrite low_part by lia. now apply matches_walk in H; apply H. Qed.

Ltac low := intros c Hc; rewrite low_part by lia; unfold isUnicodeAssigned_16; cbv zeta; autorewrite with bits; decide_ifs.

Lemma bmp_0 : matches isUnicodeAssigned_32 data 0 0x5000.
Proof. apply low_sweep; [lia|lia|]. vm_cast_no_check (eq_refl true). Qed.
Lemma bmp_5 : matches isUnicodeAssigned_32 data 0x5000 0x9000.
Proof. apply matches_true; [low|vm_cast_no_check (eq_refl true)]. Qed.
Lemma bmp_9 : matches isUnicodeAssigned_32 data 0x9000 0xB000.
Proof. apply low_sweep; [lia|lia|]. vm_cast_no_check (eq_refl true). Qed.
Lemma bmp_b : matches isUnicodeAssigned_32 data 0xB000 0xD000.
Proof. apply matches_true; [low|vm_cast_no_check (eq_refl true)]. Qed.
Lemma bmp_d : matches isUnicodeAssigned_32 data 0xD000 0xE000.
Proof. apply low_sweep; [lia|lia|]. vm_cast_no_check (eq_refl true). Qed.
Lemma bmp_e : matches isUnicodeAssigned_32 data 0xE000 0xF000.
Proof. apply matches_false; [low|vm_cast_no_check (eq_refl true)]. Qed.
Lemma bmp_f : matches isUnicodeAssigned_32 data 0xF000 0x10000.
Proof. apply low_sweep; [lia|lia|]. vm_cast_no_check (eq_refl true). Qed.
Lemma plane_1 : matches isUnicodeAssigned_32 data 0x10000 0x20000.
Proof. apply matches_walk. vm_cast_no_check (eq_refl true). Qed.
Lemma plane_2a : matches isUnicodeAssigned_32 data 0x20000 0x2A000.
Proof. apply matches_true; [plane|vm_cast_no_check (eq_refl true)]. Qed.
Lemma plane_2b : matches isUnicodeAssigned_32 data 0x2A000 0x30000.
Proof. apply matches_walk. vm_cast_no_check (eq_refl true). Qed.
Lemma plane_3a : matches isUnicodeAssigned_32 data 0x30000 0x31300.
Proof. apply matches_true; [plane|vm_cast_no_check (eq_refl true)]. Qed.
Lemma plane_3b : matches isUnicodeAssigned_32 data 0x31300 0x32400.
Proof. apply matches_walk. vm_cast_no_check (eq_refl true). Qed.
Lemma plane_3c : matches isUnicodeAssigned_32 data 0x32400 0x40000.
Proof. apply matches_false; [plane|vm_cast_no_check (eq_refl true)]. Qed.
Lemma plane_3 : matches isUnicodeAssigned_32 data 0x30000 0x40000.
Proof. exact (matches_join _ _ _ _ _ (matches_join _ _ _ _ _ plane_3a plane_3b) plane_3c). Qed.
Lemma planes_4_13 : matches isUnicodeAssigned_32 data 0x40000 0xE0000.
Proof. apply matches_false; [plane|vm_cast_no_check (eq_refl true)]. Qed.
Lemma plane_14a : matches isUnicodeAssigned_32 data 0xE0000 0xE0200.
Proof. apply matches_walk. vm_cast_no_check (eq_refl true). Qed.
Lemma plane_14b : matches isUnicodeAssigned_32 data 0xE0200 0xF0000.
Proof. apply matches_false; [plane|vm_cast_no_check (eq_refl true)]. Qed.
Lemma above : matches isUnicodeAssigned_32 data 0xF0000 0x100000000.
Proof. apply matches_false; [plane|vm_cast_no_check (eq_refl true)]. Qed.

Lemma assigned_exact : matches isUnicodeAssigned_32 data 0 0x100000000.
Proof.
  repeat (eapply matches_join; [|first [exact above | exact plane_14b | exact plane_14a | exact planes_4_13
    | exact plane_3 | exact plane_2b | exact plane_2a | exact plane_1 | exact bmp_f | exact bmp_e | exact bmp_d
    | exact bmp_b | exact bmp_9 | exact bmp_5]]).
  exact bmp_0.
Qed.
