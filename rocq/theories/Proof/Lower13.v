(* GENERATED by tools/gen_lower.py.  toLower and turkicToLower of version 13 against its
   UnicodeData.txt: uniform stretches by reasoning about the dispatch, the others by computation. *)
From Coq Require Import ZArith List Bool Lia ZifyBool.
From Verif Require Import Machine.
From Verif.Model Require Import Tables.
From Verif.Spec Require Import Utf Ucd Lowercase.
From Verif.Proof Require Import Bits Sweep Classes LowerTools.
From Verif.Gen Require Import Unicode13.
Local Open Scope Z_scope.

Definition data := Eval vm_compute in amended (ucd_lower V13) (lower_missing V13) (lower_extra V13).
Lemma data_eq : data = amended (ucd_lower V13) (lower_missing V13) (lower_extra V13).
Proof. vm_cast_no_check (eq_refl data). Qed.

Ltac low := apply follows_id; [|vm_cast_no_check (eq_refl true)]; intros c Hc; unfold toLower2; cbv zeta;
  autorewrite with bits; decide_ifs.
Ltac high := apply follows_id; [|vm_cast_no_check (eq_refl true)]; intros c Hc; unfold toLower; decide_ifs.
Ltac sweep := apply follows_walk; vm_cast_no_check (eq_refl true).

Lemma bmp_0 : follows toLower2 data 0x0 0x600.
Proof. sweep. Qed.
Lemma bmp_600 : follows toLower2 data 0x600 0x1000.
Proof. low. Qed.
Lemma bmp_1000 : follows toLower2 data 0x1000 0x3000.
Proof. sweep. Qed.
Lemma bmp_3000 : follows toLower2 data 0x3000 0xA000.
Proof. low. Qed.
Lemma bmp_a000 : follows toLower2 data 0xA000 0xB000.
Proof. sweep. Qed.
Lemma bmp_b000 : follows toLower2 data 0xB000 0xF000.
Proof. low. Qed.
Lemma bmp_f000 : follows toLower2 data 0xF000 0x10000.
Proof. sweep. Qed.
Lemma bmp_all : follows toLower2 data 0 0x10000.
Proof.
  repeat (eapply follows_join; [|first [exact bmp_f000 | exact bmp_b000 | exact bmp_a000 | exact bmp_3000 | exact bmp_1000 | exact bmp_600]]).
  exact bmp_0.
Qed.
Lemma good : good_values data = true.
Proof. vm_cast_no_check (eq_refl true). Qed.
Lemma bmp_part : follows toLower data 0 0x10000.
Proof.
  intros c Hc. unfold toLower. replace (c <? 0x10000) with true by lia. rewrite wrap16_id by lia.
  destruct (bmp_all c Hc) as [Hin|[Hn E]].
  - rewrite wrap32_id; [now left|]. pose proof good as Hg. unfold good_values in Hg. rewrite forallb_forall in Hg.
    specialize (Hg _ Hin). cbn [fst snd] in Hg. lia.
  - right. split; [assumption|]. rewrite E, wrap32_id by lia. reflexivity.
Qed.
Lemma smp_10000 : follows toLower data 0x10000 0x10400.
Proof. high. Qed.
Lemma smp_10400 : follows toLower data 0x10400 0x105A0.
Proof. sweep. Qed.
Lemma smp_105a0 : follows toLower data 0x105A0 0x10C80.
Proof. high. Qed.
Lemma smp_10c80 : follows toLower data 0x10C80 0x10D70.
Proof. sweep. Qed.
Lemma smp_10d70 : follows toLower data 0x10D70 0x118A0.
Proof. high. Qed.
Lemma smp_118a0 : follows toLower data 0x118A0 0x118C0.
Proof. sweep. Qed.
Lemma smp_118c0 : follows toLower data 0x118C0 0x1E900.
Proof. high. Qed.
Lemma smp_1e900 : follows toLower data 0x1E900 0x1E922.
Proof. sweep. Qed.
Lemma above : follows toLower data 0x1E922 0x100000000.
Proof. high. Qed.
Lemma follows_data : follows toLower data 0 0x100000000.
Proof.
  repeat (eapply follows_join; [|first [exact above | exact smp_1e900 | exact smp_118c0 | exact smp_118a0 | exact smp_10d70 | exact smp_10c80 | exact smp_105a0 | exact smp_10400 | exact smp_10000]]).
  exact bmp_part.
Qed.
Lemma lower_exact :
  follows toLower (amended (ucd_lower V13) (lower_missing V13) (lower_extra V13)) 0 0x100000000.
Proof. rewrite <- data_eq. exact follows_data. Qed.
Lemma lower_idempotent c : 0 <= c < 0x100000000 -> toLower (toLower c) = toLower c.
Proof. apply (follows_idempotent toLower data); [exact follows_data|]. vm_cast_no_check (eq_refl true). Qed.
Lemma lower_good c : 0 <= c < 0x100000000 -> toLower c = c \/ scalar (toLower c) /\ 0 < toLower c.
Proof. apply (follows_good toLower data); [exact follows_data|exact good]. Qed.
