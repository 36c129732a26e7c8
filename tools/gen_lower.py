#!/usr/bin/env python3
"""Write theories/Proof/Lower{7..16}.v: toLower against UnicodeData.txt, one file per version."""
import os
here = os.path.dirname(os.path.abspath(__file__))
out = os.path.join(here, '..', 'rocq', 'theories', 'Proof')
low = [(0, 0x600, 1), (0x600, 0x1000, 0), (0x1000, 0x3000, 1), (0x3000, 0xA000, 0), (0xA000, 0xB000, 1),
       (0xB000, 0xF000, 0), (0xF000, 0x10000, 1)]
high = [(0x10000, 0x10400, 0), (0x10400, 0x105A0, 1), (0x105A0, 0x10C80, 0), (0x10C80, 0x10D70, 1),
        (0x10D70, 0x118A0, 0), (0x118A0, 0x118C0, 1), (0x118C0, 0x1E900, 0), (0x1E900, 0x1E922, 1)]
for v in range(7, 17):
    s = f'''(* GENERATED by tools/gen_lower.py.  toLower and turkicToLower of version {v} against its
   UnicodeData.txt: uniform stretches by reasoning about the dispatch, the others by computation. *)
From Coq Require Import ZArith List Bool Lia ZifyBool.
From Verif Require Import Machine.
From Verif.Model Require Import Tables.
From Verif.Spec Require Import Utf Ucd Lowercase.
From Verif.Proof Require Import Bits Sweep Classes LowerTools.
From Verif.Gen Require Import Unicode{v}.
Local Open Scope Z_scope.

Definition data := Eval vm_compute in amended (ucd_lower V{v}) (lower_missing V{v}) (lower_extra V{v}).
Lemma data_eq : data = amended (ucd_lower V{v}) (lower_missing V{v}) (lower_extra V{v}).
Proof. vm_cast_no_check (eq_refl data). Qed.

Ltac low := apply follows_id; [|vm_cast_no_check (eq_refl true)]; intros c Hc; unfold toLower2; cbv zeta;
  autorewrite with bits; decide_ifs.
Ltac high := apply follows_id; [|vm_cast_no_check (eq_refl true)]; intros c Hc; unfold toLower; decide_ifs.
Ltac sweep := apply follows_walk; vm_cast_no_check (eq_refl true).

'''
    names = []
    for a, b, sw in low:
        n = f'bmp_{a:x}'; names.append(n)
        s += f"Lemma {n} : follows toLower2 data 0x{a:X} 0x{b:X}.\nProof. {'sweep' if sw else 'low'}. Qed.\n"
    s += '''Lemma bmp_all : follows toLower2 data 0 0x10000.
Proof.
'''
    s += '  repeat (eapply follows_join; [|first [' + ' | '.join('exact ' + n for n in reversed(names[1:])) + ']]).\n  exact ' + names[0] + '.\nQed.\n'
    s += '''Lemma good : good_values data = true.
Proof. vm_cast_no_check (eq_refl true). Qed.
Lemma bmp_part : follows toLower data 0 0x10000.
Proof.
  intros c Hc. unfold toLower. replace (c <? 0x10000) with true by lia. rewrite wrap16_id by lia.
  destruct (bmp_all c Hc) as [Hin|[Hn E]].
  - rewrite wrap32_id; [now left|]. pose proof good as Hg. unfold good_values in Hg. rewrite forallb_forall in Hg.
    specialize (Hg _ Hin). cbn [fst snd] in Hg. lia.
  - right. split; [assumption|]. rewrite E, wrap32_id by lia. reflexivity.
Qed.
'''
    names = ['bmp_part']
    for a, b, sw in high:
        n = f'smp_{a:x}'; names.append(n)
        s += f"Lemma {n} : follows toLower data 0x{a:X} 0x{b:X}.\nProof. {'sweep' if sw else 'high'}. Qed.\n"
    s += 'Lemma above : follows toLower data 0x1E922 0x100000000.\nProof. high. Qed.\n'
    names.append('above')
    s += '''Lemma follows_data : follows toLower data 0 0x100000000.
Proof.
'''
    s += '  repeat (eapply follows_join; [|first [' + ' | '.join('exact ' + n for n in reversed(names[1:])) + ']]).\n  exact bmp_part.\nQed.\n'
    s += f'''Lemma lower_exact :
  follows toLower (amended (ucd_lower V{v}) (lower_missing V{v}) (lower_extra V{v})) 0 0x100000000.
Proof. rewrite <- data_eq. exact follows_data. Qed.
Lemma lower_idempotent c : 0 <= c < 0x100000000 -> toLower (toLower c) = toLower c.
Proof. apply (follows_idempotent toLower data); [exact follows_data|]. vm_cast_no_check (eq_refl true). Qed.
Lemma lower_good c : 0 <= c < 0x100000000 -> toLower c = c \\/ scalar (toLower c) /\\ 0 < toLower c.
Proof. apply (follows_good toLower data); [exact follows_data|exact good]. Qed.
'''
    open(os.path.join(out, f'Lower{v}.v'), 'w').write(s)
