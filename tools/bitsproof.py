#!/usr/bin/env python3
"""Writes rocq/theories/Proof/CxxBits<N>.v: the proof that the parsed functions of source/bits<N> (Gen/Bits<N>.v)
compute what Gen/Unicode<N>.v says.  Not trusted: Coq checks what it writes."""
import os, re

HERE = os.path.dirname(os.path.dirname(os.path.abspath(__file__)))
THEORIES = os.path.join(HERE, 'rocq', 'theories')

WANTED = ['isUnicodeAssigned_Char16', 'isUnicodeAssigned_Char32', 'isUnicodePrivate_Char16', 'isUnicodePrivate_Char32',
          'isControlChar_Char', 'isControlChar_Char16', 'isControlChar_Char32',
          'isWhitespaceChar_Char', 'isWhitespaceChar_Char16', 'isWhitespaceChar_Char32',
          'internal_turkicToLower', 'internal_toLower']
WIDTH = {'Char': '_8', 'Char16': '_16', 'Char32': '_32'}


def functions(n):
    src = open(os.path.join(THEORIES, 'Gen', 'Bits%d.v' % n)).read()
    names = re.search(r'Definition functions : list fundef := \[(.*?)\]\.', src, re.S).group(1)
    names = [x.strip() for x in names.split(';')]
    ds = []
    for c in names:
        ret = re.search(r'Definition %s : fundef := \{\|.*?f_ret := TI (\w+);' % c, src, re.S).group(1)
        g = c[2:].replace('internal_', '')
        m = re.match(r'(.*)_(Char|Char16|Char32)$', g)
        if m:
            g = m.group(1) + WIDTH[m.group(2)]
        ds.append('FB Unicode%d.%s' % (n, g) if ret == 'Bool' else 'FZ %s Unicode%d.%s' % (ret, n, g))
    return names, ds


def main():
    for n in range(7, 17):
        names, ds = functions(n)
        where = [names.index('c_' + w) for w in WANTED]
        with open(os.path.join(THEORIES, 'Proof', 'CxxBits%d.v' % n), 'w') as f:
            f.write('''(* Written by tools/bitsproof.py: the parsed functions of source/bits%(n)d do what Gen/Unicode%(n)d.v says. *)
From Coq Require Import ZArith List String.
From Verif.Model Require Import Tables.
From Verif.Cxx Require Import Syntax Semantics Linked.
From Verif.Gen Require Bits%(n)d Unicode%(n)d.
From Verif.Proof Require Import CxxPure CxxLinked.
Import ListNotations.

Definition translations : list fn :=
  [%(ds)s].

Ltac by_kernel := match goal with |- _ = ?y => exact_no_check (@eq_refl _ y) end.

Lemma translated : compiles [] Bits%(n)d.functions translations.
Proof. repeat (split; [by_kernel|]). exact I. Qed.

Lemma all_found : Forall (found nothing Bits%(n)d.functions) Bits%(n)d.functions.
Proof. repeat (constructor; [intros z; split; [reflexivity | by_kernel]|]). constructor. Qed.

Lemma provided : provides Bits%(n)d.functions tables%(n)d.
Proof.
  apply (provides_from _ translations _ [%(where)s]%%nat all_found translated).
  - repeat (constructor; [eexists; split; [reflexivity | split; [eexists; reflexivity | split; reflexivity]]|]). constructor.
  - repeat (constructor; [reflexivity|]). constructor.
  - intros []; repeat (constructor; [reflexivity|]); constructor.
Qed.
''' % {'n': n, 'ds': ';\n   '.join(ds), 'where': '; '.join(map(str, where))})


main()
