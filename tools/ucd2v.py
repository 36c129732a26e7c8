#!/usr/bin/env python3
"""source/bitsNN/UnicodeData.txt (the Unicode Character Database shipped in the repo)
-> theories/Gen/UcdNN.v : plain data used as the SPECIFICATION of the per-version
tables.  No library code is consulted here, only the data file.

  ucd_assigned : maximal ranges of code points listed in the file whose general category
                 (field 2) is neither Cs (surrogate) nor Co (private use);
                 "<..., First>"/"<..., Last>" pairs denote the whole range.
  ucd_private  : ranges of category Co.        ucd_surrogate : ranges of category Cs.
  ucd_control  : ranges of category Cc.        ucd_space : ranges of Zs/Zl/Zp.
  ucd_lower    : (code point, simple lowercase mapping = field 13), ascending.
"""
import os
OUT = os.path.join(os.path.dirname(os.path.abspath(__file__)), '..', 'rocq', 'theories', 'Gen')
def ranges(items):
    r = []
    for lo, hi in sorted(items):
        if r and r[-1][1] + 1 == lo: r[-1][1] = hi
        else: r.append([lo, hi])
    return r
def emit(name, pairs, ty='Z * Z'):
    out = 'Definition %s : list (%s) :=\n  [' % (name, ty)
    for i, (a, b) in enumerate(pairs):
        if i: out += ';' + ('\n   ' if i % 6 == 0 else ' ')
        out += '(0x%x,0x%x)' % (a, b)
    return out + '].\n'
for n in range(7, 17):
    cat, lower, first = {}, [], None
    items = []
    for line in open('/repo/source/bits%d/UnicodeData.txt' % n):
        f = line.rstrip('\n').split(';')
        c = int(f[0], 16)
        if f[1].endswith(', First>'): first = c; continue
        lo = c
        if f[1].endswith(', Last>'): lo = first
        items.append((lo, c, f[2]))
        if f[13]: lower.append((c, int(f[13], 16)))
    sel = lambda cats: ranges([(a, b) for a, b, k in items if k in cats])
    allc = {k for _, _, k in items}
    with open(os.path.join(OUT, 'Ucd%d.v' % n), 'w') as o:
        o.write('(* GENERATED by tools/ucd2v.py from /repo/source/bits%d/UnicodeData.txt (data only). *)\n' % n)
        o.write('From Coq Require Import ZArith List.\nImport ListNotations.\nLocal Open Scope Z_scope.\n\n')
        o.write(emit('ucd_assigned', sel(allc - {'Cs', 'Co'})) + '\n')
        o.write(emit('ucd_private', sel({'Co'})) + '\n')
        o.write(emit('ucd_surrogate', sel({'Cs'})) + '\n')
        o.write(emit('ucd_control', sel({'Cc'})) + '\n')
        o.write(emit('ucd_space', sel({'Zs', 'Zl', 'Zp'})) + '\n')
        o.write(emit('ucd_lower', sorted(lower)))
    print(n, len(sel(allc - {'Cs', 'Co'})), len(lower))
