#!/usr/bin/env python3
"""Write theories/Spec/CodePage.v from Python's own cp1252 and cp1250 codecs."""
import os
HEAD = '''(* The Microsoft code pages 1252 and 1250: byte, code point.  Generated by tools/codepage2v.py from
   the mapping tables that come with Python (Lib/encodings/cp1252.py, cp1250.py), not from the code. *)
From Coq Require Import ZArith List.
Import ListNotations.
Local Open Scope Z_scope.
'''
TAIL = r'''(* "byte b stands for code point c" *)
Definition stands_for (page : list (Z * Z)) (b c : Z) : Prop := (1 <= b <= 0x7F /\ c = b) \/ In (b, c) page.

(* "the bytes bs stand for the code points cs" *)
Definition stand_for (page : list (Z * Z)) : list Z -> list Z -> Prop := Forall2 (stands_for page).
'''

out = [HEAD]
for cp in ('1252', '1250'):
    ps = []
    for b in range(128, 256):
        try:
            ps.append((b, ord(bytes([b]).decode('cp' + cp))))
        except UnicodeDecodeError:
            pass
    rows = ['  ' + '; '.join('(0x%02X, 0x%04X)' % p for p in ps[i:i + 8]) for i in range(0, len(ps), 8)]
    out.append('Definition page%s : list (Z * Z) := [\n%s ].\n' % (cp, ';\n'.join(rows)))
out.append(TAIL)
here = os.path.dirname(os.path.abspath(__file__))
open(os.path.join(here, '../rocq/theories/Spec/CodePage.v'), 'w').write('\n'.join(out))
