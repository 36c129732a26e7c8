#!/usr/bin/env python3
"""Copy the source files into Coq, line by line, unchanged (only " is doubled, as Coq wants it): Gen/Text.v has the files
every build uses, Gen/Text<N>.v the two files of source/bits<N>, Gen/TextTool.v mkUnicodeTestData, Gen/TextScripts.v, Gen/TextLists.v, Gen/TextSubmods.v, Gen/TextCmd.v, Gen/TextMakefile.v and Gen/TextAsan.v scripts; Gen/Files.v has the names of all files.

usage: text2v.py [REPO] [OUTDIR]"""
import os, re, sys

REPO = sys.argv[1] if len(sys.argv) > 1 else '/repo'
OUT = sys.argv[2] if len(sys.argv) > 2 else os.path.join(os.path.dirname(os.path.abspath(__file__)), '..', 'rocq', 'theories', 'Gen')

FILES = ['interface/string.hxx', 'interface/internal/string_decode_utf8.hxx', 'source/string_internal.hxx', 'source/string_decode_utf8.cxx',
         'source/string.cxx', 'source/encoding_check_predicate.cxx', 'source/string_tolower.cxx', 'source/string_toutf8.cxx',
         'interface/string_trim.hxx', 'interface/string_splitjoin.hxx']
BITS_FILES = ['source/bits%d/char_is_unicode.cxx', 'source/bits%d/char_to_lower.cxx']

def write(name, files):
    out = ['(* Copied by tools/text2v.py from the files of /repo named below; do not edit. *)',
           'From Coq Require Import List String.', 'Import ListNotations.', 'Local Open Scope string_scope.', '']
    names = []
    for f in files:
        text = open(os.path.join(REPO, f), encoding='utf-8', newline='').read()
        ident = re.sub(r'\W', '_', os.path.basename(f))
        names.append((f, ident))
        lines = text.split('\n')
        if lines[-1] == '':
            lines.pop()
        out += ['(* %s *)' % f, 'Definition %s : list string := [' % ident,
                ';\n'.join('"%s"' % l.replace('"', '""') for l in lines), '].', '']
    out += ['(* the name of each file and its lines *)',
            'Definition files : list (string * list string) :=',
            '  [' + ';\n   '.join('("%s", %s)' % x for x in names) + '].', '']
    open(os.path.join(OUT, name), 'w').write('\n'.join(out))

write('Text.v', FILES)
for n in range(7, 17):
    write('Text%d.v' % n, [f % n for f in BITS_FILES])
write('TextTool.v', ['mkUnicodeTestData/mkUnicodeTestData.cxx'])
write('TextScripts.v', ['NSIS/ansak-string.nsi', 'FindANSAK.cmake'])
write('TextLists.v', ['CMakeLists.txt', 'packaging.cmake'])
write('TextSubmods.v', ['submods/CMakeLists.txt'])
write('TextCmd.v', ['configure.cmd'])
write('TextMakefile.v', ['Makefile'])
write('TextAsan.v', ['cmake/modules/FindASan.cmake'])

# the names of all files but those of the submodules
names = sorted(os.path.relpath(os.path.join(d, f), REPO) for d, _, fs in os.walk(REPO) for f in fs)
names = [n for n in names if not n.startswith(('submods/googletest/', '.git/'))]
open(os.path.join(OUT, 'Files.v'), 'w').write('\n'.join(
    ['(* Written by tools/text2v.py: the files of /repo; do not edit. *)', 'From Coq Require Import List String.', 'Import ListNotations.',
     'Local Open Scope string_scope.', '', 'Definition repo_files : list string :=', '  [' + ';\n   '.join('"%s"' % n for n in names) + '].', '']))
