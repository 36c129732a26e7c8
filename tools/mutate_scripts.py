#!/usr/bin/env python3
"""Wrong build scripts: mutate_scripts.py MUTANTS.json REPORT.jsonl [ids].

A mutant is {id, edits: [[file, old, new], ...], definition, claim, properties}.  In a copy under /tmp the
edits are made, the files that depend on them are compiled again, each lemma whose proof breaks is admitted,
and Print Assumptions tells which theorems no longer stand."""
import json, os, re, shutil, subprocess, sys, time

SRC = os.path.join(os.path.dirname(os.path.abspath(__file__)), '../rocq')
WORK = '/tmp/mut/scripts/rocq'
START = re.compile(r'^\s*(?:Lemma|Theorem|Example)\s+([\w\']+)')


def cluster():
    files = [l.strip() for l in open(SRC + '/_CoqProject') if l.strip().endswith('.v')]
    files = ['theories/Gen/Text.v'] + files[files.index('theories/Model/Make.v'):]
    out = subprocess.run(['coqdep', '-Q', 'theories', 'Verif'] + files, cwd=SRC, capture_output=True, text=True).stdout
    deps = {}
    for line in out.split('\n'):
        m = re.match(r'(\S+)\.vo .*?: (.*)', line)
        if m:
            deps[m.group(1) + '.v'] = {d[:-1] for d in m.group(2).split() if d.endswith('.vo')}
    return files, deps


def admit(path, line):
    src = open(path).read().split('\n')
    i = min(line - 1, len(src) - 1)
    while i >= 0 and not START.match(src[i]):
        i -= 1
    if i < 0:
        return None
    name = START.match(src[i]).group(1)
    text = '\n'.join(src[i:])
    m = re.search(r'(?s)(\.\s)\s*Proof\b.*?\b(?:Qed|Defined)\.', text)
    if not m or any(START.match(l) for l in text[:m.start()].split('\n')[1:]):
        return None
    text = text[:m.start()] + '. Admitted.' + '\n' * m.group().count('\n') + text[m.end():]
    open(path, 'w').write('\n'.join(src[:i] + text.split('\n')))
    return name


def main():
    mutants, report, only = json.load(open(sys.argv[1])), sys.argv[2], set(sys.argv[3:])
    files, deps = cluster()
    for m in mutants:
        if only and m['id'] not in only:
            continue
        shutil.rmtree(WORK, ignore_errors=True)
        for f in files:
            os.makedirs(os.path.dirname(os.path.join(WORK, f)), exist_ok=True)
            for g in (f, f + 'o'):
                shutil.copy2(os.path.join(SRC, g), os.path.join(WORK, g))
        bad = None
        for f, a, b in m['edits']:
            s = open(os.path.join(WORK, f)).read()
            if s.count(a) < 1:
                bad = a
                break
            open(os.path.join(WORK, f), 'w').write(s.replace(a, b, 1))
        if bad:
            print(m['id'], 'NOT FOUND', bad, flush=True)
            continue
        dirty, order = {e[0] for e in m['edits']}, []
        for f in files:
            if f in dirty or deps.get(f, set()) & dirty:
                dirty.add(f)
                order.append(f)
        lost, fatal, failed, stands, t0 = {}, [], [], [], time.time()
        broken = set()
        for f in order:
            path = os.path.join(WORK, f)
            if deps.get(f, set()) & broken:
                broken.add(f)
                continue
            os.remove(path + 'o')
            while True:
                r = subprocess.run(['timeout', '400', 'coqc', '-q', '-Q', 'theories', 'Verif', f], cwd=WORK, capture_output=True, text=True)
                if r.returncode == 0:
                    break
                k = re.search(r'line (\d+)', r.stderr)
                if not k and r.returncode == 124:
                    fatal.append((f, 'timeout'))
                    broken.add(f)
                    break
                n = admit(path, int(k.group(1))) if k else None
                if n is None:
                    fatal.append((f, r.stderr[-300:]))
                    broken.add(f)
                    break
                lost.setdefault(f, []).append(n)
            if f.startswith('theories/Props/') and f not in broken:
                names = re.findall(r'^Print Assumptions (\w+)', open(path).read(), re.M)
                chunks = re.split(r'(?=Closed under the global context|Axioms:)', r.stdout)[1:]
                for n, c in zip(names, chunks):
                    (failed if c.startswith('Axioms') else stands).append(n)
        survivors = [n for n in stands if n.split('_')[0] in m['properties']]
        rec = dict(id=m['id'], broken_lemmas=lost, failed_theorems=failed, survivors=survivors, fatal=fatal, seconds=round(time.time() - t0))
        open(report, 'a').write(json.dumps(rec) + '\n')
        print(m['id'], 'failed', failed, 'survivors', survivors, 'fatal', fatal, rec['seconds'], flush=True)


main()
