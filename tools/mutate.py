#!/usr/bin/env python3
"""Rebuild a scratch copy of rocq/ with one definition changed and report which theorems fail.

usage: mutate.py MUTANTS.json [id ...]        (scratch copy: /tmp/mut, never in /verif)

A mutant is {"id", "definition", "file", "old", "new", "claim", "properties"}.  Every lemma whose proof
breaks is admitted in the scratch copy and the build goes on, so the Print Assumptions beneath a
theorem of Props/ tells whether it still stands.  One JSON line per mutant goes to /tmp/mut/report.jsonl;
the theorems of the broken properties that still prove are listed as "survivors".
"""
import json, os, re, subprocess, sys, time
from concurrent.futures import ThreadPoolExecutor, wait, FIRST_COMPLETED

SRC = os.environ.get('MUTATE_SRC', '/verif/rocq/')
MUT = '/tmp/mut/rocq/'
LIMIT = 400


def deps(root):
    out = subprocess.run('coqdep -Q theories Verif $(cat _CoqProject | grep "\\.v$")', shell=True, cwd=root,
                         capture_output=True, text=True).stdout.replace('\\\n', ' ')
    g = {}
    for line in out.split('\n'):
        if ':' not in line:
            continue
        left, right = line.split(':', 1)
        t = left.split()[0]
        if t.endswith('.vo'):
            g[t[:-1]] = {d[:-1] for d in right.split() if d.startswith('theories/') and d.endswith('.vo')}
    return {k: v - {k} for k, v in g.items()}


START = re.compile(r'^\s*(?:Lemma|Theorem|Example|Corollary|Fact|Remark)\s+([\w\']+)')


def admit(path, line):
    """admit the statement whose proof covers the line; its name, or None"""
    src = open(path).read().split('\n')
    i = min(line - 1, len(src) - 1)
    while i >= 0 and not START.match(src[i]):
        i -= 1
    if i < 0:
        return None
    name = START.match(src[i]).group(1)
    text = '\n'.join(src[i:])
    m = re.search(r'(?s)(\.\s)\s*Proof\b.*?\b(?:Qed|Defined)\.', text)
    if not m or text[:m.start()].count('\n') > 400:
        return None
    if any(START.match(l) for l in text[:m.start()].split('\n')[1:]):
        return None
    pad = '\n' * m.group().count('\n')
    text = text[:m.start()] + '. Admitted.' + pad + text[m.end():]
    open(path, 'w').write('\n'.join(src[:i] + text.split('\n')))
    return name


def compile_file(f):
    """(failed lemmas, output, fatal error or None)"""
    failed = []
    while True:
        try:
            p = subprocess.run(['coqc', '-q', '-Q', 'theories', 'Verif', f], cwd=MUT, capture_output=True,
                               text=True, timeout=LIMIT)
            out = p.stdout + p.stderr
            if p.returncode == 0:
                return failed, out, None
            m = re.search(r'File "[^"]*", line (\d+), characters[^\n]*\n(?:(?!File).*\n)*?Error', out)
            if not m:
                return failed, out, 'no position: ' + out[-300:]
            line = int(m.group(1))
        except subprocess.TimeoutExpired:
            try:
                p = subprocess.run(['coqc', '-q', '-time', '-Q', 'theories', 'Verif', f], cwd=MUT,
                                   capture_output=True, timeout=LIMIT)
                continue
            except subprocess.TimeoutExpired as e:
                out = (e.stdout or b'').decode()
                pos = [int(x) for x in re.findall(r'^Chars \d+ - (\d+)', out, re.M)]
                raw = open(MUT + f, 'rb').read()
                line = raw[:(pos[-1] if pos else 0) + 2].count(b'\n') + 1
                while line < raw.count(b'\n') and not raw.split(b'\n')[line - 1].strip():
                    line += 1
        name = admit(MUT + f, line)
        if name is None or name in failed:
            return failed, '', 'cannot admit at %s:%d: %s' % (f, line, out[-300:])
        failed.append(name)


def run(m, props):
    subprocess.run('rm -rf %s && cp -a %s %s' % (MUT, SRC, MUT), shell=True, check=True)
    edits = m.get('edits') or [[m['file'], m['old'], m['new']]]
    for path, old, new in edits:
        s = open(MUT + path).read()
        if s.count(old) != 1:
            return {'id': m['id'], 'fatal': 'old text occurs %d times in %s' % (s.count(old), path)}
        open(MUT + path, 'w').write(s.replace(old, new))
    g = deps(MUT)
    todo = {p for p, _, _ in edits}
    while True:
        more = {f for f in g if f not in todo and g[f] & todo}
        if not more:
            break
        todo |= more
    t0 = time.time()
    failed, tests, closed, fatal, done, running = {}, [], set(), [], set(), {}
    seen = set()
    with ThreadPoolExecutor(4) as ex:
        while len(done) < len(todo):
            for f in sorted(todo - done - set(running.values())):
                if not (g[f] & todo) - done and len(running) < 4:
                    running[ex.submit(compile_file, f)] = f
            fin, _ = wait(running, return_when=FIRST_COMPLETED)
            for x in fin:
                f = running.pop(x)
                done.add(f)
                bad, out, err = x.result()
                if err:
                    fatal.append(err)
                if '/Tests/' in f:
                    tests += bad
                elif bad:
                    failed[f] = bad
                if '/Props/' in f and not err:
                    names = re.findall(r'^Print Assumptions ([\w\']+)\.', open(MUT + f).read(), re.M)
                    parts = re.split(r'(?m)^(?=Closed under the global context|Axioms:)', out)
                    parts = [q for q in parts if q.startswith(('Closed', 'Axioms'))]
                    if len(parts) != len(names):
                        fatal.append('%s: %d Print Assumptions, %d answers' % (f, len(names), len(parts)))
                    for n, q in zip(names, parts):
                        seen.add(n)
                        if q.startswith('Closed'):
                            closed.add(n)
            if fatal:
                pass
    own = [t for p in m['properties'] for t in props.get(p, [])]
    return {'id': m['id'], 'definition': m['definition'], 'claim': m['claim'], 'properties': m['properties'],
            'broken_lemmas': failed, 'failed_theorems': sorted(seen - closed),
            'unit_tests_failing': len(tests), 'survivors': [t for t in own if t in closed or t not in seen],
            'fatal': fatal, 'seconds': round(time.time() - t0)}


def main():
    props = {c['property']: c['theorems'] for c in json.load(open('/verif/MANIFEST.json'))['claims']}
    muts = json.load(open(sys.argv[1]))
    want = set(sys.argv[2:])
    os.makedirs(MUT, exist_ok=True)
    for m in muts:
        if want and m['id'] not in want:
            continue
        r = run(m, props)
        with open('/tmp/mut/report.jsonl', 'a') as f:
            f.write(json.dumps(r) + '\n')
        print(m['id'], 'failed:', len(r.get('failed_theorems', [])), 'survivors:', r.get('survivors'),
              'tests:', r.get('unit_tests_failing'), 'fatal:', r.get('fatal'), r.get('seconds'), flush=True)


main()
