#!/usr/bin/env python3
"""Change the C++ text of many functions at once, parse it again, rebuild a scratch copy of rocq/ and report which
theorems depend on a function that was changed.

usage: mutate_cxx.py MUTANTS.json             (scratch copies: /tmp/mut, never in /verif)

A mutant is {"id", "definition", "file" (in /repo), "after", "old", "new", "claim", "properties"}: the first "old" behind the
text "after" becomes "new".  No two mutants of a batch may change one function.  Every lemma whose proof breaks is
admitted; Print Assumptions then names, for each theorem of Props/, the admitted lemmas it rests on, and so the
mutants that break it.  A broken lemma belongs to the mutants whose changed definitions its text names.
"""
import json, os, re, subprocess, sys, time
from concurrent.futures import ThreadPoolExecutor, wait, FIRST_COMPLETED
sys.argv, args = sys.argv[:1] + ['/dev/null'], sys.argv[1:]
here = os.path.dirname(os.path.abspath(__file__))
src = open(os.path.join(here, 'mutate.py')).read()
exec(src[:src.index('\ndef run(')])
LIMIT = 1200
REPO = '/tmp/mut/repo'


def generate(muts, out):
    subprocess.run('rm -rf %s %s && mkdir -p %s %s && cp -r /repo/source /repo/interface %s' % (REPO, out, REPO, out, REPO), shell=True, check=True)
    for m in muts:
        p = os.path.join(REPO, m['file'])
        s = open(p, encoding='latin-1').read()
        i = s.index(m['after']) if m.get('after') else 0
        if i + len(m.get('after') or '') and m.get('after') and s.count(m['after']) != 1:
            raise SystemExit('%s: "after" occurs %d times' % (m['id'], s.count(m['after'])))
        j = s.find(m['old'], i)
        if j < 0:
            raise SystemExit(m['id'] + ': no such text')
        open(p, 'w', encoding='latin-1').write(s[:j] + m['new'] + s[j + len(m['old']):])
    r = subprocess.run(['python3', os.path.join(here, 'cxx2ast.py'), REPO, out + '/Source.v'], capture_output=True, text=True)
    if r.returncode:
        raise SystemExit('%s: %s' % ([m['id'] for m in muts], r.stderr[-400:]))


def defs(path):
    return dict(re.findall(r'(?ms)^Definition ([\w\']+).*?:=(.*?)\.$', open(path).read()))


def main():
    props = {c['property']: c['theorems'] for c in json.load(open('/verif/MANIFEST.json'))['claims']}
    muts = json.load(open(args[0]))
    gen = SRC.rstrip('/') + '/theories/Gen/'
    files = [f for f in os.listdir(gen) if re.fullmatch(r'Source\.v|Bits\d+\.v', f)]
    base = {f: defs(gen + f) for f in files}
    owner = {}
    for m in muts:
        generate([m], '/tmp/mut/gen')
        for f in files:
            new = defs('/tmp/mut/gen/' + f)
            for d in sorted(set(new) | set(base[f])):
                if new.get(d) != base[f].get(d):
                    owner.setdefault((f, d), []).append(m['id'])
        print(m['id'], [k for k, v in owner.items() if m['id'] in v], flush=True)
    generate(muts, '/tmp/mut/gen')
    subprocess.run('rm -rf %s && cp -a %s %s' % (MUT, SRC, MUT), shell=True, check=True)
    todo = set()
    for f in files:
        if open('/tmp/mut/gen/' + f).read() != open(gen + f).read():
            subprocess.run(['cp', '/tmp/mut/gen/' + f, MUT + 'theories/Gen/' + f])
            todo.add('theories/Gen/' + f)
    g = deps(MUT)
    while True:
        more = {f for f in g if f not in todo and g[f] & todo}
        if not more:
            break
        todo |= more
    t0 = time.time()
    failed, rests, fatal, done, running = {}, {}, [], set(), {}
    with ThreadPoolExecutor(4) as ex:
        while len(done) < len(todo):
            for f in sorted(todo - done - set(running.values())):
                if not (g[f] & todo) - done and len(running) < 4:
                    running[ex.submit(compile_file, f)] = f
            fin, _ = wait(running, return_when=FIRST_COMPLETED)
            for x in fin:
                f = running.pop(x)
                done.add(f)
                bad, out, err = x.result()
                print(round(time.time() - t0), f, bad, err, flush=True)
                if err:
                    fatal.append(err)
                if bad:
                    failed[f] = bad
                if '/Props/' in f and not err:
                    names = re.findall(r'^Print Assumptions ([\w\']+)\.', open(MUT + f).read(), re.M)
                    parts = [q for q in re.split(r'(?m)^(?=Closed under the global context|Axioms:)', out) if q.startswith(('Closed', 'Axioms'))]
                    if len(parts) != len(names):
                        fatal.append('%s: %d Print Assumptions, %d answers' % (f, len(names), len(parts)))
                    for n, q in zip(names, parts):
                        rests[n] = re.findall(r'(?m)^([\w.\']+)\s*(?::|$)', q) if q.startswith('Axioms') else []
    json.dump({'owner': [[list(k), v] for k, v in owner.items()], 'failed': failed, 'rests': rests, 'fatal': fatal,
               'seconds': round(time.time() - t0)}, open('/tmp/mut/cxx.json', 'w'), indent=1)
    print('fatal:', fatal)


main()
