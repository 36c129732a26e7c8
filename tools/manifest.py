#!/usr/bin/env python3
"""Write /verif/MANIFEST.json from the theorems of theories/Props/*.v and the notes below.
A property is "partial" if one of its theorems ends in _partial, else "proved"."""
import json, os, re, glob
here = os.path.dirname(os.path.abspath(__file__))
root = os.path.join(here, '..')
NOTES = json.load(open(os.path.join(here, 'notes.json')))
thms = {}
for f in sorted(glob.glob(os.path.join(root, 'rocq/theories/Props/*.v'))):
    for m in re.finditer(r'^Theorem (C\d+)(\w*)', open(f).read(), re.M):
        thms.setdefault(m.group(1), []).append(m.group(1) + m.group(2))
claims = []
for line in open(os.path.join(root, 'properties.jsonl')):
    p = json.loads(line)['id']
    ts = thms.get(p, [])
    if not ts:
        continue
    status = 'partial' if any(t.endswith('_partial') for t in ts) else 'proved'
    claims.append({'property': p, 'status': NOTES.get(p, {}).get('status', status), 'theorems': ts,
                   'note': NOTES.get(p, {}).get('note', '')})
json.dump({'claims': claims}, open(os.path.join(root, 'MANIFEST.json'), 'w'), indent=1)
print(len(claims), 'claims')
missing = [json.loads(l)['id'] for l in open(os.path.join(root, 'properties.jsonl')) if json.loads(l)['id'] not in thms]
print('without theorems:', ' '.join(missing))
