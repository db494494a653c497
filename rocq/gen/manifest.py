#!/usr/bin/env python3
"""Write MANIFEST.json: collect the theorems named Cnn_* of the Props*.v files and join them with manifest_notes.json.
usage: manifest.py /verif"""
import sys, re, json, glob, os
root = sys.argv[1]
notes = json.load(open(os.path.join(root, 'rocq/gen/manifest_notes.json')))
thms = {}
for f in sorted(glob.glob(os.path.join(root, 'rocq/theories/Props*.v'))):
    mod = os.path.basename(f)[:-2]
    for m in re.finditer(r'^Theorem\s+((C\d\d+)_\w+)', open(f).read(), re.M):
        thms.setdefault(m.group(2), []).append(m.group(1))
claims = []
for l in open(os.path.join(root, 'properties.jsonl')):
    i = json.loads(l)['id']
    n = notes.get(i)
    if i not in thms and not n: continue
    if i not in thms and n.get('status') != 'not_applicable': continue
    st = (n or {}).get('status') or ('partial' if any(t.endswith('_partial') for t in thms[i]) else 'proved')
    claims.append({'property': i, 'status': st, 'theorems': thms.get(i, []), 'note': (n or {}).get('note', '')})
json.dump({'claims': claims}, open(os.path.join(root, 'MANIFEST.json'), 'w'), indent=1)
print(len(claims), 'claims', sum(len(c['theorems']) for c in claims), 'theorems')
