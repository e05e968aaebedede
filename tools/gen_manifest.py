#!/usr/bin/env python3
"""Writes MANIFEST.json. Every theorem name is checked to occur in rocq/theories."""
import json, re, glob, os
root = os.path.dirname(os.path.dirname(os.path.abspath(__file__)))
C = {}
def claim(p, status, thms, note): C[p] = dict(property=p, status=status, theorems=thms, note=note)
exec(open(os.path.join(root, 'tools', 'claims.py')).read())
src = ''.join(open(f).read() for f in glob.glob(os.path.join(root, 'rocq/theories/*.v')))
names = set(re.findall(r'(?:Theorem|Lemma|Corollary)\s+(\w+)', src))
for c in C.values():
    for t in c['theorems']:
        assert t in names, t
props = [json.loads(l)['id'] for l in open(os.path.join(root, 'properties.jsonl'))]
out = [C[p] if p in C else dict(property=p, status='partial', theorems=[], note='not modelled yet') for p in props]
json.dump({'claims': out}, open(os.path.join(root, 'MANIFEST.json'), 'w'), indent=1)
print(sum(c['status'] == 'proved' for c in out), 'proved', sum(c['status'] == 'partial' and bool(c['theorems']) for c in out), 'partial', sum(not c['theorems'] for c in out), 'none')
