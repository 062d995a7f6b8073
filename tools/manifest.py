#!/usr/bin/env python3
"""Writes MANIFEST.json from the table below; checks that every named theorem exists."""
import json, re, glob, os
root = os.path.dirname(os.path.dirname(os.path.abspath(__file__)))
names = set()
for f in glob.glob(root + '/rocq/theories/*.v'):
    names |= set(re.findall(r'^\s*(?:Theorem|Lemma|Corollary)\s+(\w+)', open(f).read(), re.M))
C = []
def c(prop, status, theorems, note=""):
    ts = theorems.split()
    for t in ts:
        if t not in names: raise SystemExit("no theorem %s (%s)" % (t, prop))
    C.append(dict(property=prop, status=status, theorems=ts, note=note))
exec(open(root + '/tools/claims.py').read())
ids = [json.loads(l)['id'] for l in open(root + '/properties.jsonl')]
got = [x['property'] for x in C]
for i in ids:
    if i not in got: C.append(dict(property=i, status="partial", theorems=[], note="not yet modelled"))
C.sort(key=lambda x: (len(x['property']), x['property']))
assert sorted(got) == sorted(set(got)), "duplicate claim"
assert set(got) <= set(ids)
json.dump(dict(claims=C), open(root + '/MANIFEST.json', 'w'), indent=1)
print(len(C), 'claims;', sum(x['status'] == 'proved' for x in C), 'proved')
