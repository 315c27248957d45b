#!/usr/bin/env python3
"""Regenerate MANIFEST.json from the theorem names in rocq/theories/*Props*.v.

Every theorem cNN_... belongs to property CNN.  tools/status.json holds the
status and the note of a property when they are not simply "proved"."""
import json, os, re, glob
root = os.path.dirname(os.path.dirname(os.path.abspath(__file__)))
thms = {}
for f in sorted(glob.glob(root + '/rocq/theories/*Props*.v')):
    for m in re.finditer(r'^Theorem\s+(c(\d+)_\w+)', open(f).read(), re.M):
        thms.setdefault('C' + m.group(2), []).append(m.group(1))
props = [json.loads(l) for l in open(root + '/properties.jsonl')]
ids = [p['id'] for p in props]
assert len(set(ids)) == len(ids)
status = json.load(open(root + '/tools/status.json'))
claims = []
for p in ids:
    s = status.get(p, {})
    st = s.get('status', 'proved' if p in thms else 'partial')
    note = s.get('note', '' if p in thms else 'not yet modelled')
    claims.append(dict(property=p, status=st, theorems=thms.get(p, []), note=note))
for t in thms:
    assert t in ids, t
json.dump(dict(claims=claims), open(root + '/MANIFEST.json', 'w'), indent=1)
print(len(claims), 'claims;', sum(len(v) for v in thms.values()), 'theorems; open:',
      [c['property'] for c in claims if not c['theorems']])
