#!/usr/bin/env python3
"""Write MANIFEST.json from the theorem names in Props*.v and tools/notes.json."""
import re, glob, os, json
R = os.path.join(os.path.dirname(os.path.abspath(__file__)), '..')
notes = json.load(open(R + '/tools/notes.json'))
th = {}
for f in sorted(glob.glob(R + '/rocq/theories/Props*.v')):
    for n in re.findall(r'^Theorem (\w+)', open(f).read(), re.M):
        for c in re.findall(r'C\d\d', n.split('_')[0]):
            th.setdefault(c, []).append(n)
claims = []
for l in open(R + '/properties.jsonl'):
    i = json.loads(l)['id']
    n = notes.get(i, {})
    if i in th:
        st = n.get('status', 'proved')
        claims.append({'property': i, 'status': st, 'theorems': th[i], 'note': n.get('note', '')})
    else:
        claims.append({'property': i, 'status': 'partial', 'theorems': [], 'note': n.get('note', 'Not proved yet.')})
json.dump({'claims': claims}, open(R + '/MANIFEST.json', 'w'), indent=1)
print({s: sum(c['status'] == s for c in claims) for s in ('proved', 'partial', 'not_applicable')})
