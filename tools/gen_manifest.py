#!/usr/bin/env python3
"""Write MANIFEST.json from the theorem names in rocq/theories/P_*.v and tools/notes.json."""
import json, re, glob, os
root = os.path.join(os.path.dirname(os.path.abspath(__file__)), '..')
notes = json.load(open(os.path.join(root, 'tools/notes.json')))
names = {}
for f in sorted(glob.glob(os.path.join(root, 'rocq/theories/P_*.v'))):
    for m in re.finditer(r'^Theorem ((C\d\d+)_\w+)', open(f).read(), re.M):
        names.setdefault(m.group(2), []).append(m.group(1))
claims = []
for line in open(os.path.join(root, 'properties.jsonl')):
    p = json.loads(line)['id']
    if p in names:
        partial = any(re.search(r'_(refuted|partial)$', n) for n in names[p])
        claims.append({'property': p, 'status': 'partial' if partial else 'proved',
                       'theorems': names[p], 'note': notes.get(p, '')})
    elif p in notes:
        claims.append({'property': p, 'status': 'not_applicable', 'theorems': [], 'note': notes[p]})
json.dump({'claims': claims}, open(os.path.join(root, 'MANIFEST.json'), 'w'), indent=1)
print(len(claims), 'claims', sum(len(c['theorems']) for c in claims), 'theorems')
