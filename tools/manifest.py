#!/usr/bin/env python3
"""Regenerate MANIFEST.json from the theorems Cnn_* in rocq/theories/Props_*.v and tools/notes.json."""
import json, re, glob, os
root = os.path.dirname(os.path.dirname(os.path.abspath(__file__)))
notes = json.load(open(root + '/tools/notes.json'))
thms = {}
for f in sorted(glob.glob(root + '/rocq/theories/Props_*.v')):
    for m in re.finditer(r'^Theorem ((C\d+)_\w+)', open(f).read(), re.M):
        thms.setdefault(m.group(2), []).append(m.group(1))
claims = []
for l in open(root + '/properties.jsonl'):
    pid = json.loads(l)['id']
    n = notes.get(pid, {})
    t = thms.get(pid, [])
    st = n.get('status') or ('partial' if (not t or any(x.endswith('_partial') for x in t)) else 'proved')
    if t or n.get('status') == 'not_applicable':
        claims.append({'property': pid, 'status': st, 'theorems': t, 'note': n.get('note', '')})
json.dump({'claims': claims}, open(root + '/MANIFEST.json', 'w'), indent=1)
print(len(claims), 'claims')
