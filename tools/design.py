#!/usr/bin/env python3
"""Rewrite the per-property table of DESIGN.md from properties.jsonl, MANIFEST.json and tools/how.json."""
import json, os
root = os.path.dirname(os.path.dirname(os.path.abspath(__file__)))
how = json.load(open(root + '/tools/how.json'))
man = {c['property']: c for c in json.load(open(root + '/MANIFEST.json'))['claims']}
rows = []
for l in open(root + '/properties.jsonl'):
    p = json.loads(l)
    c = man.get(p['id'], {'status': 'open', 'theorems': [], 'note': ''})
    th = ', '.join('`%s`' % t for t in c['theorems'])
    rows.append('### %s %s (%s)\n%s\n\nTheorems: %s. %s\n' % (p['id'], p['title'], c['status'], how.get(p['id'], ''), th, c['note']))
mark = '## Per property\n'
d = open(root + '/DESIGN.md').read()
d = d[:d.index(mark)] + mark + '\n' + '\n'.join(rows)
open(root + '/DESIGN.md', 'w').write(d)
