"""Regenerates the per-property part of DESIGN.md from properties.jsonl, MANIFEST.json and design_methods.json."""
import json
P = {}
for l in open('properties.jsonl'):
    d = json.loads(l); P[d['id']] = d
M = {c['property']: c for c in json.load(open('MANIFEST.json'))['claims']}
T = json.load(open('tools/design_methods.json'))
s = open('DESIGN.md').read()
head = s.split('## Properties: what is modelled and how it is proved\n')[0]
out = head + '## Properties: what is modelled and how it is proved\n\n'
missing = []
for i in sorted(P, key=lambda i: (len(i), i)):
    c = M[i]
    if i not in T: missing.append(i)
    out += f"* **{i}** {P[i]['title']} ({c['status']}). {T.get(i, '')}"
    if c['note']: out += f" *{c['note']}*"
    out += ' Theorems: ' + ', '.join(f'`{t}`' for t in c['theorems']) + '.\n'
open('DESIGN.md', 'w').write(out)
print('missing', missing)
