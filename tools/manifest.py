#!/usr/bin/env python3
"""Writes MANIFEST.json from the theorems named Cnn_... in rocq/theories/Prop*.v
and the notes in tools/notes.json."""
import glob, json, os, re
root = os.path.dirname(os.path.dirname(os.path.abspath(__file__)))
thms = {}
for f in sorted(glob.glob(root + '/rocq/theories/Prop*.v')):
    for m in re.finditer(r'^Theorem ((?:C\d\d_)+)(\w+)', open(f).read(), re.M):
        for c in re.findall(r'C\d\d', m.group(1)):
            thms.setdefault(c, []).append(m.group(1) + m.group(2))
notes = json.load(open(root + '/tools/notes.json'))
claims = []
for l in open(root + '/properties.jsonl'):
    p = json.loads(l)['id']
    t = thms.get(p, [])
    if not t:
        status = 'not_applicable' if notes.get(p, '').startswith('Not modelled') else 'partial'
    elif any('_refuted' in x or '_partial' in x for x in t):
        status = 'partial'
    else:
        status = 'proved'
    claims.append({'property': p, 'status': status, 'theorems': t, 'note': notes.get(p, '')})
json.dump({'claims': claims}, open(root + '/MANIFEST.json', 'w'), indent=1)
open(root + '/MANIFEST.json', 'a').write('\n')
for c in claims:
    print(c['property'], c['status'], len(c['theorems']), '' if c['note'] else 'NO NOTE')

tech = {}
for k, ids in json.load(open(root + '/tools/technique.json')).items():
    for i in ids:
        tech.setdefault(i, []).append(k)
titles = {json.loads(l)['id']: json.loads(l)['title'] for l in open(root + '/properties.jsonl')}
rows = ['| id | property | status | technique | theorems | note |', '|---|---|---|---|---|---|']
for c in claims:
    rows.append('| %s | %s | %s | %s | %s | %s |' % (c['property'], titles[c['property']], c['status'],
        ', '.join(tech.get(c['property'], [])), ' '.join('`%s`' % t for t in c['theorems']), c['note']))
    if c['property'] not in tech: print(c['property'], 'NO TECHNIQUE')
d = open(root + '/DESIGN.md').read()
a, b = '<!-- generated by tools/manifest.py -->\n', '<!-- end -->'
i, j = d.index(a) + len(a), d.index(b)
open(root + '/DESIGN.md', 'w').write(d[:i] + '\n'.join(rows) + '\n' + d[j:])
