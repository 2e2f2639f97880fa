#!/usr/bin/env python3
"""Rebuild MANIFEST.json from claims.txt and the theorem names found in rocq/theories/Props.
Each line of claims.txt: ID | status | note.  Theorems of a property are those named <ID>_..."""
import re, json, glob, os
root = os.path.dirname(os.path.dirname(os.path.abspath(__file__)))
names = {}
for f in sorted(glob.glob(root + '/rocq/theories/Props/*.v')):
    for m in re.finditer(r'^Theorem (C\d+)_(\w+)', open(f).read(), re.M):
        names.setdefault(m.group(1), []).append(m.group(1) + '_' + m.group(2))
claims = {}
for line in open(root + '/tools/claims.txt'):
    if line.strip():
        i, st, note = [x.strip() for x in line.split('|', 2)]
        claims[i] = (st, note)
out = []
for line in open(root + '/properties.jsonl'):
    i = json.loads(line)['id']
    if i in claims and (names.get(i) or claims[i][0] == 'not_applicable'):
        out.append({'property': i, 'status': claims[i][0], 'theorems': names.get(i, []), 'note': claims[i][1]})
    elif i in names:
        print('no claim line for', i)
    else:
        print('not yet:', i)
json.dump({'claims': out}, open(root + '/MANIFEST.json', 'w'), indent=1)
print(len(out), 'claims,', sum(len(c['theorems']) for c in out), 'theorems')
