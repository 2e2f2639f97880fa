#!/usr/bin/env python3
"""collect the lines of the mutation runs (scratch directory) into seeded/LOG.jsonl"""
import json, glob, os
seen = set(); out = []
T = {}
if os.path.exists('/verif/seeded/tightened.json'):
    T = json.load(open('/verif/seeded/tightened.json'))
for f in ['/verif/seeded/LOG.jsonl'] + sorted(glob.glob('/tmp/mut/log*.jsonl'), key=lambda p: (len(p), p)):
    if not os.path.exists(f): continue
    for l in open(f):
        j = json.loads(l)
        k = (j['file'], j['edit'], bool(j['theorems_failed']))
        if k in seen: continue
        seen.add(k)
        if not j['theorems_failed'] and j['edit'] in T:
            j['theorems_tightened'] = T[j['edit']]
        out.append(json.dumps(j))
open('/verif/seeded/LOG.jsonl', 'w').write('\n'.join(out) + '\n')
print(len(out), 'lines')
