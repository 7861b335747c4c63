#!/usr/bin/env python3
# Writes seeded/LOG.jsonl from the runner's results (arguments: files written by seed.py) and seeded/mutations.py.
# The field theorems_tightened is filled from seeded/tightened.json (id -> list of theorem names), if that file exists.
import json, os, sys
here = os.path.dirname(os.path.abspath(__file__))
seeded = os.path.join(here, '..', 'seeded')
ns = {}
exec(open(os.path.join(seeded, 'mutations.py')).read(), ns)
tight = {}
p = os.path.join(seeded, 'tightened.json')
if os.path.exists(p): tight = json.load(open(p))
log = os.path.join(seeded, 'LOG.jsonl')
# Until it was made faster this example took longer than the runner's time limit and so was reported for every edit,
# whether or not the edit broke it; it is left out.  (Nothing rests on it, so theorems_failed was not affected.)
SPURIOUS = {'Prop_Runs.C65_two_runs'}
res = {}
if os.path.exists(log):
    for l in open(log):
        if l.strip():
            x = json.loads(l); res[x['id']] = x
for f in sys.argv[1:]:
    for l in open(f):
        r = json.loads(l)
        m = next(m for m in ns['mutations'] if m['id'] == r['id'])
        res[r['id']] = dict(id=r['id'], definition=m['definition'], edit=m['edit'], claim=m['claim'],
                            failed_proofs=r['failed_proofs'], theorems_failed=r['theorems'], theorems_tightened=[])
for i, x in res.items():
    x['theorems_tightened'] = tight.get(i, [])
    x['failed_proofs'] = [p for p in x['failed_proofs'] if p not in SPURIOUS]
with open(log, 'w') as f:
    for m in ns['mutations']:
        if m['id'] in res: f.write(json.dumps(res[m['id']]) + '\n')
print(len(res))
