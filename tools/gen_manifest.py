"""Write MANIFEST.json.  Theorem names are collected from the Prop_*.v files:
every Theorem named Cnn_... belongs to property Cnn.  Notes and non-default
statuses are below."""
import glob, json, os, re
here = os.path.dirname(os.path.abspath(__file__))
root = os.path.dirname(here)
props = [json.loads(l) for l in open(os.path.join(root, 'properties.jsonl')) if l.strip()]
names = {}
for f in sorted(glob.glob(os.path.join(root, 'rocq/theories/Prop_*.v'))):
    for m in re.finditer(r'^(?:Theorem|Lemma|Corollary)\s+((C\d+)_\w+)', open(f).read(), re.M):
        names.setdefault(m.group(2), []).append(m.group(1))
notes = {}
partial = {}
exec(open(os.path.join(here, 'manifest_notes.py')).read()) if os.path.exists(os.path.join(here, 'manifest_notes.py')) else None
claims = []
for p in props:
    i = p['id']
    if i not in names:
        continue
    st = 'partial' if i in partial else 'proved'
    claims.append({'property': i, 'status': st, 'theorems': names[i],
                   'note': partial.get(i) or notes.get(i, '')})
json.dump({'claims': claims}, open(os.path.join(root, 'MANIFEST.json'), 'w'), indent=1)
print(len(claims), 'claims;', 'missing:', [p['id'] for p in props if p['id'] not in names])
