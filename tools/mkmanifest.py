#!/usr/bin/env python3
"""Regenerate MANIFEST.json: theorem names are read from theories/Prop_*.v, the status
is 'partial' when a theorem of the property is called *_partial or *_refuted*, and the
notes come from the table below."""
import glob, json, re, os
root = os.path.dirname(os.path.dirname(os.path.abspath(__file__)))
notes = json.load(open(os.path.join(root, 'tools', 'notes.json')))
props = [json.loads(l)['id'] for l in open(os.path.join(root, 'properties.jsonl'))]
ths = {p: [] for p in props}
for f in sorted(glob.glob(os.path.join(root, 'rocq/theories/Prop_*.v'))):
    for m in re.finditer(r'^(?:Theorem|Lemma|Corollary)\s+((C\d\d+)_\w+)', open(f).read(), re.M):
        ths[m.group(2)].append(m.group(1))
claims = []
for p in props:
    n = notes.get(p, '')
    if not ths[p]:
        claims.append({'property': p, 'status': 'not_applicable', 'theorems': [], 'note': n or 'not modelled yet'})
        continue
    partial = any('_partial' in t or '_refuted' in t for t in ths[p])
    claims.append({'property': p, 'status': 'partial' if partial else 'proved', 'theorems': ths[p], 'note': n})
json.dump({'claims': claims}, open(os.path.join(root, 'MANIFEST.json'), 'w'), indent=1)
print({s: sum(c['status'] == s for c in claims) for s in ('proved', 'partial', 'not_applicable')})
