#!/usr/bin/env python3
"""Writes MANIFEST.json: every theorem in theories/Props*.v whose name starts with C<nn>_ is listed
under that property; status and note come from the table below (default: proved if no theorem of the
property is _partial/_refuted, else partial)."""
import re, glob, json, os
root = os.path.dirname(os.path.dirname(os.path.abspath(__file__)))
NOTES = json.load(open(os.path.join(root, 'tools', 'notes.json')))
thms = {}
for f in sorted(glob.glob(os.path.join(root, 'rocq/theories/Props*.v'))):
    for m in re.finditer(r'^Theorem\s+((C\d\d)_\w+)', open(f).read(), re.M):
        thms.setdefault(m.group(2), []).append(m.group(1))
claims = []
for l in open(os.path.join(root, 'properties.jsonl')):
    p = json.loads(l)['id']
    t = thms.get(p, [])
    n = NOTES.get(p, {})
    st = n.get('status') or ('partial' if (not t or any('_partial' in x or '_refuted' in x for x in t)) else 'proved')
    claims.append({'property': p, 'status': st, 'theorems': t, 'note': n.get('note', '' if t else 'not proved yet')})
json.dump({'claims': claims}, open(os.path.join(root, 'MANIFEST.json'), 'w'), indent=1)
print({s: sum(c['status'] == s for c in claims) for s in ('proved', 'partial', 'not_applicable')})
