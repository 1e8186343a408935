#!/usr/bin/env python3
"""Writes MANIFEST.json from the theorem names found in rocq/theories/Prop*.v.
A property is 'proved' unless listed in PARTIAL (with a note) or has no theorem."""
import re, json, glob, os
root = os.path.join(os.path.dirname(__file__), '..')
PARTIAL = {}
NOTES = {}
exec(open(os.path.join(root, 'tools', 'notes.py')).read())
thms = {}
for f in sorted(glob.glob(os.path.join(root, 'rocq/theories/Prop*.v'))):
    for m in re.finditer(r'^Theorem (C(\d\d)\w*)', open(f).read(), re.M):
        thms.setdefault('C' + m.group(2), []).append(m.group(1))
claims = []
for l in open(os.path.join(root, 'properties.jsonl')):
    p = json.loads(l)['id']
    if p not in thms: continue
    st = 'partial' if p in PARTIAL else 'proved'
    claims.append({"property": p, "status": st, "theorems": thms[p], "note": PARTIAL.get(p, NOTES.get(p, ''))})
json.dump({"claims": claims}, open(os.path.join(root, 'MANIFEST.json'), 'w'), indent=1)
print(len(claims), 'claims')
