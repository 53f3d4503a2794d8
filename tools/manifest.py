#!/usr/bin/env python3
"""Regenerates MANIFEST.json from the theorem names in Prop_*.v and the notes below."""
import json, re, glob, os
root = os.path.dirname(os.path.dirname(os.path.abspath(__file__)))
thms = {}
for f in sorted(glob.glob(root + '/rocq/theories/Prop_*.v')):
    for m in re.finditer(r'^Theorem ((C\d\d+)_\w+)', open(f).read(), re.M):
        thms.setdefault(m.group(2), []).append(m.group(1))
notes = json.load(open(root + '/tools/notes.json'))
claims = []
for l in open(root + '/properties.jsonl'):
    i = json.loads(l)['id']
    t = thms.get(i, [])
    if not t:
        continue
    st = "partial" if any(x.endswith('_partial') or x.endswith('_refuted') for x in t) else "proved"
    claims.append({"property": i, "status": st, "theorems": t, "note": notes.get(i, "")})
json.dump({"claims": claims}, open(root + '/MANIFEST.json', 'w'), indent=1)
