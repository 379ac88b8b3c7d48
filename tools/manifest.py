#!/usr/bin/env python3
"""Writes MANIFEST.json. Theorem names are collected from the Props files by
their Cnn_ prefix; status and note come from the table below."""
import json, re, glob, os
root = os.path.dirname(os.path.dirname(os.path.abspath(__file__)))
thms = {}
for f in sorted(glob.glob(root + '/rocq/theories/*Props*.v')):
    for m in re.finditer(r'^Theorem ((C\d\d)_\w+)', open(f).read(), re.M):
        thms.setdefault(m.group(2), []).append(m.group(1))
notes = json.load(open(root + '/tools/notes.json'))
claims = []
for l in open(root + '/properties.jsonl'):
    i = json.loads(l)['id']
    st, note = notes.get(i, ['partial', 'not yet modelled'])
    claims.append({"property": i, "status": st, "theorems": thms.get(i, []), "note": note})
claims = [c for c in claims if c["theorems"] or c["status"] == "not_applicable"]
json.dump({"claims": claims}, open(root + '/MANIFEST.json', 'w'), indent=1)
print(len(claims), sum(len(c["theorems"]) for c in claims))
