#!/usr/bin/env python3
"""Writes MANIFEST.json: theorems are found by the prefix Cnn_ in rocq/theories/Properties_*.v, status and notes from NOTES."""
import json, re, glob, os
root = os.path.join(os.path.dirname(os.path.abspath(__file__)), '..')
ids = [json.loads(l)['id'] for l in open(root + '/properties.jsonl')]
thms = {}
for f in sorted(glob.glob(root + '/rocq/theories/Properties_*.v')):
    for n in re.findall(r'^Theorem (C\d\d\w*)', open(f).read(), re.M):
        thms.setdefault(n[:3], []).append(n)
NOTES = json.load(open(root + '/tools/notes.json'))
claims = []
for i in ids:
    t = thms.get(i, [])
    st, note = NOTES.get(i, [None, ''])
    if st is None: st = 'proved' if t else 'partial'
    if not t: note = note or 'not yet modelled'
    claims.append(dict(property=i, status=st, theorems=t, note=note))
json.dump(dict(claims=claims), open(root + '/MANIFEST.json', 'w'), indent=1)
print(sum(1 for c in claims if c['theorems']), 'of', len(claims))
