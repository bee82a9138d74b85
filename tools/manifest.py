#!/usr/bin/env python3
"""Writes /verif/MANIFEST.json from the theorem names in rocq/theories/Props_*.v.

A theorem belongs to the property whose id it starts with.  Theorems with the suffix
_partial make a property partial."""
import glob, json, os, re
os.chdir(os.path.dirname(os.path.dirname(os.path.abspath(__file__))))
NOTES = json.load(open('tools/notes.json'))
names = []
for f in sorted(glob.glob('rocq/theories/Props_*.v')):
    names += re.findall(r'^Theorem\s+(\w+)', open(f).read(), re.M)
claims = []
for line in open('properties.jsonl'):
    p = json.loads(line)
    ths = [n for n in names if n.startswith(p['id'] + '_')]
    if not ths:
        continue
    status = 'partial' if any(n.endswith('_partial') for n in ths) else 'proved'
    if p['id'] in NOTES.get('partial', []):
        status = 'partial'
    claims.append(dict(property=p['id'], status=status, theorems=ths,
                       note=NOTES.get(p['id'], '')))
json.dump(dict(claims=claims), open('MANIFEST.json', 'w'), indent=1)
print(len(claims), 'claims,', sum(len(c['theorems']) for c in claims), 'theorems')
