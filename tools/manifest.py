#!/usr/bin/env python3
"""Rebuild MANIFEST.json from tools/claims.json and check that every theorem
named there exists in rocq/theories."""
import json, re, pathlib
root = pathlib.Path(__file__).resolve().parent.parent
claims = json.loads((root / 'tools/claims.json').read_text())
names = set()
for f in (root / 'rocq/theories').glob('*.v'):
    names |= set(re.findall(r'^(?:Theorem|Lemma|Example|Corollary)\s+([\w\']+)', f.read_text(), re.M))
ids = [json.loads(l)['id'] for l in (root / 'properties.jsonl').read_text().splitlines() if l.strip()]
out, bad = [], 0
for i in ids:
    c = claims.get(i)
    if c is None:
        continue
    for t in c['theorems']:
        if t not in names:
            print('missing theorem', i, t); bad += 1
    out.append({"property": i, "status": c['status'], "theorems": c['theorems'], "note": c['note']})
print('unclaimed:', [i for i in ids if i not in claims])
used = {t for c in claims.values() for t in c['theorems']}
for f in sorted((root / 'rocq/theories').glob('*Properties.v')):
    for t in re.findall(r'^Theorem\s+([\w\']+)', f.read_text(), re.M):
        if t not in used:
            print('theorem not in manifest:', f.name, t)
if not bad:
    (root / 'MANIFEST.json').write_text(json.dumps({"claims": out}, indent=1) + '\n')
