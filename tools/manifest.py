#!/usr/bin/env python3
"""Regenerate MANIFEST.json and rocq/_CoqProject.

Theorem names are collected from rocq/theories/P_*.v (a theorem belongs to the
property whose id prefixes its name); status and notes come from
tools/status.json."""
import json, re, glob, os
root = os.path.dirname(os.path.dirname(os.path.abspath(__file__)))
th = {}
for f in sorted(glob.glob(root + '/rocq/theories/P_*.v')):
    for m in re.finditer(r'^Theorem\s+((C\d+)_\w+)', open(f).read(), re.M):
        th.setdefault(m.group(2), []).append(m.group(1))
status = json.load(open(root + '/tools/status.json'))
props = [json.loads(l)['id'] for l in open(root + '/properties.jsonl') if l.strip()]
claims = []
for p in props:
    s = status.get(p)
    if not th.get(p) and not s:
        continue
    s = s or {}
    claims.append({"property": p, "status": s.get("status", "proved"),
                   "theorems": th.get(p, []), "note": s.get("note", "")})
json.dump({"claims": claims}, open(root + '/MANIFEST.json', 'w'), indent=1)
files = sorted(os.path.basename(f) for f in glob.glob(root + '/rocq/theories/*.v'))
with open(root + '/rocq/_CoqProject', 'w') as o:
    o.write('-Q theories Verif\n')
    for f in files:
        o.write('theories/' + f + '\n')
missing = [p for p in props if p not in th]
print(len(claims), 'claims; without theorems:', ' '.join(missing))
