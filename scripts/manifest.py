#!/usr/bin/env python3
"""Regenerate MANIFEST.json: theorem names are collected from rocq/theories/*Props.v,
status and note come from scripts/notes.json."""
import json, re, glob, os
root = os.path.dirname(os.path.dirname(os.path.abspath(__file__)))
notes = json.load(open(root + '/scripts/notes.json'))
thms = {}
for f in sorted(glob.glob(root + '/rocq/theories/*Props.v')):
    for m in re.finditer(r'^Theorem (C(\d\d)_\w+)', open(f).read(), re.M):
        thms.setdefault('C' + m.group(2), []).append(m.group(1))
claims = []
for line in open(root + '/properties.jsonl'):
    if not line.strip(): continue
    pid = json.loads(line)['id']
    n = notes.get(pid, {})
    names = thms.get(pid, [])
    status = n.get('status', 'proved' if names else 'partial')
    claims.append({'property': pid, 'status': status, 'theorems': names,
                   'note': n.get('note', '' if names else 'not modelled yet')})
json.dump({'claims': claims}, open(root + '/MANIFEST.json', 'w'), indent=1)
print(sum(1 for c in claims if c['theorems']), 'properties with theorems;', sum(len(c['theorems']) for c in claims), 'theorems')
