#!/usr/bin/env python3
"""Regenerate MANIFEST.json from the theorem names in rocq/theories/T_*.v.

Every property theorem is named Cnn_...; notes and non-default statuses are
kept in tools/notes.json.
"""
import glob
import json
import os
import re

root = os.path.dirname(os.path.dirname(os.path.abspath(__file__)))
ids = [json.loads(l)['id'] for l in open(os.path.join(root, 'properties.jsonl'))]
notes = json.load(open(os.path.join(root, 'tools', 'notes.json')))
theorems = {i: [] for i in ids}
for path in sorted(glob.glob(os.path.join(root, 'rocq/theories/T_*.v'))):
    for name in re.findall(r'^ *Theorem\s+(\w+)', open(path).read(), re.M):
        theorems[re.match(r'C\d+', name).group(0)].append(name)
claims = []
for i in ids:
    note = notes.get(i, {})
    if not theorems[i] and 'status' not in note:
        continue
    status = note.get('status')
    if status is None:
        status = 'partial' if all(
            t.endswith('_partial') for t in theorems[i]) else 'proved'
    claims.append({'property': i, 'status': status,
                   'theorems': theorems[i], 'note': note.get('note', '')})
with open(os.path.join(root, 'MANIFEST.json'), 'w') as f:
    json.dump({'claims': claims}, f, indent=1)
    f.write('\n')
print('missing:', [i for i in ids if not theorems[i]])
