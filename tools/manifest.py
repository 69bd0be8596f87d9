#!/usr/bin/env python3
"""Regenerate MANIFEST.json from the property theorems in rocq/theories/Props_*.v."""
import glob, json, os, re
root = os.path.dirname(os.path.dirname(os.path.abspath(__file__)))
notes = json.load(open(os.path.join(root, 'tools', 'notes.json')))
thms = {}
for f in sorted(glob.glob(os.path.join(root, 'rocq/theories/Props_*.v'))):
    for m in re.finditer(r'^Theorem\s+((C\d\d+)_\w+)', open(f).read(), re.M):
        thms.setdefault(m.group(2), []).append(m.group(1))
claims = []
for line in open(os.path.join(root, 'properties.jsonl')):
    pid = json.loads(line)['id']
    n = notes.get(pid, {})
    if pid not in thms and 'status' not in n:
        continue
    status = n.get('status') or ('partial' if any(t.endswith('_partial') for t in thms[pid]) else 'proved')
    claims.append({'property': pid, 'status': status, 'theorems': thms.get(pid, []), 'note': n.get('note', '')})
json.dump({'claims': claims}, open(os.path.join(root, 'MANIFEST.json'), 'w'), indent=1)
print(len(claims), 'claims', sum(len(c['theorems']) for c in claims), 'theorems')
