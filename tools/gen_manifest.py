#!/usr/bin/env python3
"""Collect the property theorems of rocq/theories/P_*.v into MANIFEST.json.

Status and notes come from tools/status.json; a property whose theorems include a
_partial or _refuted name is 'partial' unless status.json says otherwise."""
import glob, json, os, re
root = os.path.dirname(os.path.dirname(os.path.abspath(__file__)))
thms = {}
for f in sorted(glob.glob(root + '/rocq/theories/P_*.v')):
    for m in re.finditer(r'^Theorem\s+(C(\d+)_\w+)', open(f).read(), re.M):
        thms.setdefault('C' + m.group(2), []).append(m.group(1))
st = json.load(open(root + '/tools/status.json'))
claims = []
for l in open(root + '/properties.jsonl'):
    pid = json.loads(l)['id']
    ts = thms.get(pid, [])
    s = st.get(pid, {})
    if not ts and not s:
        continue
    part = any(t.endswith('_partial') or t.endswith('_refuted') for t in ts)
    claims.append({'property': pid, 'status': s.get('status', 'partial' if part else 'proved'),
                   'theorems': ts, 'note': s.get('note', '')})
json.dump({'claims': claims}, open(root + '/MANIFEST.json', 'w'), indent=1)
print(len(claims), 'claims')
