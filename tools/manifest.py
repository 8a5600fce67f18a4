#!/usr/bin/env python3
"""Regenerates MANIFEST.json: theorem names are collected by prefix from rocq/theories/C_*.v,
status and note come from tools/status.json."""
import json, re, glob, os
root = os.path.dirname(os.path.dirname(os.path.abspath(__file__)))
names = {}
for f in sorted(glob.glob(root + '/rocq/theories/C_*.v')):
    for m in re.finditer(r'^Theorem\s+(C(\d+)_\w+)', open(f).read(), re.M):
        names.setdefault('C' + m.group(2), []).append(m.group(1))
status = json.load(open(root + '/tools/status.json'))
claims = []
for l in open(root + '/properties.jsonl'):
    p = json.loads(l)['id']
    if p in names:
        st = status.get(p, {})
        s = st.get('status') or ('partial' if any(re.search('_(partial|refuted)$', n) for n in names[p]) else 'proved')
        claims.append({'property': p, 'status': s, 'theorems': names[p], 'note': st.get('note', '')})
    elif p in status:
        claims.append({'property': p, 'status': status[p]['status'], 'theorems': [], 'note': status[p]['note']})
    else:
        print('no theorem yet:', p)
for p in names:
    if p not in [c['property'] for c in claims]: print('theorems without property', p)
json.dump({'claims': claims}, open(root + '/MANIFEST.json', 'w'), indent=1)
