#!/usr/bin/env python3
"""Regenerate MANIFEST.json: theorem names are collected from the Coq sources by
their property prefix (Cxx_...); status and notes are kept below."""
import glob, json, os, re
ROOT = os.path.dirname(os.path.dirname(os.path.abspath(__file__)))
props = [json.loads(l)['id'] for l in open(ROOT + '/properties.jsonl') if l.strip()]
thms = {}
order = [l.strip() for l in open(ROOT + '/rocq/_CoqProject') if l.strip().endswith('.v')]
for f in order:
    for m in re.finditer(r'^Theorem\s+((C\d{2,3})_\w+)', open(ROOT + '/rocq/' + f).read(), re.M):
        thms.setdefault(m.group(2), []).append(m.group(1))
NOTES = json.load(open(ROOT + '/tools/status.json'))
claims = []
for p in props:
    st = NOTES.get(p)
    t = thms.get(p, [])
    if st is None:
        st = {'status': 'partial' if t else 'not_applicable', 'note': 'work in progress'}
        if not t:
            st = {'status': 'partial', 'note': 'not proved yet'}
    claims.append({'property': p, 'status': st['status'], 'theorems': t, 'note': st['note']})
json.dump({'claims': claims}, open(ROOT + '/MANIFEST.json', 'w'), indent=1)
for c in claims:
    print(c['property'], c['status'], len(c['theorems']), c['note'][:70])
