#!/usr/bin/env python3
"""Regenerate MANIFEST.json from the Prop*.v files and tools/notes.json."""
import json, re, glob, os
root = os.path.dirname(os.path.dirname(os.path.abspath(__file__)))
props = [json.loads(l) for l in open(root + '/properties.jsonl')]
notes = json.load(open(root + '/tools/notes.json'))
thms = {}
for f in sorted(glob.glob(root + '/rocq/theories/Prop*.v')):
    for m in re.finditer(r'^\s*Theorem\s+(C\d\d+)_(\w+)', open(f).read(), re.M):
        thms.setdefault(m.group(1), []).append(m.group(1) + '_' + m.group(2))
claims = []
for p in props:
    i = p['id']; t = thms.get(i, []); n = notes.get(i, {})
    if n.get('status'):
        st = n['status']
    elif not t:
        st = 'not_applicable'
    elif any(x.endswith('_partial') or x.endswith('_refuted') for x in t):
        st = 'partial'
    else:
        st = 'proved'
    claims.append({'property': i, 'status': st, 'theorems': t, 'note': n.get('note', '')})
json.dump({'claims': claims}, open(root + '/MANIFEST.json', 'w'), indent=1)
print(sum(c['status'] == 'proved' for c in claims), 'proved', sum(c['status'] == 'partial' for c in claims), 'partial',
      [c['property'] for c in claims if c['status'] == 'not_applicable'])
