#!/usr/bin/env python3
"""addprop.py: append properties read from stdin (JSON lines); replaces an existing id."""
import json, sys, os
root = os.path.dirname(os.path.dirname(os.path.abspath(__file__)))
f = root + '/properties.jsonl'
props = [json.loads(l) for l in open(f)]
for l in sys.stdin:
    if not l.strip(): continue
    d = json.loads(l)
    assert set(d) == {'id','title','statement','quantifier','why_tests_cant','anchors'}, d
    props = [p for p in props if p['id'] != d['id']] + [d]
props.sort(key=lambda p: int(p['id'][1:]))
with open(f, 'w') as o:
    for p in props: o.write(json.dumps(p) + '\n')
print(len(props))
