#!/usr/bin/env python3
"""Regenerate the tables of DESIGN.md (between the begin/end markers) from properties.jsonl,
MANIFEST.json, the citations in the Coq files and the C source in /repo."""
import json, re, glob, os, collections
root = os.path.dirname(os.path.dirname(os.path.abspath(__file__)))
props = [json.loads(l) for l in open(root + '/properties.jsonl')]
claims = {c['property']: c for c in json.load(open(root + '/MANIFEST.json'))['claims']}
plan = json.load(open(root + '/tools/plan.json'))
where = {}
for f in sorted(glob.glob(root + '/rocq/theories/Prop*.v')):
    for m in re.finditer(r'^\s*Theorem\s+(C\d\d+)_', open(f).read(), re.M):
        where.setdefault(m.group(1), set()).add(os.path.basename(f))
t1 = ['| id | property | model and proof | theorems in |', '|---|---|---|---|']
for p in props:
    i = p['id']
    t1.append('| %s | %s | %s | %s |' % (i, p['title'], plan.get(i, ''), ', '.join(sorted(where.get(i, [])))))

cov = collections.defaultdict(lambda: collections.defaultdict(set))
for f in sorted(glob.glob(root + '/rocq/theories/*.v')):
    for c in re.findall(r'\(\*\*?(.*?)\*\)', open(f).read(), re.S):
        for m in re.finditer(r'((?:src|lib)/[\w/\.\-]+\.[chly]\w*):((?:\d+(?:-\d+)?(?:,\s*(?:and\s*)?)?)+)', c):
            for a, b in re.findall(r'(\d+)(?:-(\d+))?', m.group(2)):
                cov[m.group(1)][os.path.basename(f)[:-2]].update(range(int(a), int(b or a) + 1))

def functions(path):
    ls = open(path, errors='replace').read().split('\n')
    out = []; i = 0
    while i < len(ls):
        if ls[i].startswith('{'):
            j = i
            while j > 0 and not re.match(r'^(\w[\w\s\*]*[\s\*])?(\w+)\s*\(', ls[j]): j -= 1
            m = re.match(r'^(?:\w[\w\s\*]*[\s\*])?\**(\w+)\s*\(', ls[j])
            k = i
            while k < len(ls) and not ls[k].startswith('}'): k += 1
            if m and i - j < 12: out.append((m.group(1), j + 1, k + 1))
            i = k
        else:
            m = re.match(r'^(?:static |inline |INLINE |const )*[\w\*][\w\s\*]*?[\s\*](\w+)\s*\([^;]*\)\s*\{\s*$', ls[i])
            if m:
                k = i
                while k < len(ls) and not ls[k].startswith('}'): k += 1
                out.append((m.group(1), i + 1, k + 1)); i = k
        i += 1
    return out

t2 = ['| file | Coq files | functions modelled | in part | not modelled |', '|---|---|---|---|---|']
files = [f for f in sorted(glob.glob('/repo/src/*.c') + glob.glob('/repo/src/common/*.c') + glob.glob('/repo/src/linux/*.c') + glob.glob('/repo/src/unix/*.c') + glob.glob('/repo/src/cfgparser/*.c') + glob.glob('/repo/lib/*/src/*.c'))]
none = []
for path in files:
    rel = path[len('/repo/'):]
    if rel not in cov:
        none.append(rel); continue
    u = set().union(*cov[rel].values())
    full, part, no = [], [], []
    for n, a, b in functions(path):
        k = sum(1 for l in range(a, b + 1) if l in u)
        (full if 2 * k >= b - a + 1 else part if k else no).append('`' + n + '`')
    t2.append('| %s | %s | %s | %s | %s |' % (rel, ', '.join(sorted(cov[rel])), ', '.join(full), ', '.join(part), ', '.join(no)))
t3 = [', '.join('`%s`' % x for x in none) + '.']

d = open(root + '/DESIGN.md').read()
for name, t in (('plan', t1), ('coverage', t2), ('untouched', t3)):
    d = re.sub(r'(<!-- begin %s -->\n).*?(<!-- end %s -->)' % (name, name), lambda m: m.group(1) + '\n'.join(t) + '\n' + m.group(2), d, flags=re.S)
open(root + '/DESIGN.md', 'w').write(d)
