#!/usr/bin/env python3
"""mutate.py: try wrong programs.  Reads JSON lines {file, definition, old, new, claim[, tightened]} from stdin.
For each: scratch copy of rocq/ in /tmp/mut<pid>, replace `old` by `new` (must occur once, or exactly "count" times)
in theories/<file>.v, rebuild everything that depends on it.  A proof that no longer checks is cut off with
Admitted (in the scratch copy only) so that the build goes on; Print Assumptions then tells which property
theorems rest on a broken proof.  Appends one line per attempt to seeded/LOG.jsonl."""
import json, sys, os, re, shutil, subprocess
root = os.path.dirname(os.path.dirname(os.path.abspath(__file__)))
B = '/tmp/mut%d' % os.getpid()
T = B + '/rocq/theories'
def deps():
    out = subprocess.run('coqdep -Q theories Verif theories/*.v', shell=True, cwd=root + '/rocq', capture_output=True, text=True).stdout
    d = {}
    for l in out.splitlines():
        m = re.match(r'theories/(\w+)\.vo\b.*?: (.*)', l)
        if m: d[m.group(1)] = [x for x in re.findall(r'theories/(\w+)\.vo', m.group(2)) if x != m.group(1)]
    return d
def order(d, f):
    need = {f}; ch = True
    while ch:
        ch = False
        for k, v in d.items():
            if k not in need and any(x in need for x in v): need.add(k); ch = True
    res = []
    def visit(k):
        if k in res or k not in need: return
        for x in d[k]: visit(x)
        res.append(k)
    for k in sorted(need): visit(k)
    return res
START = re.compile(r'^\s*(Theorem|Lemma|Example|Corollary|Fact|Remark|Definition|Fixpoint)\s+(\w+)', re.M)
def admit(path, line):
    s = open(path).read(); lines = s.split('\n')
    pos = sum(len(x) + 1 for x in lines[:line - 1])
    best = None
    for m in START.finditer(s):
        if m.start() <= pos + len(lines[line - 1]): best = m
    if best is None or best.group(1) in ('Definition', 'Fixpoint'): return None
    i = best.start()
    p = s.find('Proof', i)
    q = re.compile(r'\b(Qed|Defined)\.').search(s, i)
    if p < 0 or q is None: return None
    if pos + 1 < p and line > 0 and pos + len(lines[line-1]) < p: return None
    s = s[:p] + 'Admitted.' + s[q.end():]
    open(path, 'w').write(s)
    return best.group(2)
def try_one(m, d):
    os.makedirs(B, exist_ok=True)
    subprocess.run('rm -rf %s/rocq && cp -a %s/rocq %s/rocq' % (B, root, B), shell=True, check=True)
    f = T + '/' + m['file'] + '.v'; s = open(f).read()
    n = s.count(m['old'])
    if n != m.get('count', 1): return {'error': 'old occurs %d times' % n}
    open(f, 'w').write(s.replace(m['old'], m['new']))
    broken, stuck, failed, survived = [], [], [], []
    bad = set()
    for k in order(d, m['file']):
        if any(x in bad for x in d[k]): bad.add(k); stuck.append(k); continue
        while True:
            try:
                r = subprocess.run(['coqc', '-Q', 'theories', 'Verif', 'theories/' + k + '.v'], cwd=B + '/rocq', capture_output=True, text=True, timeout=600)
            except subprocess.TimeoutExpired:
                bad.add(k); stuck.append(k + ' (timeout)'); break
            if r.returncode == 0: break
            e = re.search(r'line (\d+), characters', r.stderr)
            a = admit(T + '/' + k + '.v', int(e.group(1))) if e else None
            if a is None or a in broken:
                bad.add(k); stuck.append(k + ': ' + r.stderr.strip()[-200:]); break
            broken.append(a)
        if k.startswith('Prop') and k not in bad:
            src = open(T + '/' + k + '.v').read()
            names = re.findall(r'^Print Assumptions (\w+)', src, re.M)
            outs = re.split(r'(?=Closed under the global context|Axioms:)', r.stdout)
            outs = [o for o in outs if o.startswith(('Closed', 'Axioms'))]
            for nm, o in zip(names, outs):
                (failed if o.startswith('Axioms') else survived).append(nm)
    for k in stuck:
        k = k.split(':')[0].split(' ')[0]
        if k.startswith('Prop'):
            failed += re.findall(r'^Theorem (\w+)', open(T + '/' + k + '.v').read(), re.M)
    return {'failed': failed, 'survived': survived, 'broken': broken, 'stuck': stuck}
def main():
    d = deps(); dry = '--dry' in sys.argv
    for l in sys.stdin:
        if not l.strip(): continue
        m = json.loads(l); r = try_one(m, d)
        if 'error' in r: print('ERROR', m['definition'], r['error']); continue
        print(m['definition'], '|', m['new'][:60].replace('\n', ' '), '\n  FAILED', r['failed'], '\n  SURVIVED', r['survived'], '\n  broken lemmas', r['broken'][:6], ('\n  stuck %s' % r['stuck']) if r['stuck'] else '')
        if not dry:
            with open(root + '/seeded/LOG.jsonl', 'a') as o:
                o.write(json.dumps({'definition': m['file'] + '.' + m['definition'], 'edit': m['old'] + '  ==>  ' + m['new'], 'claim': m['claim'],
                    'theorems_failed': r['failed'], 'theorems_survived': r['survived'], 'lemmas_broken': r['broken'], 'theorems_tightened': m.get('tightened', [])}) + '\n')
main()
