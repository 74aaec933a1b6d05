#!/usr/bin/env python3
"""Write ASSUMPTIONS.md: what `Print Assumptions` lists for every theorem of MANIFEST.json.

Run after `make` in rocq/ (the .vo files are read)."""
import json, os, re, subprocess, sys, collections
ROOT = os.path.dirname(os.path.dirname(os.path.abspath(__file__)))
TH = os.path.join(ROOT, 'rocq', 'theories')
man = json.load(open(os.path.join(ROOT, 'MANIFEST.json')))
names = [t for c in man['claims'] for t in c['theorems']]
where = {}
for f in sorted(os.listdir(TH)):
    if f.endswith('.v'):
        for m in re.finditer(r'^\s*Theorem (C\d{2,3}_\w+)', open(os.path.join(TH, f)).read(), re.M):
            where[m.group(1)] = f[:-2]
short = [n.split('.')[-1] for n in names]
files = sorted({where[n] for n in short})
res = {}
for f in files:
    mine = [n for n in short if where[n] == f]
    script = 'From Verif Require %s.\n' % f
    for n in mine:
        script += 'Goal True. idtac "@@%s". exact I. Qed.\nPrint Assumptions %s.%s.\n' % (n, f, n)
    p = '/tmp/assum_%s.v' % f
    open(p, 'w').write(script)
    out = subprocess.run(['coqc', '-q', '-Q', TH, 'Verif', p], capture_output=True, text=True, cwd='/tmp')
    if out.returncode:
        sys.exit(out.stderr)
    for chunk in out.stdout.split('@@')[1:]:
        n, body = chunk.split('\n', 1)
        if 'Closed under the global context' in body:
            res[n] = ()
        else:
            body = re.sub(r'\n +', ' ', body)
            res[n] = tuple(sorted(set(re.findall(r'^([A-Za-z_.\']+) :', body, re.M))))
groups = collections.OrderedDict()
for n in short:
    groups.setdefault(res[n], []).append(n)
o = ['# What `Print Assumptions` lists', '',
     'Generated by `tools/assumptions.py` (theorem by theorem, grouped by equal answers).', '']
for ax, ns in sorted(groups.items(), key=lambda g: (len(g[0]), g[0])):
    o.append('## ' + ('Closed under the global context (no axioms)' if not ax else ', '.join('`%s`' % a for a in ax)))
    o += ['', '%d theorems: ' % len(ns) + ', '.join(ns), '']
open(os.path.join(ROOT, 'ASSUMPTIONS.md'), 'w').write('\n'.join(o))
print({k: len(v) for k, v in groups.items()})
