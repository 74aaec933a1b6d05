#!/usr/bin/env python3
"""Write theories/Props*.v from theories/Proofs*.v.

A lemma named cNN_name in ProofsX.v becomes, in PropsX.v,
  Theorem CNN_name : <the same statement>. Proof. exact cNN_name. Qed. Print Assumptions CNN_name.
inside the same section with the same section variables. PropsX.v holds nothing else.

  mkprops.py [probe]     with `probe` the arguments of the lemma (section hypotheses such as
                         OK or RT) are found by compiling; they are kept in tools/props_args.json
"""
import glob, json, os, re, subprocess, sys
ROOT = os.path.dirname(os.path.dirname(os.path.abspath(__file__)))
TH = os.environ.get('TH', ROOT + '/rocq/theories')
ARGS = ROOT + '/tools/props_args.json'

def sentences(s):
    """(kind, text) with kind 'c' for a comment, 's' for a sentence"""
    i, n, out = 0, len(s), []
    while i < n:
        if s[i].isspace(): i += 1; continue
        if s.startswith('(*', i):
            d, j = 1, i + 2
            while d:
                if s.startswith('(*', j): d += 1; j += 2
                elif s.startswith('*)', j): d -= 1; j += 2
                else: j += 1
            out.append(('c', s[i:j])); i = j; continue
        j = i
        while True:
            if s.startswith('(*', j) and not s.startswith('(*)', j):
                d, j = 1, j + 2
                while d:
                    if s.startswith('(*', j): d += 1; j += 2
                    elif s.startswith('*)', j): d -= 1; j += 2
                    else: j += 1
                continue
            if s[j] == '"':
                j = s.index('"', j + 1) + 1; continue
            if s[j] == '.' and (j + 1 >= n or s[j+1].isspace()) and s[j-1] != '.':
                j += 1; break
            if j == i and s[j] in '-+*{}':
                while s[j] in '-+*{}': j += 1
                break
            j += 1
        out.append(('s', s[i:j])); i = j
    return out

KEEP = re.compile(r'(#\[[^\]]*\]\s*)?(Local |Global )?(Context|Variable|Variables|Hypothesis|Notation|Open Scope|Existing Instance|Import|From|Require)\b')
OPEN = re.compile(r'(?:#\[[^\]]*\]\s*)?(?:Local |Global )?(Lemma|Theorem|Example|Corollary|Fact|Remark|Definition|Fixpoint|Instance|Let|Goal)\b')

def call(n, a):
    return '@' + n if a == '@' else '(%s %s)' % (n, a) if a else n

def gen(src, dst, args, probe):
    txt = open(src).read()
    base = os.path.basename(src)[:-2]
    items, inproof, prev = [], False, []
    for k, t in sentences(txt):
        if inproof:
            if k == 's' and t in ('Qed.', 'Defined.', 'Save.'): inproof = False
            prev = []
            continue
        if k == 'c':
            prev.append(t); continue
        if re.match(r'#\[local\] Instance\b', t) and ':=' in t:
            items.append(('keep', t, t, [])); prev = []; continue
        m = re.match(r'(?:Lemma|Theorem) (c\d{2,3}_\w+)', t)
        o = OPEN.match(t)
        if m:
            items.append(('thm', m.group(1), t, prev)); inproof = True
        elif re.match(r'Section\b|End\b', t):
            items.append(('sec', t, t, [c for c in prev if c.startswith('(** *')]))
        elif o:
            if ':=' not in t or (o.group(1) in ('Lemma', 'Theorem', 'Example', 'Corollary', 'Fact', 'Remark', 'Goal') ):
                inproof = True
            elif o.group(1) == 'Definition' and re.search(r':=', t) is None: inproof = True
        elif KEEP.match(t):
            items.append(('keep', t, t, prev if not items else []))
        prev = []
    # drop sections without theorems
    changed = True
    while changed:
        changed = False
        stack = []
        for i, it in enumerate(items):
            if it[0] != 'sec': continue
            if it[1].startswith('Section'): stack.append(i)
            else:
                b = stack.pop()
                if not any(x[0] == 'thm' for x in items[b:i]):
                    del items[b:i+1]; changed = True; break
    # drop what follows the last theorem of a section
    out = []
    for it in items:
        if it[0] == 'sec' and it[1].startswith('End'):
            while out[-1][0] == 'keep': out.pop()
        out.append(it)
    items = out
    # drop everything after the last theorem except End
    last = max((i for i, x in enumerate(items) if x[0] == 'thm'), default=-1)
    items = items[:last+1] + [x for x in items[last+1:] if x[0] == 'sec' and x[1].startswith('End')]
    if last < 0: return 0
    ex = re.findall(r'^Example (\w+)', txt, re.M)
    o, cnt = [], 0
    imported = False
    idx_last_from = max(i for i, x in enumerate(items) if x[0] == 'keep' and re.match(r'From|Require', x[1]))
    for i, it in enumerate(items):
        if it[0] == 'thm':
            n = it[1]; N = 'C' + n[1:]
            o.append('')
            o += [c for c in it[3]]
            o.append(re.sub(r'^(Lemma|Theorem) c', 'Theorem C', it[2]))
            if probe:
                v = ['exact ' + call(n, a) for a in CANDS]
                o.append('Proof. first [' + ' | '.join('(%s; idtac "@@ %s %d")' % (x, n, q) for q, x in enumerate(v)) + ' | idtac "@@ %s FAIL"]. Qed.' % n)
            else:
                o.append('Proof. exact %s. Qed.' % call(n, args.get(n, '')))
                o.append('Print Assumptions %s.' % N)
            cnt += 1
        elif it[0] == 'sec':
            o.append(''); o.append(it[1])
        else:
            if not imported and it[3]:
                o += [re.sub(r'\bProofs(?=\w*:)', 'Props', c) for c in it[3]] + ['']
            o.append(it[1])
            if i == idx_last_from:
                if ex: excase = '(** Concrete cases meeting the hypotheses: the Examples of %s.v and of Cases.v. *)' % base
                else: excase = ''
                o.append('From Verif Require Import %s.' % base)
                if excase: o.append(excase)
            imported = True
    open(dst, 'w').write('\n'.join(o).strip('\n') + '\n')
    return cnt

CANDS = ['', '@', 'OK', 'RT', 'sg w', 'RT OK', 'OK RT', '_ OK', 'm', 'O', 'w', 'sg w Hm', 'w Hm', 'w Hw']

def main():
    probe = 'probe' in sys.argv
    args = json.load(open(ARGS)) if os.path.exists(ARGS) else {}
    for f in sorted(glob.glob(TH + '/Proofs*.v')):
        d = f.replace('/Proofs', '/Props')
        n = gen(f, d, args, False)
        if probe and n:
            p = '/tmp/w/Probe.v'
            gen(f, p, args, True)
            r = subprocess.run(['coqc', '-q', '-Q', TH, 'Verif', p], capture_output=True, text=True, cwd='/tmp/w')
            for m in re.finditer(r'@@ (\w+) (\w+)', r.stdout):
                if m.group(2) == 'FAIL': print(os.path.basename(f), m.group(1), 'FAIL')
                else:
                    a = CANDS[int(m.group(2))]
                    if a: args[m.group(1)] = a
                    else: args.pop(m.group(1), None)
            if r.returncode: print(f, r.stderr[:600])
            json.dump(args, open(ARGS, 'w'), indent=0, sort_keys=True)
            gen(f, d, args, False)
        print(os.path.basename(d), n)
main()
