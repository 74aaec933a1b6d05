#!/usr/bin/env python3
"""Transcribe the straight-line arithmetic bodies of /repo/src/{vector,matrix}*.rs
into Gallina (rocq/theories/Vec.v, Mat2.v .. Mat6.v). Used once to avoid copying
errors in bodies with hundreds of terms; the generated files are the sources that
are built and reviewed."""
import re, sys

REPO = '/repo/src/'
OUT = sys.argv[1] if len(sys.argv) > 1 else '/verif/rocq/theories/'

def load(fn):
    return open(REPO + fn).read().split('#[cfg(test)]')[0].split('\n')

def functions(src):
    """[(impl header, fn name, first line, last line, signature, body)]"""
    res, impl, i = [], '', 0
    while i < len(src):
        if src[i].startswith('impl'):
            impl = src[i].rstrip('{ ').strip()
        m = re.match(r'    (?:pub )?(?:const )?fn (\w+)', src[i])
        if m:
            j = i
            while not src[j].startswith('    }'):
                j += 1
            text = '\n'.join(src[i:j + 1])
            sig, body = text.split('{', 1)
            body = body.rsplit('}', 1)[0]
            res.append((impl, m.group(1), i + 1, j + 1, ' '.join(sig.split()), body))
            i = j
        i += 1
    return res

def strip_comments(s):
    return re.sub(r'//[^\n]*', '', s)

def brackets(s):
    """Rust array literals -> [| ; |] (indices were rewritten before)."""
    out, stack, i = [], [], 0
    while i < len(s):
        c = s[i]
        if c == '[' and s[i - 1] != '.':
            stack.append('A'); out.append('[|')
        elif c == '[':
            stack.append('I'); out.append('[')
        elif c == ']':
            k = stack.pop()
            if k == 'A':
                t = ''.join(out).rstrip()
                if t.endswith(';'): t = t[:-1].rstrip()
                out = [t, '|]']
            else:
                out.append(']')
        elif c == '(':
            stack.append('P'); out.append(c)
        elif c == ')':
            stack.pop()
            t = ''.join(out).rstrip()
            if t.endswith(','): t = t[:-1]
            out = [t, c]
        elif c == ',' and stack and stack[-1] == 'A':
            out.append(';')
        else:
            out.append(c)
        i += 1
    return ''.join(out)

def expr(s):
    s = strip_comments(s)
    s = re.sub(r'\b(\w+)\[\((\d), (\d)\)\]', r'\1.[\2].[\3]', s)
    s = re.sub(r'\b(\w+)\[(\d)\]', r'\1.[\2]', s)
    s = re.sub(r'T::zero\(\)', 'zero', s)
    s = re.sub(r'T::one\(\)', 'one', s)
    s = re.sub(r'T::sqrt\(', 'fsqrt (', s)
    s = re.sub(r'\[\[zero; (\d)\]; (\d)\]', r'amake \2 (amake \1 zero)', s)
    s = re.sub(r'\[zero; (\d)\]', r'amake \1 zero', s)
    s = re.sub(r'(?:Self|V\d|M\d\d)::new_from\((.*)\)\s*$', r'[\1]', s, flags=re.S)
    s = re.sub(r'(?:Self|V\d|M\d\d)::new\((.*)\)\s*$', r'\1', s, flags=re.S)
    return brackets(' ' + s).strip()

def body(s):
    s = strip_comments(s)
    parts = [p.strip() for p in s.split(';')]
    # array literals [x; n] contain ';': glue back
    glued, cur = [], ''
    for p in s.split(';'):
        cur = cur + (';' if cur else '') + p
        if cur.count('[') == cur.count(']') and cur.count('(') == cur.count(')'):
            glued.append(cur.strip()); cur = ''
    assert cur.strip() == '', s
    out = []
    for p in glued[:-1]:
        m = re.match(r'let (\w+)\s*=\s*(.*)$', p, re.S)
        assert m, p
        out.append('  let %s := %s in' % (m.group(1), ' '.join(expr(m.group(2)).split())))
    last = expr(glued[-1])
    last = '\n'.join('  ' + l.strip() for l in last.split('\n') if l.strip())
    out.append(last)
    return '\n'.join(out)

def params(cls):
    return ' '.join('`{%s T}' % c for c in cls)

def emit(name, fn, f, args, ret, cls, note=''):
    impl, _, a, b, sig, bd = f
    return ('(** %s:%d-%d, [%s]%s *)\nDefinition %s {T} %s%s : %s :=\n%s.\n'
            % (fn, a, b, impl.replace('[', '(').replace(']', ')'), note, name, params(cls),
               ''.join(' (%s : %s)' % x for x in args), ret, body(bd)))

NUM, SGN, FLT = ['Num'], ['Num', 'Signed'], ['Num', 'Float']

def find(fs, impl_re, name):
    r = [f for f in fs if f[1] == name and re.search(impl_re, f[0])]
    assert len(r) >= 1, (impl_re, name)
    return r[0]

HEADER = '''(** * %s

    %s
    Straight-line bodies transcribed from the Rust text keeping every operation
    and its association; simplifications: newtypes are erased, references and
    [Copy] are ignored. *)

From Verif Require Import Base Scalar%s.
Open Scope sc_scope.

'''

def vectors():
    o = [HEADER % ('Vec: V2 .. V6 (vector2.rs .. vector6.rs)',
                   'Arithmetic of the fixed-size vectors.', '')]
    for n in range(2, 7):
        fn = 'vector%d.rs' % n
        fs = functions(load(fn)); V = 'V%d T' % n; p = 'v%d' % n
        M = 'M%d%d T' % (n, n)
        o.append('(** ** V%d *)\n' % n)
        def e(name, impl, rname, args, ret, cls, note=''):
            o.append(emit(p + '_' + name, fn, find(fs, impl, rname), args, ret, cls, note))
        e('zeros', r'Zero for V', 'zero', [], V, NUM, ' (also [zeros()])')
        e('ones', r'V\d<T>$', 'ones', [], V, NUM)
        e('add', r'> Add for V', 'add', [('self', V), ('rhs', V)], V, NUM)
        e('sub', r'> Sub for V', 'sub', [('self', V), ('rhs', V)], V, NUM)
        e('neg', r'Neg for V', 'neg', [('self', V)], V, ['Signed'])
        e('dot', r'Mul for V', 'mul', [('self', V), ('rhs', V)], 'T', NUM)
        e('scale', r'Mul<T> for V', 'mul', [('self', V), ('rhs', 'T')], V, NUM)
        e('div', r'Div<T> for V', 'div', [('self', V), ('rhs', 'T')], V, NUM)
        e('lscale', r'Mul<V\d<f32>> for f32', 'mul', [('self', 'T'), ('rhs', V)], V, NUM,
          ' (f32 only in the source%s)' % ('; the f64 impl, lines 182-189, has the same body' if n == 3 else ''))
        e('mul_m', r'Mul<M\d\d<T>> for V', 'mul', [('self', V), ('rhs', M)], V, NUM)
        e('norm2', r'Float> V', 'norm2', [('self', V)], 'T', FLT)
        if n == 3:
            e('cross', r'', 'cross', [('self', V), ('rhs', V)], V, NUM)
            for ax in 'xyz':
                e(ax + '_axis', r'', ax + '_axis', [], V, NUM)
        aa = find(fs, 'AddAssign', 'add_assign'); sa = find(fs, 'SubAssign', 'sub_assign')
        o.append('(** %s:%d-%d, [+=] : [*self = *self + other] *)\nDefinition %s_add_assign {T} `{Num T} (self other : %s) : %s :=\n  %s_add self other.\n' % (fn, aa[2], aa[3], p, V, V, p))
        o.append('(** %s:%d-%d, [-=] : [*self = *self - other] *)\nDefinition %s_sub_assign {T} `{Num T} (self other : %s) : %s :=\n  %s_sub self other.\n' % (fn, sa[2], sa[3], p, V, V, p))
        iz = find(fs, 'Zero for', 'is_zero')
        o.append('(** %s:%d-%d, [is_zero] (derived [PartialEq]) *)\nDefinition %s_is_zero {T} `{Num T} (self : %s) : bool :=\n  aeqb eqb self %s_zeros.\n' % (fn, iz[2], iz[3], p, V, p))
        nz = find(fs, 'Float> V', 'normalize')
        o.append('''(** %s:%d-%d, [normalize]; [Err(VectorErrors::Norm2IsZero)] is [Ok None],
    [Ok(result)] is [Ok (Some result)], the outer [outcome] records panics of the
    indexing in the loop. *)
Definition %s_normalize {T} `{Num T} `{Float T} (self : %s) : outcome (option (%s)) :=
  let n := %s_norm2 self in
  if negb (n =? zero) then
    result <- for_ 0 %d %s_zeros (fun i result =>
      x <- aget self i ;; aset result i (x / n)) ;;
    Ok (Some result)
  else Ok None.
''' % (fn, nz[2], nz[3], p, V, V, p, n, p))
    open(OUT + 'Vec.v', 'w').write('\n'.join(o))

def loops_rows(fs, fn, n, which):
    f = find(fs, '', 'get_' + which)
    idx = 'j' if which == 'rows' else 'i'
    c = 'r' if which == 'rows' else 'c'
    asg = re.findall(r'(\w+)\[%s\] = self\[\((\w), (\w)\)\]' % idx, f[5])
    assert len(asg) == n
    names = ['%s%d' % (c, k) for k in range(n)]
    ret = re.search(r'V\d::new\(\[(.*)\]\)', f[5]).group(1).split(', ')
    inits = re.findall(r'let mut (\w+) = V\d::zeros\(\);', f[5])
    assert inits == names
    tup = '(' + ', '.join(names) + ')'
    lines = ''
    for v, a, b in asg:
        lines += '\n    x <- mget self %s %s ;; %s <- aset %s %s x ;;' % (a, b, v, v, idx)
    z = '(' + ', '.join(['v%d_zeros' % n] * n) + ')'
    return ('(** %s:%d-%d, [get_%s] *)\nDefinition m%d%d_get_%s {T} `{Num T} (self : M%d%d T) : outcome (arr (V%d T) %d) :=\n'
            "  ' %s <- for_ 0 %d %s (fun %s st =>\n    let ' %s := st in%s\n    Ok %s) ;;\n  Ok [| %s |].\n"
            % (fn, f[2], f[3], which, n, n, which, n, n, n, n, tup, n, z, idx, tup, lines, tup, '; '.join(ret)))

def new_from_vecs(fs, fn, n):
    f = find(fs, '', 'new_from_vecs')
    asg = re.findall(r'result\[\((\w), (\d)\)\] = cols\[(\d)\]\[(\w)\]', f[5])
    assert len(asg) == n
    lines = ''
    for a, b, c, d in asg:
        lines += '\n    x <- aget cols.[%s] %s ;; result <- mset result %s %s x ;;' % (c, d, a, b)
    return ('(** %s:%d-%d, [new_from_vecs] *)\nDefinition m%d%d_new_from_vecs {T} `{Num T} (cols : arr (V%d T) %d) : outcome (M%d%d T) :=\n'
            '  for_ 0 %d m%d%d_zeros (fun i result =>%s\n    Ok result).\n'
            % (fn, f[2], f[3], n, n, n, n, n, n, n, n, n, lines))

def matrices():
    for n in range(2, 7):
        fn = 'matrix%dx%d.rs' % (n, n)
        fs = functions(load(fn)); M = 'M%d%d T' % (n, n); V = 'V%d T' % n; p = 'm%d%d' % (n, n)
        o = [HEADER % ('Mat%d: M%d%d (%s)' % (n, n, n, fn), 'Arithmetic of the %dx%d matrices.' % (n, n), ' Vec')]
        def e(name, impl, rname, args, ret, cls, note=''):
            o.append(emit(p + '_' + name, fn, find(fs, impl, rname), args, ret, cls, note))
        e('zeros', r'Zero for', 'zero', [], M, NUM, ' (also [zeros()])')
        e('identity', r'One for', 'one', [], M, NUM, ' (also [identity()])')
        e('add', r'> Add for M', 'add', [('self', M), ('rhs', M)], M, NUM)
        e('sub', r'> Sub for M', 'sub', [('self', M), ('rhs', M)], M, NUM)
        e('neg', r'Neg for M', 'neg', [('self', M)], M, ['Signed'])
        e('scale', r'Mul<T> for M', 'mul', [('self', M), ('rhs', 'T')], M, NUM)
        e('div', r'Div<T> for M', 'div', [('self', M), ('rhs', 'T')], M, NUM)
        e('mul', r'Mul for M', 'mul', [('self', M), ('rhs', M)], M, NUM)
        e('mul_v', r'Mul<V\d<T>> for M', 'mul', [('self', M), ('rhs', V)], V, NUM)
        if n in (2, 3):
            e('lscale', r'Mul<M\d\d<f32>> for f32', 'mul', [('self', 'T'), ('rhs', M)], M, NUM,
              ' (f32 in the source%s)' % ('; the f64 impl, lines 481-497, has the same body' if n == 3 else ''))
        e('transpose', r'LinearAlgebra', 'transpose', [('self', M)], M, [])
        e('trace', r'LinearAlgebra', 'trace', [('self', M)], 'T', NUM)
        if n <= 4:
            e('norm2', r'LinearAlgebra', 'norm2', [('self', M)], 'T', FLT)
        else:
            f = find(fs, 'LinearAlgebra', 'norm2')
            o.append('''(** %s:%d-%d, [norm2]: [iter().flatten()] lists the cells row by row, [sum()]
    folds [+] from zero. *)
Definition %s_norm2 {T} `{Num T} `{Float T} (self : %s) : T :=
  fsqrt (fold_left add (map (fun element => element * element)
                            (concat (map alist (alist self)))) zero).
''' % (fn, f[2], f[3], p, M))
        e('det', r'LinearAlgebra', 'det', [('self', M)], 'T', NUM)
        aa = find(fs, 'AddAssign', 'add_assign'); sa = find(fs, 'SubAssign', 'sub_assign')
        o.append('(** %s:%d-%d, [+=] : [*self = *self + other] *)\nDefinition %s_add_assign {T} `{Num T} (self other : %s) : %s :=\n  %s_add self other.\n' % (fn, aa[2], aa[3], p, M, M, p))
        o.append('(** %s:%d-%d, [-=] : [*self = *self - other] *)\nDefinition %s_sub_assign {T} `{Num T} (self other : %s) : %s :=\n  %s_sub self other.\n' % (fn, sa[2], sa[3], p, M, M, p))
        iz = find(fs, 'Zero for', 'is_zero')
        o.append('(** %s:%d-%d, [is_zero] (derived [PartialEq]) *)\nDefinition %s_is_zero {T} `{Num T} (self : %s) : bool :=\n  aeqb (aeqb eqb) self %s_zeros.\n' % (fn, iz[2], iz[3], p, M, p))
        o.append(loops_rows(fs, fn, n, 'rows'))
        o.append(loops_rows(fs, fn, n, 'cols'))
        o.append(new_from_vecs(fs, fn, n))
        t = '\n'.join(o)
        if n >= 5:
            t = t.replace('From Verif Require', 'From Coq Require Import List.\nFrom Verif Require')
        open(OUT + 'Mat%d.v' % n, 'w').write(t)

vectors()
matrices()
