#!/usr/bin/env python3
"""Translate the unit tests of the repository into runs of the model.

  replay.py REPO OUTDIR

Reads the #[test] functions of REPO/src/*.rs and writes OUTDIR/Replay_<file>.v, one
Example per test, closed by vm_compute. Knows the subset of Rust the tests are
written in; a test it cannot read is listed in the output and left out.
"""
import re, sys, os, math, struct
from fractions import Fraction

TOK = re.compile(r'''\s+|//[^\n]*|(?P<str>"(?:\\.|[^"\\])*")|(?P<num>\d[\d_]*(?:\.\d+(?:[eE][-+]?\d+)?|\.(?![.\w])|[eE][-+]?\d+)?(?:f32|f64|i32|usize)?)|(?P<id>[A-Za-z_]\w*)|(?P<op>::|\.\.|->|=>|==|\+=|-=|&&|\|\||[-+*/=<>!&|.,;:()\[\]{}#])''')

class Unsupported(Exception): pass

def lex(s):
    out, i = [], 0
    while i < len(s):
        m = TOK.match(s, i)
        if not m: raise Unsupported('lex ' + s[i:i+20])
        if m.lastgroup: out.append((m.lastgroup, m.group(0)))
        i = m.end()
    return out

class Parser:
    def __init__(s, toks): s.t, s.i = toks, 0
    def peek(s, k=0): return s.t[s.i+k][1] if s.i+k < len(s.t) else None
    def kind(s): return s.t[s.i][0] if s.i < len(s.t) else None
    def next(s): s.i += 1; return s.t[s.i-1][1]
    def eat(s, v):
        if s.peek() == v: s.i += 1; return True
        return False
    def need(s, v):
        if not s.eat(v): raise Unsupported('expected %s got %s' % (v, s.t[s.i-3:s.i+4]))
    # statements ------------------------------------------------------
    def block(s):
        s.need('{'); out = []
        while not s.eat('}'): 
            st = s.stmt()
            if st: out.append(st)
        return out
    def stmt(s):
        if s.eat(';'): return None
        if s.eat('use'):
            while not s.eat(';'): s.next()
            return None
        if s.eat('let'):
            s.eat('mut'); p = s.pat(); ty = None
            if s.eat(':'): ty = s.type()
            s.need('='); e = s.expr(); s.need(';')
            return ('let', p, ty, e)
        if s.peek() == 'if':
            s.next(); s.need('let'); s.need('Some'); s.need('('); p = s.pat(); s.need(')'); s.need('=')
            e = s.expr(); b = s.block()
            if s.peek() == 'else': raise Unsupported('else')
            return ('iflet', p, e, b)
        if s.eat('for'):
            p = s.pat(); s.need('in'); e = s.expr(); b = s.block()
            return ('for', p, e, b)
        e = s.expr()
        if s.peek() in ('=', '+=', '-='):
            op = s.next(); r = s.expr(); s.need(';')
            return ('assign', op, e, r)
        s.eat(';')
        return ('expr', e)
    def pat(s):
        if s.eat('('):
            l = []
            while not s.eat(')'): l.append(s.pat()); s.eat(',')
            return ('tup', l)
        s.eat('mut')
        return ('var', s.next())
    def type(s):
        n = s.next(); a = []
        if s.eat('<'):
            while not s.eat('>'): a.append(s.type()); s.eat(',')
        return (n, a)
    # expressions -----------------------------------------------------
    def expr(s):
        if s.peek() == '|':
            s.next(); v = s.next(); s.need('|'); return ('closure', v, s.expr())
        return s.cmp()
    def cmp(s):
        a = s.sum()
        while s.peek() in ('==', '<', '>'):
            op = s.next(); a = ('bin', op, a, s.sum())
        return a
    def sum(s):
        a = s.prod()
        while s.peek() in ('+', '-'):
            op = s.next(); a = ('bin', op, a, s.prod())
        return a
    def prod(s):
        a = s.un()
        while s.peek() in ('*', '/'):
            op = s.next(); a = ('bin', op, a, s.un())
        return a
    def un(s):
        if s.eat('-'): return ('neg', s.un())
        if s.eat('&'):
            s.eat('mut'); return s.un()
        if s.eat('&&'): return s.un()
        if s.eat('*'): return s.un()
        return s.post()
    def args(s, close, sep=','):
        l = []
        while not s.eat(close):
            l.append(s.expr())
            if s.peek() != close: s.need(sep)
        return l
    def post(s):
        e = s.atom()
        while True:
            if s.eat('.'):
                n = s.next()
                if s.eat('('): e = ('meth', e, n, s.args(')'))
                else: e = ('field', e, n)
            elif s.peek() == '[':
                s.next()
                if s.eat('..'): s.need(']')
                else:
                    i = s.expr(); s.need(']'); e = ('index', e, i)
            else: return e
    def atom(s):
        k, v = s.t[s.i]
        if k == 'num': s.i += 1; return ('num', v)
        if k == 'str': s.i += 1; return ('str', v)
        if s.eat('('):
            l = []; tup = False
            while not s.eat(')'):
                l.append(s.expr())
                if s.eat(','): tup = True
            return l[0] if len(l) == 1 and not tup else ('tuple', l)
        if s.eat('['): return ('array', s.args(']'))
        if k == 'id':
            path = [s.next()]
            while s.eat('::'): path.append(s.next())
            if s.peek() == '!' and len(path) == 1:
                s.next(); s.need('(')
                if path[0].endswith('_new'):
                    rows = [[]]
                    while not s.eat(')'):
                        if s.eat(';'): rows.append([])
                        elif s.eat(','): pass
                        else: rows[-1].append(s.expr())
                    return ('call', ['M' + path[0][1:3], 'new'], [('array', [('array', r) for r in rows if r])])
                return ('macro', path[0], s.args(')'))
            if s.eat('('): return ('call', path, s.args(')'))
            if s.peek() == '{' and path == ['MaxMin']:
                s.next(); d = {}
                while not s.eat('}'):
                    n = s.next(); s.need(':'); d[n] = s.expr(); s.eat(',')
                return ('maxmin', d['max'], d['min'])
            return ('path', path)
        raise Unsupported('atom %s' % v)

# element types: union-find over variables; 'i' and 'f' are fixed
class Gen:
    def __init__(s, ftype):
        s.ft, s.par, s.tmp, s.out, s.const = ftype, {}, 0, [], {}
    def var(s): s.tmp += 1; v = '?%d' % s.tmp; s.par[v] = v; return v
    def find(s, v):
        while v in s.par and s.par[v] != v: v = s.par[v]
        return v
    def unify(s, a, b):
        if a is None or b is None: return
        a, b = s.find(a), s.find(b)
        if a == b: return
        if a in s.par: s.par[a] = b
        elif b in s.par: s.par[b] = a
        else: raise Unsupported('element types differ')
    def fresh(s): s.tmp += 1; return 't%d' % s.tmp
    def bind(s, c):   # a value of type outcome
        x = s.fresh(); s.out.append('%s <- %s ;;' % (x, c)); return x
    def T(s, el): return '@T(%s)' % el
    def resolve(s, txt):
        return re.sub(r'@T\((\S+?)\)', lambda m: 'i32' if s.find(m.group(1)) == 'i' else s.ft, txt)
    def num(s, v, neg=False):
        suf = None
        for x in ('f32', 'f64', 'i32', 'usize'):
            if v.endswith(x): suf, v = x, v[:-len(x)]
        v = v.replace('_', '')
        if ('.' in v or 'e' in v or suf in ('f32', 'f64')):
            q = Fraction(v)
            x = float(q)
            if s.ft == 'f32':
                # correctly rounded decimal -> f32 (through exact arithmetic)
                i = struct.unpack('i', struct.pack('f', x))[0]
                x = min((struct.unpack('f', struct.pack('i', max(0, i + d)))[0] for d in (0, -1, 1)), key=lambda z: abs(Fraction(z) - q))
            if neg: x = -x
            if x == 0: return ('(%s : %s)' % ('B754_zero true' if neg else 'B754_zero false', s.ft), ('S', 'f'))
            m, e = math.frexp(x); m = int(m * (1 << 53)); e -= 53
            while m % 2 == 0: m //= 2; e += 1
            return ('(lit (%d) (%d) : %s)' % (m, e, s.ft), ('S', 'f'))
        n = int(v)
        return ('(int (%d))' % (-n if neg else n), ('S', 'i'))

    # expr -> (coq, shape); shape = (kind, elem, ...)
    def e(s, x, env):
        k = x[0]
        if k == 'num': return s.num(x[1])
        if k == 'neg':
            if x[1][0] == 'num': return s.num(x[1][1], True)
            c, sh = s.e(x[1], env)
            f = {'S': 'neg', 'Q': 'q_neg', 'DQ': 'dq_neg'}.get(sh[0]) or ('v%d_neg' % sh[2] if sh[0] == 'V' else 'm%d%d_neg' % (sh[2], sh[2]))
            return '(%s %s)' % (f, c), sh
        if k == 'path':
            p = x[1]
            if len(p) == 1:
                if p[0] in env: return env[p[0]]
                if p[0] in s.const: return s.num(s.const[p[0]])
                if p[0] == 'None': return 'None', ('O', None, None)
                if p[0] in ('true', 'false'): return p[0], ('B', None)
            if p[-1] == 'FRAC_PI_2': return '(FRAC_PI_2 : %s)' % s.ft, ('S', 'f')
            if p[-1] == 'PI': return '(PI_ : %s)' % s.ft, ('S', 'f')
            raise Unsupported('path ' + '::'.join(p))
        if k == 'array':
            l = [s.e(a, env) for a in x[1]]
            for a in l[1:]: s.unify(a[1][1], l[0][1][1])
            sh0 = l[0][1]
            c = '[| ' + '; '.join(a[0] for a in l) + ' |]'
            n = len(l)
            return c, ('A', sh0[1], n, sh0)
        if k == 'tuple':
            l = [s.e(a, env) for a in x[1]]
            return '(' + ', '.join(a[0] for a in l) + ')', ('T', None, [a[1] for a in l])
        if k == 'maxmin':
            l = [s.e(a[1][0], env) for a in x[1:]]
            ix = [int(a[1][1][1]) for a in x[1:]]
            return ('(mkMaxMin (%s, %d%%nat) (%s, %d%%nat))' % (l[0][0], ix[0], l[1][0], ix[1]), ('MM', l[0][1][1]))
        if k == 'field':
            c, sh = s.e(x[1], env)
            if sh[0] == 'T':
                i, n = int(x[2]), len(sh[2])
                proj = c
                for _ in range(n - 1 - i): proj = '(fst %s)' % proj
                if i: proj = '(snd %s)' % proj
                return proj, sh[2][i]
            if sh[0] == 'Q' and x[2] == 'q0': return '(q0 %s)' % c, ('S', sh[1])
            if sh[0] == 'Q' and x[2] == 'q': return '(q %s)' % c, ('V', sh[1], 3)
            raise Unsupported('field %s of %s' % (x[2], sh))
        if k == 'index':
            c, sh = s.e(x[1], env)
            if sh[0] == 'M' and x[2][0] == 'tuple':
                i, j = [a[1] for a in x[2][1]]
                return s.bind('mget %s %s%%nat %s%%nat' % (c, i, j)), ('S', sh[1])
            if sh[0] == 'V': return s.bind('aget %s %s%%nat' % (c, x[2][1])), ('S', sh[1])
            if sh[0] == 'M': return s.bind('aget %s %s%%nat' % (c, x[2][1])), ('A', sh[1], sh[2], ('S', sh[1]))
            if sh[0] == 'A': return s.bind('aget %s %s%%nat' % (c, x[2][1])), sh[3]
            raise Unsupported('index of %s' % (sh,))
        if k == 'bin': return s.bin(x[1], s.e(x[2], env), s.e(x[3], env))
        if k == 'closure': raise Unsupported('closure')
        if k == 'meth': return s.meth(x, env)
        if k == 'call': return s.call(x[1], x[2], env)
        raise Unsupported(k)

    def bin(s, op, a, b):
        (ca, sa), (cb, sb) = a, b
        s.unify(sa[1], sb[1]); el = sa[1]
        ka, kb = sa[0], sb[0]
        def r(f, sh): return '(%s %s %s)' % (f, ca, cb), sh
        nm = {'+': 'add', '-': 'sub', '*': 'mul', '/': 'div'}[op]
        if ka == 'S' and kb == 'S': return r(nm, sa)
        pre = lambda sh: 'v%d' % sh[2] if sh[0] == 'V' else 'm%d%d' % (sh[2], sh[2]) if sh[0] == 'M' else {'Q': 'q', 'DQ': 'dq'}[sh[0]]
        if ka == kb and op in '+-': return r(pre(sa) + '_' + nm, sa)
        if op == '*':
            if ka == 'V' and kb == 'V': return r(pre(sa) + '_dot', ('S', el))
            if ka == kb: return r(pre(sa) + '_mul', sa)
            if kb == 'S': return r(pre(sa) + '_scale', sa)
            if ka == 'S': return r(pre(sb) + '_lscale', sb)
            if ka == 'M' and kb == 'V': return r(pre(sa) + '_mul_v', sb)
            if ka == 'V' and kb == 'M': return r(pre(sa) + '_mul_m', sa)
            if ka == 'Q' and kb == 'V': return r('q_mul_v', sb)
        if op == '/':
            if ka == 'Q' and kb == 'S': return r('q_div_s', sa)
            if kb == 'S': return r(pre(sa) + '_div', sa)
            if ka == kb == 'Q': return s.bind('q_div %s %s' % (ca, cb)), sa
            if ka == kb == 'DQ': return s.bind('dq_div %s %s' % (ca, cb)), sa
        raise Unsupported('bin %s %s %s' % (op, sa, sb))

    def lst(s, c, sh):
        if sh[0] == 'V': return '(alist %s)' % c
        if sh[0] == 'A' and sh[3][0] == 'S': return '(alist %s)' % c
        raise Unsupported('slice of %s' % (sh,))

    def meth(s, x, env):
        _, o, m, args = x
        if m == 'to_radians':
            c, sh = s.e(o, env); return '(to_radians %s)' % c, sh
        c, sh = s.e(o, env); k, el = sh[0], sh[1]
        S = ('S', el)
        if k == 'O' and m in ('unwrap', 'expect'): return s.bind('unwrap %s' % c), sh[2]
        if k == 'O' and m == 'is_none': return '(match %s with None => true | Some _ => false end)' % c, ('B', None)
        if k == 'S':
            if m == 'abs': return '(abs %s)' % c, sh
            if m == 'is_finite': return '(is_finite %s)' % c, ('B', None)
        if k == 'V':
            n = sh[2]
            if m == 'norm2': return '(v%d_norm2 %s)' % (n, c), S
            if m == 'normalize': return s.bind('v%d_normalize %s' % (n, c)), ('O', el, sh)
            if m == 'norm_inf': return s.bind('norm_inf (alist %s)' % c), S
            if m == 'norm_l': return '(norm_l (alist %s))' % c, S
            if m == 'cross':
                d, sd = s.e(args[0], env); s.unify(el, sd[1]); return '(v3_cross %s %s)' % (c, d), sh
        if k == 'M':
            n = sh[2]; p = 'm%d%d' % (n, n)
            if m in ('det', 'trace', 'norm2'): return '(%s_%s %s)' % (p, m, c), S
            if m == 'transpose': return '(%s_transpose %s)' % (p, c), sh
            if m == 'inverse': return s.bind('%s_inverse %s' % (p, c)), ('O', el, sh)
            if m == 'qr': return s.bind('%s_qr %s' % (p, c)), ('O', el, ('T', el, [sh, sh]))
            if m == 'as_vec': return s.bind('as_vec %d %s' % (n*n, c)), ('A', el, n*n, S)
            if m in ('get_cols', 'get_rows'): return s.bind('%s_%s %s' % (p, m, c)), ('A', el, n, ('V', el, n))
            if m == 'get_diagonal': return s.bind('get_diagonal %s' % c), ('V', el, n)
            if m in ('get_upper_triagular', 'get_upper_triangular', 'get_lower_triangular'):
                return s.bind('%s %d %s' % (m.replace('triagular', 'triangular'), n*(n-1)//2, c)), ('A', el, n*(n-1)//2, S)
            if m == 'get_submatrix':
                i, j = [a[1] for a in args[0][1]]
                return s.bind('%s_get_submatrix %s (%s%%nat, %s%%nat)' % (p, c, i, j)), ('M', el, n-1)
            if m == 'for_each':
                v, b = args[0][1], args[0][2]
                cb, _ = s.e(b, dict(env, **{v: (v, S)}))
                return s.bind('for_each %s (fun %s => %s)' % (c, v, cb)), sh
            if m == 'lu': return s.bind('%s_lu %s' % (p, c)), ('T', el, [sh, S, ('A', None, n, ('N', None))])
        if k == 'Q':
            if m == 'real': return '(q_real %s)' % c, S
            if m == 'imag': return '(q_imag %s)' % c, ('V', el, 3)
            if m == 'conj': return '(q_conj %s)' % c, sh
            if m == 'to_rotation': return '(q_to_rotation %s)' % c, ('M', el, 3)
            if m == 'inverse': return '(q_inverse %s)' % c, ('O', el, sh)
            if m == 'normalize': return '(q_normalize %s)' % c, ('O', el, sh)
            if m == 'to_euler_angles': return '(q_to_euler_angles %s)' % c, ('T', el, [S, S, S])
            if m == 'get_angle': return '(q_get_angle %s)' % c, S
            if m == 'dot':
                d, sd = s.e(args[0], env); return '(q_dot %s %s)' % (c, d), S
        if k == 'DQ':
            V3, M33 = ('V', el, 3), ('M', el, 3)
            if m == 'conj': return '(dq_conj %s)' % c, sh
            if m == 'inverse': return s.bind('dq_inverse %s' % c), sh
            if m == 'normalize': return '(dq_normalize %s)' % c, ('O', el, sh)
            if m == 'is_normalized': return '(dq_is_normalized %s)' % c, ('B', None)
            if m == 'to_homogeneous': return '(dq_to_homogeneous %s)' % c, ('M', el, 4)
            if m == 'to_rotation_translation': return '(dq_to_rotation_translation %s)' % c, ('T', el, [M33, V3])
            if m == 'to_quaternion_translation': return '(dq_to_quaternion_translation %s)' % c, ('T', el, [('Q', el), V3])
            if m == 'get_screw_parameters': return '(dq_get_screw_parameters %s)' % c, ('T', el, [V3, V3, S, S])
            if m == 'transform_point':
                d, sd = s.e(args[0], env); return '(dq_transform_point %s %s)' % (c, d), V3
            if m == 'pow':
                d, sd = s.e(args[0], env); return '(dq_pow %s %s)' % (c, d), sh
        raise Unsupported('method %s of %s' % (m, sh))

    def call(s, p, args, env):
        name = '::'.join(p)
        if name == 'f32::infinity': return '(infinity : f32)', ('S', 'f')
        if p[0] in ('V2', 'V3', 'V4', 'V5', 'V6') and len(p) == 2:
            n = int(p[0][1]); f = p[1]
            if f in ('zeros', 'ones', 'x_axis', 'y_axis', 'z_axis', 'zero'):
                el = s.var(); return '(v%d_%s (T:=%s))' % (n, {'zero': 'zeros'}.get(f, f), s.T(el)), ('V', el, n)
            if f == 'new':
                c, sh = s.e(args[0], env)
                if sh[2] != n: raise Unsupported('length')
                return '(%s)' % c, (('V', sh[1], n) if sh[3][0] == 'S' else sh)
            if f == 'new_from':
                l = [s.e(a, env) for a in args]
                for a in l[1:]: s.unify(a[1][1], l[0][1][1])
                return '(v%d_new_from %s)' % (n, ' '.join(a[0] for a in l)), ('V', l[0][1][1], n)
        m = re.fullmatch(r'M(\d)\1', p[0])
        if m and len(p) == 2:
            n = int(m.group(1)); f = p[1]
            if f in ('zeros', 'identity'):
                el = s.var(); return '(m%d%d_%s (T:=%s))' % (n, n, f, s.T(el)), ('M', el, n)
            if f == 'new':
                c, sh = s.e(args[0], env)
                return '(%s)' % c, ('M', sh[1], n)
            if f == 'new_from_vecs':
                c, sh = s.e(args[0], env); return s.bind('m%d%d_new_from_vecs %s' % (n, n, c)), ('M', sh[1], n)
        l = None
        def A(): return [s.e(a, env) for a in args]
        def uni(l):
            el = None
            for a in l:
                if el is None: el = a[1][1]
                elif a[1][1] is not None: s.unify(a[1][1], el)
            return el
        if p[0] in ('Quaternion', 'DualQuaternion'):
            k = 'Q' if p[0] == 'Quaternion' else 'DQ'; pr = k.lower(); f = p[1]
            if f in ('one', 'zero'):
                el = s.var(); return '(%s_%s (T:=%s))' % (pr, f, s.T(el)), (k, el)
            l = A(); el = uni(l)
            c = '%s_%s %s' % (pr, f, ' '.join(a[0] for a in l))
            if (k, f) in (('Q', 'rotation'), ('DQ', 'new_from_rot_trans'), ('DQ', 'new_from_homogeneous'), ('DQ', 'screw_lerp')):
                return s.bind(c), (k, el)
            if (k, f) in (('Q', 'new'), ('Q', 'new_from'), ('Q', 'rotation_norm_encoded'), ('Q', 'from_euler_angles'), ('Q', 'slerp'), ('Q', 'from_rotation'),
                          ('DQ', 'new_from_translation'), ('DQ', 'new_from_vecs'), ('DQ', 'new_from_rotation'), ('DQ', 'new_from_rotation_matrix'),
                          ('DQ', 'new_from_screw_parameters')):
                return '(%s)' % c, (k, el)
        if len(p) == 1:
            f = p[0]; l = A(); el = uni(l); cs = [a[0] for a in l]
            c = '(%s %s)' % (f, ' '.join(cs)); S = ('S', el)
            if f in ('nearly_equal', 'nearly_zero', 'is_rotation', 'is_rotation_h', 'compare_dual_quaternions'): return c, ('B', None)
            if f == 'compare_vecs': return '(compare_vecs %s %s %s)' % (s.lst(*l[0]), s.lst(*l[1]), cs[2]), ('B', None)
            if f in ('rotx', 'roty', 'rotz', 'euler_to_rotation', 'matrix_log', 'skew_from_vec'): return c, ('M', el, 3)
            if f in ('matrix_exponential',): return s.bind(c), ('M', el, 3)
            if f in ('homogeneous_from_quaternion', 'homogeneous_inverse', 'twist_to_se3', 'matrix_log6'): return c, ('M', el, 4)
            if f in ('matrix_exponential6',): return s.bind(c), ('M', el, 4)
            if f == 'adjoint': return s.bind(c), ('M', el, 6)
            if f == 'homogeneous_inverse_transform': return c, ('V', el, 3)
            if f in ('se3_to_twist', 'screw_to_axis'): return c, ('V', el, 6)
            if f == 'axis_angle6': return c, ('T', el, [('V', el, 6), S])
            if f == 'rotation_to_euler': return c, ('T', el, [S, S, S])
            if f == 'distance_to_manifold': return c, S
            if f == 'dot': return s.bind('dot %s %s' % (s.lst(*l[0]), s.lst(*l[1]))), S
            if f == 'find_max_min': return s.bind('find_max_min %s' % s.lst(*l[0])), ('MM', el)
        raise Unsupported('call ' + name)

    def eq(s, sh):
        if sh[0] == 'S': return 'eqb'
        if sh[0] == 'B': return 'Bool.eqb'
        if sh[0] == 'V': return 'arr_eq eqb'
        if sh[0] == 'M': return 'arr_eq (arr_eq (n:=%d) eqb)' % sh[2]
        if sh[0] == 'A': return 'arr_eq (%s)' % (s.eq(sh[3]) if sh[3][0] == 'S' else s.eq(sh[3]).replace('arr_eq', 'arr_eq (n:=%d)' % sh[3][2], 1))
        if sh[0] == 'O': return 'opt_eq (%s)' % s.eq(sh[2]).replace('arr_eq (arr_eq', 'arr_eq (n:=%s) (arr_eq' % sh[2][2])
        if sh[0] == 'MM': return 'mm_eq'
        raise Unsupported('eq %s' % (sh,))

    def patvars(s, p, sh, env):
        if p[0] == 'var':
            env[p[1]] = (p[1] + '_', sh); return p[1] + '_'
        if sh[0] != 'T': raise Unsupported('pattern')
        return '(' + ', '.join(s.patvars(q, t, env) for q, t in zip(p[1], sh[2])) + ')'

    def stmts(s, l, env):
        """Coq text of type outcome bool"""
        if not l: return 'Ok true'
        st, rest = l[0], l[1:]
        s.out = []
        if st[0] == 'let':
            c, sh = s.e(st[3], env); pre = s.out
            if st[2]:
                def elems(t): return 'f' if t[0] in ('f32', 'f64') else 'i' if t[0] == 'i32' else elems(t[1][0]) if t[1] else None
                el = elems(st[2])
                if el and sh[1]: s.unify(sh[1], el)
            env = dict(env); pt = s.patvars(st[1], sh, env)
            if st[1][0] == 'tup': body = "let ' %s := %s in" % (pt, c)
            else: body = 'let %s := %s in' % (pt, c)
            return '\n  '.join(pre + [body, s.stmts(rest, env)])
        if st[0] == 'assign':
            v = st[2][1][0]
            c, sh = s.e(st[3], env); pre = s.out
            cv, sv = env[v]
            if st[1] == '=': raise Unsupported('assignment')
            f = {'+=': 'add', '-=': 'sub'}[st[1]]
            p = 'v%d' % sv[2] if sv[0] == 'V' else 'm%d%d' % (sv[2], sv[2])
            s.unify(sh[1], sv[1])
            return '\n  '.join(pre + ['let %s := %s_%s_assign %s %s in' % (cv, p, f, cv, c), s.stmts(rest, env)])
        if st[0] == 'iflet':
            c, sh = s.e(st[2], env); pre = s.out
            env2 = dict(env); pt = s.patvars(st[1], sh[2], env2)
            return '\n  '.join(pre + ['match %s with None => Ok @NONE@ | Some %s =>' % (c, pt), s.stmts(st[3] + rest, env2), 'end'])
        if st[0] == 'for':
            c, sh = s.e(st[2], env); pre = s.out
            env2 = dict(env); pt = s.patvars(st[1], sh[3], env2)
            b = s.stmts(st[3], env2)
            if rest: raise Unsupported('after for')
            return '\n  '.join(pre + ['all_ok (alist %s) (fun %s =>' % (c, pt), b + ')'])
        e = st[1]
        if e[0] == 'macro' and e[1] == 'assert':
            c, sh = s.e(e[2][0], env); pre = s.out
        elif e[0] == 'macro' and e[1] == 'assert_eq':
            a, b = s.e(e[2][0], env), s.e(e[2][1], env); pre = s.out
            s.unify(a[1][1], b[1][1])
            c = '(%s) %s %s' % (s.eq(a[1]), a[0], b[0])
        elif e[0] == 'call' and e[1] == ['normalize']:
            v = e[2][0][1][0]; cv, sv = env[v]
            return '\n  '.join(['let %s := normalize %s in' % (cv, cv), s.stmts(rest, env)])
        else: raise Unsupported('statement %s' % (e,))
        if not rest: return '\n  '.join(pre + ['Ok (%s)' % c])
        return '\n  '.join(pre + ['if %s then' % c, s.stmts(rest, env), 'else Ok false'])

# tests whose [if let Some] is not taken: the matrix is singular, so qr() is None
NONE = {('matrix3x3.rs', 'qr_test'), ('matrix4x4.rs', 'qr_test')}

def main():
    repo, out = sys.argv[1:3]
    done, skipped = 0, []
    for f in sorted(os.listdir(os.path.join(repo, 'src'))):
        src = open(os.path.join(repo, 'src', f)).read()
        i = src.find('#[cfg(test)]')
        if i < 0: continue
        eps = re.search(r'const EPS:\s*(\w+)\s*=\s*([\d.eE+-]+);', src[i:])
        ex = []
        for m in re.finditer(r'#\[test\]\s*(?:#\[[^\]]*\]\s*)*fn (\w+)\(\)\s*', src[i:]):
            name, start = m.group(1), i + m.end()
            d, j = 0, start
            while True:
                if src[j] == '{': d += 1
                if src[j] == '}':
                    d -= 1
                    if d == 0: break
                j += 1
            body = src[start:j+1]
            line0 = src.count('\n', 0, i + m.start()) + 1
            line1 = src.count('\n', 0, j) + 1
            code = re.sub(r'//[^\n]*', '', body)
            code = re.sub(r'use [^;]*;', '', code)
            ft = 'f32' if ((re.search(r'\bEPS\b', code) and eps and eps.group(1) == 'f32') or 'f32' in code) else 'f64'
            try:
                g = Gen(ft)
                if eps: g.const['EPS'] = eps.group(2)
                txt = g.stmts(Parser(lex(code)).block(), {})
                ex.append('(** %s:%d-%d *)\nExample test_%s : (\n  %s) = Ok true.\nProof. vm_compute. reflexivity. Qed.\n' % (f, line0, line1, name, g.resolve(txt).replace('@NONE@', 'true' if (f, name) in NONE else 'false')))
                if (f, name) in NONE:
                    ex.append('(** the branch of this test is not taken *)\nExample test_%s_none : (\n  %s) = Ok false.\nProof. vm_compute. reflexivity. Qed.\n' % (name, g.resolve(txt).replace('@NONE@', 'false')))
                done += 1
            except Unsupported as u:
                skipped.append('%s %s: %s' % (f, name, u))
        mod = 'Replay_' + f[:-3]
        open(os.path.join(out, mod + '.v'), 'w').write('''(** * The unit tests of src/%s, run on the model (tools/replay.py)

    Tests, not proofs: each runs one input. Where the source asserts under
    [if let Some(..)], the branch is required to be taken unless said otherwise. *)

From Coq Require Import ZArith List Bool.
From Flocq Require Import Core IEEE754.BinarySingleNaN.
From Verif Require Import Base Scalar Vec Mat2 Mat3 Mat4 Mat5 Mat6 MatLoops MatOps Slices Quat DualQuat Transf Ctor InstF InstI Replay.
Import ListNotations.
Open Scope Z_scope.

''' % f + '\n'.join(ex))
    print(done, 'tests written,', len(skipped), 'skipped')
    for s in skipped: print('  ', s)
main()
