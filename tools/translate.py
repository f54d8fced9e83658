#!/usr/bin/env python3
"""Translate the process classes of /repo/SM, and the example in /repo/user-dir, to Gallina (rocq/theories/SM*.v).

    python3 tools/translate.py [/repo/SM] [rocq/theories]

Every class becomes one definition of type Verif.Lang.cls.  Only syntax is translated:
names are resolved to locals/members, overloads and implicit conversions are made
explicit, compound assignments x op= e are written x = x op e.  Anything outside the
expected subset of C++ is an error."""
import sys, glob, os
from fractions import Fraction
sys.path.insert(0, os.path.dirname(os.path.abspath(__file__)))
from cppsub import *

SM = sys.argv[1] if len(sys.argv) > 1 else '/repo/SM'
OUT = sys.argv[2] if len(sys.argv) > 2 else os.path.join(os.path.dirname(os.path.abspath(__file__)), '../rocq/theories')
PER_FILE = 12
PARTS = ['p1', 'p2', 'p3', 'p4']
names = {}

def nm(x):
    names.setdefault(x, None)
    return 'n_' + x

RANK = {'I': 0, 'D': 1, 'T': 2}
def conv(f, t, s):
    if f == t: return s
    if (f, t) == ('I', 'D'): return '(EUn I2D %s)' % s
    if (f, t) == ('I', 'T'): return '(EUn I2T %s)' % s
    if (f, t) == ('D', 'T'): return '(EUn D2T %s)' % s
    if t == 'C': return '(EUn T2C %s)' % conv(f, 'T', s)
    raise Err('conversion %s to %s' % (f, t))

def zlit(n): return '(%d)' % n if n < 0 else '%d' % n

class Tr:
    def __init__(s, cname, members):
        s.cls = cname
        s.mem = {x: t for x, t, _ in members}
        s.methods = {}
    def scope(s, params):
        s.loc = {}          # name -> (type, ndims)
        for t, x, dims in params:
            if dims:
                if (t, dims) != ('T', ['4']): raise Err('array parameter')
                s.loc[x] = ('T', 1)
            else: s.loc[x] = (t, 0)
    def declare(s, x, t, nd):
        if x in s.loc and s.loc[x] != (t, nd): raise Err('redeclaration of %s' % x)
        s.loc[x] = (t, nd)
    # --- int atoms
    def atom(s, e):
        if e[0] == 'num': return '(ALit %s)' % zlit(int(e[1]))
        if e[0] == 'un' and e[1] == '-' and e[2][0] == 'num': return '(ALit %s)' % zlit(-int(e[2][1]))
        if e[0] == 'var' and s.loc.get(e[1]) == ('I', 0): return '(AVar %s)' % nm(e[1])
        raise Err('int argument %r' % (e,))
    def atoms(s, l): return '[' + '; '.join(s.atom(a) for a in l) + ']'
    def part(s, e):
        if e[0] == 'var' and e[1] in PARTS and e[1] not in s.loc: return PARTS.index(e[1])
        raise Err('particle %r' % (e,))
    def partref(s, e):
        if e[0] == 'un' and e[1] == '&': return s.part(e[2])
        raise Err('particle pointer %r' % (e,))
    def member(s, e, t):
        if e[0] == 'var' and e[1] not in s.loc and s.mem.get(e[1]) == t: return nm(e[1])
        raise Err('member of type %s expected: %r' % (t, e))
    # --- expressions
    def ex(s, e):
        k = e[0]
        if k == 'par': return s.ex(e[1])
        if k == 'num':
            if '.' in e[1] or 'e' in e[1] or 'E' in e[1]:
                f = Fraction(e[1])
                return 'D', '(ELit (%d # %d))' % (f.numerator, f.denominator)
            return 'I', '(EInt %s)' % e[1]
        if k == 'var':
            x = e[1]
            if x in s.loc:
                t, nd = s.loc[x]
                if nd or t not in 'ITC': raise Err('variable %s' % x)
                return t, '(ELoc%s %s)' % (t, nm(x))
            t = s.mem.get(x)
            if t in ('T', 'C'): return t, '(EMem%s %s)' % (t, nm(x))
            raise Err('variable %s' % x)
        if k == 'idx':
            ix = []
            while e[0] == 'idx': ix.insert(0, e[2]); e = e[1]
            t, nd = s.loc[e[1]]
            if nd != len(ix): raise Err('index of %s' % e[1])
            if t == 'T' and nd == 1: return 'T', '(EArrT %s %s)' % (nm(e[1]), s.atom(ix[0]))
            if t == 'C': return 'C', '(EArrC %s %s)' % (nm(e[1]), s.atoms(ix))
            raise Err('array %s' % e[1])
        if k == 'un':
            t, c = s.ex(e[2])
            if e[1] == '-' and t in 'IDTC': return t, '(EUn Neg%s %s)' % (t, c)
            if e[1] == '+' and t in 'IDTC': return t, c
            raise Err('unary %s' % e[1])
        if k == 'bin': return s.binary(e[1], s.ex(e[2]), s.ex(e[3]))
        if k == 'meth': return s.method(e)
        if k == 'call': return s.call(e)
        raise Err('expression %r' % (e,))
    def binary(s, o, a, b):
        (ta, ca), (tb, cb) = a, b
        if o in ('&&', '||'):
            if ta != 'B' or tb != 'B': raise Err(o)
            return 'B', '(%s %s %s)' % ('EAnd' if o == '&&' else 'EOr', ca, cb)
        if o in ('<', '>', '<=', '=='):
            if ta != 'I' or tb != 'I': raise Err('comparison %s of %s,%s' % (o, ta, tb))
            return 'B', '(EBin (CmpI %s) %s %s)' % ({'<': 'CLt', '>': 'CGt', '<=': 'CLe', '==': 'CEq'}[o], ca, cb)
        if o not in ('+', '-', '*', '/'): raise Err('operator ' + o)
        op = {'+': 'Add', '-': 'Sub', '*': 'Mul', '/': 'Div'}[o]
        sy = {'+': '+', '-': '-', '*': '*', '/': '/'}[o]
        if ta in RANK and tb in RANK:
            t = ta if RANK[ta] >= RANK[tb] else tb
            if t == 'I':
                if o == '/': raise Err('integer division')
                return 'I', '(EBin (OpI I%s) %s %s)' % (op, ca, cb)
            return t, '(%s %s%s %s)' % (conv(ta, t, ca), sy, t.lower(), conv(tb, t, cb))
        if ta == 'C' and tb == 'C': return 'C', '(%s %sc %s)' % (ca, sy, cb)
        if ta == 'C' and tb == 'T': return 'C', '(%s %sct %s)' % (ca, sy, cb)
        if ta == 'T' and tb == 'C': return 'C', '(%s %stc %s)' % (ca, sy, cb)
        if o == '*' and (ta, tb) == ('V', 'M'): return 'V', '(EBin OpVM %s %s)' % (ca, cb)
        if o == '*' and (ta, tb) == ('V', 'V'): return 'C', '(EBin OpVV %s %s)' % (ca, cb)
        raise Err('operands of %s: %s,%s' % (o, ta, tb))
    def method(s, e):
        o, m, a = e[1], e[2], e[3]
        if m == 'v' and len(a) <= 2: return 'C', '(EV %s %s)' % (s.member(o, 'S'), s.atoms(a))
        if m == 'denominator' and len(a) == 1:
            if a[0][0] != 'var' or s.loc.get(a[0][1]) != ('T', 1): raise Err('denominator argument')
            return 'C', '(EDen %s %s)' % (s.member(o, 'R'), nm(a[0][1]))
        side = {'rangle': 'RAngle', 'langle': 'LAngle', 'lsquare': 'LSquare', 'rsquare': 'RSquare'}
        if m in side:
            p = s.part(o)
            if not a: return 'V', '(ESpinor0 %d %s)' % (p, side[m])
            t, c = s.ex(a[0])
            if t != 'I' or len(a) != 1: raise Err(m)
            return 'V', '(ESpinor1 %d %s %s)' % (p, side[m], c)
        if m in ('umat', 'lmat') and not a:
            return 'M', '(EMat %d %s)' % (s.part(o), 'true' if m == 'umat' else 'false')
        raise Err('method ' + m)
    def call(s, e):
        f, a = e[1], e[2]
        if f == 'cdouble' and len(a) == 2:
            (t0, c0), (t1, c1) = s.ex(a[0]), s.ex(a[1])
            return 'C', '(EBin OpTTC %s %s)' % (conv(t0, 'T', c0), conv(t1, 'T', c1))
        if f == 'std::sqrt' and len(a) == 1:
            t, c = s.ex(a[0])
            if t == 'I': t, c = 'D', conv('I', 'D', c)      # std::sqrt(Integral) returns double
            if t in 'DT': return t, '(EUn Sqrt%s %s)' % (t, c)
        if f == 'std::pow' and len(a) == 2 and a[1] == ('num', '2'):
            t, c = s.ex(a[0])
            if t == 'T': return 'T', '(EUn Pow2T %s)' % c
        if f in ('std::abs', 'std::real', 'std::conj') and len(a) == 1:
            t, c = s.ex(a[0])
            if t == 'C':
                return ('C' if f == 'std::conj' else 'T'), '(EUn %s %s)' % ({'abs': 'AbsC', 'real': 'ReC', 'conj': 'ConjC'}[f[5:]], c)
        if f == 'get_num_spin_loops': return 'I', '(ENLoops %s)' % s.atoms(a)
        if f == 'get_spin_normalization': return 'T', '(ENorm %s)' % s.atoms(a)
        if f in s.methods and s.methods[f] == ('cdouble', len(a)) and f not in s.loc:
            return 'C', '(ECall %s %s)' % (nm(f), s.atoms(a))
        raise Err('call %s/%d' % (f, len(a)))
    # --- statements
    def seq(s, l):
        l = [x for x in (s.st(y) for y in l) if x is not None]
        if not l: return 'SSkip'
        if len(l) == 1: return l[0]
        return '(' + ';,\n'.join(l) + ')'
    def typed(s, e, t):
        f, c = s.ex(e)
        return conv(f, t, c)
    def sprod(s, e):
        if e[0] != 'call' or e[1] != 'sproduct': raise Err('sproduct')
        a = e[2]
        if a[0] not in (('var', 'ANGLE'), ('var', 'SQUARE')): raise Err('bracket')
        ps = [s.partref(x) for x in a[1:]]
        return '%s %d [%s] %d' % ('true' if a[0][1] == 'ANGLE' else 'false', ps[0], '; '.join(map(str, ps[1:-1])), ps[-1])
    def prop(s, e):
        if e[0] != 'call' or e[1] != 'propagator' or len(e[2]) != 2: raise Err('propagator')
        return '%s %s' % (s.typed(e[2][0], 'T'), s.typed(e[2][1], 'T'))
    def particle(s, e):
        if e[0] != 'call' or e[1] != 'particle' or len(e[2]) != 1: raise Err('particle')
        return s.typed(e[2][0], 'T')
    def st(s, x):
        try: return s.st_(x)
        except Err as e:
            if 'line' in str(e): raise
            raise Err('line %s: %s' % (x[-1], e))
    def st_(s, x):
        k = x[0]
        if k in ('skip', 'print'): return None
        if k == 'block': return s.seq(x[1])
        if k == 'decl':
            r = []; t = x[1]
            if t not in 'ITC': raise Err('declaration of %s' % t)
            for y, dims, init in x[2]:
                c = None
                if init is not None:
                    if dims: raise Err('array initialiser')
                    if init[0] == 'ctor':
                        if t != 'C' or len(init[1]) != 2: raise Err('constructor')
                        init = ('call', 'cdouble', init[1], 0)
                    c = s.typed(init, t)
                s.declare(y, t, len(dims))
                if dims:
                    if t == 'T' and len(dims) == 1: r.append('SDeclT %s %s' % (nm(y), dims[0]))
                    elif t == 'C': r.append('SDeclC %s [%s]' % (nm(y), '; '.join(dims)))
                    else: raise Err('array')
                elif c is None: r.append('SDecl r%s %s' % (t, nm(y)))
                else: r.append('SLoc r%s %s %s' % (t, nm(y), c))
            return ';,\n'.join(r)
        if k == 'assign':
            lv, o, e = x[1], x[2], x[3]
            if lv[0] == 'idx':
                if o != '=': raise Err('compound array assignment')
                t, c = s.ex(lv)      # checks the array
                ix = []; b = lv
                while b[0] == 'idx': ix.insert(0, b[2]); b = b[1]
                rhs = s.typed(e, t)
                if t == 'T': return 'SArrT %s %s %s' % (nm(b[1]), s.atom(ix[0]), rhs)
                return 'SArrC %s %s %s' % (nm(b[1]), s.atoms(ix), rhs)
            if lv[0] != 'var': raise Err('assignment')
            y = lv[1]
            if y in s.loc: t, nd = s.loc[y]; local = True
            else: t, nd, local = s.mem.get(y), 0, False
            if nd: raise Err('array assignment')
            if t in ('I', 'T', 'C'):
                if o == '=': rhs = s.typed(e, t)
                else: rhs = conv(*(lambda r: (r[0], t, r[1]))(s.binary(o[0], s.ex(lv), s.ex(e))))
                if local: return 'SLoc r%s %s %s' % (t, nm(y), rhs)
                return 'SMem%s %s %s' % (t, nm(y), rhs)
            if o != '=' or local: raise Err('assignment to %s' % y)
            if t == 'P': return 'SParticle %d %s' % (PARTS.index(y), s.particle(e))
            if t == 'R': return 'SPropNew %s %s' % (nm(y), s.prop(e))
            if t == 'S': return 'SSprod %s %s' % (nm(y), s.sprod(e))
            raise Err('assignment to %s' % y)
        if k == 'if':
            t, c = s.ex(x[1])
            if t != 'B': raise Err('condition')
            return '(SIf %s\n%s\n%s)' % (c, par(s.seq(x[2])), par(s.seq(x[3])))
        if k == 'for':
            v, lo, cond, (op, step, _), body = x[1:6]
            lo = s.typed(lo, 'I')
            s.declare(v, 'I', 0)
            t, c = s.ex(cond)
            if t != 'B': raise Err('condition')
            _, nxt = s.binary(op, s.ex(('var', v)), s.ex(step))
            return '(SFor %s %s %s %s\n%s)' % (nm(v), lo, c, nxt, par(s.seq(body)))
        if k == 'return':
            t = {'ldouble': 'T', 'cdouble': 'C'}[s.rt]
            return 'SReturn%s %s' % (t, s.typed(x[1], t))
        if k == 'throw':
            if s.cls != 'gggg' or x[1][1] != 'std::runtime_error': raise Err('throw')
            return 'SThrow HelicityMissing'
        if k == 'expr':
            e = x[1]
            if e[0] == 'call' and e[1] == 'get_spinor_spins':
                a = e[2]; n = len(a) - 1
                if n % 3: raise Err('get_spinor_spins')
                vs = []
                for b in a[:-1]:
                    if b[0] != 'var' or s.loc.get(b[1]) != ('I', 0): raise Err('get_spinor_spins')
                    vs.append(b[1])
                if len(set(vs)) != n: raise Err('get_spinor_spins: aliasing')
                tr = ['(%s, %s, %s)' % tuple(nm(y) for y in vs[i:i+3]) for i in range(0, n, 3)]
                return 'SSpins [%s] %s' % ('; '.join(tr), s.atom(a[-1]))
            if e[0] == 'meth':
                o, m, a = e[1], e[2], e[3]
                if m == 'update' and not a: return 'SUpdate %s' % s.member(o, 'S')
                if m == 'set_mass' and len(a) == 1:
                    if o[1] in PARTS: return 'SSetMass %d %s' % (s.part(o), s.typed(a[0], 'T'))
                    return 'SPropMass %s %s' % (s.member(o, 'R'), s.typed(a[0], 'T'))
                if m == 'set_momentum' and len(a) == 1 and a[0][0] == 'var' and s.loc.get(a[0][1]) == ('T', 1):
                    return 'SSetMomentum %d %s' % (s.part(o), nm(a[0][1]))
        raise Err('statement %s' % k)

def par(x): return x if x.startswith('(') and x.endswith(')') and ';,' in x else '(%s)' % x

def ranges(l0, l1): return '%d-%d' % (l0, l1) if l0 != l1 else '%d' % l0

def translate(src_name, dir='SM', name=None):
    """name: what the class is called in the model"""
    name = name or src_name
    root = os.path.join(os.path.dirname(SM), dir)
    hdr = '%s/include/%s.h' % (root, src_name); cpp = '%s/%s.cpp' % (root, src_name)
    mem, decls = parse_header(hdr, src_name)
    src = parse_source(cpp, src_name)
    if [x for x, t, _ in mem if t == 'P'] != PARTS: raise Err('particles')
    if len({x for x, _, _ in mem}) != len(mem): raise Err('duplicate member')
    tr = Tr(src_name, mem); out = []
    for m in src:
        if m[0] == 'meth' and not (m[2] == 'amp2' and m[3]): tr.methods[m[2]] = (m[1], len(m[3]))
    ctor = [m for m in src if m[0] == 'ctor']
    if len(ctor) != 1: raise Err('constructors')
    _, ps, ini, body, l0, l1 = ctor[0]
    tr.rt = None; tr.scope(ps)
    if any(t != 'T' or d for t, _, d in ps): raise Err('constructor parameters')
    inits = []
    for x, a, l in ini:
        t = tr.mem[x]
        if t == 'T' and len(a) == 1: i = 'NT %s' % tr.typed(a[0], 'T')
        elif t == 'R' and len(a) == 2: i = 'NProp %s %s' % (tr.typed(a[0], 'T'), tr.typed(a[1], 'T'))
        elif t == 'R' and len(a) == 1: i = 'NProp %s' % tr.prop(a[0])
        elif t == 'R' and not a: i = 'NProp0'
        elif t == 'P' and len(a) == 1:
            i = 'NPart %s' % (tr.particle(a[0]) if a[0][0] == 'call' else tr.typed(a[0], 'T'))
        elif t == 'S' and len(a) == 1: i = 'NSprod %s' % tr.sprod(a[0])
        else: raise Err('line %d: initialiser of %s' % (l, x))
        inits.append('(%s, %s)' % (nm(x), i))
    cparams = '[%s]' % '; '.join(nm(x) for _, x, _ in ps)
    cbody = tr.seq(body)
    ml = sorted({l for _, _, l in mem})
    kinds = {'T': 'KT', 'C': 'KC', 'R': 'KProp', 'S': 'KSprod'}
    mems = ['(%s, %s)' % (nm(x), kinds[t] if t != 'P' else '(KPart %d)' % PARTS.index(x)) for x, t, _ in mem]
    out.append('(** %s::%s: %s/%s.cpp %s *)' % (src_name, src_name, dir, src_name, ranges(l0, l1)))
    out.append('Definition %s_ctor : stmt :=\n%s.' % (name, cbody))
    meths = []
    for m in src:
        if m[0] != 'meth': continue
        _, rt, mn, ps, body, l0, l1 = m
        tr.rt = rt; tr.scope(ps)
        if mn == 'amp2' and ps: mn = 'amp2_momenta'      # the overload taking the momenta
        b = tr.seq(body)
        if rt not in ('void', 'ldouble', 'cdouble'): raise Err(rt)
        pk = '[%s]' % '; '.join('(%s, %s)' % (nm(x), 'PkMom' if d else {'I': 'PkI', 'T': 'PkT'}[t]) for t, x, d in ps)
        out.append('(** %s::%s: %s/%s.cpp %s *)' % (src_name, mn, dir, src_name, ranges(l0, l1)))
        out.append('Definition %s_%s : meth := mkMeth %s %s\n%s.' % (name, mn, nm(mn), pk, par(b)))
        meths.append('%s_%s' % (name, mn))
    out.append('(** members: %s/include/%s.h %s; initialisers: %s/%s.cpp %s *)' % (dir, src_name, ranges(ml[0], ml[-1]), dir, src_name,
        ranges(ctor[0][4], ini[-1][2] if ini else ctor[0][4])))
    out.append('Definition %s : cls := mkCls "%s"\n[%s]\n%s\n[%s]\n%s_ctor\n[%s].\n' % (
        name, name, ';\n'.join(mems), cparams, ';\n'.join(inits), name, '; '.join(meths)))
    return '\n'.join(out)

def write(fn, txt):
    p = os.path.join(OUT, fn)
    if os.path.exists(p) and open(p).read() == txt: return
    open(p, 'w').write(txt)

def main():
    cl = sorted(os.path.basename(f)[:-4] for f in glob.glob(SM + '/*.cpp'))
    cl.remove('test')
    chunks = [cl[i:i+PER_FILE] for i in range(0, len(cl), PER_FILE)]
    files = []
    for k, ch in enumerate(chunks):
        txt = ['(** Generated by tools/translate.py from SM/%s.cpp ... SM/%s.cpp.  Do not edit. *)' % (ch[0], ch[-1]),
               'From Coq Require Import QArith String.',
               'From Verif Require Import Base Scalar Particle Sproduct Lang SMSyntax SMNames.',
               'Local Open Scope sm_scope.', 'Local Open Scope string_scope.', '']
        for n in ch:
            try: txt.append(translate(n))
            except Err as e: raise SystemExit('%s: %s' % (n, e))
        fn = 'SM%02d' % (k + 1)
        txt.append('Definition %s_classes : list cls := [%s].' % (fn, '; '.join(ch)))
        files.append((fn, '\n'.join(txt) + '\n'))
    fn = 'SMUser'
    txt = ['(** Generated by tools/translate.py from user-dir/eemm.cpp.  Do not edit. *)',
           'From Coq Require Import QArith String.',
           'From Verif Require Import Base Scalar Particle Sproduct Lang SMSyntax SMNames.',
           'Local Open Scope sm_scope.', 'Local Open Scope string_scope.', '',
           translate('eemm', 'user-dir', 'eemmQED2'), 'Definition %s_classes : list cls := [eemmQED2].' % fn]
    files.append((fn, '\n'.join(txt) + '\n'))
    ns = sorted(names)
    t = ['(** Generated by tools/translate.py: the names used in the process classes. *)',
         'From Coq Require Import ZArith.', 'From Verif Require Import Lang.', '']
    t += ['Definition n_%s : id := %d%%positive.' % (x, i + 2) for i, x in enumerate(ns)]
    t.append('')
    write('SMNames.v', '\n'.join(t))
    for fn, x in files: write(fn + '.v', x)
    write('SMAll.v', '(** Generated by tools/translate.py: all process classes. *)\nFrom Verif Require Import Base Lang.\nFrom Verif Require Export SMNames %s.\n\nDefinition sm_classes : list cls :=\n  %s.\n' % (
        ' '.join(f for f, _ in files), ' ++\n  '.join(f + '_classes' for f, _ in files)))
    print(len(cl) + 1, 'classes', len(files), 'files', len(ns), 'names')
main()
