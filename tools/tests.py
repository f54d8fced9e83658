#!/usr/bin/env python3
"""Translate the functions test_* of /repo/SM and /repo/user-dir to Gallina (rocq/theories/SMTests.v).

    python3 tools/tests.py [/repo/SM] [rocq/theories]

Every function becomes one definition of type Verif.TestLang.test.  Only syntax is
translated; consecutive harness calls with the same masses and momentum are grouped.  The
reference tables are numbered, their entries left out.  Anything outside the expected
subset of C++ is an error."""
import sys, glob, os, re
from fractions import Fraction

HERE = os.path.dirname(os.path.abspath(__file__))
SM = sys.argv[1] if len(sys.argv) > 1 else '/repo/SM'
OUT = sys.argv[2] if len(sys.argv) > 2 else os.path.join(HERE, '../rocq/theories')
KIND = {'test_2to2_amp2': 'HLab', 'test_2to2_amp2_rotations': 'HRot', 'test_2to2_amp2_boosts': 'HBoost',
        'test_2to2_amp2_boosts_and_rotations': 'HBoth'}
variables = {}

def no_comments(s):
    s = re.sub(r'/\*.*?\*/', lambda m: '\n' * m.group(0).count('\n'), s, flags=re.S)
    return re.sub(r'//[^\n]*', '', s)

def body_of(s, start):
    d, i = 1, start
    while d:
        d += {'{': 1, '}': -1}.get(s[i], 0)
        i += 1
    return s[start:i-1], i-1

# expressions
def tokens(e):
    t = re.findall(r'\s*(std::sqrt|[A-Za-z_]\w*|\d+\.?\d*(?:[eE][-+]?\d+)?|[-+*/()])', e)
    if ''.join(t) != re.sub(r'\s', '', e): raise SystemExit('expression: ' + e)
    return t

def parse(e):
    t = tokens(e)
    def prim():
        x = t.pop(0)
        if x == '(':
            r = add(); assert t.pop(0) == ')'; return r
        if x == 'std::sqrt':
            assert t.pop(0) == '('; r = add(); assert t.pop(0) == ')'
            return '(XSqrt %s)' % r
        if re.match(r'\d+$', x): return '(XInt %s)' % x
        if re.match(r'\d', x):
            q = Fraction(x.rstrip('.') if x.endswith('.') else x)
            return '(XLit (%d # %d))' % (q.numerator, q.denominator)
        if x not in variables: variables[x] = len(variables) + 1
        return '(XVar v_%s)' % x
    def mul():
        r = prim()
        while t and t[0] in '*/':
            o = t.pop(0); s = prim(); r = '(XOp %s %s %s)' % ({'*': 'Mul', '/': 'Div'}[o], r, s)
        return r
    def add():
        r = mul()
        while t and t[0] in '+-':
            o = t.pop(0); s = mul(); r = '(XOp %s %s %s)' % ({'+': 'Add', '-': 'Sub'}[o], r, s)
        return r
    r = add()
    assert not t, e
    # an operation on literals alone would be done in int or double
    if re.search(r'XOp \w+ \(X(Int|Lit) [^()]*(\([^()]*\))?\) \(X(Int|Lit)', r): raise SystemExit('literals: ' + e)
    return r

def args(s):
    out, d, cur = [], 0, ''
    for ch in s:
        if ch == ',' and d == 0: out.append(cur); cur = ''; continue
        d += {'(': 1, ')': -1}.get(ch, 0); cur += ch
    return [x.strip() for x in out + [cur]]

def program(f):
    raw = open(f).read()
    s = no_comments(raw)
    m = re.search(r'int test_(\w+)\(\)\s*\{', s)
    cls = m.group(1)
    body, end = body_of(s, m.end())
    lines = (s.count('\n', 0, m.start()) + 1, s.count('\n', 0, end) + 1)
    body = re.sub(r'\[&\]\(\)\s*\{\s*return\s+(\w+)\.(\w+)\(\);\s*\}', r'LAM \1 \2', body)
    tables = []
    def table(mm):
        k = len(tables); n = len([x for x in mm.group(2).split(',') if x.strip()])
        assert n == 20, (f, mm.group(1))
        tables.append(mm.group(1)); return 'TABLE %s %d' % (mm.group(1), k)
    body = re.sub(r'ldouble (\w+)\[20\]\s*=\s*\{([^{}]*)\}', table, body)
    prog, current, obj = [], {}, None
    for x in [' '.join(x.split()) for x in re.split(r'[;{}]', body)]:
        if x == '' or x.startswith('std::cout') or x in ('int n=0', 'int i=0', 'n+=i', 'return n'): continue
        if x.startswith('if(i==0) std::cout') or x.startswith('else std::cout'): continue
        mm = re.match(r'TABLE (\w+) (\d+)$', x)
        if mm: current[mm.group(1)] = int(mm.group(2)); continue
        mm = re.match(r'ldouble (.*)$', x)
        if mm:
            for a in args(mm.group(1)):
                v, e = a.split('=', 1); e = parse(e); parse(v.strip())
                prog.append('TLoc v_%s %s' % (v.strip(), e))
            continue
        mm = re.match(r'(\w+) (\w+) ?= ?(\w+) ?\((.*)\)$', x)
        if mm and mm.group(1) == mm.group(3) == cls and obj is None:
            obj = mm.group(2); prog.append('TNew [%s]' % '; '.join(parse(a) for a in args(mm.group(4)))); continue
        mm = re.match(r'(\w+) ?= ?([^=]*)$', x)
        if mm:
            assert mm.group(1) in variables
            prog.append('TLoc v_%s %s' % (mm.group(1), parse(mm.group(2)))); continue
        mm = re.match(r'(\w+)\.(set_\w+)\((.*)\)$', x)
        if mm and mm.group(1) == obj:
            prog.append('TSet n_%s [%s]' % (mm.group(2), '; '.join(parse(a) for a in args(mm.group(3))))); continue
        mm = re.match(r'i ?\+= ?(\w+)\.(test_2to2_amp2\w*)\(LAM (\w+) (\w+), ?(.*)\)$', x)
        if mm and mm.group(1) == mm.group(3) == obj:
            a = args(mm.group(5)); assert len(a) == 6
            head = ' '.join(parse(y) for y in a[:5])
            run = '(%s, n_%s, %d%%nat)' % (KIND[mm.group(2)], mm.group(4), current[a[5]])
            if prog and isinstance(prog[-1], list) and prog[-1][0] == head: prog[-1].append(run)
            else: prog.append([head, run])
            continue
        raise SystemExit('%s: statement %s' % (f, x))
    text = ['TRuns %s\n      [%s]' % (p[0], '; '.join(p[1:])) if isinstance(p, list) else p for p in prog]
    return cls, lines, text

def main():
    defs, order = [], []
    files = [f for f in sorted(glob.glob(SM + '/*.cpp')) if not f.endswith('/test.cpp')]
    for f in files + [os.path.join(SM, '../user-dir/eemm.cpp')]:
        cls, lines, text = program(f)
        user = 'user-dir' in f
        name = 'eemmQED2' if user else cls
        defs.append('(** %s %d-%d *)\nDefinition test_%s : test := mkTest %s\n  [ %s ].\n' % (
            ('user-dir/' if user else 'SM/') + os.path.basename(f), lines[0], lines[1], name, name, ';\n    '.join(text)))
        order.append(name)
    s = no_comments(open(SM + '/test.cpp').read())
    m = re.search(r'int main\(\)\s*\{', s)
    body, end = body_of(s, m.end())
    lines = (s.count('\n', 0, m.start()) + 1, s.count('\n', 0, end) + 1)
    called = re.findall(r'j = spinas::test_(\w+)\(\); if\(j>0\)\{[^{}]*n\+\+;\}', body)
    assert len(called) == len(re.findall(r'test_', body))
    mods = sorted(os.path.basename(f)[:-2] for f in glob.glob(OUT + '/SM[0-9][0-9].v'))
    with open(OUT + '/SMTests.v', 'w') as g:
        g.write('(** * The test functions of the process classes\n\n    Generated by tools/tests.py from /repo/SM and /repo/user-dir.  Do not edit. *)\n')
        g.write('From Coq Require Import QArith.\nFrom Verif Require Import Base Scalar Lang SMNames TestLang %s SMUser.\nClose Scope Q_scope.\n\n' % ' '.join(mods))
        for v, k in variables.items(): g.write('Definition v_%s : id := %d%%positive.\n' % (v, k))
        g.write('\n' + '\n'.join(defs))
        g.write('\nDefinition sm_tests : list test :=\n  [%s].\n' % '; '.join('test_' + x for x in order))
        g.write('\n(** the tests main runs: SM/test.cpp %d-%d *)\nDefinition main_tests : list test :=\n  [%s].\n' % (lines[0], lines[1], '; '.join('test_' + x for x in called)))
    print(len(order), 'tests,', len(called), 'run by main; not run:', sorted(set(order) - set(called)))
main()
