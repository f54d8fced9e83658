"""Parser for the C++ subset used by /repo/SM (process classes), with C++ typing.

AST nodes are tuples.  Expressions: ('kind', type, ...), type in I D T C V M B.
The usual arithmetic conversions are made explicit here (cv nodes)."""
import re

TOK = re.compile(r'''\s*(?:
  (?P<num>(?:\d+\.\d*|\.\d+|\d+)(?:[eE][+-]?\d+)?)
 |(?P<id>[A-Za-z_][A-Za-z_0-9]*)
 |(?P<str>"(?:[^"\\]|\\.)*")
 |(?P<op><<|\+\+|--|\+=|-=|\*=|/=|==|!=|<=|>=|&&|\|\||::|[-+*/(){}\[\];,.<>=&!:?])
)''', re.X)

class Err(Exception): pass

def strip(s):
    """blank out comments and preprocessor lines, keeping line structure"""
    out=[]; i=0; n=len(s)
    while i<n:
        if s.startswith('//',i):
            while i<n and s[i]!='\n': i+=1
        elif s.startswith('/*',i):
            j=s.index('*/',i)+2
            out.append('\n'*s.count('\n',i,j)); i=j
        elif s[i]=='"':
            j=i+1
            while s[j]!='"':
                j+=2 if s[j]=='\\' else 1
            out.append(s[i:j+1]); i=j+1
        elif s[i]=='#' and (i==0 or s[i-1]=='\n'):
            while i<n and s[i]!='\n': i+=1
        else:
            out.append(s[i]); i+=1
    return ''.join(out)

def tokens(s):
    s=strip(s); pos=0; line=1; res=[]
    while True:
        m=TOK.match(s,pos)
        if not m:
            if s[pos:].strip()=='' : break
            raise Err('token at line %d: %r'%(line,s[pos:pos+30]))
        k=m.lastgroup; st=m.start(k)
        line+=s.count('\n',pos,st)
        res.append((k,m.group(k),line))
        pos=m.end()
    res.append(('eof','',line))
    # the qualifier spinas:: is dropped
    out=[]; i=0
    while i<len(res):
        if res[i][1]=='spinas' and res[i+1][1]=='::': i+=2
        else: out.append(res[i]); i+=1
    return out

BASE={'int':'I','ldouble':'T','cdouble':'C','particle':'P','propagator':'R','sproduct':'S','double':'D','bool':'B'}

class P:
    def __init__(s,toks): s.t=toks; s.i=0
    def pk(s,k=0): return s.t[s.i+k][1]
    def kd(s,k=0): return s.t[s.i+k][0]
    def ln(s): return s.t[s.i][2]
    def nx(s):
        x=s.t[s.i]; s.i+=1; return x[1]
    def ex(s,v):
        if s.pk()!=v: raise Err('line %d: expected %r got %r'%(s.ln(),v,s.pk()))
        s.i+=1
    def ac(s,v):
        if s.pk()==v: s.i+=1; return True
        return False
    # ---- untyped expressions
    def expr(s): return s.lor()
    def binl(s,sub,ops):
        a=sub()
        while s.kd()=='op' and s.pk() in ops:
            o=s.nx(); b=sub(); a=('bin',o,a,b)
        return a
    def lor(s): return s.binl(s.land,('||',))
    def land(s): return s.binl(s.eq,('&&',))
    def eq(s): return s.binl(s.rel,('==','!='))
    def rel(s): return s.binl(s.add,('<','>','<=','>='))
    def add(s): return s.binl(s.mul,('+','-'))
    def mul(s): return s.binl(s.una,('*','/'))
    def una(s):
        if s.pk() in ('-','+','!','&') and s.kd()=='op':
            o=s.nx(); return ('un',o,s.una())
        return s.post()
    def args(s):
        r=[]
        s.ex('(')
        if not s.ac(')'):
            while True:
                r.append(s.expr())
                if s.ac(')'): break
                s.ex(',')
        return r
    def post(s):
        a=s.prim()
        while True:
            if s.pk()=='.': 
                s.nx(); m=s.nx(); a=('meth',a,m,s.args())
            elif s.pk()=='[':
                s.nx(); i=s.expr(); s.ex(']'); a=('idx',a,i)
            else: return a
    def prim(s):
        if s.kd()=='num': return ('num',s.nx())
        if s.kd()=='str': return ('str',s.nx())
        if s.pk()=='(':
            s.nx(); e=s.expr(); s.ex(')'); return ('par',e)
        if s.kd()=='id':
            l=s.ln(); n=s.nx()
            while s.pk()=='::':
                s.nx(); n+='::'+s.nx()
            if s.pk()=='(': return ('call',n,s.args(),l)
            return ('var',n)
        raise Err('line %d: expression at %r'%(s.ln(),s.pk()))
    # ---- statements
    def block(s):
        s.ex('{'); r=[]
        while not s.ac('}'): r.append(s.stmt())
        return r
    def body(s):
        return s.block() if s.pk()=='{' else [s.stmt()]
    def stmt(s):
        l=s.ln()
        if s.pk()=='{': return ('block',s.block(),l)
        if s.ac(';'): return ('skip',l)
        if s.pk()=='for':
            s.nx(); s.ex('('); s.ex('int'); x=s.nx(); s.ex('='); a=s.expr(); s.ex(';')
            c=s.expr(); s.ex(';'); y=s.nx()
            if y!=x: raise Err('line %d: for step'%l)
            o=s.nx()
            if o=='++': st=('num','1'); op='+'
            elif o in('+=','*='): st=s.expr(); op=o[0]
            else: raise Err('line %d: for step %r'%(l,o))
            s.ex(')'); return ('for',x,a,c,(op,st,o),s.body(),l)
        if s.pk()=='if':
            s.nx(); s.ex('('); c=s.expr(); s.ex(')'); a=s.body(); b=[]
            if s.ac('else'): b=s.body() if s.pk()!='if' else [s.stmt()]
            return ('if',c,a,b,l)
        if s.pk()=='return':
            s.nx(); e=s.expr(); s.ex(';'); return ('return',e,l)
        if s.pk()=='throw':
            s.nx(); e=s.expr(); s.ex(';'); return ('throw',e,l)
        if s.pk()=='std' and s.pk(2)=='cout':
            while not s.ac(';'): s.nx()
            return ('print',l)
        q=[]
        while s.pk() in('const','constexpr'): q.append(s.nx())
        if s.pk() in BASE and s.kd(1)=='id':
            t=BASE[s.nx()]; ds=[]
            while True:
                x=s.nx(); dims=[]; init=None
                while s.ac('['): dims.append(s.nx()); s.ex(']')
                if s.ac('='): init=s.expr()
                elif s.pk()=='(': init=('ctor',s.args())
                ds.append((x,dims,init))
                if s.ac(';'): break
                s.ex(',')
            return ('decl',t,ds,l)
        if q: raise Err('line %d: qualifier'%l)
        e=s.post()
        if s.pk() in('=','+=','-=','*=','/='):
            o=s.nx(); r=s.expr(); s.ex(';'); return ('assign',e,o,r,l)
        s.ex(';')
        return ('expr',e,l)

def parse_header(path,name):
    p=P(tokens(open(path).read())); mem=[]
    while not (p.pk()=='class' and p.pk(1)==name): p.nx()
    p.nx();p.nx();p.ex(':');p.ex('public');p.ex('process');p.ex('{');p.ex('private');p.ex(':')
    while p.pk()!='public':
        l=p.ln(); t=BASE[p.nx()]
        while True:
            x=p.nx(); mem.append((x,t,l))
            if p.ac(';'): break
            p.ex(',')
    p.nx();p.ex(':')
    # declarations of the public methods, kept for checking
    decls=[]
    while p.pk()!='}':
        d=[]
        while p.pk()!=';': d.append(p.nx())
        p.nx(); decls.append(' '.join(d))
    return mem,decls

def params(p):
    r=[]; p.ex('(')
    if p.ac(')'): return r
    while True:
        p.ac('const'); t=BASE[p.nx()]; p.ac('&'); x=p.nx(); dims=[]
        while p.ac('['): dims.append(p.nx()); p.ex(']')
        r.append((t,x,dims))
        if p.ac(')'): return r
        p.ex(',')

def parse_source(path,name):
    """list of ('ctor',params,inits,body,l0,l1) / ('meth',ret,name,params,body,l0,l1) up to the tests"""
    p=P(tokens(open(path).read())); res=[]
    if p.ac('namespace'): p.ex('spinas');p.ex('{')
    while True:
        if p.pk()=='}': break
        if p.pk()=='int' and p.pk(1).startswith('test_'): break
        l0=p.ln()
        if p.pk()==name and p.pk(1)=='::' and p.pk(2)==name:
            p.i+=3; ps=params(p); ini=[]
            if p.ac(':'):
                while True:
                    l=p.ln(); x=p.nx(); ini.append((x,p.args(),l))
                    if not p.ac(','): break
            b=p.block(); res.append(('ctor',ps,ini,b,l0,p.t[p.i-1][2]))
        else:
            rt=p.nx(); 
            if p.pk()!=name: raise Err('line %d: %s %s'%(l0,rt,p.pk()))
            p.ex(name);p.ex('::'); m=p.nx(); ps=params(p); b=p.block()
            res.append(('meth',rt,m,ps,b,l0,p.t[p.i-1][2]))
    return res
