"""Translate the fixed-form Fortran of DSZHiggs.f (straight-line code, if blocks, calls) to Gallina."""
import re
INTR={'log':'nlog','dlog':'nlog','sqrt':'nsqrt','dsqrt':'nsqrt','dabs':'nabs','dsin':'nsin','dcos':'ncos','datan':'natan','cos':'ncos','atan':'natan','sin':'nsin'}
TOK=re.compile(r'\s*(?:(\d*\.\d+d[+-]?\d+|\d+\.\d*d[+-]?\d+|\d+d[+-]?\d+|\d+\.(?!(?:and|or|eq|ne|le|lt|ge|gt|not)\.)\d*|\d+(?![\w.])|\d+(?=\.(?:and|or|eq|ne|le|lt|ge|gt)\.))|(\.(?:and|or|eq|ne|le|lt|ge|gt|not)\.)|([a-z_]\w*)|(\*\*|==|/=|<=|>=|[-+*/(),<>]))')
def tokens(s):
    s=s.strip(); i=0; out=[]
    while i<len(s):
        m=TOK.match(s,i)
        if not m or m.end()==i: raise SyntaxError(s[i:i+40])
        i=m.end()
        if m.group(1): out.append(('num',m.group(1)))
        elif m.group(2): out.append(('op',m.group(2)))
        elif m.group(3): out.append(('id',m.group(3)))
        else: out.append(('op',m.group(4)))
        while i<len(s) and s[i]==' ': i+=1
    return out
class P:
    def __init__(s,t): s.t=t; s.i=0
    def pk(s): return s.t[s.i] if s.i<len(s.t) else ('end','')
    def nx(s): x=s.pk(); s.i+=1; return x
    def ex(s,v): x=s.nx(); assert x[1]==v,(x,v,s.t[max(0,s.i-8):s.i+4])
    def orr(s):
        a=s.andd()
        while s.pk()[1]=='.or.': s.nx(); a=('or',a,s.andd())
        return a
    def andd(s):
        a=s.rel()
        while s.pk()[1]=='.and.': s.nx(); a=('and',a,s.rel())
        return a
    def rel(s):
        a=s.add()
        m={'.eq.':'eq','==':'eq','.ne.':'ne','/=':'ne','.le.':'le','<=':'le','.lt.':'lt','<':'lt','.ge.':'ge','>=':'ge','.gt.':'gt','>':'gt'}
        if s.pk()[1] in m and s.pk()[0]=='op':
            o=m[s.nx()[1]]; return ('rel',o,a,s.add())
        return a
    def add(s):
        sg=None
        if s.pk()[1] in('+','-') and s.pk()[0]=='op': sg=s.nx()[1]
        a=s.mul()
        if sg=='-': a=('neg',a)
        while s.pk()[0]=='op' and s.pk()[1] in('+','-'):
            o=s.nx()[1]; a=('bin',o,a,s.mul())
        return a
    def mul(s):
        a=s.pw()
        while s.pk()[0]=='op' and s.pk()[1] in('*','/'):
            o=s.nx()[1]; a=('bin',o,a,s.pw())
        return a
    def pw(s):
        a=s.prim()
        if s.pk()[1]=='**':
            s.nx(); e=s.pw(); return ('pow',a,e)
        return a
    def prim(s):
        k,v=s.nx()
        if k=='num': return ('num',v)
        if k=='id':
            if s.pk()[1]=='(':
                s.nx(); args=[]
                while True:
                    args.append(s.orr())
                    if s.nx()[1]==')': break
                return ('call',v,args)
            return ('var',v)
        if v=='(':
            a=s.orr(); s.ex(')'); return a
        if v=='-': return ('neg',s.pw())
        raise SyntaxError((k,v,s.t[max(0,s.i-8):s.i+4]))
def parse(s):
    p=P(tokens(s)); a=p.orr(); assert p.i==len(p.t),(s,p.t[p.i:]); return a
def lit(v):
    if 'd' not in v and '.' not in v: return ('#%s'%v)
    if 'd' not in v: v+='d0'
    m,e=v.split('d'); e=int(e)
    if '.' in m:
        a,b=m.split('.'); b=b.rstrip('0'); k=len(b); n=int((a+b) or '0')
    else: n=int(m); k=0
    k-=e
    while k<0: n*=10;k+=1
    while k>0 and n%10==0 and n: n//=10;k-=1
    if n==0: k=0
    return '#%d'%n if k==0 else 'ndec %d %d'%(n,k)
KW={'at':'at_','in':'in_','as':'as_','end':'end_','fun':'fun_','let':'let_','using':'using_'}
def nm(v): return KW.get(v,v)
def is_int(a):
    if a[0]=='num': return 'd' not in a[1] and '.' not in a[1]
    if a[0]=='neg': return is_int(a[1])
    if a[0]=='bin': return is_int(a[2]) and is_int(a[3])
    return False
class Tr:
    """prefix: name prefix; extra: text put after the function name (oracle argument); ints: integer variables"""
    def __init__(s,prefix,extra,ints=()): s.prefix=prefix; s.extra=extra; s.ints=set(ints); s.consts={}
    def e(s,a,lv=0):
        # precedence: 0 add, 1 mul, 2 atom
        k=a[0]
        if k=='num':
            t=lit(a[1]); return '(%s)'%t if lv>=2 and t.startswith('ndec') else t
        if k=='var':
            if a[1] in s.consts:
                t=s.consts[a[1]]; return '(%s)'%t if lv>=2 and ' ' in t else t
            if a[1] in s.ints: return '(nint %s)'%nm(a[1])
            return nm(a[1])
        if k=='neg':
            t='- %s'%s.e(a[1],2); return '(%s)'%t if lv>=1 else t
        if k=='bin':
            o=a[1]
            if o=='/' : assert not(is_int(a[2]) and is_int(a[3])),a
            if o in'+-':
                t='%s %s %s'%(s.e(a[2],0),o,s.e(a[3],1)); return '(%s)'%t if lv>=1 else t
            t='%s %s %s'%(s.e(a[2],1),o,s.e(a[3],2)); return '(%s)'%t if lv>=2 else t
        if k=='pow':
            assert a[2]==('num','2'),a
            t='pow2 %s'%s.e(a[1],2); return '(%s)'%t if lv>=2 else t
        if k=='call':
            f=INTR.get(a[1]) or (s.prefix+a[1]+s.extra)
            t=' '.join([f]+[s.e(x,2) for x in a[2]]); return '(%s)'%t if lv>=2 else t
        raise Exception(a)
    def c(s,a):
        if a[0]=='and': return '%s && %s'%(s.c(a[1]),s.c(a[2]))
        if a[0]=='rel':
            o,x,y=a[1],a[2],a[3]
            iv=lambda z: z[0]=='var' and z[1] in s.ints
            if iv(x):
                assert y[0]=='num' and o=='eq'
                return '(%s =? %s)%%Z'%(nm(x[1]),y[1])
            X,Y=s.e(x,0),s.e(y,0)
            return {'eq':'(%s =? %s)','ne':'negb (%s =? %s)','le':'(%s <=? %s)','lt':'(%s <? %s)','ge':'(%s >=? %s)','gt':'(%s >? %s)'}[o]%(X,Y)
        raise Exception(a)
def logical_lines(src,a,b):
    """(line number, text) of the statements in lines a..b, lower case"""
    out=[]
    for n in range(a,b+1):
        l=src[n-1]
        if re.match(r'^[cC*!]',l) or not l.strip(): continue
        if len(l)>5 and l[:5].strip()=='' and l[5] not in ' 0':
            t=re.sub(r'!.*','',l[6:]); out[-1][1]+=t.lower().strip(); continue
        t=re.sub(r'!.*','',l[6:] if l[:6].strip()=='' else l).lower().strip()
        if t: out.append([n,t])
    return out
def units(src,a,b):
    """program units in lines a..b: (kind, name, dummies, first, last, statements)"""
    res=[]; cur=None
    for n,t in logical_lines(src,a,b):
        m=re.match(r'(subroutine|function|complex\*16 function)\s+(\w+)\s*\((.*?)\)',t)
        if m and cur is None:
            cur=[m.group(1),m.group(2),[x.strip() for x in m.group(3).split(',')],n,None,[]]; continue
        if t=='end':
            cur[4]=n; res.append(cur); cur=None; continue
        if cur is not None: cur[5].append((n,t))
    return res
def block(stmts):
    """nest if blocks: list of ('=',v,expr) ('call',f,args) ('if',[(cond|None,block)])"""
    out=[]; st=[out]; ifs=[]
    for n,t in stmts:
        if re.match(r'(implicit|integer|return|complex|common)\b',t): continue
        if t.startswith('double precision'):
            m=re.match(r'double precision,\s*parameter\s*::\s*(\w+)\s*=\s*(.*)',t)
            if m: st[-1].append(('param',m.group(1),m.group(2)))
            continue
        m=re.match(r'if\s*\((.*)\)\s*then$',t)
        if m:
            b=[]; x=('if',[(parse(m.group(1)),b)]); st[-1].append(x); ifs.append(x); st.append(b); continue
        m=re.match(r'(?:elseif|else if)\s*\((.*)\)\s*then$',t)
        if m:
            st.pop(); b=[]; ifs[-1][1].append((parse(m.group(1)),b)); st.append(b); continue
        if t=='else':
            st.pop(); b=[]; ifs[-1][1].append((None,b)); st.append(b); continue
        if t in('endif','end if'):
            st.pop(); ifs.pop(); continue
        m=re.match(r'call\s+(\w+)\s*\((.*)\)$',t)
        if m: st[-1].append(('call',m.group(1),parse('f('+m.group(2)+')')[2])); continue
        m=re.match(r'(\w+)\s*=\s*(.*)$',t)
        assert m,t
        st[-1].append(('=',m.group(1),parse(m.group(2))))
    return out
def assigned(b,subs):
    r=[]
    for s in b:
        if s[0]=='=' and s[1] not in r: r.append(s[1])
        if s[0]=='call':
            for i in subs[s[1]]['outs']:
                v=s[2][i][1]
                if v not in r: r.append(v)
        if s[0]=='if':
            for _,bb in s[1]:
                for v in assigned(bb,subs):
                    if v not in r: r.append(v)
    return r
def emit_block(tr,b,subs,ind,defined,final):
    """lines of nested lets ending in final"""
    o=[]
    for s in b:
        if s[0]=='param': tr.consts[s[1]]=lit(s[2]) if not s[2].startswith('3.14159265') else 'pi_f'; continue
        if s[0]=='=':
            o.append('%slet %s := %s in'%(ind,nm(s[1]),tr.e(s[2]))); defined.add(s[1])
        elif s[0]=='call':
            outs=subs[s[1]]['outs']; vs=[s[2][i][1] for i in outs]
            args=[tr.e(x,2) for i,x in enumerate(s[2]) if i not in outs or i in subs[s[1]].get('inouts',())]
            pat=nm(vs[0]) if len(vs)==1 else "'("+', '.join(map(nm,vs))+')'
            o.append('%slet %s := %s %s in'%(ind,pat,tr.prefix+s[1]+tr.extra,' '.join(args))); defined|=set(vs)
        else:
            vs=assigned([s],subs)
            tup=(nm(vs[0]) if len(vs)==1 else '('+', '.join(map(nm,vs))+')')
            pat=nm(vs[0]) if len(vs)==1 else "'"+tup
            for v in vs:
                if v not in defined:
                    o.append('%slet %s := undef in'%(ind,nm(v))); defined.add(v)
            o.append('%slet %s :='%(ind,pat))
            first=True; haselse=False
            for c,bb in s[1]:
                kw=('if %s then'%tr.c(c) if first else 'else if %s then'%tr.c(c)) if c is not None else 'else'
                if c is None: haselse=True
                o.append('%s  %s'%(ind,kw)); first=False
                o+=emit_block(tr,bb,subs,ind+'    ',set(defined),tup)
            if not haselse: o.append('%s  else %s'%(ind,tup))
            o[-1]+=' in'
    o.append('%s%s'%(ind,final))
    return o
def wrapl(l,w=118):
    ind=len(l)-len(l.lstrip()); out=[]
    while len(l)>w:
        i=l.rfind(' ',ind+20,w)
        if i<0: break
        out.append(l[:i]); l=' '*(ind+2)+l[i+1:]
    out.append(l); return out
