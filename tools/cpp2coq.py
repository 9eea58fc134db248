#!/usr/bin/env python3
"""Translate C++ expressions / straight-line numeric code of Himalaya to Coq text.

Two back ends: shallow (a term over the class Num) and deep (a term of type Expr.expr).
Typing (int vs double) of every subexpression is tracked so that an integer division
in the source cannot be translated silently as a real division.
"""
import re, sys

TOK = re.compile(r"""\s*(?:
  (?P<num>(?:\d+\.\d*|\.\d+|\d+)(?:[eE][+-]?\d+)?L?)
 |(?P<id>[A-Za-z_][A-Za-z_0-9]*(?:::[A-Za-z_][A-Za-z_0-9]*)*(?:\.[A-Za-z_][A-Za-z_0-9]*)?)
 |(?P<op>\|\||&&|<=|>=|==|!=|[-+*/()<>,?:!])
)""", re.X)

def strip_comments(s):
    s = re.sub(r"/\*.*?\*/", lambda m: re.sub(r"[^\n]", " ", m.group(0)), s, flags=re.S)
    return re.sub(r"//[^\n]*", "", s)

def tokenize(s):
    out, i = [], 0
    s = s.rstrip()
    while i < len(s):
        m = TOK.match(s, i)
        if not m: raise SyntaxError("tok: " + s[i:i+60])
        k = m.lastgroup
        out.append((k, m.group(k)))
        i = m.end()
    return out

# AST: ('int',z) ('dbl',m,k) ('var',name) ('call',f,[args]) ('neg',a) (op,a,b) ('?',c,a,b) ('not',a)
class P:
    def __init__(s, toks): s.t, s.i = toks, 0
    def peek(s): return s.t[s.i] if s.i < len(s.t) else (None, None)
    def eat(s, v):
        if s.peek()[1] != v: raise SyntaxError("want %s got %s near %s" % (v, s.peek(), s.t[max(0,s.i-8):s.i+8]))
        s.i += 1
    def expr(s):
        c = s.lor()
        if s.peek()[1] == '?':
            s.eat('?'); a = s.expr(); s.eat(':'); b = s.expr()
            return ('?', c, a, b)
        return c
    def bin(s, ops, sub):
        a = sub()
        while s.peek()[0] == 'op' and s.peek()[1] in ops:
            o = s.peek()[1]; s.i += 1
            a = (o, a, sub())
        return a
    def lor(s): return s.bin(['||'], s.land)
    def land(s): return s.bin(['&&'], s.eq)
    def eq(s): return s.bin(['==', '!='], s.rel)
    def rel(s): return s.bin(['<', '>', '<=', '>='], s.add)
    def add(s): return s.bin(['+', '-'], s.mul)
    def mul(s): return s.bin(['*', '/'], s.un)
    def un(s):
        k, v = s.peek()
        if v == '-': s.i += 1; return ('neg', s.un())
        if v == '+': s.i += 1; return s.un()
        if v == '!': s.i += 1; return ('not', s.un())
        return s.prim()
    def prim(s):
        k, v = s.peek()
        if v == '(':
            s.eat('('); a = s.expr(); s.eat(')'); return a
        if k == 'num':
            s.i += 1
            v = v.rstrip('L')
            if re.fullmatch(r"\d+", v): return ('int', int(v))
            m = re.fullmatch(r"(\d*)\.?(\d*)(?:[eE]([+-]?\d+))?", v)
            ip, fp, ex = m.group(1), m.group(2), int(m.group(3) or 0)
            mant, k10 = int((ip + fp) or '0'), len(fp) - ex
            while k10 > 0 and mant % 10 == 0 and mant: mant //= 10; k10 -= 1
            if mant == 0: k10 = 0
            if k10 < 0: mant *= 10 ** (-k10); k10 = 0
            return ('dbl', mant, k10)
        if k == 'id':
            s.i += 1
            if s.peek()[1] == '(':
                s.eat('('); args = []
                if s.peek()[1] != ')':
                    args.append(s.expr())
                    while s.peek()[1] == ',': s.eat(','); args.append(s.expr())
                s.eat(')')
                return ('call', v, args)
            return ('var', v)
        raise SyntaxError("prim %s %s near %s" % (k, v, s.t[max(0,s.i-8):s.i+8]))

def parse(src):
    p = P(tokenize(strip_comments(src)))
    e = p.expr()
    if p.i != len(p.t): raise SyntaxError("trailing " + str(p.t[p.i:p.i+10]))
    return e

FUN = {'pow2':'pow2','pow3':'pow3','pow4':'pow4','pow5':'pow5','pow6':'pow6','pow7':'pow7','pow8':'pow8',
       'pow9':'pow9','power10':'power10','pow11':'pow11','pow12':'pow12','pow13':'pow13','pow14':'pow14','pow15':'pow15',
       'pow16':'pow16','pow17':'pow17','pow18':'pow18','pow19':'pow19','pow20':'pow20',
       'log':'nlog','sqrt':'nsqrt','abs':'nabs','fabs':'nabs','sin':'nsin','cos':'ncos','tan':'ntan','atan':'natan',
       'asin':'nasin','pow':'npow','isfinite':'nisfin','isnan':'nisnan','sqr':'pow2','log1p':'nlog1p'}
CONST = {'z2':'Cz2','z3':'Cz3','z4':'Cz4','Pi':'CPi','sqrt2':'Csqrt2','sqrt3':'Csqrt3','B4':'CB4','D3':'CD3','DN':'CDN',
         'OepS2':'COepS2','S2':'CS2','T1ep':'CT1ep','oneLoop':'ConeLoop','twoLoop':'CtwoLoop','threeLoop':'CthreeLoop',
         'log2':'Clog2','sqrt15':'Csqrt15','sqrt35':'Csqrt35','inv_sqrt2':'Cinv_sqrt2'}

class Emit:
    """shallow back end; ints: names of int variables; ren: renaming; field: p.x translation"""
    def __init__(s, ints=(), ren=None, funs=None, consts=CONST, pname='p'):
        s.ints = set(ints); s.ren = ren or {}; s.funs = dict(FUN); s.funs.update(funs or {}); s.consts = consts; s.pname = pname
    def typ(s, e):
        k = e[0]
        if k == 'int': return 'i'
        if k == 'dbl': return 'd'
        if k == 'var': return 'i' if e[1] in s.ints else 'd'
        if k == 'call': return 'd'
        if k == 'neg': return s.typ(e[1])
        if k in '+-*/':
            a, b = s.typ(e[1]), s.typ(e[2])
            if a == 'i' and b == 'i':
                if k == '/': raise TypeError("integer division " + str(e))
                return 'i'
            return 'd'
        if k == '?': return s.typ(e[2])
        return 'b'
    def var(s, v):
        if v in s.ren: return s.ren[v]
        if '::' in v: v = v.split('::')[-1]
        if v.startswith(s.pname + '.'): return "%s %s" % (v[len(s.pname)+1:], s.pname)
        if v in s.consts: return "nconst " + s.consts[v]
        if v in s.ints: return "#" + v
        return v
    def at(s, e):
        r = s.e(e)
        return r if re.fullmatch(r"#?[\w']+|\(.*\)", r) and (not r.startswith('(') or s.bal(r)) else "(" + r + ")"
    def bal(s, r):
        d = 0
        for i, c in enumerate(r):
            d += (c == '(') - (c == ')')
            if d == 0 and i < len(r) - 1: return False
        return True
    LV = {'||':1,'&&':2,'==':3,'!=':3,'<':3,'>':3,'<=':3,'>=':3,'+':4,'-':4,'*':5,'/':5,'neg':6}
    def lvl(s, e):
        if e[0] == 'call' or e[0] == 'var':
            return 7
        return s.LV.get(e[0], 0 if e[0] == '?' else 9)
    def sub(s, e, l):
        r = s.e(e)
        return "(" + r + ")" if s.lvl(e) < l else r
    def e(s, e):
        k = e[0]
        if k == 'int': return "#%d" % e[1]
        if k == 'dbl': return "#%d" % e[1] if e[2] == 0 else "ndec %d %d" % (e[1], e[2])
        if k == 'var': return s.var(e[1])
        if k == 'neg':
            if e[1][0] == 'int': return "#(-%d)" % e[1][1]
            return "- " + (s.e(e[1]) if s.lvl(e[1]) >= 6 else "(" + s.e(e[1]) + ")")
        if k == 'call':
            f = e[1]
            if f in s.ren: return s.ren[f] + "".join(" " + s.at(a) for a in e[2])
            f = f.split('::')[-1] if f.startswith('std::') or '::' in f else f
            if f.startswith(s.pname + '.'):
                n = f[len(s.pname)+1:]
                idx = [a[1] for a in e[2]]
                if len(idx) == 2: return "a%d%d (%s %s)" % (idx[0], idx[1], n, s.pname)
                if len(idx) == 1: return "v%d (%s %s)" % (idx[0], n, s.pname)
                return "%s %s" % (n, s.pname)
            if f not in s.funs: raise KeyError("function " + f)
            return s.funs[f] + "".join(" " + s.at(a) for a in e[2])
        if k == 'not': return "negb %s" % s.at(e[1])
        if k == '?': return "if %s then %s else %s" % (s.e(e[1]), s.e(e[2]), s.e(e[3]))
        if k == '/': s.typ(e)
        l = s.LV[k]
        a, b = e[1], e[2]
        op = {'<':'<?','<=':'<=?','>':'>?','>=':'>=?','==':'=?'}.get(k, k)
        if k in ('||','&&'): return "%s %s %s" % (s.at(a), k, s.at(b))
        if k == '!=': return "negb (%s =? %s)" % (s.sub(a, 4), s.sub(b, 4))
        if k in ('<','<=','>','>=','=='): return "%s %s %s" % (s.sub(a, 4), op, s.sub(b, 4))
        return "%s %s %s" % (s.sub(a, l), op, s.sub(b, l + 1))

def wrap(txt, width=100, ind="      "):
    words, lines, cur = txt.split(' '), [], ""
    for w in words:
        if len(cur) + len(w) + 1 > width: lines.append(cur); cur = w
        else: cur = (cur + " " + w) if cur else w
    lines.append(cur)
    return ("\n" + ind).join(lines)

def stmts(src):
    """split straight-line code on ';'"""
    return [x.strip() for x in strip_comments(src).split(';') if x.strip()]

def lets(src, em, ind="    "):
    """const double x = e;  x = e;  return e;"""
    out = []
    for st in stmts(src):
        m = re.match(r"(?:const\s+)?(?:double|auto|int|bool)\s+(.*)", st, re.S)
        body = m.group(1) if m else st
        if body.startswith('return'):
            out.append(ind + wrap(em.e(parse(body[6:]))))
            continue
        m = re.match(r"([A-Za-z_]\w*(?:\(\s*\d\s*,\s*\d\s*\))?)\s*=\s*(.*)", body, re.S)
        if not m: raise SyntaxError("stmt: " + st[:80])
        n = m.group(1)
        n = em.ren.get(n, n)
        out.append(ind + "let %s := %s in" % (n.lstrip('#'), wrap(em.e(parse(m.group(2))))))
    return "\n".join(out)

if __name__ == '__main__':
    pass
