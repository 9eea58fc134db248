#!/usr/bin/env python3
"""Statement-level translation of C++ functions over double to Coq functions over the class Num.

Handles: declarations, assignments, arrays of literals, if / else if / else, return, std::swap,
conditional fall-through (translated with a join point  let k := fun vars => rest in ...).
Anything else raises an error, so nothing is dropped silently."""
import re, sys, os
sys.path.insert(0, os.path.dirname(os.path.abspath(__file__)))
from cpp2coq import *
import cpp2coq

class Src:
    def __init__(s, path):
        s.path = path; s.raw = open(path).read(); s.txt = strip_comments(s.raw)
    def line(s, off): return s.txt.count('\n', 0, off) + 1
    def func(s, pat):
        """pat: regex of the signature up to and excluding '{' -> (signature, body, first line, last line)"""
        m = re.search(pat + r"[^{;]*\{", s.txt)
        if not m: raise KeyError(pat)
        a = m.end(); d = 1; i = a
        while d:
            d += (s.txt[i] == '{') - (s.txt[i] == '}'); i += 1
        return s.txt[m.start():a-1], s.txt[a:i-1], s.line(m.start()), s.line(i-1)

def split_stmts(t):
    """statement tree: ('s', text) | ('if', cond, [..], [..] or None) | ('blk', [..])"""
    out, i, n = [], 0, len(t)
    def skip(i):
        while i < n and t[i].isspace(): i += 1
        return i
    def match(i, o, c):
        d = 0
        while True:
            d += (t[i] == o) - (t[i] == c); i += 1
            if d == 0: return i
    def one(i):
        i = skip(i)
        if t[i] == '{':
            j = match(i, '{', '}')
            return ('blk', split_stmts(t[i+1:j-1])), j
        m = re.compile(r"if\s*\(").match(t, i)
        if m:
            j = match(m.end()-1, '(', ')')
            c = t[m.end():j-1]
            th, j = one(j)
            k = skip(j)
            m2 = re.compile(r"else\b").match(t, k) if k < n else None
            el = None
            if m2:
                el, j = one(m2.end())
            return ('if', c, th, el), j
        j = i; d = 0
        while t[j] != ';' or d:
            d += (t[j] in '({') - (t[j] in ')}'); j += 1
        return ('s', t[i:j].strip()), j + 1
    while True:
        i = skip(i)
        if i >= n: return out
        st, i = one(i)
        if st != ('s', ''): out.append(st)

def flat(st):
    if st is None: return []
    return st[1] if st[0] == 'blk' else [st]

def returns(sts):
    if not sts: return False
    l = sts[-1]
    if l[0] == 's': return l[1].startswith('return')
    if l[0] == 'blk': return returns(l[1])
    return l[3] is not None and returns(flat(l[2])) and returns(flat(l[3]))

DECL = re.compile(r"^(?:static\s+)?(?:constexpr\s+)?(?:const\s+)?(?:double|auto|int|bool|unsigned)\s+(?:const\s+)?")

def split_top(s, ch=','):
    out, d, cur = [], 0, ''
    for c in s:
        if c in '({[': d += 1
        if c in ')}]': d -= 1
        if c == ch and d == 0: out.append(cur); cur = ''
        else: cur += c
    out.append(cur)
    return [x.strip() for x in out if x.strip()]

class Fun:
    def __init__(s, em, pre=None, width=100):
        s.em, s.pre, s.kn, s.width = em, pre or (lambda x: x), 0, width
    def ex(s, t): return wrap(s.em.e(parse(s.pre(t))), s.width)
    def assigned(s, sts, decl=()):
        """variables assigned but not declared in sts"""
        decl = set(decl); out = []
        for st in sts:
            if st[0] == 's':
                t = st[1]
                if DECL.match(t):
                    for d in split_top(DECL.sub('', t, 1)):
                        decl.add(re.match(r"\w+", d).group(0))
                elif re.match(r"std::swap", t):
                    for v in re.findall(r"\w+", t[t.index('('):]):
                        if v not in decl and v not in out: out.append(v)
                else:
                    m = re.match(r"(\w+)\s*[-+*/]?=[^=]", t)
                    if m and m.group(1) not in decl and m.group(1) not in out: out.append(m.group(1))
            elif st[0] == 'blk':
                for v in s.assigned(st[1]):
                    if v not in decl and v not in out: out.append(v)
            else:
                for v in s.assigned(flat(st[2])) + s.assigned(flat(st[3])):
                    if v not in decl and v not in out: out.append(v)
        return out
    def nm(s, v): return s.em.ren.get(v, v)
    def emit(s, sts, ind="    ", k=None):
        """k: Coq text used when the statements fall through"""
        if not sts:
            if k is None: raise SyntaxError("falls off the end")
            return ind + k
        st, rest = sts[0], sts[1:]
        if st[0] == 'blk': return s.emit(st[1] + rest, ind, k)
        if st[0] == 's':
            t = st[1]
            if t.startswith('using ') or t.startswith('static_assert'): return s.emit(rest, ind, k)
            if t.startswith('return'):
                e = t[6:].strip()
                m = re.match(r"std::make_tuple\s*\((.*)\)$", e, re.S)
                if m: return ind + "(" + ", ".join(s.ex(x) for x in split_top(m.group(1))) + ")"
                return ind + s.ex(e)
            if DECL.match(t):
                out = ''
                for d in split_top(DECL.sub('', t, 1)):
                    m = re.match(r"(\w+)\s*\[\s*\d*\s*\]\s*=\s*\{(.*)\}$", d, re.S)
                    if m:
                        for j, x in enumerate(split_top(m.group(2))):
                            out += ind + "let %s_%d := %s in\n" % (m.group(1), j, s.ex(x))
                        continue
                    m = re.match(r"(\w+)\s*=\s*(.*)$", d, re.S)
                    if not m: raise SyntaxError("decl " + t)
                    out += ind + "let %s := %s in\n" % (s.nm(m.group(1)), s.ex(m.group(2)))
                return out + s.emit(rest, ind, k)
            m = re.match(r"std::swap\s*\(\s*(\w+)\s*,\s*(\w+)\s*\)$", t)
            if m:
                return ind + "let '(%s, %s) := (%s, %s) in\n" % (m.group(1), m.group(2), m.group(2), m.group(1)) + s.emit(rest, ind, k)
            m = re.match(r"std::tie\s*\((.*?)\)\s*=\s*(.*)$", t, re.S)
            if m:
                return ind + "let '(%s) := %s in\n" % (m.group(1), s.ex(m.group(2))) + s.emit(rest, ind, k)
            m = re.match(r"(\w+)\s*([-+*/]?)=\s*(.*)$", t, re.S)
            if m:
                e = m.group(3) if not m.group(2) else "%s %s (%s)" % (m.group(1), m.group(2), m.group(3))
                return ind + "let %s := %s in\n" % (s.nm(m.group(1)), s.ex(e)) + s.emit(rest, ind, k)
            raise SyntaxError("stmt " + t[:100])
        _, c, th, el = st
        A, B = flat(th), flat(el)
        i2 = ind + "  "
        cond = s.ex(c)
        # if (c) std::swap(a,b);
        if el is None and len(A) == 1 and A[0][0] == 's' and A[0][1].startswith('std::swap'):
            a, b = re.findall(r"\w+", A[0][1][A[0][1].index('('):])
            return ind + "let '(%s, %s) := if %s then (%s, %s) else (%s, %s) in\n" % (a, b, cond, b, a, a, b) + s.emit(rest, ind, k)
        if returns(A):
            return (ind + "if %s then\n" % cond + s.emit(A, i2) + "\n" + ind + "else\n" + s.emit(B + rest, ind, k))
        if B and returns(B):
            return (ind + "if %s then\n" % cond + s.emit(A + rest, i2, k) + "\n" + ind + "else\n" + s.emit(B, i2))
        if not rest:
            return (ind + "if %s then\n" % cond + s.emit(A, i2, k) + "\n" + ind + "else\n" + s.emit(B, i2, k))
        vs = [s.nm(v) for v in s.assigned(A + [('blk', B)])]
        if len(vs) and not any(has_return(x) for x in A + B):
            tup = "(" + ", ".join(vs) + ")" if len(vs) > 1 else vs[0]
            pat = "'" + tup if len(vs) > 1 else tup
            return (ind + "let %s :=\n" % pat + i2 + "if %s then\n" % cond + s.emit(A, i2 + "  ", tup) + "\n" + i2 + "else\n"
                    + s.emit(B, i2 + "  ", tup) + " in\n" + s.emit(rest, ind, k))
        s.kn += 1
        kn = "k%d" % s.kn
        call = kn + "".join(" " + v for v in vs)
        return (ind + "let %s %s :=\n" % (kn, " ".join(vs)) + s.emit(rest, i2, k) + " in\n" + ind + "if %s then\n" % cond
                + s.emit(A, i2, call) + "\n" + ind + "else\n" + s.emit(B, ind, call))

def has_return(st):
    if st[0] == 's': return st[1].startswith('return')
    if st[0] == 'blk': return any(has_return(x) for x in st[1])
    return any(has_return(x) for x in flat(st[2]) + flat(st[3]))

def params(sig):
    a = sig[sig.index('(')+1:sig.rindex(')')]
    out = []
    for j, x in enumerate(split_top(a)):
        w = re.findall(r"[A-Za-z_]\w*", x)
        out.append(w[-1] if len(w) > 1 else "unused%d" % j)
    return out
