#!/usr/bin/env python3
"""Text-to-text translator: source/bitsNN/char_is_unicode.cxx and
source/bitsNN/char_to_lower.cxx  ->  theories/Gen/UnicodeNN.v

Handles exactly the C++ subset those two files use (integer locals, if/else,
switch with fall-through/break, return, | & + ~ ! >> comparisons, && || ?:,
static_cast, calls).  It never runs the C++; anything outside the subset, or a
path that falls off the end of a function, is a hard error.

Integer semantics: every value is a Z; `int`/`unsigned` sub-expressions are
exact Z (all of them stay inside 32 bits here), a conversion to char /
unsigned char / uint8_t / char16_t / char32_t (static_cast, or the implicit one at
`return`) is a wrap (mod 2^8 / 2^16 / 2^32); `char` is represented by its
unsigned bit pattern 0..255.
"""
import re, sys, os
REPO = '/repo'
OUT = os.path.join(os.path.dirname(os.path.abspath(__file__)), '..', 'rocq', 'theories', 'Gen')
TOK = re.compile(r'\s+|//[^\n]*|/\*.*?\*/|(?P<str>"[^"]*")|(?P<num>0[xX][0-9a-fA-F]+|\d+)|(?P<id>[A-Za-z_]\w*)|(?P<op>::|>>|<=|>=|==|!=|&&|\|\||&=|[-+*/%&|^~!<>=?:;,(){}\[\]#.])', re.S)
SUF = {'char': '8', 'char16_t': '16', 'char32_t': '32'}
TYPES = {'char', 'char16_t', 'char32_t', 'bool'}

def tokenize(src):
    toks, i, line = [], 0, 1
    while i < len(src):
        m = TOK.match(src, i)
        if not m: raise SyntaxError('lex %r' % src[i:i+30])
        t = m.group(0)
        for k in ('str', 'num', 'id', 'op'):
            if m.group(k) is not None: toks.append((k, t, line))
        line += t.count('\n'); i = m.end()
    return toks

class P:
    def __init__(s, toks): s.t, s.i = toks, 0
    def pk(s, n=0): return s.t[s.i+n][1] if s.i+n < len(s.t) else None
    def nx(s): s.i += 1; return s.t[s.i-1][1]
    def ex(s, v):
        if s.pk() != v: raise SyntaxError('expected %s got %s at line %d' % (v, s.pk(), s.t[s.i][2]))
        return s.nx()
    # ---- expressions ----
    def expr(s):
        c = s.binary(0)
        if s.pk() == '?':
            s.nx(); a = s.expr(); s.ex(':'); b = s.expr(); return ('?', c, a, b)
        return c
    LV = [['||'], ['&&'], ['|'], ['&'], ['==', '!='], ['<', '>', '<=', '>='], ['>>'], ['+']]
    def binary(s, l):
        if l == len(s.LV): return s.unary()
        a = s.binary(l+1)
        while s.pk() in s.LV[l]:
            o = s.nx(); b = s.binary(l+1); a = (o, a, b)
        return a
    def unary(s):
        if s.pk() in ('~', '!'):
            o = s.nx(); return ('u'+o, s.unary())
        return s.prim()
    def prim(s):
        k, v, ln = s.t[s.i]
        if v == '(':
            s.nx(); e = s.expr(); s.ex(')'); return e
        if v == 'static_cast':
            s.nx(); s.ex('<'); ty = []
            while s.pk() != '>': ty.append(s.nx())
            s.ex('>'); s.ex('('); e = s.expr(); s.ex(')'); return ('cast', ' '.join(ty), e)
        if k == 'num': s.nx(); return ('num', v)
        if v in ('true', 'false'): s.nx(); return ('bool', v)
        if k == 'id':
            s.nx()
            if s.pk() == '(':
                s.nx(); a = s.expr(); s.ex(')'); return ('call', v, a)
            return ('var', v)
        raise SyntaxError('expr %s line %d' % (v, ln))
    # ---- statements ----
    def block(s):
        s.ex('{'); r = []
        while s.pk() != '}': r.append(s.stmt())
        s.ex('}'); return r
    def body(s): return s.block() if s.pk() == '{' else [s.stmt()]
    def stmt(s):
        v = s.pk()
        if v == 'return':
            s.nx(); e = s.expr(); s.ex(';'); return ('return', e)
        if v == 'break': s.nx(); s.ex(';'); return ('break',)
        if v == 'if':
            s.nx(); s.ex('('); c = s.expr(); s.ex(')'); a = s.body(); b = []
            if s.pk() == 'else': s.nx(); b = s.body()
            return ('if', c, a, b)
        if v == 'switch':
            s.nx(); s.ex('('); c = s.expr(); s.ex(')'); s.ex('{'); arms = []
            while s.pk() != '}':
                labs = []
                while s.pk() in ('case', 'default'):
                    if s.nx() == 'case': labs.append(s.nx())
                    else: labs.append('default')
                    s.ex(':')
                if not labs: raise SyntaxError('switch arm')
                ss = []
                while s.pk() not in ('case', 'default', '}'): ss.append(s.stmt())
                arms.append((labs, ss))
            s.ex('}'); return ('switch', c, arms)
        if v in ('auto', 'unsigned', 'uint8_t'):
            ty = s.nx(); n = s.nx(); s.ex('='); e = s.expr(); s.ex(';'); return ('let', ty, n, e)
        if s.pk(1) == '&=':
            n = s.nx(); s.nx(); e = s.expr(); s.ex(';'); return ('let', 'same', n, ('&', ('var', n), e))
        raise SyntaxError('stmt %s line %d' % (v, s.t[s.i][2]))

WRAP = {'char': 'wrap8', 'unsigned char': 'wrap8', 'uint8_t': 'wrap8', 'char16_t': 'wrap16', 'char32_t': 'wrap32'}

class Gen:
    def __init__(s, ret, env): s.ret, s.env = ret, env
    def ty(s, e):
        if e[0] == 'var': return s.env[e[1]]
        if e[0] == 'cast': return e[1]
        if e[0] == 'call': return s.funs_ret[e[1]]
        return 'int'
    def z(s, e):
        k = e[0]
        if k == 'num': return '0x%x' % int(e[1], 16) if e[1][:2].lower() == '0x' else e[1]
        if k == 'var': return e[1]
        if k == 'cast': return '(%s %s)' % (WRAP[e[1]], s.z(e[2]))
        if k == '|': return '(Z.lor %s %s)' % (s.z(e[1]), s.z(e[2]))
        if k == '&': return '(Z.land %s %s)' % (s.z(e[1]), s.z(e[2]))
        if k == '+': return '(%s + %s)' % (s.z(e[1]), s.z(e[2]))
        if k == '>>': return '(Z.shiftr %s %s)' % (s.z(e[1]), s.z(e[2]))
        if k == 'u~': return '(Z.lnot %s)' % s.z(e[1])
        if k == 'call': return s.call(e)
        raise SyntaxError('zexpr %r' % (e,))
    def call(s, e):
        n = e[1]
        if n in s.over: n = n + '_' + SUF[s.ty(e[2])]
        return '(%s %s)' % (n, s.z(e[2]))
    def b(s, e):
        k = e[0]
        if k == 'bool': return e[1]
        if k == '||': return '(%s || %s)' % (s.b(e[1]), s.b(e[2]))
        if k == '&&': return '(%s && %s)' % (s.b(e[1]), s.b(e[2]))
        if k == 'u!': return '(negb %s)' % s.b(e[1])
        if k == '?': return '(if %s then %s else %s)' % tuple(s.b(x) for x in e[1:])
        if k == 'call': return s.call(e)
        m = {'==': '%s =? %s', '!=': 'negb (%s =? %s)', '<': '%s <? %s', '<=': '%s <=? %s', '>': '%s >? %s', '>=': '%s >=? %s'}
        if k in m: return '(' + m[k] % (s.z(e[1]), s.z(e[2])) + ')'
        raise SyntaxError('bexpr %r' % (e,))
    def retv(s, e):
        if s.ret == 'bool': return s.b(e)
        r = s.z(e)
        # implicit conversion of the returned int to the function's type
        if e[0] == 'num':
            assert int(e[1], 0) < 2**{'char': 8, 'char16_t': 16, 'char32_t': 32}[s.ret]; return r
        if s.ty(e) == s.ret: return r
        return '(%s %s)' % (WRAP[s.ret], r)
    # k: function(indent) -> code for "what comes after", brk: same for break
    def stmts(s, ss, k, brk, ind):
        if not ss: return k(ind)
        h, t = ss[0], ss[1:]
        pad = '  ' * ind
        if h[0] == 'return': return pad + s.retv(h[1])
        if h[0] == 'break': return brk(ind)
        if h[0] == 'let':
            old = s.env.get(h[2])
            code = s.z(h[3])
            if h[1] == 'auto': nt = h[3][1] if h[3][0] == 'cast' else 'int'
            elif h[1] == 'same': nt = old
            elif h[1] == 'unsigned': nt = 'int'
            else:
                nt = h[1]
                if s.ty(h[3]) != nt: code = '(%s %s)' % (WRAP[nt], code)
            s.env[h[2]] = nt
            r = pad + 'let %s := %s in\n' % (h[2], code) + s.stmts(t, k, brk, ind)
            return r
        if h[0] == 'if':
            rest = lambda i: s.stmts(t, k, brk, i)
            return (pad + 'if %s then\n' % s.b(h[1]) + s.stmts(h[2], rest, brk, ind+1) + '\n' + pad + 'else\n'
                    + s.stmts(h[3], rest, brk, ind+1))
        if h[0] == 'switch':
            rest = lambda i: s.stmts(t, k, brk, i)
            arms = h[2]
            def run(j, i):
                if j == len(arms): return rest(i)
                return s.stmts(arms[j][1], lambda i2: run(j+1, i2), rest, i)
            x = h[1]
            sel = s.z(x)
            out = ''
            name = sel
            if x[0] != 'var':
                name = 'sel'; out += pad + 'let sel := %s in\n' % sel
            default = None
            first = True
            for j, (labs, _) in enumerate(arms):
                cs = [l for l in labs if l != 'default']
                if 'default' in labs:
                    assert default is None; default = j
                    if cs: raise SyntaxError('default mixed with case')
                    continue
                cond = ' || '.join('(%s =? %s)' % (name, '0x%x' % int(l, 16) if l[:2].lower() == '0x' else l) for l in cs)
                if len(cs) > 1: cond = '(' + cond + ')'
                out += pad + ('if ' if first else 'else if ') + cond + ' then\n' + run(j, ind+1) + '\n'
                first = False
            d = (lambda i: run(default, i)) if default is not None else rest
            out += pad + 'else\n' + d(ind+1)
            return out
        raise SyntaxError(h)

def functions(path):
    src = open(os.path.join(REPO, path)).read()
    toks = tokenize(re.sub(r'^#.*$', '', src, flags=re.M))
    p = P(toks); fs = []; version = None
    while p.i < len(toks):
        v = p.pk()
        if v == 'using':
            while p.nx() != ';': pass
        elif v == 'namespace':
            p.nx()
            if p.pk() != '{': p.nx()
            p.ex('{')
        elif v == '}': p.nx()
        elif v == 'const':
            ln = toks[p.i][2]
            p.nx(); p.ex('utf8String'); p.ex('supportedUnicodeVersion'); p.ex('=')
            version = (p.nx(), ln); p.ex(';')
        elif v in TYPES:
            ln = toks[p.i][2]
            ret = p.nx(); name = p.nx(); p.ex('('); pt = p.nx(); pn = p.nx(); p.ex(')')
            body = p.block(); end = toks[p.i-1][2]
            fs.append(dict(ret=ret, name=name, pt=pt, pn=pn, body=body, a=ln, b=end, path=path))
        else: raise SyntaxError('top %s line %d' % (v, toks[p.i][2]))
    return fs, version

def gen(n):
    a, ver = functions('source/bits%d/char_is_unicode.cxx' % n)
    b, _ = functions('source/bits%d/char_to_lower.cxx' % n)
    out = ['(* GENERATED by tools/cxx2v.py from /repo/source/bits%d/char_is_unicode.cxx and' % n,
           '   /repo/source/bits%d/char_to_lower.cxx.  One Gallina definition per C++ function,' % n,
           '   same structure, same literals.  Overloads carry the parameter width as a suffix',
           '   (_8 char, _16 char16_t, _32 char32_t).  See tools/cxx2v.py for the integer semantics. *)',
           'From Coq Require Import ZArith Bool String.', 'From Verif Require Import Machine.',
           'Local Open Scope Z_scope.', '',
           '(* source/bits%d/char_is_unicode.cxx:%d *)' % (n, ver[1]),
           'Definition supportedUnicodeVersion : string := %s%%string.' % ver[0], '',
           '(* source/string_internal.hxx:118 -- inline overload for char: always true *)',
           'Definition isUnicodeAssigned_8 (c : Z) : bool := true.',
           '(* source/string_internal.hxx:122 -- inline overload for char: always false *)',
           'Definition isUnicodePrivate_8 (c : Z) : bool := false.', '']
    fs = a + b
    names = [f['name'] for f in fs]
    over = {x for x in names if names.count(x) > 1}
    Gen.over = over
    Gen.funs_ret = {f['name']: f['ret'] for f in fs}
    for f in fs:
        g = Gen(f['ret'], {f['pn']: f['pt']})
        def fell(ind, f=f): raise SyntaxError('%s falls off the end' % f['name'])
        code = g.stmts(f['body'], fell, fell, 1)
        nm = f['name'] + ('_' + SUF[f['pt']] if f['name'] in over else '')
        out += ['(* %s:%d-%d *)' % (f['path'], f['a'], f['b']),
                'Definition %s (%s : Z) : %s :=' % (nm, f['pn'], 'bool' if f['ret'] == 'bool' else 'Z'),
                code + '.', '']
    open(os.path.join(OUT, 'Unicode%d.v' % n), 'w').write('\n'.join(out))
    return len(fs)

if __name__ == '__main__':
    for n in range(7, 17): print(n, gen(n))
