#!/usr/bin/env python3
"""Translate the unit tests of /repo/test/unit into Rocq examples about the model.

usage: tests2v.py OUTDIR

The translator runs the straight-line C++ of each TEST body: arrays and integers are kept as concrete
values, calls of library functions become terms of the model, and every EXPECT_* becomes one boolean.
Each TEST gives

    Definition <name> (T : UnicodeTables) : outcome (list bool) := do ...; Done [ ... ].
    Example <name>_passes : all_true (<name> <tables>) = true.

Whatever it does not understand is reported on stderr and left out (never guessed)."""
import re
import sys
import os

SRC = '/repo/test/unit/'


class Skip(Exception):
    pass


# ------------------------------------------------------------------ tokens
TOKEN = re.compile(r'''
  (?P<ws>\s+|//[^\n]*|/\*.*?\*/)
 |(?P<str>(?:u8|u|U|L)?"(?:\\.|[^"\\])*")
 |(?P<chr>(?:u8|u|U|L)?'(?:\\.[^']*|[^'\\])')
 |(?P<num>0[xX][0-9a-fA-F]+[uUlL]*|0[bB][01]+[uUlL]*|\d+[uUlL]*)
 |(?P<id>[A-Za-z_]\w*)
 |(?P<op>\|=|<<=|&=|\+=|-=|->|::|\+\+|--|&&|\|\||==|!=|<=|>=|<<|>>|[-+*/%&|^~!<>=?:;,.(){}\[\]])
''', re.X | re.S)


def tokenize(text):
    out, i = [], 0
    while i < len(text):
        m = TOKEN.match(text, i)
        if not m:
            raise Skip('token %r' % text[i:i + 20])
        if m.lastgroup != 'ws':
            out.append((m.lastgroup, m.group()))
        i = m.end()
    return out


WIDTH = {'': 8, 'u8': 8, 'u': 16, 'U': 32, 'L': 'w'}


def unescape(body, width):
    out, i = [], 0
    while i < len(body):
        c = body[i]
        if c != '\\':
            cp = ord(c)
            i += 1
            out += encode_cp(cp, width)
            continue
        e = body[i + 1]
        i += 2
        if e == 'x':
            m = re.match(r'[0-9a-fA-F]+', body[i:])
            out.append(int(m.group(), 16))
            i += m.end()
        elif e in 'uU':
            n = 4 if e == 'u' else 8
            out += encode_cp(int(body[i:i + n], 16), width)
            i += n
        elif e in '01234567':
            m = re.match(r'[0-7]{1,3}', body[i - 1:])
            out.append(int(m.group(), 8))
            i += m.end() - 1
        else:
            out.append({'n': 10, 't': 9, 'r': 13, '\\': 92, "'": 39, '"': 34}[e])
    return out


def encode_cp(cp, width):
    if width == 8:
        return list(chr(cp).encode('utf-8'))
    if width == 16 and cp > 0xffff:
        b = chr(cp).encode('utf-16-be')
        return [b[0] << 8 | b[1], b[2] << 8 | b[3]]
    return [cp]


# ------------------------------------------------------------------ values
# ('int', n)            concrete integer, any C++ integer type
# ('chr', w, n)         concrete character
# ('z', coq)            symbolic integer
# ('bool', coq)
# ('arr', w, list)      mutable array
# ('ptr', w, arr, off)  pointer into a concrete array
# ('sptr', w, coq)      symbolic pointer (term of type ptr)
# ('null',)
# ('str', w, coq)       basic_string (term of type list Z)
# ('vec', w, coq)       vector of basic_string
# ('pred', coq)         EncodingCheckPredicate
# ('enum', coq)         RangeType / EncodingType / EncodingSourceType

STR_TYPES = {'string': 8, 'utf8String': 8, 'utf16String': 16, 'ucs2String': 16, 'ucs4String': 32,
             'wstring': 'w'}
CHAR_TYPES = {'char': 8, 'char16_t': 16, 'char32_t': 32, 'wchar_t': 'w'}
INT_TYPES = {'int', 'unsigned', 'size_t', 'int64_t', 'uint64_t', 'long', 'bool'}
ENUMS = ['kAscii', 'kUtf8', 'kUcs2', 'kUtf16', 'kUcs4', 'kUnicode', 'kFirstInvalidRange',
         'kIsNone', 'kIsAssigned', 'kIsPrivate', 'kIsControl', 'kIsWhitespace', 'kFirstInvalidEncoding']
SRC_ENUMS = ['kSrcUnicode', 'kSrcCP1252', 'kSrcCP1250']
FLAGS = ['kNoFlag', 'kUnicodeFlag', 'k7BitFlags', 'k16BitFlags', 'k21BitFlags', 'k21BitUnicodeFlags',
         'k31BitFlags', 'k32BitFlags', 'kInvalidRangeFlag']


def zlist(l):
    return '[' + '; '.join(str(x) for x in l) + ']'


class Run:
    """One TEST body."""

    def __init__(self, toks, env, wide, mbcs):
        self.t, self.i = toks, 0
        self.env = [env, {}]
        self.wide = wide        # 16 or 32: the width of wchar_t
        self.mbcs = mbcs        # None, 'mbcs' or 'unicode': WIN32 overloads are visible
        self.steps = []         # lines 'do x <- e;' / 'let x := e in'
        self.checks = []
        self.n = 0
        self.skipped = []

    # -------------------------------------------------------------- helpers
    def fresh(self, p='t'):
        self.n += 1
        return '%s%d' % (p, self.n)

    def hoist(self, e, p='t'):
        v = self.fresh(p)
        self.steps.append('do %s <- %s;' % (v, e))
        return v

    def let(self, e, p='s'):
        v = self.fresh(p)
        self.steps.append('let %s := %s in' % (v, e))
        return v

    def w(self, w):
        return self.wide if w == 'w' else w

    def peek(self, k=0):
        return self.t[self.i + k][1] if self.i + k < len(self.t) else None

    def kind(self, k=0):
        return self.t[self.i + k][0] if self.i + k < len(self.t) else None

    def next(self):
        self.i += 1
        return self.t[self.i - 1][1]

    def eat(self, s):
        if self.peek() != s:
            raise Skip('expected %r got %r' % (s, self.peek()))
        self.i += 1

    def lookup(self, name):
        for e in reversed(self.env):
            if name in e:
                return e[name]
        return None

    def assign(self, name, v):
        for e in reversed(self.env):
            if name in e:
                e[name] = v
                return
        self.env[-1][name] = v

    # conversions
    def toptr(self, v):
        """term of type ptr, width"""
        if v[0] == 'null':
            return 'Null', None
        if v[0] == 'int' and v[1] == 0:
            return 'Null', None
        if v[0] == 'arr':
            return '(At %s)' % zlist(v[2]), v[1]
        if v[0] == 'ptr':
            return '(At %s)' % zlist(v[2][2][v[3]:]), v[1]
        if v[0] == 'sptr':
            return v[2], v[1]
        if v[0] == 'str':
            return '(c_str %s)' % v[2], v[1]
        raise Skip('not a pointer: %r' % (v[0],))

    def tostr(self, v, w=None):
        """term of type list Z, width: the basic_string made from v"""
        if v[0] == 'str':
            return v[2], v[1]
        if v[0] in ('arr', 'ptr', 'sptr', 'null'):
            p, pw = self.toptr(v)
            return self.hoist('basic_string %s' % p), pw
        raise Skip('not a string: %r' % (v[0],))

    def toz(self, v):
        if v[0] == 'int':
            return str(v[1]) if v[1] >= 0 else '(%d)' % v[1]
        if v[0] == 'chr':
            return str(v[2])
        if v[0] in ('z', 'enum'):
            return v[1]
        if v[0] == 'bool':
            return '(if %s then 1 else 0)' % v[1]
        raise Skip('not an integer: %r' % (v[0],))

    def tobool(self, v):
        if v[0] == 'bool':
            return v[1]
        if v[0] == 'int':
            return 'true' if v[1] else 'false'
        raise Skip('not a bool: %r' % (v[0],))

    def concrete(self, v):
        if v[0] == 'int':
            return v[1]
        if v[0] == 'chr':
            return v[2]
        raise Skip('not concrete')

    def equal(self, a, b):
        if 'pred' in (a[0], b[0]):
            return '(predicateEq %s %s)' % (a[1], b[1])
        if 'null' in (a[0], b[0]) or (a[0] in ('ptr', 'sptr') and b[0] in ('ptr', 'sptr')):
            return '(ptr_eqb %s %s)' % (self.toptr(a)[0], self.toptr(b)[0])
        if 'str' in (a[0], b[0]):
            (x, wx), (y, wy) = self.tostr(a), self.tostr(b)
            if self.w(wx) != self.w(wy):
                raise Skip('comparing widths %s %s' % (wx, wy))
            return '(list_eqb %s %s)' % (x, y)
        if 'bool' in (a[0], b[0]):
            return '(Bool.eqb %s %s)' % (self.tobool(a), self.tobool(b))
        return '(%s =? %s)' % (self.toz(a), self.toz(b))

    # -------------------------------------------------------------- calls
    def call(self, name, args):
        a = args
        if name in ('isUtf8', 'isUtf16', 'isUcs2', 'isUcs4'):
            native = {'isUtf8': 8, 'isUtf16': 16, 'isUcs2': 16, 'isUcs4': 32}[name]
            default = {'isUtf8': 'kUtf8', 'isUtf16': 'kUtf16', 'isUcs2': 'kUcs2', 'isUcs4': 'kUcs4'}[name]
            p, w = self.toptr(a[0])
            if w is None:
                w = native
            if w == 'w':
                if len(a) != 1:
                    raise Skip('wide check with range')
                return ('bool', self.hoist('w%d_%s T %s' % (self.wide, name, p)))
            if w == 8 and native != 8:
                if self.mbcs != 'mbcs' or len(a) != 1:
                    raise Skip('narrow overload')
                return ('bool', self.hoist('narrow_%s T %s' % (name, p)))
            if w != native:
                raise Skip('overload %s on %s' % (name, w))
            rest = list(a[1:])
            if rest and rest[0][0] == 'int':
                if name != 'isUtf8':
                    raise Skip('length')
                return ('bool', self.hoist('isUtf8_length T %s %d %s' %
                                           (p, rest[0][1], 'nullPredicate' if len(rest) == 1 else rest[1][1])))
            rng = default
            pred = 'nullPredicate'
            if rest and rest[0][0] == 'enum':
                rng = rest.pop(0)[1]
            if rest and rest[0][0] == 'pred':
                pred = rest.pop(0)[1]
            if rest:
                raise Skip('arguments of %s' % name)
            return ('bool', self.hoist('%s T %s %s %s' % (name, p, rng, pred)))
        if name in ('isWstring', 'isTstring'):
            p, w = self.toptr(a[0])
            if name == 'isWstring':
                return ('bool', self.hoist('w%d_isWstring_%d T %s' % (self.wide, w, p)))
            if self.mbcs is None:
                raise Skip('TCHAR')
            return ('bool', self.hoist('isTstring_%d T %s' % (w, p)))
        if name in ('toUtf8', 'toUtf16', 'toUcs2', 'toUcs4'):
            out = {'toUtf8': 8, 'toUtf16': 16, 'toUcs2': 16, 'toUcs4': 32}[name]
            p, w = self.toptr(a[0])
            if w == 'w':
                needs = {32: {'toUcs4'}, 16: {'toUtf16', 'toUcs2'}}[self.wide]
                return ('str', out, self.hoist('w%d_%s %s%s' % (self.wide, name, 'T ' if name in needs else '', p)))
            if name == 'toUtf8' and w == 8:
                if len(a) == 1:
                    if a[0][0] == 'str':
                        return a[0]
                    if self.mbcs != 'mbcs':
                        raise Skip('toUtf8 of char')
                    return ('str', 8, self.hoist('narrow_toUtf8 T %s' % p))
                return ('str', 8, self.hoist('toUtf8_cp %s %s' % (p, a[1][1])))
            if w is None:
                raise Skip('null of unknown type')
            if w == out:
                raise Skip('conversion to itself')
            return ('str', out, self.hoist('%s_%d %s' % (name, w, p)))
        if name == 'toWstring':
            p, w = self.toptr(a[0])
            needs = {32: {32}, 16: {16}}[self.wide]
            return ('str', 'w', self.hoist('w%d_toWstring_%d %s%s' % (self.wide, w, 'T ' if w in needs else '', p)))
        if name == 'toTstring':
            p, w = self.toptr(a[0])
            if self.mbcs is None or a[0][0] == 'str':
                raise Skip('TCHAR')
            return ('str', 8 if self.mbcs == 'mbcs' else 'w',
                    self.hoist('%s_toTstring_%d %s%s' % (self.mbcs, w, TNEEDS[(self.mbcs, w)], p)))
        if name == 'unicodeLength':
            p, w = self.toptr(a[0])
            n = self.toz(a[1]) if len(a) > 1 else '0'
            return ('z', self.hoist('unicodeLength%d %s %s' % (w, p, n)))
        if name == 'toLower':
            s, w = self.tostr(a[0])
            lang = self.toptr(a[1])[0] if len(a) > 1 else 'Null'
            return ('str', w, self.hoist('toLower_%d T %s %s' % (w, s, lang)))
        if name == 'split':
            s, w = self.tostr(a[0])
            return ('vec', w, self.hoist('split %s %s' % (s, self.toz(a[1]))))
        if name == 'join':
            return ('str', a[0][1], self.hoist('join %s %s' % (a[0][2], self.toz(a[1]))))
        if name in ('testTrim', 'testTrimWhiteSpace', 'testTrimAscii7WhiteSpace'):
            s, w = self.tostr(a[0])
            f = {'testTrim': 'trim', 'testTrimWhiteSpace': 'trimWhiteSpace_%s' % w,
                 'testTrimAscii7WhiteSpace': 'trimAscii7WhiteSpace'}[name]
            return ('str', w, self.hoist('%s %s' % (f, s)))
        if name in ('validIf', 'validIfNot'):
            return ('pred', '(%s %s)' % (name, a[0][1]))
        if name == 'charToEncodingTypeMask':
            if a[0][0] != 'chr':
                raise Skip('mask of a non-character')
            return ('z', '(charToEncodingTypeMask%d T %d)' % (a[0][1], a[0][2]))
        if name in ('getCharEncodableRangeFlags', 'getUnicodeEncodableRangeFlag'):
            if a[0][0] != 'chr':
                raise Skip('flags of a non-character')
            if a[0][1] == 8 and name == 'getCharEncodableRangeFlags':
                name += '8'
            return ('z', '(%s %d)' % (name, a[0][2]))
        if name == 'getRangeFlag':
            if a[0][0] != 'chr' or a[0][1] not in (8, 16):
                raise Skip('range flag')
            return ('z', '(getRangeFlag%d %d)' % (a[0][1], a[0][2]))
        if name == 'rawDecodeUtf8':
            return ('z', '(rawDecodeUtf8_%d %s)' % (len(a), ' '.join(self.toz(x) for x in a)))
        if name == 'rawDecodeUtf16':
            return ('z', '(rawDecodeUtf16 %s)' % ' '.join(self.toz(x) for x in a))
        if name in ('isControlChar', 'isUnicodePrivate', 'isWhitespaceChar', 'isUnicodeAssigned'):
            f = {'isControlChar': 't_control', 'isUnicodePrivate': 't_private', 'isWhitespaceChar': 't_space',
                 'isUnicodeAssigned': 't_assigned'}[name]
            if a[0][0] != 'chr':
                raise Skip('class of a non-character')
            return ('bool', '(%s%d T %d)' % (f, a[0][1], a[0][2]))
        if name == 'strcmp':
            (x, _), (y, _) = self.cpart(a[0]), self.cpart(a[1])
            return ('z', '(if list_eqb (upto0 %s) (upto0 %s) then 0 else 1)' % (x, y))
        if name == 'strlen':
            return ('z', '(Z.of_nat (length (upto0 %s)))' % self.cpart(a[0])[0])
        if name == 'memcmp':
            (x, w), (y, _) = self.cpart(a[0]), self.cpart(a[1])
            by = self.w(w) // 8
            if a[2][0] == 'z':
                return ('z', '(if mem_eqb (Z.to_nat ((%s + %d) / %d)) %s %s then 0 else 1)'
                        % (a[2][1], by - 1, by, x, y))
            n = self.concrete(a[2])
            if n % by:
                raise Skip('memcmp size')
            return ('z', '(if mem_eqb %d%%nat %s %s then 0 else 1)' % (n // by, x, y))
        raise Skip('function %s' % name)

    def cpart(self, v):
        """the elements reachable from a pointer, as a list"""
        if v[0] == 'arr':
            return zlist(v[2]), v[1]
        if v[0] == 'ptr':
            return zlist(v[2][2][v[3]:]), v[1]
        if v[0] == 'cstr':
            return '(%s ++ [0])' % v[2], v[1]
        raise Skip('bytes of %r' % (v[0],))

    # -------------------------------------------------------------- expressions
    def expr(self):
        return self.ternary()

    def ternary(self):
        c = self.lor()
        if self.peek() == '?':
            self.next()
            a = self.expr()
            self.eat(':')
            b = self.expr()
            if c[0] == 'int':
                return a if c[1] else b
            return ('z', '(if %s then %s else %s)' % (self.tobool(c), self.toz(a), self.toz(b)))
        return c

    def lor(self):
        a = self.land()
        while self.peek() == '||':
            self.next()
            b = self.land()
            if a[0] == 'int' and b[0] == 'int':
                a = ('int', int(bool(a[1] or b[1])))
            else:
                a = ('bool', '(%s || %s)' % (self.tobool(a), self.tobool(b)))
        return a

    def land(self):
        a = self.bor()
        while self.peek() == '&&':
            self.next()
            b = self.bor()
            if a[0] == 'int' and b[0] == 'int':
                a = ('int', int(bool(a[1] and b[1])))
            else:
                a = ('bool', '(%s && %s)' % (self.tobool(a), self.tobool(b)))
        return a

    def bor(self):
        a = self.eq()
        while self.peek() in ('|', '&'):
            op = self.next()
            b = self.eq()
            if a[0] == 'int' and b[0] == 'int':
                a = ('int', a[1] | b[1] if op == '|' else a[1] & b[1])
            else:
                a = ('z', '(%s %s %s)' % ('Z.lor' if op == '|' else 'Z.land', self.toz(a), self.toz(b)))
        return a

    def eq(self):
        a = self.rel()
        while self.peek() in ('==', '!='):
            op = self.next()
            b = self.rel()
            if a[0] in ('int', 'chr') and b[0] in ('int', 'chr'):
                r = self.concrete(a) == self.concrete(b)
                a = ('int', int(r if op == '==' else not r))
            else:
                e = self.equal(a, b)
                a = ('bool', e if op == '==' else '(negb %s)' % e)
        return a

    def rel(self):
        a = self.add()
        while self.peek() in ('<', '>', '<=', '>='):
            op = self.next()
            b = self.add()
            x, y = self.concrete(a), self.concrete(b)
            a = ('int', int({'<': x < y, '>': x > y, '<=': x <= y, '>=': x >= y}[op]))
        return a

    def add(self):
        a = self.unary()
        while self.peek() in ('+', '-', '%'):
            op = self.next()
            b = self.unary()
            if a[0] == 'arr':
                a = ('ptr', a[1], a, 0)
            if a[0] == 'ptr':
                d = self.concrete(b)
                a = ('ptr', a[1], a[2], a[3] + (d if op == '+' else -d))
            elif a[0] in ('int', 'chr') and b[0] in ('int', 'chr'):
                x, y = self.concrete(a), self.concrete(b)
                a = ('int', {'+': x + y, '-': x - y, '%': x % y if y else 0}[op])
            elif op in '+-':
                a = ('z', '(%s %s %s)' % (self.toz(a), op, self.toz(b)))
            else:
                raise Skip('arithmetic')
        return a

    def unary(self):
        p = self.peek()
        if p == '!':
            self.next()
            v = self.unary()
            if v[0] == 'int':
                return ('int', int(not v[1]))
            return ('bool', '(negb %s)' % self.tobool(v))
        if p == '&':
            self.next()
            v = self.postfix()
            if v[0] == 'elem':
                return ('ptr', v[1][1], v[1], v[2])
            raise Skip('address')
        if p == '*':
            self.next()
            v = self.unary()
            if v[0] == 'arr':
                v = ('ptr', v[1], v, 0)
            if v[0] == 'ptr':
                return ('chr', v[1], v[2][2][v[3]])
            raise Skip('dereference')
        if p == '-':
            self.next()
            return ('int', -self.concrete(self.unary()))
        if p in ('++', '--'):
            self.next()
            name = self.next()
            self.step(name, 1 if p == '++' else -1)
            return self.lookup(name)
        v = self.postfix()
        if v[0] == 'elem':
            return ('chr', v[1][1], v[1][2][v[2]])
        return v

    def step(self, name, d):
        v = self.lookup(name)
        if v is None:
            raise Skip('increment of %s' % name)
        if v[0] == 'int':
            self.assign(name, ('int', v[1] + d))
        elif v[0] == 'chr':
            self.assign(name, ('chr', v[1], (v[2] + d) % (1 << self.w(v[1]))))
        elif v[0] == 'ptr':
            self.assign(name, ('ptr', v[1], v[2], v[3] + d))
        else:
            raise Skip('increment')

    def args(self, close=')'):
        out = []
        if self.peek() == close:
            self.next()
            return out
        while True:
            out.append(self.expr())
            if self.peek() == ',':
                self.next()
                continue
            self.eat(close)
            return out

    def postfix(self):
        v = self.primary()
        while True:
            p = self.peek()
            if p == '.':
                self.next()
                m = self.next()
                self.eat('(')
                a = self.args()
                v = self.method(v, m, a)
            elif p == '[':
                self.next()
                i = self.expr()
                self.eat(']')
                if v[0] == 'arr':
                    v = ('elem', v, self.concrete(i))
                elif v[0] == 'vec':
                    v = ('str', v[1], '(nth %d %s [])' % (self.concrete(i), v[2]))
                elif v[0] == 'str':
                    v = ('z', '(nth %d %s 0)' % (self.concrete(i), v[2]))
                else:
                    raise Skip('index')
            elif p == '(' and v[0] == 'pred':
                self.next()
                a = self.args()
                if a[0][0] != 'chr':
                    raise Skip('predicate on non-character')
                v = ('bool', '(pred%d T %s %d)' % (a[0][1], v[1], a[0][2]))
            elif p in ('++', '--') and v[0] == 'var++':
                raise Skip('postfix')
            else:
                return v

    def method(self, v, m, a):
        if v[0] == 'str':
            if m == 'empty':
                return ('bool', '(match %s with [] => true | _ => false end)' % v[2])
            if m in ('size', 'length'):
                return ('z', '(Z.of_nat (length %s))' % v[2])
            if m == 'c_str':
                return ('cstr', v[1], v[2])
        if v[0] == 'vec':
            if m == 'size':
                return ('z', '(Z.of_nat (length %s))' % v[2])
        if v[0] == 'pred' and m in ('andIf', 'andIfNot'):
            return ('pred', '(%s %s %s)' % (m, v[1], a[0][1]))
        raise Skip('method %s of %s' % (m, v[0]))

    def primary(self):
        k, s = self.kind(), self.peek()
        if s == '(':
            self.next()
            if self.peek() == 'ansak' and self.peek(2) == 'SourceEncoding' and self.peek(3) == ')':
                self.i += 4
                return ('enum', self.toz(self.unary()))
            v = self.expr()
            self.eat(')')
            return v
        if k == 'num':
            self.next()
            s = s.rstrip('uUlL')
            return ('int', int(s, 0) if s.startswith(('0x', '0X', '0b', '0B')) else int(s))
        if k == 'str':
            width, out = None, []
            while self.kind() == 'str':
                m = re.match(r'(u8|u|U|L)?"(.*)"$', self.next(), re.S)
                w = WIDTH[m.group(1) or '']
                width = w if width is None or m.group(1) else width
                out += unescape(m.group(2), self.w(w))
            return ('arr', width, out + [0])
        if k == 'chr':
            self.next()
            m = re.match(r"(u8|u|U|L)?'(.*)'$", s, re.S)
            w = WIDTH[m.group(1) or '']
            return ('chr', w, unescape(m.group(2), self.w(w))[0])
        if k != 'id':
            raise Skip('expression at %r' % s)
        self.next()
        while self.peek() == '::':
            self.next()
            s = self.next()
        if s == 'nullptr':
            return ('null',)
        if s == 'static_cast':
            self.eat('<')
            ty = []
            while self.peek() != '>':
                ty.append(self.next())
            self.eat('>')
            self.eat('(')
            v = self.expr()
            self.eat(')')
            if '*' in ty:
                base = [t for t in ty if t in CHAR_TYPES][0]
                if v[0] in ('null',):
                    return ('sptr', CHAR_TYPES[base], 'Null')
                raise Skip('pointer cast')
            ty = [t for t in ty if t != 'const']
            if ty[0] in CHAR_TYPES:
                w = CHAR_TYPES[ty[0]]
                if v[0] in ('int', 'chr'):
                    return ('chr', w, self.concrete(v) % (1 << self.w(w)))
                raise Skip('symbolic cast')
            return ('int', v[2]) if v[0] == 'chr' else v
        if s == 'sizeof':
            self.eat('(')
            v = self.expr()
            self.eat(')')
            if v[0] != 'arr':
                raise Skip('sizeof')
            return ('int', len(v[2]) * (self.w(v[1]) // 8))
        if s in STR_TYPES and self.peek() == '(':
            self.next()
            a = self.args()
            if not a:
                return ('str', STR_TYPES[s], '(@nil Z)')
            t, _ = self.tostr(a[0])
            return ('str', STR_TYPES[s], t)
        if s in ENUMS:
            return ('enum', s)
        if s in SRC_ENUMS:
            return ('enum', s)
        if s in FLAGS:
            return ('z', s)
        if s in ('true', 'false'):
            return ('bool', s)
        v = self.lookup(s)
        if v is not None:
            if self.peek() in ('++', '--') and v[0] in ('int', 'chr'):
                self.step(s, 1 if self.next() == '++' else -1)
            return v
        if self.peek() == '(':
            self.next()
            if s == 'decodeUtf8':
                name = self.next()
                self.eat(')')
                p = self.lookup(name)
                if p[0] != 'ptr':
                    raise Skip('decode')
                c, q = self.fresh('c'), self.fresh('p')
                self.steps.append("do (%s, %s) <- decodeUtf8 %s;" % (c, q, zlist(p[2][2][p[3]:])))
                self.assign(name, ('sptr', p[1], q))
                return ('z', c)
            if s in ('encodeUtf8', 'rawEncodeUtf16'):
                c = self.expr()
                self.eat(',')
                name = self.next()
                self.eat(')')
                target = self.lookup(name)[1]
                r = self.lookup(target)
                self.assign(target, ('str', r[1], self.let('%s ++ %s %s' % (r[2], s, self.toz(c)))))
                return ('int', 0)
            return self.call(s, self.args())
        raise Skip('name %s' % s)

    # -------------------------------------------------------------- statements
    def skip_balanced(self, o, c):
        d = 0
        while True:
            t = self.next()
            d += (t == o) - (t == c)
            if d == 0:
                return

    def run(self):
        while self.i < len(self.t):
            self.guarded()

    def guarded(self):
        start, steps, checks = self.i, list(self.steps), list(self.checks)
        depth = len(self.env)
        try:
            self.statement()
        except Skip as e:
            self.env = self.env[:depth]
            self.steps, self.checks = steps, checks
            self.i = start
            d = 0
            while self.i < len(self.t):
                t = self.next()
                if t in '({[':
                    d += 1
                elif t in ')}]':
                    d -= 1
                    if d < 0:
                        self.i -= 1
                        break
                    if d == 0 and t == '}' and self.t[start][1] in ('for', 'if', '{', 'while', 'switch'):
                        break
                elif t == ';' and d == 0:
                    break
            self.skipped.append('%s  --  %s' % (str(e), ' '.join(t[1] for t in self.t[start:self.i])[:110]))

    def block(self):
        self.eat('{')
        self.env.append({})
        while self.peek() not in ('}', None):
            self.guarded()
        self.eat('}')
        self.env.pop()

    def statement(self):
        s = self.peek()
        if s == '{':
            return self.block()
        if s == ';':
            self.next()
            return
        if s in ('EXPECT_TRUE', 'EXPECT_FALSE', 'ASSERT_TRUE', 'ASSERT_FALSE'):
            self.next()
            self.eat('(')
            b = self.tobool(self.expr())
            self.eat(')')
            self.eat(';')
            self.checks.append(b if s.endswith('TRUE') else '(negb %s)' % b)
            return
        if s in ('EXPECT_EQ', 'EXPECT_NE', 'ASSERT_EQ'):
            self.next()
            self.eat('(')
            a = self.expr()
            self.eat(',')
            b = self.expr()
            self.eat(')')
            self.eat(';')
            e = self.equal(a, b)
            self.checks.append(e if s.endswith('EQ') else '(negb %s)' % e)
            return
        if s == 'cout':
            while self.next() != ';':
                pass
            return
        if s == 'for':
            return self.for_loop()
        if s == 'for_each':
            return self.for_each()
        if s == 'if':
            self.next()
            self.eat('(')
            start = self.i
            try:
                c = self.concrete(self.expr())
            except Skip:
                # a condition that only decides whether to print
                self.i = start - 1
                self.skip_balanced('(', ')')
                body = self.i
                self.skip_balanced('{', '}')
                if any(t[1].startswith(('EXPECT', 'ASSERT')) for t in self.t[body:self.i]):
                    raise
                return
            self.eat(')')
            if c:
                self.statement()
            else:
                self.skip_balanced('{', '}')
            if self.peek() == 'else':
                self.next()
                if c:
                    self.skip_balanced('{', '}')
                else:
                    self.statement()
            return
        if s == 'CharacterAdder':
            while self.next() != '>':
                pass
            name = self.next()
            self.eat('(')
            target = self.next()
            self.eat(')')
            self.eat(';')
            self.env[-1][name] = ('adder', target)
            return
        if self.declaration():
            return
        # assignment or bare call
        if self.kind() == 'id' and self.peek(1) in ('=', '|=', '<<='):
            name = self.next()
            op = self.next()
            v = self.expr()
            self.eat(';')
            if op == '<<=':
                v = ('int', self.concrete(self.lookup(name)) << self.concrete(v))
            if op == '|=':
                old = self.lookup(name)
                v = ('z', self.let('Z.lor %s %s' % (self.toz(old), self.toz(v)), 'z'))
            old = self.lookup(name)
            if old is None:
                raise Skip('assignment')
            if old[0] == 'str' and v[0] != 'str':
                v = ('str', old[1], self.tostr(v)[0])
            if old[0] == 'chr' and v[0] == 'int':
                v = ('chr', old[1], v[1])
            self.assign(name, v)
            return
        if self.kind() == 'id' and self.peek(1) == '[':
            save = self.i
            name = self.next()
            self.next()
            i = self.concrete(self.expr())
            self.eat(']')
            if self.peek() == '=':
                self.next()
                v = self.concrete(self.expr())
                self.eat(';')
                arr = self.lookup(name)
                if arr is None or arr[0] != 'arr':
                    raise Skip('element assignment')
                arr[2][i] = v
                return
            self.i = save
        if self.kind() == 'id' and self.peek(1) == '.' and self.peek(2) == 'push_back':
            name = self.next()
            self.next()
            self.next()
            self.eat('(')
            v = self.args()[0]
            self.eat(';')
            vec = self.lookup(name)
            self.assign(name, ('vec', vec[1], self.let('%s ++ [%s]' % (vec[2], self.tostr(v)[0]), 'v')))
            return
        self.expr()
        self.eat(';')

    def declaration(self):
        save = self.i
        const = False
        if self.peek() == 'const':
            self.next()
            const = True
        s = self.peek()
        if s in ('std', 'ansak') and self.peek(1) == '::':
            self.i += 2
            s = self.peek()
        if s == 'vector':
            self.next()
            self.eat('<')
            ty = None
            while self.peek() != '>':
                ty = self.next()
            self.eat('>')
            name = self.next()
            if self.peek() == ';':
                self.next()
                self.env[-1][name] = ('vec', STR_TYPES[ty], '(@nil (list Z))')
                return True
            v = self.init()
            self.eat(';')
            self.env[-1][name] = v
            return True
        if s in CHAR_TYPES and self.kind(1) == 'id':
            w = CHAR_TYPES[self.next()]
            name = self.next()
            if self.peek() == '[':
                self.next()
                if self.peek() != ']':
                    self.expr()
                self.eat(']')
                self.eat('=')
                if self.peek() == '{':
                    self.next()
                    vals = []
                    while self.peek() != '}':
                        vals.append(self.concrete(self.expr()) % (1 << self.w(w)))
                        if self.peek() == ',':
                            self.next()
                    self.eat('}')
                    v = ('arr', w, vals)
                else:
                    a = self.expr()
                    if a[0] != 'arr' or self.w(a[1]) != self.w(w):
                        raise Skip('array initialiser')
                    v = ('arr', w, list(a[2]))
                self.eat(';')
                self.env[-1][name] = v
                return True
            if self.peek() == ';':
                self.next()
                self.env[-1][name] = ('chr', w, 0)
                return True
            v = self.init()
            self.eat(';')
            self.env[-1][name] = ('chr', w, self.concrete(v) % (1 << self.w(w)))
            return True
        if s in CHAR_TYPES and self.peek(1) == '*' and self.kind(2) == 'id':
            w = CHAR_TYPES[self.next()]
            self.next()
            name = self.next()
            v = self.init()
            self.eat(';')
            if v[0] == 'arr':
                v = ('ptr', w, v, 0)
            self.env[-1][name] = v
            return True
        if s in STR_TYPES and self.kind(1) == 'id':
            w = STR_TYPES[self.next()]
            while True:
                name = self.next()
                if self.peek() in (';', ','):
                    self.env[-1][name] = ('str', w, '(@nil Z)')
                else:
                    v = self.init()
                    t, vw = self.tostr(v)
                    if vw is not None and self.w(vw) != self.w(w):
                        raise Skip('string initialiser %s %s' % (w, vw))
                    self.env[-1][name] = ('str', w, t)
                if self.peek() == ',':
                    self.next()
                    continue
                self.eat(';')
                return True
        if s == 'auto' and self.kind(1) == 'id':
            self.next()
            name = self.next()
            v = self.init()
            self.eat(';')
            if v[0] == 'arr':
                v = ('ptr', v[1], v, 0)
            self.env[-1][name] = v
            return True
        if s == 'EncodingCheckPredicate' and self.kind(1) == 'id':
            self.next()
            name = self.next()
            self.eat(';')
            self.env[-1][name] = ('pred', 'nullPredicate')
            return True
        if s in INT_TYPES:
            while self.peek() in INT_TYPES:
                self.next()
            if self.kind() == 'id':
                name = self.next()
                v = self.init()
                self.eat(';')
                self.env[-1][name] = v
                return True
        self.i = save
        return False

    def init(self):
        if self.peek() == '=':
            self.next()
            return self.expr()
        if self.peek() == '(':
            self.next()
            v = self.expr()
            self.eat(')')
            return v
        if self.peek() == '{':
            self.next()
            v = self.expr()
            self.eat('}')
            return v
        raise Skip('initialiser at %r' % self.peek())

    def for_loop(self):
        self.eat('for')
        self.eat('(')
        self.env.append({})
        if self.peek() == ';':
            self.next()
        elif not self.declaration():
            if self.peek() in ('++', '--'):
                self.expr()
                self.eat(';')
            else:
                self.statement()
        cond = self.i
        while self.peek() != ';':
            self.next()
        self.next()
        inc = self.i
        d = 0
        while not (self.peek() == ')' and d == 0):
            d += (self.peek() == '(') - (self.peek() == ')')
            self.next()
        self.next()
        body = self.i
        self.skip_balanced('{', '}')
        end = self.i
        count, steps, checks = 0, list(self.steps), list(self.checks)
        while True:
            self.i = cond
            c = self.expr()
            if not self.concrete(c):
                break
            count += 1
            if count <= 300:
                self.i = body
                self.statement()
            self.i = inc
            self.expr()
        if count > 300:
            # too long to unroll: only the final value of the loop variable is kept
            self.steps, self.checks = steps, checks
            self.skipped.append('loop of %d rounds' % count)
        self.i = end
        self.env.pop()

    def for_each(self):
        # for_each(begin(a), end(a), [&](const C c){ ... });
        self.eat('for_each')
        self.eat('(')
        self.eat('begin')
        self.eat('(')
        arr = self.lookup(self.next())
        self.eat(')')
        self.eat(',')
        for t in ('end', '('):
            self.eat(t)
        self.next()
        for t in (')', ',', '[', '&', ']', '(', 'const'):
            self.eat(t)
        w = CHAR_TYPES[self.next()]
        name = self.next()
        self.eat(')')
        body = self.i
        self.skip_balanced('{', '}')
        end = self.i
        for x in arr[2]:
            self.env.append({name: ('chr', w, x)})
            self.i = body
            self.statement()
            self.env.pop()
        self.i = end
        self.eat(')')
        self.eat(';')


TNEEDS = {('mbcs', 8): 'T ', ('mbcs', 16): 'T ', ('mbcs', 32): 'T ',
          ('unicode', 8): '', ('unicode', 16): '', ('unicode', 32): ''}


# ------------------------------------------------------------------ files
def conditionals(text):
    """(line, condition stack) for every line outside directives"""
    stack, out = [], []
    for line in text.split('\n'):
        s = line.strip()
        if s.startswith('#if'):
            stack.append(s)
        elif s.startswith('#endif'):
            stack.pop()
        elif s.startswith('#else') or s.startswith('#elif'):
            stack[-1] = '!' + stack[-1]
        elif s.startswith('#'):
            pass
        else:
            out.append((line, tuple(stack)))
    return out


def tests(path):
    """(name, condition stack, tokens) for every TEST, and the tokens of the file-level arrays"""
    lines = conditionals(open(path, encoding='utf-8').read())
    out, top, i = [], [], 0
    while i < len(lines):
        m = re.match(r'TEST\((\w+), (\w+)\)', lines[i][0])
        if m:
            conds, body, depth = lines[i][1], [], 0
            i += 1
            while True:
                if not any(c.startswith('#if defined(WIN32)') for c in lines[i][1][len(conds):]):
                    body.append(lines[i][0])
                line = re.sub(r'"(\\.|[^"\\])*"|\'(\\.[^\']*|[^\'\\])\'|//.*', '', lines[i][0])
                depth += line.count('{') - line.count('}')
                i += 1
                if depth == 0:
                    break
            toks = tokenize('\n'.join(body))[1:-1]
            out.append((m.group(2), conds, toks))
        else:
            top.append(lines[i][0])
            i += 1
    return out, '\n'.join(top)


def top_arrays(text):
    env = {}
    for m in re.finditer(r'^(char(?:16_t|32_t)?) (\w+)\[\] = (\{.*?\}|"[^\n]*");', text, re.M | re.S):
        r = Run(tokenize(m.group()), env, 32, None)
        r.run()
        if r.skipped:
            raise Exception(r.skipped)
        env.update(r.env[1])
    return env


HEADER = '''(* Generated by tools/tests2v.py from /repo/test/unit/%s -- do not edit.
   The library's own unit tests run on the model: every EXPECT_ of the C++ is one boolean. *)
From Coq Require Import ZArith List Bool.
From Verif Require Import Machine.
From Verif.Model Require Import Internal Decode Tables Predicate Str Lower CodePage SplitJoin Trim Wide Tchar.
From Verif.Tests Require Import Support.
Import ListNotations.
Local Open Scope Z_scope.
'''


def translate(fname, out, tables, settings=None):
    ts, top = tests(SRC + fname)
    env = top_arrays(top)
    text = [HEADER % fname]
    total = 0
    for name, conds, toks in ts:
        wide, mbcs = 32, None
        c = ' '.join(conds)
        if 'WCHAR_MAX < 0x10000' in c:
            wide = 16
        if 'WIN32' in c:
            wide, mbcs = 16, (settings or 'mbcs')
        r = Run(toks, env, wide, mbcs)
        r.run()
        for s in r.skipped:
            print('%s %s: %s' % (fname, name, s), file=sys.stderr)
        if not r.checks:
            continue
        total += len(r.checks)
        text.append('(* %s, %d checks%s *)' % (name, len(r.checks),
                                               '' if not r.skipped else ', %d statements left out' % len(r.skipped)))
        name = 'run_' + name
        text.append('Definition %s (T : UnicodeTables) : outcome (list bool) :=' % name)
        for s in r.steps:
            # the types spelt out keep elaboration linear
            s = re.sub(r'^do (t\d+) <- (basic_string|toLower_)', r'dos \1 <- \2', s)
            text.append('  ' + s)
        text.append('  Done [' + ';\n        '.join(r.checks) + '].')
        uses_t = any(' T ' in s for s in r.steps + r.checks)
        if uses_t:
            text.append('Example %s_passes : forallb (fun V => all_true (%s (tables V))) %s = true.'
                        % (name, name, tables))
        else:
            text.append('Example %s_passes : all_true (%s (tables V16)) = true.' % (name, name))
        text.append('Proof. vm_cast_no_check (eq_refl true). Qed.\n')
    open(out, 'w').write('\n'.join(text))
    print('%s: %d checks' % (fname, total), file=sys.stderr)


def main():
    d = sys.argv[1]
    os.makedirs(d, exist_ok=True)
    every = '[V7; V8; V9; V10; V11; V12; V13; V14; V15; V16]'
    for f in ('string_test', 'string_decode_utf8_test', 'string_splitjoin_test', 'string_trim_test',
              'string_with_predicate_test', 'encode_predicate_test', 'string_wchar_tchar', 'string_wide_tchar'):
        translate(f + '.cxx', '%s/%s.v' % (d, f), every,
                  'unicode' if f == 'string_wide_tchar' else None)
    for v in range(7, 17):
        translate('string_tolower_test%d.cxx' % v, '%s/string_tolower_test%d.v' % (d, v), '[V%d]' % v)


main()
