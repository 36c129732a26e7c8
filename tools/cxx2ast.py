#!/usr/bin/env python3
"""Parse the library's C++ into the abstract syntax of theories/Cxx/Syntax.v: Gen/Source.v from the files
every build uses, Gen/Bits<N>.v from the two files of source/bits<N>.

usage: cxx2ast.py [REPO] [OUT]

Only parsing is done here.  Comments, static_assert and `using namespace` are dropped, conditional
compilation is resolved for each configuration in turn, namespaces are flattened (the qualifier internal:: is
kept where it is written, and put before toLower and turkicToLower within namespace internal, because
there are others of that name outside), typedef names are replaced by what they stand for.  A call sees only the
overloads declared before it; where this may matter (see hidden below), the call is given a name of its own and the
functions it sees are listed under that name too.  The program
stops with an error at anything it does not know."""
import os, re, sys

REPO = sys.argv[1] if len(sys.argv) > 1 else '/repo'
OUT = sys.argv[2] if len(sys.argv) > 2 else os.path.join(os.path.dirname(os.path.abspath(__file__)), '..', 'rocq', 'theories', 'Gen', 'Source.v')

FILES = ['interface/string.hxx', 'interface/internal/string_decode_utf8.hxx', 'source/string_internal.hxx', 'source/string_decode_utf8.cxx', 'source/string.cxx',
         'source/encoding_check_predicate.cxx', 'source/string_tolower.cxx', 'source/string_toutf8.cxx',
         'interface/string_trim.hxx', 'interface/string_splitjoin.hxx']
BITS = range(7, 17)
BITS_FILES = ['source/bits%d/char_is_unicode.cxx', 'source/bits%d/char_to_lower.cxx']
INTERNAL = ['toLower', 'turkicToLower']

# the configurations: macros defined, WCHAR_MAX (Linux and macOS; 16-bit wchar_t elsewhere; Windows, without and with
# one of the two macros for TCHAR), prefix of the definitions
CONFIGS = [('wchar32', [], 0x7fffffff, 'c'),
           ('wchar16', [], 0xffff, 'c16'),
           ('win32', ['WIN32'], 0xffff, 'win'),
           ('win32_mbcs', ['WIN32', '_MBCS'], 0xffff, 'mbcs'),
           ('win32_unicode', ['WIN32', '_UNICODE'], 0xffff, 'uni')]

ENUMS = ['RangeType', 'EncodingType', 'SourceEncoding', 'RangeTypeFlags', 'EncodingTypeFlags']
TYPES = {'bool': 'TI Bool', 'char': 'TI Char', 'char16_t': 'TI Char16', 'char32_t': 'TI Char32', 'int': 'TI Int',
         'uint32_t': 'TI UInt', 'uint8_t': 'TI UChar', 'size_type': 'TI Size', 'auto': 'TAuto', 'void': 'TVoid', 'C': 'TC',
         'string': 'TStr Char', 'utf8String': 'TStr Char', 'u16string': 'TStr Char16', 'utf16String': 'TStr Char16',
         'ucs2String': 'TStr Char16', 'u32string': 'TStr Char32', 'ucs4String': 'TStr Char32',
         'EncodingCheckPredicate': 'TPred'}
TYPES.update({e: 'TI Enum' for e in ENUMS})

def configure(defined, wchar_max):
    global DEFINED, WCHAR_MAX
    DEFINED, WCHAR_MAX = set(defined), wchar_max
    w = 'WChar32' if wchar_max > 0xffff else 'WChar16'
    TYPES.update({'wchar_t': 'TI ' + w, 'wstring': 'TStr ' + w})

# ------------------------------------------------------------------ preprocessor and tokens

def condition(text, where):
    m = re.fullmatch(r'WCHAR_MAX\s*([<>])\s*(0x[0-9a-fA-F]+)', text)
    if m:
        v = int(m.group(2), 16)
        return WCHAR_MAX < v if m.group(1) == '<' else WCHAR_MAX > v
    m = re.fullmatch(r'defined\s*\(\s*(\w+)\s*\)', text)
    if m:
        return m.group(1) in DEFINED
    raise SystemExit('%s: unknown condition %s' % (where, text))

def preprocess(path):
    """blank out comments, preprocessor lines and what conditional compilation leaves out; keep line numbers"""
    text = open(path, encoding='utf-8').read()
    out, i, n = [], 0, len(text)
    while i < n:
        if text.startswith('//', i):
            j = text.find('\n', i); j = n if j < 0 else j
            i = j
        elif text.startswith('/*', i):
            j = text.find('*/', i) + 2
            out.append('\n' * text.count('\n', i, j)); i = j
        elif text[i] in '"\'':
            q, j = text[i], i + 1
            while text[j] != q:
                j += 2 if text[j] == '\\' else 1
            out.append(text[i:j + 1]); i = j + 1
        else:
            out.append(text[i]); i += 1
    lines, stack = [], []
    for k, line in enumerate(''.join(out).split('\n'), 1):
        s = line.strip()
        if s.startswith('#'):
            w = s[1:].strip().split(None, 1)
            arg = w[1].strip() if len(w) > 1 else ''
            where = '%s:%d' % (path, k)
            if w[0] == 'if':
                c = condition(arg, where); stack.append([c, c])
            elif w[0] == 'ifdef':
                c = arg in DEFINED; stack.append([c, c])
            elif w[0] == 'ifndef':
                c = arg not in DEFINED; stack.append([c, c])
            elif w[0] == 'elif':
                c = not stack[-1][1] and condition(arg, where); stack[-1] = [c, stack[-1][1] or c]
            elif w[0] == 'else':
                stack[-1] = [not stack[-1][1], True]
            elif w[0] == 'endif':
                stack.pop()
            elif w[0] not in ('include', 'pragma'):
                raise SystemExit('%s: unknown directive %s' % (where, s))
            lines.append('')
        else:
            lines.append(line if all(f for f, _ in stack) else '')
    assert not stack
    return '\n'.join(lines)

TOKEN = re.compile(r'''\s*(?:
   (?P<str>(?:u8|u|U)?"(?:[^"\\]|\\.)*")
 | (?P<chr>'(?:[^'\\]|\\.)*')
 | (?P<num>0[xX][0-9a-fA-F]+|[0-9]+)
 | (?P<id>[A-Za-z_]\w*)
 | (?P<op>::|\+\+|--|<<|>>|<=|>=|==|!=|&&|\|\||\+=|-=|&=|\|=|->|[-+*/%&|^~!<>=?:;,.(){}\[\]])
)''', re.X)

def tokens(text):
    i, r, line = 0, [], 1
    text = text.rstrip()
    while i < len(text):
        m = TOKEN.match(text, i)
        if not m:
            raise SystemExit('cannot read %r' % text[i:i + 40])
        kind = m.lastgroup
        start = m.start(kind)
        r.append((kind, m.group(kind), text.count('\n', 0, start) + 1))
        i = m.end()
    r.append(('end', '', text.count('\n') + 1))
    return r

def escape(s):
    """the characters of a literal without prefix and quotes"""
    r, i = [], 0
    while i < len(s):
        if s[i] != '\\':
            r.append(ord(s[i])); i += 1
        elif s[i + 1] == '0' and not s[i + 2:i + 3].isdigit():
            r.append(0); i += 2
        elif s[i + 1] == 'x':
            m = re.match(r'[0-9a-fA-F]+', s[i + 2:]); r.append(int(m.group(), 16)); i += 2 + m.end()
        elif s[i + 1] == 'u':
            r.append(int(s[i + 2:i + 6], 16)); i += 6
        elif s[i + 1] == 'U':
            r.append(int(s[i + 2:i + 10], 16)); i += 10
        else:
            raise SystemExit('unknown escape ' + s)
    return r

def zs(l):
    return '[' + '; '.join(map(str, l)) + ']'

def q(s):
    return '"' + s + '"'

# ------------------------------------------------------------------ parser

class Parser:
    def __init__(self, path, enums, arrays, funs, decls, protos, texts, order, calls, partial):
        self.path = path
        self.t = tokens(preprocess(os.path.join(REPO, path)))
        self.i = 0
        self.enums, self.arrays, self.funs, self.decls = enums, arrays, funs, decls
        self.protos, self.texts = protos, texts
        self.order, self.calls, self.partial = order, calls, partial
        self.caller, self.scope = None, {}
        self.spaces = []
        self.typedefs = {}
        self.cls = None

    # tokens
    def peek(self, k=0):
        return self.t[self.i + k][1]
    def kind(self, k=0):
        return self.t[self.i + k][0]
    def line(self):
        return self.t[self.i][2]
    def fail(self, why='syntax'):
        raise SystemExit('%s:%d: %s at %r' % (self.path, self.line(), why, ' '.join(x[1] for x in self.t[self.i:self.i + 12])))
    def next(self):
        self.i += 1
        return self.t[self.i - 1][1]
    def accept(self, *words):
        for k, w in enumerate(words):
            if self.peek(k) != w or self.kind(k) in ('str', 'chr'):
                return False
        self.i += len(words)
        return True
    def expect(self, *words):
        if not self.accept(*words):
            self.fail('expected ' + ' '.join(words))
    def ident(self):
        if self.kind() != 'id':
            self.fail('expected a name')
        return self.next()

    # types: returns (type, is pointer?, is reference?, is const?) or None
    def base_type(self):
        start, const = self.i, False
        while self.peek() in ('const', 'typename', 'inline', 'static', 'extern'):
            const = const or self.peek() == 'const'
            self.i += 1
        self.accept('std', '::')
        if self.accept('unsigned', 'char'):
            r = 'TI UChar'
        elif self.accept('unsigned', 'int'):
            r = 'TI UInt'
        elif self.peek() == 'unsigned' and self.peek(1) not in ('long', 'short'):
            self.i += 1; r = 'TI UInt'
        elif self.accept('vector', '<'):
            e, _ = self.base_type()
            if e != 'TStrC': self.fail('vector')
            self.expect('>'); r = 'TVec'
        elif self.accept('list', '<'):
            e, _ = self.base_type()
            if e != 'TI Size': self.fail('list')
            self.expect('>'); r = 'TList'
        elif self.accept('basic_string', '<'):
            self.expect('C', '>'); r = 'TStrC'
        elif self.accept('CharacterAdder', '<'):
            e, _ = self.base_type(); self.expect('>')
            if not e.startswith('TI '): self.fail('CharacterAdder')
            r = 'TAdder ' + e[3:]
        elif self.peek() in self.typedefs and self.peek(1) == '::' and self.peek(2) == 'size_type':
            self.i += 3; r = 'TI Size'
        elif self.peek() in self.typedefs:
            r = self.typedefs[self.next()]
        elif self.kind() == 'id' and self.peek() in TYPES and self.peek(1) != '::':
            r = TYPES[self.next()]
        else:
            self.i = start
            return None, False
        return r, const
    def full_type(self):
        start = self.i
        r, const = self.base_type()
        if r is None:
            return None, False
        ref = False
        if self.accept('*'):
            if not r.startswith('TI '): self.fail('pointer')
            r, const = 'TPtr ' + r[3:], False
        if self.accept('&'):
            ref = not const
        return r, ref or r.startswith('TAdder')

    # expressions
    def primary(self):
        k, v = self.kind(), self.peek()
        if k == 'num':
            self.i += 1
            h = v.lower().startswith('0x')
            if not h and len(v) > 1 and v[0] == '0': self.fail('octal')
            return '(ELit %s %d)' % ('true' if h else 'false', int(v, 16 if h else 10))
        if k == 'chr':
            self.i += 1
            l = escape(v[1:-1])
            if len(l) != 1: self.fail('character')
            return '(EChr %d)' % l[0]
        if k == 'str':
            l, t = [], None
            while self.kind() == 'str':
                s = self.next()
                p = s[:s.index('"')]
                t2 = {'': 'Char', 'u': 'Char16', 'U': 'Char32'}[p]
                if t not in (None, t2): self.fail('string literals')
                t = t2
                l += escape(s[len(p) + 1:-1])
            return '(EText %s %s)' % (t, zs(l))
        if self.accept('('):
            e = self.expr(); self.expect(')')
            return e
        if v in ('true', 'false'):
            self.i += 1
            return '(EBool %s)' % v
        if self.accept('nullptr'):
            return 'ENull'
        if v == 'static_cast':
            self.i += 1; self.expect('<')
            t, _ = self.full_type(); self.expect('>', '(')
            e = self.expr(); self.expect(')')
            return '(ECast (%s) %s)' % (t, e)
        if v == 'reinterpret_cast':
            self.i += 1; self.expect('<')
            t, _ = self.full_type(); self.expect('>', '(')
            e = self.expr(); self.expect(')')
            if not t.startswith('TPtr '): self.fail('reinterpret_cast')
            return '(EReinterpret %s %s)' % (t[5:], e)
        if self.accept('sizeof', '(', 'C', ')'):
            return 'ESizeof'
        if self.accept('std', '::', 'basic_string', '<', 'C', '>', '::', 'npos'):
            return 'ENpos'
        if v in self.typedefs and self.peek(1) == '::' and self.peek(2) == 'npos':
            self.i += 3
            return 'ENpos'
        if v == 'this':
            if self.accept('this', '==', '&'):
                return '(ESameObject "this" %s)' % q(self.ident())
            self.fail('this')
        if self.accept('operator', '==', '('):
            e = self.expr(); self.expect(')')
            return '(ECall "EncodingCheckPredicate::operator==" [EVar "this"; %s])' % e
        # T(...)
        start = self.i
        t, _ = self.base_type()
        if t is not None:
            if self.peek() == '(':
                return '(ENew (%s) %s)' % (t, self.args())
            self.i = start
        if k == 'id':
            name = self.next()
            while self.peek() == '::':
                self.i += 1
                n = self.ident()
                name = n if name in ('std', 'ansak') or name in ENUMS else name + '::' + n
            if self.peek() == '(':
                if name in INTERNAL and 'internal' in self.spaces:
                    name = 'internal::' + name
                a = self.arg_list()
                if self.caller and '::' not in name:
                    self.calls.append((self.caller, name, [self.type_of(x) for x in a]))
                    if (self.caller, name) in self.partial:
                        name = seen_by(name, self.caller)
                return '(ECall %s [%s])' % (q(name), '; '.join(a))
            if name in ('m_mask', 'm_value'):
                return '(EField "this" %s)' % q(name)
            return '(EVar %s)' % q(name)
        self.fail('expression')
    def arg_list(self):
        self.expect('(')
        l = []
        if not self.accept(')'):
            l.append(self.assignment())
            while self.accept(','):
                l.append(self.assignment())
            self.expect(')')
        return l
    def args(self):
        return '[' + '; '.join(self.arg_list()) + ']'
    def type_of(self, e):
        """the type of an argument, if it is easily seen; used by hidden() only"""
        v = self.var_of(e)
        if v:
            return self.scope.get(v[1:-1], 'TI Enum' if v[1:-1] in [x for x, _ in self.enums] else None)
        m = re.match(r'\(EReinterpret (\w+) ', e)
        if m:
            return 'TPtr ' + m.group(1)
        m = re.match(r'\(ECast \(([^)]*)\) ', e)
        if m:
            return m.group(1)
        m = re.fullmatch(r'\(EMeth \(EVar "(\w+)"\) "c_str" \[\]\)', e)
        if m and (self.scope.get(m.group(1)) or '').startswith('TStr '):
            return 'TPtr ' + self.scope[m.group(1)][5:]
        return None
    def var_of(self, e):
        m = re.fullmatch(r'\(EVar ("[^"]*")\)', e)
        return m.group(1) if m else None
    def postfix(self):
        e = self.primary()
        while True:
            if self.accept('['):
                i = self.expr(); self.expect(']')
                e = '(EIndex %s %s)' % (e, i)
            elif self.peek() == '.' and self.kind() == 'op':
                self.i += 1
                m = self.ident()
                if self.peek() == '(':
                    e = '(EMeth %s %s %s)' % (e, q(m), self.args())
                else:
                    e = '(EField %s %s)' % (self.var_of(e) or self.fail('field'), q(m))
            elif self.peek() == '++' and self.kind() == 'op':
                self.i += 1
                e = '(EPostInc %s)' % (self.var_of(e) or self.fail('++'))
            else:
                return e
    def unary(self):
        if self.accept('!'):
            return '(ENot %s)' % self.unary()
        if self.accept('~'):
            return '(ECompl %s)' % self.unary()
        if self.accept('-'):
            return '(ENeg %s)' % self.unary()
        if self.accept('++'):
            e = self.unary()
            return '(EPreInc %s)' % (self.var_of(e) or self.fail('++'))
        if self.accept('*', 'this'):
            return '(EVar "this")'
        if self.accept('*'):
            return '(EDeref %s)' % self.unary()
        return self.postfix()
    LEVELS = [{'||': None}, {'&&': None}, {'|': 'BOr'}, {'^': 'BXor'}, {'&': 'BAnd'}, {'==': 'Eq', '!=': 'Ne'},
              {'<': 'Lt', '>': 'Gt', '<=': 'Le', '>=': 'Ge'}, {'<<': 'Shl', '>>': 'Shr'}, {'+': 'Add', '-': 'Sub'}, {'*': 'Mul'}]
    def binary(self, level):
        if level == len(self.LEVELS):
            return self.unary()
        e = self.binary(level + 1)
        while self.kind() == 'op' and self.peek() in self.LEVELS[level]:
            o = self.next()
            f = self.binary(level + 1)
            if o == '||': e = '(EOr %s %s)' % (e, f)
            elif o == '&&': e = '(EAnd %s %s)' % (e, f)
            else: e = '(EBin %s %s %s)' % (self.LEVELS[level][o], e, f)
        return e
    def assignment(self):
        e = self.binary(0)
        if self.accept('?'):
            a = self.assignment(); self.expect(':'); b = self.assignment()
            return '(ECond %s %s %s)' % (e, a, b)
        if self.kind() == 'op' and self.peek() in ('=', '+=', '-=', '&=', '|='):
            o = self.next()
            r = self.assignment()
            v = self.var_of(e)
            f = re.fullmatch(r'\(EField ("[^"]*") ("[^"]*")\)', e)
            x = re.match(r'\(EIndex \(EVar ("[^"]*")\) ', e)
            if o == '=':
                if v: return '(EAssign %s %s)' % (v, r)
                if f: return '(EAssignField %s %s %s)' % (f.group(1), f.group(2), r)
                if x: return '(EAssignIndex %s %s %s)' % (x.group(1), e[x.end():-1], r)
                self.fail('assignment')
            b = {'+=': 'Add', '-=': 'Sub', '&=': 'BAnd', '|=': 'BOr'}[o]
            if v: return '(EOpAssign %s %s %s)' % (b, v, r)
            if f: return '(EOpAssignField %s %s %s %s)' % (b, f.group(1), f.group(2), r)
            self.fail('assignment')
        return e
    def expr(self):
        return self.assignment()

    # statements
    def seq(self, l):
        l = [s for s in l if s != 'SSkip']
        if not l:
            return 'SSkip'
        r = l[-1]
        for s in reversed(l[:-1]):
            r = 'SSeq (%s)\n  (%s)' % (s, r)
        return r
    def block(self):
        self.expect('{')
        l = []
        while not self.accept('}'):
            l.append(self.statement())
        return self.seq(l)
    def initial_list(self):
        self.expect('{')
        l = []
        while not self.accept('}'):
            l.append(self.assignment())
            if not self.accept(','):
                self.expect('}')
                break
        return '[' + '; '.join(l) + ']'
    def declaration(self):
        """a declaration without its final ; or None"""
        start = self.i
        t, ref = self.full_type()
        if t is None or self.kind() != 'id':
            self.i = start
            return None
        if ref and not t.startswith('TAdder'): self.fail('reference')
        l = []
        while True:
            x = self.ident()
            self.scope[x] = t
            if self.accept('='):
                l.append('SDecl (%s) %s (Some %s)' % (t, q(x), self.assignment()))
            elif self.accept('['):
                n = 'None' if self.peek() == ']' else '(Some %d)' % int(self.next())
                self.expect(']', '=')
                l.append('SDeclArray (%s) %s %s %s' % (t, q(x), n, self.initial_list()))
            elif self.peek() == '(':
                a = self.args()
                if t.startswith('TAdder'):
                    v = self.var_of(a[1:-1]) or self.fail('CharacterAdder')
                    l.append('SAlias %s %s' % (q(x), v))
                else:
                    l.append('SDeclNew (%s) %s %s' % (t, q(x), a))
            else:
                l.append('SDecl (%s) %s None' % (t, q(x)))
            if not self.accept(','):
                return self.seq(l)
    def statement(self):
        if self.peek() == '{':
            return 'SBlock (%s)' % self.block()
        if self.accept('static_assert'):
            while self.next() != ';':
                pass
            return 'SSkip'
        if self.accept('typedef'):
            t, _ = self.base_type()
            self.typedefs[self.ident()] = t
            self.expect(';')
            return 'SSkip'
        if self.accept('if'):
            self.expect('(')
            c = self.expr(); self.expect(')')
            a = self.unwrap(self.statement())
            b = self.unwrap(self.statement()) if self.accept('else') else 'SSkip'
            return 'SIf %s\n  (%s)\n  (%s)' % (c, a, b)
        if self.accept('for'):
            self.expect('(')
            if self.accept('auto') and self.peek(1) == ':':
                x = self.ident(); self.expect(':')
                e = self.expr(); self.expect(')')
                return 'SEach %s %s\n  (%s)' % (q(x), e, self.unwrap(self.statement()))
            self.i -= 1
            i = self.declaration(); self.expect(';')
            c = self.expr(); self.expect(';')
            n = [self.assignment()]
            while self.accept(','):
                n.append(self.assignment())
            self.expect(')')
            return 'SFor (%s) %s [%s]\n  (%s)' % (i, c, '; '.join(n), self.unwrap(self.statement()))
        if self.accept('while'):
            self.expect('(')
            c = self.expr(); self.expect(')')
            return 'SWhile %s\n  (%s)' % (c, self.unwrap(self.statement()))
        if self.accept('do'):
            s = self.unwrap(self.statement())
            self.expect('while', '(')
            c = self.expr(); self.expect(')', ';')
            return 'SDo (%s) %s' % (s, c)
        if self.accept('switch'):
            self.expect('(')
            c = self.expr(); self.expect(')', '{')
            groups = []
            while not self.accept('}'):
                labels, body = [], []
                while self.peek() in ('case', 'default'):
                    if self.next() == 'default':
                        labels.append('None')
                    else:
                        if self.kind() != 'num': self.fail('label')
                        v = self.next()
                        if len(v) > 1 and v[0] == '0' and v[1] not in 'xX': self.fail('octal')
                        labels.append('Some %d' % int(v, 0))
                    self.expect(':')
                if not labels: self.fail('statement before case')
                while self.peek() not in ('case', 'default', '}'):
                    body.append(self.statement())
                    if re.match(r'SDecl|SAlias|SSeq', body[-1]): self.fail('declaration in a switch')
                groups.append((labels, self.seq(body)))
            every = [l for ls, _ in groups for l in ls]
            if len(every) != len(set(every)): self.fail('label given twice')
            r = 'SSkip'
            for ls, b in reversed(groups):
                r = 'SCase [%s] (%s)\n  (%s)' % ('; '.join(ls), b, r)
            return 'SSwitch %s\n  (%s)' % (c, r)
        if self.accept('break', ';'):
            return 'SBreak'
        if self.accept('return', ';'):
            return 'SReturn None'
        if self.accept('return'):
            e = self.expr(); self.expect(';')
            return 'SReturn (Some %s)' % e
        d = self.declaration()
        if d is not None:
            self.expect(';')
            return d
        e = self.expr(); self.expect(';')
        return 'SExpr %s' % e
    def unwrap(self, s):
        """the branches of if and loops are blocks of their own in the semantics"""
        return s[8:-1] if s.startswith('SBlock (') else s

    # functions
    def params(self):
        self.expect('(')
        l = []
        if self.accept(')'):
            return l
        while True:
            t, ref = self.full_type()
            if t is None: self.fail('parameter')
            x = self.next() if self.kind() == 'id' else '_'
            d = self.assignment() if self.accept('=') else None
            l.append([t, ref, x, d])
            if self.accept(')'):
                return l
            self.expect(',')
    def function(self, start_line):
        """from the return type on; also constructors and members; returns True if it was one"""
        start = self.i
        ctor, name = None, None
        if self.cls and self.peek() == self.cls and self.peek(1) == '(':
            ctor, name = self.cls, self.next()
            ret = 'TPred'
        elif self.peek() == 'EncodingCheckPredicate' and self.peek(1) == '::' and self.peek(2) == 'EncodingCheckPredicate':
            self.i += 3
            ctor, ret = 'EncodingCheckPredicate', 'TPred'
        else:
            ret, _ = self.full_type()
            if ret is None:
                self.i = start
                return False
        cls = self.cls or ctor
        if ctor is None:
            if self.accept('EncodingCheckPredicate', '::'):
                cls = 'EncodingCheckPredicate'
            if self.accept('operator'):
                name = 'operator'
                if self.accept('(', ')'): name += '()'
                else: name += self.next()
            elif self.kind() == 'id':
                name = self.next()
            else:
                self.i = start
                return False
            if self.peek() != '(':
                self.i = start
                return False
        else:
            name = ctor
        static = any(x[1] == 'static' for x in self.t[start:self.i])
        ps = self.params()
        const = self.accept('const')
        pre = []
        if ctor and self.accept(':'):
            while True:
                f = self.ident()
                pre.append('SExpr (EAssignField "this" %s %s)' % (q(f), self.args()[1:-1]))
                if not self.accept(','):
                    break
        full = (cls + '::' if cls else '') + name
        if not cls and name in INTERNAL and 'internal' in self.spaces:
            full = 'internal::' + name
        if cls and not static:
            ps = [['TPred', not const and not ctor, 'this', None]] + ps
        key = (full, tuple(p[0] for p in ps))
        self.order.append((key, sum(p[3] is None for p in ps), self.path))
        if self.accept(';'):
            self.decls.setdefault(key, [p[3] for p in ps])
            self.protos.append((full, ps, ret, 'SSkip', '%s:%d' % (self.path, start_line)))
            return True
        for p, d in zip(ps, self.decls.get(key, [None] * len(ps))):
            if p[3] is None:
                p[3] = d
        self.typedefs = {}
        self.caller, self.scope = (key, self.path, len(self.order)), {p[2]: p[0] for p in ps}
        body = self.block()
        self.caller = None
        end_line = self.t[self.i - 1][2]
        if ctor:
            body = self.seq(pre + [body, 'SReturn (Some (EVar "this"))'])
        if ctor and len(ps) == 1:
            return True                 # the default constructor is part of the semantics (TPred, [])
        self.funs.append((full, ps, ret, body, '%s:%d-%d' % (self.path, start_line, end_line)))
        return True

    def toplevel(self):
        while self.kind() != 'end':
            if self.peek() == '}' and self.depth:
                self.i += 1; self.depth -= 1; self.spaces.pop()
                continue
            line = self.line()
            if self.accept('namespace'):
                self.spaces.append(self.next() if self.kind() == 'id' else '')
                self.expect('{'); self.depth += 1
            elif self.accept('using'):
                while self.next() != ';':
                    pass
            elif self.peek() == 'extern':
                while self.next() != ';':
                    pass
            elif self.accept('enum'):
                self.ident(); self.expect(':', 'int', '{')
                first = True
                while not self.accept('}'):
                    x = self.ident()
                    v = '(Some %s)' % self.assignment() if self.accept('=') else '(Some (ELit false 0))' if first else 'None'
                    self.enums.append((x, v))
                    first = False
                    self.accept(',')
                self.expect(';')
            elif self.accept('class', 'CharacterAdder'):
                self.adder()
            elif self.accept('class', 'EncodingCheckPredicate', '{'):
                self.cls = 'EncodingCheckPredicate'
                while not self.accept('}'):
                    line = self.line()
                    if self.accept('public', ':') or self.accept('private', ':'):
                        continue
                    if self.accept('uint32_t', 'm_mask', ';') or self.accept('uint32_t', 'm_value', ';'):
                        continue
                    if not self.function(line):
                        self.fail('member')
                self.expect(';')
                self.cls = None
            elif self.accept('template', '<', 'typename', 'C', '>'):
                if self.accept('class', 'CharacterAdder'):
                    self.adder()
                elif not self.function(line):
                    self.fail('template')
            elif self.function(line):
                pass
            else:
                t, _ = self.full_type()
                x = self.ident()
                if t == 'TStr Char' and self.accept('='):
                    self.texts.append((x, self.primary())); self.expect(';')
                    continue
                self.expect('[')
                self.expr(); self.expect(']', '=')
                if t != 'TI Enum': self.fail('array')
                self.arrays.append((x, self.initial_list()))
                self.expect(';')

    def adder(self):
        """class CharacterAdder is part of the semantics: check that it is what is described there"""
        want = '''{ static_assert ( std :: is_integral < C > :: value , "CharacterAdder needs an integral type." ) ;
          public : CharacterAdder ( std :: basic_string < C > & result ) : m_destination ( result ) { }
          void operator ( ) ( C c ) { m_destination . push_back ( c ) ; }
          private : std :: basic_string < C > & m_destination ; } ;'''
        want = [x[1] for x in tokens(want)[:-1]]
        if [x[1] for x in self.t[self.i:self.i + len(want)]] != want:
            self.fail('CharacterAdder')
        self.i += len(want)

HEADER = ['From Coq Require Import ZArith List String.', 'From Verif.Cxx Require Import Syntax.', 'Import ListNotations.',
          'Local Open Scope string_scope.', 'Local Open Scope Z_scope.', '']

def seen_by(name, caller):
    return '%s (seen by %s)' % (name, ', '.join(suffix(t) for t in caller[0][1]))

def visible(caller, entry, k):
    """is the k-th declaration visible in the body of the caller? Each .cxx file is a translation unit of its own"""
    return k < caller[2] and (entry[2].endswith('.hxx') or entry[2] == caller[1])

def hidden(order, calls):
    """The calls for which overloads are declared only after the calling function, or in another file, and might make
    a difference: a call is harmless if a visible overload takes exactly the types of the arguments."""
    r = []
    for caller, name, types in calls:
        fits = [(k, e) for k, e in enumerate(order) if e[0][0] == name and e[1] <= len(types) <= len(e[0][1])]
        seen = [e for k, e in fits if visible(caller, e, k)]
        keys = {e[0] for e in seen}
        if all(e[0] in keys for _, e in fits):
            continue
        if None not in types and any(list(e[0][1][:len(types)]) == types for e in seen):
            continue
        r.append((caller, name))
    return r

def parse(files, partial=()):
    enums, arrays, funs, decls, protos, texts, order, calls = [], [], [], {}, [], [], [], []
    for f in files:
        p = Parser(f, enums, arrays, funs, decls, protos, texts, order, calls, partial)
        p.depth = 0
        p.toplevel()
        if p.depth: p.fail('unbalanced')
    todo = hidden(order, calls)
    if todo and not partial:
        return parse(files, todo)
    defined = {(f[0], tuple(p[0] for p in f[1])) for f in funs}
    protos = [f for f in protos if (f[0], tuple(p[0] for p in f[1])) not in defined and '::operator' not in f[0]]
    seen = []
    for caller, name in todo:
        keys = {e[0] for k, e in enumerate(order) if e[0][0] == name and visible(caller, e, k)}
        seen.append((seen_by(name, caller), [f for f in funs if (f[0], tuple(p[0] for p in f[1])) in keys], caller))
    return enums, arrays, funs, protos, texts, seen

def suffix(t):
    return re.sub(r'\W', '', t.replace('TI ', '').replace('TPtr ', 'p').replace('TStr ', 's').replace('TAdder ', 'a')).replace('TC', 'C').replace('TStrC', 'sC').replace('TPred', 'Pred')

def names_of(funs):
    """a name for each function: the types of the parameters are added if it is overloaded"""
    names, allnames = [], [f[0] for f in funs]
    for full, ps, ret, body, where in funs:
        name = re.sub(r'\W+', '_', full.replace('EncodingCheckPredicate::', 'Pred::').replace('operator==', 'eq').replace('operator!=', 'ne').replace('operator()', 'call'))
        if allnames.count(full) > 1:
            name += ''.join('_' + suffix(p[0]) for p in ps)
        if name in names:
            raise SystemExit('twice: ' + name)
        names.append(name)
    return names

def definition(name, fun):
    full, ps, ret, body, where = fun
    pl = ';\n     '.join('{| p_ty := %s; p_ref := %s; p_name := %s; p_default := %s |}' %
                         (t, 'true' if r else 'false', q(x), 'None' if d is None else 'Some ' + d) for t, r, x, d in ps)
    return ['(* %s *)' % where,
            'Definition %s : fundef := {|' % name,
            '  f_name := %s;' % q(full),
            '  f_params := [%s];' % pl,
            '  f_ret := %s;' % ret,
            '  f_body :=\n  %s |}.' % body, '']

def lines(l):
    return '[' + ';\n    '.join(l) + ']'

def definitions(funs, prefix, out):
    names = [prefix + '_' + n for n in names_of(funs)]
    for n, f in zip(names, funs):
        out += definition(n, f)
    return lines(names)

def main():
    done = []
    for name, macros, wchar_max, prefix in CONFIGS:
        configure(macros, wchar_max)
        done.append((name, prefix, parse(FILES)))
    enums, arrays, first, protos, texts, _ = done[0][2]
    if texts: raise SystemExit('text')
    for name, _, r in done:
        if (r[0], r[1], r[3], r[4]) != (enums, arrays, protos, texts): raise SystemExit(name + ': not only functions differ')
    out = ['(* Generated by tools/cxx2ast.py from the files of /repo named below; do not edit. *)'] + HEADER
    core = [f for f in first if all(f in r[2] for _, _, r in done)]
    given, lists = [], []                   # the functions written so far and their names
    for name, prefix, r in done:
        if [f for f in r[2] if f in core] != core: raise SystemExit(name + ': order')
        names = []
        for n, f in zip(names_of(r[2]), r[2]):
            if f not in [g for g, _ in given]:
                given.append((f, prefix + '_' + n))
                out += definition(prefix + '_' + n, f)
            if f not in core:
                names += [m for g, m in given if g == f]
        for alias, fs, caller in r[5]:
            for f in fs:
                names += ['seen_as %s %s' % (q(alias), m) for g, m in given if g == f]
        lists.append((name, names))
    ds = definitions(protos, 'd', out)
    out += ['(* what all configurations have in common *)',
            'Definition source : program := {|',
            '  p_enums := %s;' % lines('(%s, %s)' % (q(x), v) for x, v in enums),
            '  p_arrays := %s;' % lines('(%s, %s)' % (q(x), v) for x, v in arrays),
            '  p_funs := %s;' % lines(m for g, m in given if g in core),
            '  p_decls := %s |}.' % ds, '',
            '(* what each adds *)']
    for name, names in lists:
        out += ['Definition %s_functions : list fundef := %s.' % (name, lines(names)), '']
        print(name, len(core), '+', len(names), 'functions', len(protos), 'declared')
    open(OUT, 'w').write('\n'.join(out))
    for n in BITS:
        enums, arrays, funs, protos, texts, seen = parse([f % n for f in BITS_FILES])
        if enums or arrays or protos or seen or [x for x, _ in texts] != ['supportedUnicodeVersion']:
            raise SystemExit('bits%d' % n)
        out = ['(* Generated by tools/cxx2ast.py from the files of /repo named below; do not edit. *)'] + HEADER
        fs = definitions(funs, 'c', out)
        out += ['Definition functions : list fundef := %s.' % fs, '',
                'Definition version : expr := %s.' % texts[0][1], '']
        open(os.path.join(os.path.dirname(OUT), 'Bits%d.v' % n), 'w').write('\n'.join(out))
        print('bits%d' % n, len(funs), 'functions')

main()
