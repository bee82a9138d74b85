#!/usr/bin/env python3
"""Translate the C text of /repo/Src into terms of theories/CLang.v (files C_*.v).

The translation is purely syntactic: macros are expanded, identifiers resolved to variable
numbers, members to cell numbers.  Promotions, conversions and all arithmetic are left to the
interpreter in CLang.v.  Anything outside the fragment stops the translator.
"""
import os, re, sys

REPO = '/repo'
OUT = os.path.join(os.path.dirname(os.path.abspath(__file__)), '..', 'rocq', 'theories')

BASE = {'bool': 'IBool', 'char': 'IChar', 'int8_t': 'I8', 'uint8_t': 'U8', 'byte_t': 'U8',
        'uint16_t': 'U16', 'int32_t': 'I32', 'uint32_t': 'U32', 'int64_t': 'I64',
        'uint64_t': 'U64', 'size_t': 'U64'}
LIB = {'memcpy': 'LMemcpy', 'memcmp': 'LMemcmp', 'strlen': 'LStrlen', 'strcpy': 'LStrcpy',
       'strcmp': 'LStrcmp', 'strncmp': 'LStrncmp'}
MACROS0 = {'true': ['1'], 'false': ['0'], 'UINT32_MAX': ['(', '4294967295U', ')']}

TOK = re.compile(r"""\s*(
    [A-Za-z_]\w* | 0[xX][0-9a-fA-F]+[uUlL]* | \d+[uUlL]* |
    '(?:\\.|[^'\\])' | "(?:\\.|[^"\\])*" |
    ->|\+\+|--|<<=|>>=|<<|>>|<=|>=|==|!=|&&|\|\||[-+*/%&|^]=|[-+*/%&|^~!<>=?:;,.(){}\[\]]
    )""", re.X)


class Err(Exception):
    pass


def strip_comments(s):
    def r(m):
        t = m.group(0)
        return t if t[0] in '"\'' else '\n' * t.count('\n') + ' '
    return re.sub(r'"(?:\\.|[^"\\])*"|\'(?:\\.|[^\'\\])\'|//[^\n]*|/\*.*?\*/', r, s, flags=re.S)


def tokenize(s, line=1):
    toks, i = [], 0
    while True:
        m = TOK.match(s, i)
        if not m:
            if s[i:].strip():
                raise Err('cannot read: ' + s[i:i + 40])
            return toks
        line += s.count('\n', i, m.start(1))
        toks.append((m.group(1), line))
        i = m.end()


def preprocess(path, macros):
    """tokens with line numbers; object-like macros collected into [macros]"""
    s = strip_comments(open(path).read())
    lines, out, i = s.split('\n'), [], 0
    while i < len(lines):
        l = lines[i]
        if l.lstrip().startswith('#'):
            n = 1
            while l.rstrip().endswith('\\'):
                l = l.rstrip()[:-1] + ' ' + lines[i + n]
                n += 1
            m = re.match(r'\s*#\s*define\s+(\w+)\s*(.*)', l)
            if m and not m.group(1).endswith('_H_'):
                macros[m.group(1)] = [t for t, _ in tokenize(m.group(2))]
            elif not re.match(r'\s*#\s*(include|ifndef|ifdef|endif|define)', l):
                raise Err(f'{path}:{i + 1}: {l}')
            out += [''] * n
            i += n
        else:
            out.append(l)
            i += 1
    return tokenize('\n'.join(out))


def expand(toks, macros):
    out = []
    for t, l in toks:
        if t in macros:
            out += expand([(x, l) for x in macros[t]], macros)
        else:
            out.append((t, l))
    return out


# types are nested tuples: ('int','U8') ('ptr',t) ('void',) ('struct',name) ('fun',) ('arr',t,n)
class Parser:
    def __init__(self, toks, structs, macros, funs, where):
        self.t, self.i, self.structs, self.funs, self.where = toks, 0, structs, funs, where

    def peek(self, k=0):
        return self.t[self.i + k][0] if self.i + k < len(self.t) else None

    def line(self):
        return self.t[min(self.i, len(self.t) - 1)][1]

    def next(self):
        self.i += 1
        return self.t[self.i - 1][0]

    def eat(self, x):
        if self.peek() != x:
            raise Err(f'{self.where}:{self.line()}: expected {x}, got {self.peek()}')
        return self.next()

    def at_type(self, k=0):
        t = self.peek(k)
        return t in BASE or t in ('const', 'void', 'static', 'inline') or t in self.structs

    # ---- types
    def base_type(self):
        quals = set()
        while self.peek() in ('const', 'static', 'inline'):
            quals.add(self.next())
        n = self.next()
        if n in BASE:
            t = ('int', BASE[n])
        elif n == 'void':
            t = ('void',)
        elif n in self.structs:
            t = ('struct', n)
        else:
            raise Err(f'{self.where}:{self.line()}: type {n}')
        while self.peek() in ('const',):
            quals.add(self.next())
        while self.peek() == '*':
            self.next()
            t = ('ptr', t)
            quals.discard('const')
            quals.add('ptr')
            while self.peek() == 'const':
                self.next()
        return t, quals

    def cty(self, t):
        k = t[0]
        if k == 'int':
            return f'(TInt {t[1]})'
        if k in ('ptr', 'arr'):
            return f'(TPtr {self.cty(t[1])})'
        if k == 'void':
            return 'TVoid'
        if k == 'fun':
            return 'TFun'
        if k == 'struct':
            return f'(TStruct {len(self.structs[t[1]])})'
        raise Err(str(t))

    # ---- constant evaluation (array sizes and initialisers)
    def const(self, e):
        k = e[0]
        if k == 'num':
            return e[2]
        if k == 'cast' and e[1] == ('int', 'U8'):
            return self.const(e[2]) % 256
        raise Err(f'{self.where}: not a constant: {e}')

    # ---- expressions: ('num',ty,z) ('str',..) ('id',name) ...
    PREC = [{'||'}, {'&&'}, {'|'}, {'^'}, {'&'}, {'==', '!='}, {'<', '>', '<=', '>='},
            {'<<', '>>'}, {'+', '-'}, {'*', '/', '%'}]

    def expr(self):
        c = self.binary(0)
        if self.peek() == '?':
            self.next()
            a = self.expr()
            self.eat(':')
            return ('cond', c, a, self.expr())
        return c

    def binary(self, lv):
        if lv == len(self.PREC):
            return self.unary()
        a = self.binary(lv + 1)
        while self.peek() in self.PREC[lv]:
            op = self.next()
            a = ('bin', op, a, self.binary(lv + 1))
        return a

    def unary(self):
        t = self.peek()
        if t in ('++', '--'):
            self.next()
            return ('inc', True, 1 if t == '++' else -1, self.unary())
        if t in ('!', '~', '-', '*', '&'):
            self.next()
            return ('un', t, self.unary())
        if t == '(' and self.at_type(1):
            self.next()
            ty, _ = self.base_type()
            self.eat(')')
            return ('cast', ty, self.unary())
        return self.postfix()

    def postfix(self):
        e = self.primary()
        while True:
            t = self.peek()
            if t == '[':
                self.next()
                i = self.expr()
                self.eat(']')
                e = ('idx', e, i)
            elif t == '(':
                self.next()
                args = []
                while self.peek() != ')':
                    args.append(self.expr())
                    if self.peek() == ',':
                        self.next()
                self.eat(')')
                e = ('call', e, args)
            elif t == '->':
                self.next()
                e = ('field', ('un', '*', e), self.next())
            elif t == '.':
                self.next()
                e = ('field', e, self.next())
            elif t in ('++', '--'):
                self.next()
                e = ('inc', False, 1 if t == '++' else -1, e)
            else:
                return e

    ESC = {'n': 10, '0': 0, '"': 34, '\\': 92, "'": 39}

    def primary(self):
        t = self.next()
        if t == '(':
            e = self.expr()
            self.eat(')')
            return e
        if t[0] == "'":
            c = t[1:-1]
            return ('num', 'I32', self.ESC[c[1]] if c[0] == '\\' else ord(c))
        if t[0] == '"':
            s = re.sub(r'\\(.)', lambda m: chr(self.ESC[m.group(1)]), t[1:-1])
            return ('str', [ord(c) for c in s] + [0])
        if t[0].isdigit():
            m = re.match(r'(0[xX][0-9a-fA-F]+|\d+)([uUlL]*)$', t)
            if m.group(1)[0] == '0' and len(m.group(1)) > 1 and m.group(1)[1] not in 'xX':
                raise Err('octal')
            z, suf = int(m.group(1), 0), m.group(2).lower()
            if suf == 'u' and z < 2 ** 32:
                return ('num', 'U32', z)
            if suf == '' and z < 2 ** 31:
                return ('num', 'I32', z)
            raise Err(f'{self.where}:{self.line()}: literal {t}')
        if re.match(r'[A-Za-z_]', t):
            return ('id', t)
        raise Err(f'{self.where}:{self.line()}: {t}')

    # ---- statements
    def stmt(self):
        t, ln = self.peek(), self.line()
        if t == '{':
            return self.compound()
        if t == ';':
            self.next()
            return ('skip',)
        if t == 'if':
            self.next()
            self.eat('(')
            c = self.expr()
            self.eat(')')
            a = self.stmt()
            b = ('skip',)
            if self.peek() == 'else':
                self.next()
                b = self.stmt()
            return ('if', ln, c, a, b)
        if t == 'while':
            self.next()
            self.eat('(')
            c = self.expr()
            self.eat(')')
            return ('loop', ln, None, c, None, self.stmt())
        if t == 'for':
            self.next()
            self.eat('(')
            init = self.simple()
            self.eat(';')
            c = self.expr()
            self.eat(';')
            step = self.simple()
            self.eat(')')
            return ('loop', ln, init, c, step, self.stmt())
        if t == 'break':
            self.next()
            self.eat(';')
            return ('break', ln)
        if t == 'return':
            self.next()
            e = self.expr()
            self.eat(';')
            return ('return', ln, e)
        s = self.simple()
        self.eat(';')
        return s

    def simple(self):
        ln = self.line()
        if self.at_type():
            ty, q = self.base_type()
            name = self.next()
            if self.peek() == '[':
                self.next()
                n = self.const(self.expr())
                self.eat(']')
                ty = ('arr', ty, n)
            init = None
            if self.peek() == '=':
                self.next()
                if self.peek() == '{':
                    self.next()
                    init = []
                    while self.peek() != '}':
                        init.append(self.const(self.expr()))
                        if self.peek() == ',':
                            self.next()
                    self.eat('}')
                else:
                    init = self.expr()
            return ('decl', ln, ty, q, name, init)
        e = self.expr()
        t = self.peek()
        if t == '=':
            self.next()
            return ('set', ln, e, self.expr())
        if t in ('+=', '-=', '*=', '|=', '&=', '^=', '/=', '%=', '<<=', '>>='):
            self.next()
            return ('op', ln, t[:-1], e, self.expr())
        return ('expr', ln, e)

    def compound(self):
        self.eat('{')
        l = []
        while self.peek() != '}':
            l.append(self.stmt())
        self.eat('}')
        return ('block', l)


# ---- emission
BIN = {'+': 'Add', '-': 'Sub', '*': 'Mul', '/': 'Div', '%': 'Mod', '&': 'And', '|': 'Or',
       '^': 'Xor', '<<': 'Shl', '>>': 'Shr', '<': 'Lt', '<=': 'Le', '>': 'Gt', '>=': 'Ge',
       '==': 'Eq', '!=': 'Ne'}


def zl(l):
    lines, cur = [], ''
    for k, z in enumerate(l):
        x = str(z) + ('; ' if k + 1 < len(l) else '')
        if len(cur) + len(x) > 84:
            lines.append(cur)
            cur = ''
        cur += x
    lines.append(cur)
    return '[' + '\n       '.join(lines) + ']'


class Emit:
    """emit one function; [addr] are the local scalars whose address is taken"""

    def __init__(self, p, name, addr, file):
        self.p, self.fname, self.addr, self.file = p, name, addr, file
        self.vars, self.static, self.defs = [], [], []

    def err(self, m):
        raise Err(f'{self.file} {self.fname}: {m}')

    def lookup(self, n):
        for k in range(len(self.vars) - 1, -1, -1):
            if self.vars[k][0] == n:
                return k, self.vars[k][1], self.vars[k][2]
        self.err('variable ' + n)

    def typeof(self, e):
        k = e[0]
        if k == 'id':
            return self.lookup(e[1])[1]
        if k == 'idx' or (k == 'un' and e[1] == '*'):
            t = self.typeof(e[1] if k == 'idx' else e[2])
            if t[0] not in ('ptr', 'arr'):
                self.err('not a pointer')
            return t[1]
        if k == 'field':
            return dict(self.p.structs[self.typeof(e[1])[1]])[e[2]]
        if k == 'cast':
            return e[1]
        self.err(f'type of {e}')

    # lvalues
    def lv(self, e):
        k = e[0]
        if k == 'id':
            n, t, kind = self.lookup(e[1])
            if kind == 'var':
                return f'(LVar {n} {self.p.cty(t)})'
            if kind == 'mem':
                return f'(LDeref (ELv (LVar {n} {self.p.cty(("ptr", t))})))'
            self.err('array as lvalue ' + e[1])
        if k == 'idx':
            return f'(LIndex {self.ex(e[1])} {self.ex(e[2])})'
        if k == 'un' and e[1] == '*':
            return f'(LDeref {self.ex(e[2])})'
        if k == 'field':
            s = self.typeof(e[1])
            if s[0] != 'struct':
                self.err('member of a non-structure')
            fs = self.p.structs[s[1]]
            idx = [n for n, _ in fs].index(e[2])
            return f'(LField {self.lv(e[1])} {idx} {self.p.cty(fs[idx][1])})'
        self.err(f'lvalue {e}')

    def ex(self, e):
        k = e[0]
        if k == 'num':
            return f'(ECst {e[1]} {e[2]})'
        if k == 'str':
            return f'(EData IChar {zl(e[1])})'
        if k == 'id':
            n, t, kind = self.lookup(e[1])
            if kind == 'data':
                return f'(EData {t[1][1]} {n})' if isinstance(n, str) else self.err('data')
            if kind == 'arr':
                return f'(ELv (LVar {n} {self.p.cty(t)}))'
            return f'(ELv {self.lv(e)})'
        if k in ('idx', 'field') or (k == 'un' and e[1] == '*'):
            return f'(ELv {self.lv(e)})'
        if k == 'un':
            if e[1] == '&':
                a = e[2]
                if a[0] == 'id':
                    n, t, kind = self.lookup(a[1])
                    if kind != 'mem':
                        self.err('& of ' + a[1])
                    return f'(ELv (LVar {n} {self.p.cty(("ptr", t))}))'
                return f'(EAddr {self.lv(a)})'
            return f"(EUn {dict([('!', 'LNot'), ('~', 'BNot'), ('-', 'Neg')])[e[1]]} {self.ex(e[2])})"
        if k == 'bin':
            if e[1] in ('&&', '||'):
                return f"({'EAnd' if e[1] == '&&' else 'EOr'} {self.ex(e[2])} {self.ex(e[3])})"
            return f'(EBin {BIN[e[1]]} {self.ex(e[2])} {self.ex(e[3])})'
        if k == 'cond':
            return f'(ECond {self.ex(e[1])} {self.ex(e[2])} {self.ex(e[3])})'
        if k == 'cast':
            return f'(ECast {self.p.cty(e[1])} {self.ex(e[2])})'
        if k == 'inc':
            return f"(EInc {'true' if e[1] else 'false'} {'(-1)' if e[2] < 0 else '1'} {self.lv(e[3])})"
        if k == 'call':
            args = 'ENil'
            for a in reversed(e[2]):
                args = f'(ECons {self.ex(a)} {args})'
            f = e[1]
            if f[0] == 'id' and f[1] in LIB:
                return f'(ELib {LIB[f[1]]} {args})'
            if f[0] == 'id' and f[1] in self.p.funs:
                return f'(ECall {self.p.funs[f[1]]} {args})'
            return f'(ECallPtr {self.ex(f)} {args})'
        self.err(f'expression {e}')

    def stmts(self, l, ind):
        """a sequence; returns the list of (comment line, term)"""
        return [self.st(s, ind) for s in l]

    def seq(self, terms, ind):
        pad = '\n' + ' ' * ind
        terms = [t for t in terms if t != 'SSkip'] or ['SSkip']
        out = terms[-1]
        for t in reversed(terms[:-1]):
            out = f'(SSeq {t}{pad}{out})'
        return out

    def declares(self, s):
        """does the statement declare an object in memory (directly)?"""
        return s[0] == 'decl' and (s[4] in self.addr or
                                   (s[2][0] == 'arr' and 'static' not in s[3] and
                                    'const' not in s[3]))

    def scope(self, l, ind):
        n = len(self.vars)
        terms = self.stmts(l, ind + 1)
        if len(self.vars) == n:
            return self.seq(terms, ind)
        objs = any(self.declares(s) for s in l)
        del self.vars[n:]
        return f"(SBlock {'true' if objs else 'false'}\n{' ' * (ind + 1)}{self.seq(terms, ind + 1)})"

    def st(self, s, ind):
        k = s[0]
        if k == 'skip':
            return 'SSkip'
        if k == 'block':
            return self.scope(s[1], ind)
        if k == 'expr':
            return f'(SExpr {self.ex(s[2])})'
        if k == 'set':
            return f'(SSet {self.lv(s[2])} {self.ex(s[3])})'
        if k == 'op':
            return f'(SOp {BIN[s[2]]} {self.lv(s[3])} {self.ex(s[4])})'
        if k == 'break':
            return 'SBreak'
        if k == 'return':
            return f'(SReturn {self.ex(s[2])})'
        if k == 'if':
            pad = '\n' + ' ' * (ind + 1)
            return (f'(SIf {self.ex(s[2])}{pad}{self.branch(s[3], ind + 1)}'
                    f'{pad}{self.branch(s[4], ind + 1)})')
        if k == 'loop':
            n = len(self.vars)
            pad = '\n' + ' ' * (ind + 1)
            init = self.st(s[2], ind) if s[2] else 'SSkip'
            c = self.ex(s[3])
            step = self.st(s[4], ind) if s[4] else 'SSkip'
            body = self.branch(s[5], ind + 1)
            loop = f'(SLoop {c} {step}{pad}{body})'
            out = self.seq([init, loop], ind)
            if len(self.vars) > n:
                del self.vars[n:]
                out = f'(SBlock false {out})'
            return out
        if k == 'decl':
            _, ln, ty, q, name, init = s
            if ty[0] == 'arr':
                et = ty[1][1]
                if 'const' in q:
                    d = f'{self.fname}_{name}'
                    if len(init) > ty[2]:
                        self.err('too many initialisers')
                    init = init + [0] * (ty[2] - len(init))
                    self.defs.append((d, ln, et, init))
                    self.vars.append((name, ty, 'data'))
                    # constant data takes no slot
                    self.vars.pop()
                    self.data[name] = (d, ty)
                    return 'SSkip'
                if 'static' in q:
                    self.err('static array must be lifted')
                if init is None:
                    self.err('array without initialiser')
                init = init + [0] * (ty[2] - len(init))
                self.vars.append((name, ty, 'arr'))
                return f'(SArr {et} {zl(init)})'
            if name in self.addr:
                e = self.ex(init)
                self.vars.append((name, ty, 'mem'))
                return f'(SMem {ty[1]} {e})'
            if init is None:
                self.vars.append((name, ty, 'var'))
                return f'(SVar {self.p.cty(ty)})'
            e = self.ex(init)
            self.vars.append((name, ty, 'var'))
            return f'(SInit {self.p.cty(ty)} {e})'
        self.err(f'statement {s}')

    def branch(self, s, ind):
        return self.scope(s[1], ind) if s[0] == 'block' else self.scope([s], ind)


def addr_taken(node, acc):
    if isinstance(node, (list, tuple)):
        if len(node) == 3 and node[0] == 'un' and node[1] == '&' and node[2][0] == 'id':
            acc.add(node[2][1])
        for x in node:
            addr_taken(x, acc)


class EmitF(Emit):
    data = None

    def lookup(self, n):
        for k in range(len(self.vars) - 1, -1, -1):
            if self.vars[k][0] == n:
                return k, self.vars[k][1], self.vars[k][2]
        if n in self.data:
            return self.data[n][0], self.data[n][1], 'data'
        self.err('variable ' + n)


def load_header(path, macros, structs):
    toks = expand(preprocess(path, macros), macros)
    i = 0
    while i < len(toks):
        if toks[i][0] == 'typedef' and toks[i + 1][0] == 'struct':
            p = Parser(toks, structs, macros, {}, path)
            p.i = i + 3
            fields = []
            while p.peek() != '}':
                t, _ = p.base_type()
                if p.peek() == '(':          # void (*name)(void)
                    p.eat('(')
                    p.eat('*')
                    n = p.next()
                    p.eat(')')
                    p.eat('(')
                    while p.peek() != ')':
                        p.next()
                    p.eat(')')
                    t = ('ptr', ('fun',))
                else:
                    n = p.next()
                p.eat(';')
                fields.append((n, t))
            p.eat('}')
            structs[p.next()] = fields
            i = p.i
        i += 1


def translate(cfile, headers, funs, names=None, prefix=None):
    """translate a C file; returns Coq text.  [funs] maps C names of visible functions to Coq
    names and is extended; static functions get a prefix if needed"""
    macros, structs = dict(MACROS0), {}
    for h in headers:
        load_header(f'{REPO}/Inc/{h}', macros, structs)
    path = f'{REPO}/Src/{cfile}'
    toks = preprocess(path, macros)
    toks = expand(toks, macros)
    local = dict(funs)
    p = Parser(toks, structs, macros, local, cfile)
    out, parsed = [], []
    while p.i < len(toks):
        ln0 = p.line()
        rt, q = p.base_type()
        name = p.next()
        p.eat('(')
        params = []
        while p.peek() != ')':
            t, _ = p.base_type()
            if p.peek() == '(':              # function pointer parameter
                p.eat('(')
                p.eat('*')
                n = p.next()
                p.eat(')')
                p.eat('(')
                d = 1
                while d:
                    x = p.next()
                    d += (x == '(') - (x == ')')
                t = ('ptr', ('fun',))
            else:
                n = p.next()
                if p.peek() == '[':
                    while p.next() != ']':
                        pass
                    t = ('ptr', t)
            params.append((n, t))
            if p.peek() == ',':
                p.next()
        p.eat(')')
        body = p.compound()
        ln1 = toks[p.i - 1][1]
        parsed.append((ln0, ln1, rt, q, name, params, body))
    names = {f[4] for f in parsed}

    def calls(node, acc):
        if isinstance(node, (list, tuple)):
            if len(node) == 3 and node[0] == 'call' and node[1][0] == 'id' and node[1][1] in names:
                acc.add(node[1][1])
            for x in node:
                calls(x, acc)
        return acc

    done = []
    while parsed:                            # callees first
        for f in parsed:
            if calls(f[6], set()) <= set(done):
                break
        else:
            raise Err(f'{cfile}: recursion')
        parsed.remove(f)
        done.append(f[4])
        ln0, ln1, rt, q, name, params, body = f
        coq = 'c_' + (prefix + name if prefix and 'static' in q else name)
        addr = set()
        addr_taken(body, addr)
        e = EmitF(p, coq, addr, cfile)
        e.data = {}
        # a static array that is written is passed in by the caller, as a first parameter
        lifted = [s for s in body[1] if s[0] == 'decl' and s[2][0] == 'arr' and
                  'static' in s[3] and 'const' not in s[3]]
        for s in lifted:
            params.insert(0, (s[4], ('ptr', s[2][1])))
        stmts = [s for s in body[1] if s not in lifted]
        for n, t in params:
            e.vars.append((n, t, 'var'))
        terms = e.stmts(stmts, 4)
        objs = any(e.declares(s) for s in stmts)
        term = e.seq(terms, 4)
        if objs:
            term = f'(SBlock true\n    {term})'
        for d, ln, et, init in e.defs:
            out.append(f'(** {cfile}:{ln}, a constant array *)\n'
                       f'Definition {d} : list Z :=\n  {zl(init)}.\n')
        vs = ', '.join(f'{n}' for n, _ in params)
        note = ''
        if lifted:
            note = ('\n    The static array [%s] is an object of its own, passed as the first'
                    ' argument.' % lifted[0][4])
        out.append(f'(** {cfile}:{ln0}-{ln1}; parameters: {vs or "none"}.{note} *)\n'
                   f'Definition {coq} : fundef :=\n  FDef ['
                   + '; '.join(p.cty(t)[1:-1] if p.cty(t)[0] == '(' else p.cty(t)
                               for _, t in params)
                   + f'] {p.cty(rt)}\n    {term}.\n')
        local[name] = coq
        if 'static' not in q:
            funs[name] = coq
    return '\n'.join(out)


HEAD = '''(** * The text of %s as terms of [CLang]

    Generated by [/verif/tools/c2coq.py] from the C text; not edited by hand. *)
From Verif Require Import %s.

'''


def main():
    funs = {}
    T = 'typedefs.h'
    jobs = [
        ('C_Utils', 'CSem CLang', [('utils.c', [T, 'utils.h'], None),
                                   ('bit_manipulation.c', [T, 'bit_manipulation.h'], None)]),
        ('C_Base64', 'CSem CLang', [('base64.c', [T, 'base64.h'], None)]),
        ('C_Containers', 'CSem CLang',
         [('queue.c', [T, 'queue.h'], None), ('priority_queue.c', [T, 'priority_queue.h'], 'PQ_'),
          ('map.c', [T, 'map.h'], 'Map_'), ('scheduler.c', [T, 'scheduler.h'], None)]),
        ('C_Sort', 'CSem CLang C_Utils',
         [(f'sort/{x}_sort.c', [T, f'sort/{x}_sort.h'], None)
          for x in ('bubble', 'insertion', 'selection', 'heap')]),
        ('C_Crypto', 'CSem CLang C_Utils',
         [(f'crypto/{x}.c', [T, f'crypto/{x}.h'], None)
          for x in ('caesar_cipher', 'vernam_cipher', 'chacha20')]),
        ('C_Crc', 'CSem CLang C_Utils',
         [(f'crc/crc{n}_base.c', [T, f'crc/crc{n}_base.h'], None) for n in (8, 16, 32)]),
        ('C_Json', 'CSem CLang', [('json.c', [T, 'json.h'], None)]),
    ]
    var = []
    for n in (8, 16, 32):
        d = f'crc/crc{n}_variants'
        for f in sorted(os.listdir(f'{REPO}/Src/{d}')):
            if f.endswith('.c'):
                var.append((f'{d}/{f}', [T, f'crc/crc{n}_base.h'], None))
    jobs.append(('C_CrcVariants', 'CSem CLang C_Crc', var))
    for mod, imp, files in jobs:
        body = [HEAD % (', '.join(f'[/repo/Src/{f}]' for f, _, _ in files)
                        if len(files) < 5 else '[/repo/Src/crc/*_variants/*.c]', imp)]
        for f, hs, pre in files:
            body.append(translate(f, hs, funs, prefix=pre))
        open(os.path.join(OUT, mod + '.v'), 'w').write('\n'.join(body))
    print(len(funs), 'functions with external linkage')


if __name__ == '__main__':
    main()
