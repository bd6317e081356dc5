"""A parser for the part of C that the preprocessed sources use."""
import re

class CErr(Exception): pass

TOK = re.compile(r'''
 (?P<ws>[ \t\r\n]+)
|(?P<num>0[xX][0-9a-fA-F]+[uUlL]*|[0-9]+[uUlL]*)
|(?P<id>[A-Za-z_]\w*)
|(?P<str>"(?:\\.|[^"\\])*")
|(?P<chr>'(?:\\.|[^'\\])')
|(?P<op>\.\.\.|<<=|>>=|->|\+\+|--|<<|>>|<=|>=|==|!=|&&|\|\||[-+*/%&|^]=|[-+*/%&|^~!<>=?:;,.()\[\]{}])
''', re.X)

def lex(path):
    toks, fname, line = [], path, 0
    for raw in open(path):
        m = re.match(r'#\s*(?:line\s+)?(\d+)\s+"([^"]*)"', raw)
        if m:
            line, fname = int(m.group(1)), m.group(2); continue
        if raw.startswith('#'):
            line += 1; continue
        p = 0
        while p < len(raw):
            m = TOK.match(raw, p)
            if not m: raise CErr(f'{fname}:{line}: {raw[p:p+20]!r}')
            p = m.end()
            if m.lastgroup != 'ws':
                toks.append((m.lastgroup, m.group(), fname, line))
        line += 1
    toks.append(('eof', '', fname, line))
    return toks

# types: ('int',bits,signed) ('bool',) ('void',) ('ptr',T) ('arr',T,n) ('struct',name) ('vec',n) ('fun',ret,params)
BITS = {'char': 8, 'short': 16, 'int': 32, 'long': 64}

class Parser:
    def __init__(self, g, path):
        self.g, self.t, self.i = g, lex(path), 0
    def peek(self, k=0): return self.t[self.i + k][1]
    def kind(self, k=0): return self.t[self.i + k][0]
    def where(self): return self.t[self.i][2], self.t[self.i][3]
    def next(self):
        t = self.t[self.i]; self.i += 1; return t[1]
    def acc(self, s):
        if self.peek() == s and self.kind() in ('op', 'id'):
            self.i += 1; return True
        return False
    def exp(self, s):
        if not self.acc(s): raise CErr(f'{self.where()}: expected {s}, got {self.peek()!r}')

    # attributes
    def attrs(self):
        vec = None
        while True:
            if self.peek() in ('__attribute__', '__attribute'):
                self.next(); d = 0; txt = ''
                while True:
                    x = self.next()
                    if x == '(': d += 1
                    if x == ')': d -= 1
                    txt += x
                    if d == 0: break
                m = re.search(r'vector_size\w*\((\d+)\)', txt)
                if m: vec = int(m.group(1))
            elif self.peek() in ('inline', '__inline', '__inline__', '_Noreturn', '__extension__', 'restrict', '__restrict', 'volatile', 'const', 'register'):
                self.next()
            elif self.peek() == '_Alignas':
                self.next(); self.exp('(');
                d = 1
                while d:
                    x = self.next()
                    if x == '(': d += 1
                    if x == ')': d -= 1
            else: return vec

    def is_type(self, k=0):
        p = self.peek(k)
        return p in ('void','char','short','int','long','signed','unsigned','_Bool','struct','enum','union','const','volatile','static','extern','typedef','inline','__attribute__','_Alignas') or (self.kind(k) == 'id' and p in self.g.typedefs and p not in self.g.shadow)

    def specs(self):
        st, words, base, vec = set(), [], None, None
        while True:
            v = self.attrs()
            if v: vec = v
            p = self.peek()
            if p in ('typedef', 'static', 'extern'): st.add(self.next())
            elif p in ('void','char','short','int','long','signed','unsigned','_Bool'): words.append(self.next())
            elif p in ('struct', 'union'): base = self.struct()
            elif p == 'enum': base = self.enum()
            elif self.kind() == 'id' and p in self.g.typedefs and base is None and not words and p not in self.g.shadow:
                base = self.g.typedefs[p]; self.next()
            else: break
        if base is None:
            if not words: raise CErr(f'{self.where()}: type expected, got {self.peek()!r}')
            if 'void' in words: base = ('void',)
            elif '_Bool' in words: base = ('bool',)
            else:
                bits = 64 if 'long' in words else 16 if 'short' in words else 8 if 'char' in words else 32
                base = ('int', bits, 'unsigned' not in words)
        return st, base, vec

    def struct(self):
        kw = self.next(); self.attrs()
        name = None
        if self.kind() == 'id': name = self.next()
        if self.peek() == '{':
            self.next()
            if name is None: name = f'anon{len(self.g.structs)}'
            fields = []
            while not self.acc('}'):
                st, base, vec = self.specs()
                while True:
                    n, ty = self.declarator(base)
                    fields.append((n, ty))
                    if not self.acc(','): break
                self.exp(';')
            self.attrs()
            if kw == 'union': raise CErr('union')
            self.g.structs[name] = fields
        return ('struct', name)

    def enum(self):
        self.next(); self.attrs()
        if self.kind() == 'id': self.next()
        if self.acc('{'):
            v = 0
            while not self.acc('}'):
                n = self.next()
                if self.acc('='): v = self.g.const(self.cond())
                self.g.enums[n] = v; v += 1
                self.acc(',')
        return ('int', 32, False)

    def declarator(self, base):
        """name (or None) and type"""
        self.attrs()
        while self.acc('*'):
            base = ('ptr', base); self.attrs()
        if self.peek() == '(' and (self.peek(1) == '*' ):
            raise CErr(f'{self.where()}: function pointer')
        name = None
        if self.kind() == 'id' and not (self.peek() == '__attribute__'):
            name = self.next()
        ty = self.suffix(base)
        self.vecattr = self.attrs()
        return name, ty

    def suffix(self, base):
        if self.acc('['):
            n = None
            if self.peek() == 'static': self.next()
            if self.peek() != ']': n = self.g.const(self.cond())
            self.exp(']')
            return ('arr', self.suffix(base), n)
        if self.peek() == '(':
            self.next(); ps = []
            if self.peek() == 'void' and self.peek(1) == ')': self.next()
            while not self.acc(')'):
                if self.acc('...'): continue
                _, b, v = self.specs()
                n, t = self.declarator(b)
                if t[0] == 'arr': t = ('ptr', t[1])
                ps.append((n, t))
                self.acc(',')
            return ('fun', base, ps)
        return base

    # external declarations
    def unit(self):
        while self.kind() != 'eof':
            self.external()
    def external(self):
        if self.acc(';'): return
        if self.peek() == '_Static_assert':
            while not self.acc(';'): self.next()
            return
        w0 = self.where()
        st, base, vec = self.specs()
        if self.acc(';'): return
        while True:
            n, ty = self.declarator(base)
            v2 = self.vecattr or vec
            if v2 and base == ('int', 64, False): ty = ('vec', v2 // 8)
            if 'typedef' in st:
                if ty[0] == 'struct' and ty[1].startswith('anon'):
                    self.g.structs[n] = self.g.structs.pop(ty[1]); ty = ('struct', n)
                self.g.typedefs[n] = ty
            elif ty[0] == 'fun':
                if self.peek() == '{':
                    self.g.shadow = set(p for p, _ in ty[2] if p)
                    body = self.block()
                    self.g.shadow = set()
                    w1 = self.t[self.i - 1]
                    old = self.g.funs.get(n)
                    if old and (old['file'].split('/')[-1], old['l0']) != (w0[0].split('/')[-1], w0[1]):
                        raise CErr(f'two functions {n}')
                    self.g.funs[n] = dict(ret=ty[1], params=ty[2], body=body, file=w0[0], l0=w0[1], l1=w1[3])
                    return
                self.g.protos[n] = ty
            else:
                init = None
                if self.acc('='): init = self.initializer()
                if 'extern' not in st: self.g.globs[n] = (ty, init, w0)
            if not self.acc(','): break
        self.exp(';')

    def initializer(self):
        if self.acc('{'):
            xs = []
            while not self.acc('}'):
                xs.append(self.initializer()); self.acc(',')
            return ('init', xs)
        return self.assign()

    # statements
    def block(self):
        self.exp('{'); ss = []
        while not self.acc('}'): ss.append(self.stmt())
        return ('block', ss)
    def decl(self):
        st, base, vec = self.specs(); ds = []
        while True:
            if self.acc(';'): return ('decls', ds)
            n, ty = self.declarator(base); init = None
            if self.acc('='): init = self.initializer()
            ds.append((n, ty, init, 'static' in st))
            self.acc(',')
    def stmt(self):
        w = self.where()
        return ('loc', w[1], self.stmt1())
    def stmt1(self):
        p = self.peek()
        if p == '{': return self.block()
        if self.acc(';'): return ('skip',)
        if p == '_Static_assert':
            while not self.acc(';'): self.next()
            return ('skip',)
        if self.is_type() : return self.decl()
        if self.acc('if'):
            self.exp('('); c = self.expr(); self.exp(')')
            a = self.stmt(); b = ('skip',)
            if self.acc('else'): b = self.stmt()
            return ('if', c, a, b)
        if self.acc('while'):
            self.exp('('); c = self.expr(); self.exp(')')
            return ('for', ('skip',), c, None, self.stmt())
        if self.acc('do'):
            b = self.stmt(); self.exp('while'); self.exp('('); c = self.expr(); self.exp(')'); self.exp(';')
            return ('do', b, c)
        if self.acc('for'):
            self.exp('(')
            if self.acc(';'): i = ('skip',)
            elif self.is_type(): i = self.decl()
            else:
                i = ('expr', self.expr()); self.exp(';')
            c = None
            if not self.acc(';'):
                c = self.expr(); self.exp(';')
            n = None
            if self.peek() != ')': n = self.expr()
            self.exp(')')
            return ('for', i, c, n, self.stmt())
        if self.acc('switch'):
            self.exp('('); e = self.expr(); self.exp(')'); self.exp('{')
            groups = []   # (labels, stmts)
            while not self.acc('}'):
                labels = []
                while self.peek() in ('case', 'default'):
                    if self.acc('default'): labels.append(None)
                    else:
                        self.next(); labels.append(self.g.const(self.cond()))
                    self.exp(':')
                ss = []
                while self.peek() not in ('case', 'default', '}'): ss.append(self.stmt())
                groups.append((labels, ss))
            return ('switch', e, groups)
        if self.acc('return'):
            e = None
            if self.peek() != ';': e = self.expr()
            self.exp(';'); return ('return', e)
        if self.acc('break'): self.exp(';'); return ('break',)
        if self.acc('continue'): self.exp(';'); return ('continue',)
        e = self.expr(); self.exp(';')
        return ('expr', e)

    # expressions
    def expr(self):
        e = self.assign()
        while self.acc(','): e = ('comma', e, self.assign())
        return e
    def assign(self):
        l = self.cond(); p = self.peek()
        if p in ('=', '+=', '-=', '*=', '/=', '%=', '&=', '|=', '^=', '<<=', '>>='):
            self.next(); r = self.assign()
            return ('assign', p[:-1], l, r)
        return l
    def cond(self):
        c = self.binary(0)
        if self.acc('?'):
            a = self.expr(); self.exp(':'); b = self.cond()
            return ('cond', c, a, b)
        return c
    LEV = [['||'], ['&&'], ['|'], ['^'], ['&'], ['==', '!='], ['<', '>', '<=', '>='], ['<<', '>>'], ['+', '-'], ['*', '/', '%']]
    def binary(self, lev):
        if lev == len(self.LEV): return self.cast()
        l = self.binary(lev + 1)
        while self.kind() == 'op' and self.peek() in self.LEV[lev]:
            o = self.next(); l = ('bin', o, l, self.binary(lev + 1))
        return l
    def cast(self):
        if self.peek() == '(' and self.is_type(1):
            self.next(); _, b, v = self.specs(); _, t = self.declarator(b); self.exp(')')
            if self.peek() == '{': return self.postfix(('compound', t, self.initializer()))
            return ('cast', t, self.cast())
        return self.unary()
    def unary(self):
        p = self.peek()
        if self.kind() == 'op':
            if p in ('++', '--'): self.next(); return ('preinc', p, self.unary())
            if p in ('&', '*', '-', '+', '~', '!'): self.next(); return ('un', p, self.cast())
        if p == 'sizeof':
            self.next()
            if self.peek() == '(' and self.is_type(1):
                self.next(); _, b, v = self.specs(); _, t = self.declarator(b); self.exp(')')
                return ('sizeoft', t)
            return ('sizeofe', self.unary())
        return self.postfix(self.primary())
    def primary(self):
        k, p = self.kind(), self.peek()
        if self.acc('('):
            e = self.expr(); self.exp(')'); return e
        if k == 'num':
            self.next(); s = p.rstrip('uUlL').lower(); suf = p[len(s):].lower()
            v = int(s, 16) if s.startswith('0x') else int(s, 8) if len(s) > 1 and s[0] == '0' else int(s)
            hexa = s.startswith('0x')
            if 'l' in suf: ty = ('int', 64, 'u' not in suf)
            elif 'u' in suf: ty = ('int', 32 if v < 2**32 else 64, False)
            elif v < 2**31: ty = ('int', 32, True)
            elif hexa and v < 2**32: ty = ('int', 32, False)
            elif v < 2**63: ty = ('int', 64, True)
            else: ty = ('int', 64, False)
            if ty == ('int', 64, True) and v >= 2**63: ty = ('int', 64, False)
            return ('num', v, ty)
        if k == 'id': self.next(); return ('id', p)
        if k == 'str': self.next(); return ('str', p)
        raise CErr(f'{self.where()}: expression expected, got {p!r}')
    def postfix(self, e):
        while True:
            if self.acc('['):
                i = self.expr(); self.exp(']'); e = ('index', e, i)
            elif self.acc('('):
                a = []
                while not self.acc(')'):
                    a.append(self.assign()); self.acc(',')
                e = ('call', e, a)
            elif self.acc('.'): e = ('field', e, self.next())
            elif self.acc('->'): e = ('field', ('un', '*', e), self.next())
            elif self.peek() in ('++', '--'): e = ('postinc', self.next(), e)
            else: return e

class Globals:
    def __init__(self):
        self.typedefs, self.structs, self.enums, self.protos, self.funs, self.globs = {}, {}, {}, {}, {}, {}
        self.shadow = set()
    def const(self, e):
        k = e[0]
        if k == 'num': return e[1]
        if k == 'id': return self.enums[e[1]]
        if k == 'un': 
            v = self.const(e[2]); return {'-': -v, '~': ~v, '+': v, '!': int(not v)}[e[1]]
        if k == 'cast': return self.const(e[2])
        if k == 'sizeoft': return self.sizeof(e[1])
        if k == 'cond': return self.const(e[2] if self.const(e[1]) else e[3])
        if k == 'bin':
            a, b = self.const(e[2]), self.const(e[3])
            o = e[1]
            if o == '+': return a + b
            if o == '-': return a - b
            if o == '*': return a * b
            if o == '/': return a // b
            if o == '%': return a % b
            if o == '<<': return a << b
            if o == '>>': return a >> b
            if o == '|': return a | b
            if o == '&': return a & b
            if o == '^': return a ^ b
            return int({'<': a < b, '>': a > b, '<=': a <= b, '>=': a >= b, '==': a == b, '!=': a != b, '&&': bool(a and b), '||': bool(a or b)}[o])
        raise CErr(f'not constant: {e}')
    def align(self, t):
        k = t[0]
        if k == 'int': return t[1] // 8
        if k == 'bool': return 1
        if k == 'ptr': return 8
        if k == 'vec': return t[1] * 8
        if k == 'arr': return self.align(t[1])
        return max(self.align(f) for _, f in self.structs[t[1]])
    def sizeof(self, t):
        k = t[0]
        if k == 'int': return t[1] // 8
        if k == 'bool': return 1
        if k == 'ptr': return 8
        if k == 'vec': return t[1] * 8
        if k == 'arr': return t[2] * self.sizeof(t[1])
        o = 0
        for _, f in self.structs[t[1]]:
            a = self.align(f); o = (o + a - 1) // a * a + self.sizeof(f)
        a = self.align(t)
        return (o + a - 1) // a * a
    def offset(self, s, name):
        o = 0
        for n, f in self.structs[s]:
            a = self.align(f); o = (o + a - 1) // a * a
            if n == name: return o, f
            o += self.sizeof(f)
        raise CErr(f'field {name}')

if __name__ == '__main__':
    import sys
    g = Globals()
    for p in sys.argv[1:]:
        Parser(g, p).unit()
    print(len(g.funs), 'functions', len(g.globs), 'globals')
