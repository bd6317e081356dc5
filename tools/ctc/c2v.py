#!/usr/bin/env python3
"""Translate the preprocessed sources into the language of Model/CtLang.v.

The translation is described in DESIGN.md.  Everything here only produces a
program and a table of types: the table is checked in Coq."""
import sys, os
from cparse import *

INT = ('int', 32, True); UINT = ('int', 32, False); U64 = ('int', 64, False); U8 = ('int', 8, False)
BOOL = ('bool',); VOID = ('void',)

class T:
    """one function"""
    def __init__(self, g, name):
        self.g, self.name, self.f = g, name, g.funs[name]
        self.vars = []          # (name, ctype) ; id = index + 1
        self.out = []           # current statement list
        self.scopes = [{}]
        self.line = self.f['l0']
        self.callees = []
        self.globs = set()
    def err(self, m): raise CErr(f"{self.f['file']}:{self.line}: {self.name}: {m}")
    # ---- types
    def split(self, t): return t[0] == 'struct' and self.g.is_split(t[1])
    def flat(self, t):
        k = t[0]
        return k in ('int', 'bool', 'vec', 'void') or (k == 'arr' and self.flat(t[1])) or (k == 'struct' and not self.split(t))
    def unit(self, t):
        if t == VOID: return 1
        if self.flat(t): return self.g.sizeof(t)
        if t[0] == 'arr': return t[2] * self.unit(t[1])
        return 1
    def scalar(self, t): return t[0] in ('int', 'bool', 'ptr')
    def agg(self, t): return t[0] in ('vec', 'struct', 'arr')
    # ---- variables
    def fresh(self, hint, ct):
        self.vars.append((hint, ct)); return len(self.vars)
    def tmp(self, ct): return self.fresh('', ct)
    def lookup(self, n):
        for s in reversed(self.scopes):
            if n in s: return s[n]
        return None
    def emit(self, *s): self.out.append(s)
    def sub(self, fn):
        """run fn collecting its statements"""
        old, self.out = self.out, []
        r = fn(); o = self.out; self.out = old
        return r, o
    # ---- which locals need memory
    def addr_taken(self):
        s = set()
        def base(e):
            if e[0] == 'id': s.add(e[1])
        def walk(e):
            if isinstance(e, tuple):
                if e and e[0] == 'un' and e[1] == '&': base(e[2])
                for x in e: walk(x)
            elif isinstance(e, list):
                for x in e: walk(x)
        walk(self.f['body']); return s
    # ---- constants and conversions
    def rng(self, t):
        if t == BOOL: return 0, 1
        _, b, s = t
        return (-(1 << b-1), (1 << b-1) - 1) if s else (0, (1 << b) - 1)
    def wrap(self, v, t):
        _, b, s = t; v &= (1 << b) - 1
        return v - (1 << b) if s and v >> (b - 1) else v
    def conv(self, e, a, b):
        """e : a  as a value of the integer type b"""
        if a == b: return e
        if b == BOOL:
            if a[0] == 'ptr': return ('bin', 'Eq', UINT, ('isnull', e), ('int', 0))
            if e[0] == 'int': return ('int', int(e[1] != 0))
            return ('bin', 'Ne', INT, e, ('int', 0))
        if b[0] == 'ptr':
            if e == ('int', 0): return ('null',)
            if a[0] != 'ptr': self.err(f'int to pointer {a}')
            return e
        if a[0] == 'ptr': self.err('pointer to int')
        if e[0] == 'int': return ('int', self.wrap(e[1], b))
        la, ha = self.rng(a); lb, hb = self.rng(b)
        if lb <= la and ha <= hb: return e
        return ('un', 'Cast', b, e)
    def promote(self, t):
        if t == BOOL or t[1] < 32: return INT
        return t
    def usual(self, a, b):
        a, b = self.promote(a), self.promote(b)
        if a == b: return a
        if a[1] != b[1]: return a if a[1] > b[1] else b
        return ('int', a[1], False)
    def is0(self, e, t): return e == ('int', 0) or e == ('null',)
    def ibin(self, o, ty, a, b):
        if a[0] == 'int' and b[0] == 'int':
            x, y = a[1], b[1]
            f = {'Add': x+y, 'Sub': x-y, 'Mul': x*y, 'And': x & y, 'Or': x | y, 'Xor': x ^ y, 'Shl': x << y if 0 <= y < 64 else 0, 'Shr': x >> y if 0 <= y < 64 else 0,
                 'Lt': int(x < y), 'Le': int(x <= y), 'Gt': int(x > y), 'Ge': int(x >= y), 'Eq': int(x == y), 'Ne': int(x != y)}
            return ('int', self.wrap(f[o], ty))
        return ('bin', o, ty, a, b)
    OPS = {'+': 'Add', '-': 'Sub', '*': 'Mul', '&': 'And', '|': 'Or', '^': 'Xor', '<<': 'Shl', '>>': 'Shr', '<': 'Lt', '<=': 'Le', '>': 'Gt', '>=': 'Ge', '==': 'Eq', '!=': 'Ne'}
    def binop(self, o, a, ta, b, tb):
        """scalar operation"""
        if ta[0] == 'ptr' or tb[0] == 'ptr':
            if o in ('==', '!='):
                if self.is0(b, tb): p = a
                elif self.is0(a, ta): p = b
                else: self.err('pointer comparison')
                e = ('isnull', p)
                return (e if o == '==' else ('bin', 'Eq', INT, e, ('int', 0))), INT
            if o == '+' and ta[0] == 'ptr': return ('at', a, self.unit(ta[1]), b), ta
            if o == '+': return ('at', b, self.unit(tb[1]), a), tb
            if o == '-' and tb[0] != 'ptr': return ('at', a, -self.unit(ta[1]), b), ta
            self.err('pointer operation ' + o)
        if o in ('<<', '>>'):
            t = self.promote(ta)
            return self.ibin(self.OPS[o], t, self.conv(a, ta, t), self.conv(b, tb, self.promote(tb))), t
        t = self.usual(ta, tb); a, b = self.conv(a, ta, t), self.conv(b, tb, t)
        if o in ('/', '%'):
            if a[0] == 'int' and b[0] == 'int' and b[1] > 0 and a[1] >= 0:
                return ('int', a[1] // b[1] if o == '/' else a[1] % b[1]), t
            return ('div', 'Div' if o == '/' else 'Mod', t, a, b), t
        if o in ('<', '<=', '>', '>=', '==', '!='): return self.ibin(self.OPS[o], INT, a, b), INT
        return self.ibin(self.OPS[o], t, a, b), t
    def truth(self, e, t):
        """e as a condition (0 or not 0)"""
        if t[0] == 'ptr': return ('bin', 'Eq', INT, ('isnull', e), ('int', 0))
        return e
    # ---- lvalues: ('reg', x, t) | ('mem', p, t)
    def lval(self, e):
        k = e[0]
        if k == 'id':
            v = self.lookup(e[1])
            if v is not None:
                x, t, mem = v
                return ('mem', ('var', x), t) if mem else ('reg', x, t)
            if e[1] in self.g.globs:
                self.globs.add(e[1])
                return ('mem', ('glob', e[1]), self.g.globs[e[1]][0])
            self.err('unknown ' + e[1])
        if k == 'un' and e[1] == '*':
            p, t = self.rv(e[2])
            if t[0] == 'arr': return ('mem', p, t[1])
            return ('mem', p, t[1])
        if k == 'index':
            b, tb = self.rv(e[1], decay=False)
            i, ti = self.rv(e[2])
            if tb[0] == 'vec': return ('mem', ('at', b, 8, i) if i != ('int', 0) else b, U64)
            el = tb[1]
            return ('mem', ('at', b, self.unit(el), i) if i != ('int', 0) else b, el)
        if k == 'field':
            b, tb = self.rv(e[1], decay=False)
            if tb[0] != 'struct': self.err(f'field of {tb}')
            if self.split(tb):
                fs = self.g.structs[tb[1]]
                j = [n for n, _ in fs].index(e[2])
                return ('mem', ('field', b, len(fs), j), fs[j][1])
            o, ft = self.g.offset(tb[1], e[2])
            return ('mem', ('at', b, 1, ('int', o)) if o else b, ft)
        if k == 'compound':
            x = self.alloc_local('', e[1])
            self.init_mem(('var', x), e[1], e[2])
            return ('mem', ('var', x), e[1])
        if k == 'cast' and self.agg(e[1]): return self.lval(e[2])
        if k in ('call', 'bin', 'un', 'cond', 'assign'):
            p, t = self.rv(e, decay=False)
            if self.agg(t): return ('mem', p, t)
        self.err(f'lvalue {k}')
    def read(self, lv):
        k, p, t = lv
        if k == 'reg': return ('var', p)
        if self.agg(t): return p
        if t[0] == 'ptr': return ('loadp', p)
        if t == BOOL: return ('load', 1, p)
        n = t[1] // 8
        e = ('load', n, p)
        return ('un', 'Cast', t, e) if t[2] else e
    def write(self, lv, e, te):
        k, p, t = lv
        if self.agg(t): return self.copy_agg(p, t, e, te)
        e = self.conv(e, te, t)
        if k == 'reg': self.emit('set', p, e)
        elif t[0] == 'ptr':
            self.emit('storep', p, e)
        else: self.emit('store', self.g.sizeof(t), p, e)
    def copy_split(self, d, s, t):
        fs = self.g.structs[t[1]]
        for j, (fn, ft) in enumerate(fs):
            a, b = ('field', d, len(fs), j), ('field', s, len(fs), j)
            if self.flat(ft): self.emit('copy', a, b, ('int', self.g.sizeof(ft)))
            elif ft[0] == 'ptr': self.emit('storep', a, ('loadp', b))
            elif self.split(ft): self.copy_split(a, b, ft)
            else: self.err('copy of an array of pointers')
    def copy_agg(self, p, t, e, te):
        if self.split(t): return self.copy_split(p, e, t)
        if not self.flat(t): self.err('copy of an array of pointers')
        if isinstance(e, list):
            for i, x in enumerate(e): self.emit('store', 8, ('at', p, 1, ('int', 8*i)) if i else p, x)
        else: self.emit('copy', p, e, ('int', self.g.sizeof(t)))
    # ---- allocation
    def alloc(self, x, t, n):
        """x := n objects of type t (n an expression)"""
        if t == VOID: t = U8
        if self.flat(t):
            self.emit('alloc', x, self.ibin('Mul', U64, ('int', self.g.sizeof(t)), n) if self.g.sizeof(t) != 1 else n)
        elif t[0] == 'ptr': self.emit('alloc', x, n)
        elif t[0] == 'arr': self.alloc(x, t[1], self.ibin('Mul', U64, ('int', t[2]), n))
        else:
            fs = self.g.structs[t[1]]; nf = len(fs)
            self.emit('alloc', x, self.ibin('Mul', U64, ('int', nf), n))
            def one(i):
                for j, (fn, ft) in enumerate(fs):
                    y = self.fresh(fn, ('ptr', ft)); self.alloc(y, ft, ('int', 1))
                    self.emit('storef', ('at', ('var', x), 1, i) if i != ('int', 0) else ('var', x), nf, j, ('var', y))
            if n == ('int', 1): one(('int', 0))
            else:
                m = self.tmp(U64); self.emit('set', m, n)
                i = self.tmp(U64); self.emit('set', i, ('int', 0))
                _, b = self.sub(lambda: one(('var', i)))
                self.emit('loop', ('bin', 'Lt', INT, ('var', i), ('var', m)), [('set', i, ('bin', 'Add', U64, ('var', i), ('int', 1)))], b)
    def alloc_local(self, hint, t):
        x = self.fresh(hint, ('ptr', t)); self.alloc(x, t, ('int', 1)); return x
    def malloc(self, dst_t, nbytes):
        """temp holding fresh memory for a pointer of type dst_t"""
        el = dst_t[1] if dst_t[0] == 'ptr' else VOID
        x = self.tmp(dst_t)
        if el == VOID or self.flat(el): self.emit('alloc', x, nbytes)
        else:
            sz = self.g.sizeof(el)
            self.alloc(x, el, ('div', 'Div', U64, nbytes, ('int', sz)))
        return ('var', x)
    # ---- rvalues: returns (expr, type); aggregates give their address; vectors may give a list of limbs
    def rv(self, e, decay=True, want=None):
        r, t = self.rv0(e, want)
        if isinstance(r, list):
            x = self.alloc_local('', t)
            self.store_limbs(('var', x), r); r = ('var', x)
        if decay and t[0] == 'arr': t = ('ptr', t[1])
        return r, t
    def store_limbs(self, p, limbs):
        ts = []
        for l in limbs:
            y = self.tmp(U64); self.emit('set', y, l); ts.append(y)
        for i, y in enumerate(ts): self.emit('store', 8, ('at', p, 1, ('int', 8*i)) if i else p, ('var', y))
    def limbs(self, e, n):
        """the limbs of a vector valued expression (or of a scalar, repeated)"""
        r, t = self.rv0(e)
        if isinstance(r, list): return r
        if t[0] == 'vec':
            if r[0] not in ('var', 'glob'):
                x = self.tmp(('ptr', t)); self.emit('set', x, r); r = ('var', x)
            return [('load', 8, ('at', r, 1, ('int', 8*i)) if i else r) for i in range(t[1])]
        r = self.conv(r, t, U64)
        if r[0] not in ('var', 'int'):
            x = self.tmp(U64); self.emit('set', x, r); r = ('var', x)
        return [r] * n
    def ctype(self, e):
        """the type of e, without emitting anything"""
        n, c, gl = len(self.vars), list(self.callees), set(self.globs)
        old, self.out = self.out, []
        r, t = self.rv0(e); self.out = old; del self.vars[n:]
        self.callees, self.globs = c, gl
        return t
    def rv0(self, e, want=None):
        k = e[0]
        if k == 'num': return ('int', self.wrap(e[1], e[2])), e[2]
        if k == 'id':
            if self.lookup(e[1]) is None and e[1] in self.g.enums: return ('int', self.g.enums[e[1]]), UINT if self.g.enums[e[1]] >= 0 else INT
            lv = self.lval(e); return self.read(lv), lv[2]
        if k in ('index', 'field', 'compound') or (k == 'un' and e[1] == '*'):
            lv = self.lval(e); return self.read(lv), lv[2]
        if k == 'sizeoft': return ('int', self.g.sizeof(e[1])), U64
        if k == 'sizeofe': return ('int', self.g.sizeof(self.ctype(e[1]))), U64
        if k == 'cast':
            t = e[1]
            if t == VOID:
                r, t1 = self.rv(e[2]); return r, VOID
            r, t1 = self.rv(e[2], want=t)
            if t[0] == 'ptr':
                if t1[0] == 'ptr': return r, t
                return self.conv(r, t1, t), t
            return self.conv(r, t1, t), t
        if k == 'un':
            o = e[1]
            if o == '&':
                lv = self.lval(e[2])
                if lv[0] == 'reg': self.err('address of a register')
                return lv[1], ('ptr', lv[2])
            r, t = self.rv(e[2])
            if t[0] == 'vec': self.err('vector unary')
            if o == '!':
                if t[0] == 'ptr': return ('isnull', r), INT
                if r[0] == 'int': return ('int', int(not r[1])), INT
                return ('un', 'LNot', INT, r), INT
            p = self.promote(t); r = self.conv(r, t, p)
            if o == '+': return r, p
            if r[0] == 'int': return ('int', self.wrap(-r[1] if o == '-' else ~r[1], p)), p
            return ('un', {'-': 'Neg', '~': 'Not'}[o], p, r), p
        if k == 'bin':
            o = e[1]
            if o in ('&&', '||'): return self.logic(e)
            ta, tb = self.ctype(e[2]), self.ctype(e[3])
            if ta[0] == 'vec' or tb[0] == 'vec':
                n = (ta if ta[0] == 'vec' else tb)[1]
                a, b = self.limbs(e[2], n), self.limbs(e[3], n)
                return [self.ibin(self.OPS[o], U64, x, y) for x, y in zip(a, b)], ('vec', n)
            a, ta = self.rv(e[2]); b, tb = self.rv(e[3])
            return self.binop(o, a, ta, b, tb)
        if k == 'cond': return self.condexpr(e)
        if k == 'comma':
            self.effect(e[1]); return self.rv0(e[2])
        if k == 'assign': return self.assign(e)
        if k in ('preinc', 'postinc'):
            lv = self.lval(e[2]); lv = self.pin(lv)
            old = self.read(lv); t = lv[2]
            if k == 'postinc':
                x = self.tmp(t); self.emit('set', x, old); old = ('var', x)
            new, nt = self.binop('+' if e[1] == '++' else '-', old, t, ('int', 1), INT)
            self.write(lv, new, nt)
            return (old, t) if k == 'postinc' else (self.read(lv), t)
        if k == 'call': return self.call(e, want)
        self.err(f'expression {k}')
    def pin(self, lv):
        """make the address of an lvalue usable twice"""
        if lv[0] == 'mem' and lv[1][0] not in ('var', 'glob'):
            x = self.tmp(('ptr', lv[2])); self.emit('set', x, lv[1]); return ('mem', ('var', x), lv[2])
        return lv
    def logic(self, e):
        a, ta = self.rv(e[2]); a = self.truth(a, ta)
        (b, tb), pre = self.sub(lambda: self.rv(e[3]))
        b = self.conv(b, tb, BOOL)
        if not pre:
            return (('cond', a, b, ('int', 0)) if e[1] == '&&' else ('cond', a, ('int', 1), b)), INT
        x = self.tmp(INT)
        if e[1] == '&&': self.emit('if', a, pre + [('set', x, b)], [('set', x, ('int', 0))])
        else: self.emit('if', a, [('set', x, ('int', 1))], pre + [('set', x, b)])
        return ('var', x), INT
    def condexpr(self, e):
        c, tc = self.rv(e[1]); c = self.truth(c, tc)
        if c[0] == 'int': return self.rv0(e[2] if c[1] else e[3])
        (a, ta), pa = self.sub(lambda: self.rv(e[2]))
        (b, tb), pb = self.sub(lambda: self.rv(e[3]))
        if ta[0] == 'ptr' or tb[0] == 'ptr':
            t = ta if ta[0] == 'ptr' and not (ta[1] == VOID) else tb
            a, b = self.conv(a, ta, t) if ta[0] != 'ptr' else a, self.conv(b, tb, t) if tb[0] != 'ptr' else b
        elif self.agg(ta): t = ta
        else:
            t = self.usual(ta, tb); a, b = self.conv(a, ta, t), self.conv(b, tb, t)
        if not pa and not pb: return ('cond', c, a, b), t
        x = self.tmp(t if self.scalar(t) else ('ptr', t))
        self.emit('if', c, pa + [('set', x, a)], pb + [('set', x, b)])
        return ('var', x), t
    def assign(self, e):
        _, o, l, r = e
        lv = self.lval(l)
        t = lv[2]
        if t[0] == 'vec':
            lv = self.pin(lv)
            if o == '':
                v, tv = self.rv0(r)
                if isinstance(v, list): self.store_limbs(lv[1], v)
                else: self.emit('copy', lv[1], v, ('int', self.g.sizeof(t)))
            else:
                a = self.limbs(l, t[1]); b = self.limbs(r, t[1])
                self.store_limbs(lv[1], [self.ibin(self.OPS[o], U64, x, y) for x, y in zip(a, b)])
            return lv[1], t
        if o == '':
            v, tv = self.rv(r, want=t)
            if lv[0] == 'reg' or self.agg(t): self.write(lv, v, tv); return self.read(lv), t
            self.write(lv, v, tv)
            return self.conv(v, tv, t) if self.scalar(t) else v, t
        lv = self.pin(lv)
        v, tv = self.rv(r)
        n, nt = self.binop(o, self.read(lv), t, v, tv)
        self.write(lv, n, nt)
        return self.read(lv), t
    def call(self, e, want=None):
        if e[1][0] != 'id': self.err('indirect call')
        f, a = e[1][1], e[2]
        if f in ('malloc', 'calloc', 'faest_aligned_alloc', 'aligned_alloc'):
            t = want or ('ptr', VOID)
            x, tx = self.rv(a[-1] if f != 'calloc' else a[0]); n = self.conv(x, tx, U64)
            if f == 'calloc':
                y, ty = self.rv(a[1])
                el = t[1]
                if y == ('int', self.g.sizeof(el) if el != VOID else 1) and not self.flat(el):
                    p = self.tmp(t); self.alloc(p, el, n); return ('var', p), t
                n = self.ibin('Mul', U64, n, self.conv(y, ty, U64))
            return self.malloc(t, n), t
        if f in ('free', 'faest_aligned_free'):
            p, t = self.rv(a[0]); self.emit('eval', p); return ('int', 0), VOID
        if f == 'memcpy':
            d, td = self.rv(a[0]); s, ts = self.rv(a[1]); n, tn = self.rv(a[2])
            for t in (td, ts):
                if t[1] != VOID and not self.flat(t[1]): self.err('memcpy of pointers')
            self.emit('copy', d, s, self.conv(n, tn, U64)); return d, td
        if f == 'memset':
            d, td = self.rv(a[0]); v, tv = self.rv(a[1]); n, tn = self.rv(a[2])
            if td[1] != VOID and not self.flat(td[1]):
                self.zero(d, td[1], v, n); return d, td
            self.emit('fill', d, self.conv(v, tv, U8), self.conv(n, tn, U64)); return d, td
        if f == '__builtin_parity':
            x, tx = self.rv(a[0]); return ('un', 'Parity', UINT, self.conv(x, tx, UINT)), INT
        if f == '__builtin_shufflevector':
            n = self.ctype(a[0])[1]
            l = self.limbs(a[0], n) + self.limbs(a[1], n)
            return [l[self.g.const(i)] for i in a[2:]], ('vec', n)
        if f == '__public':
            p, tp = self.rv(a[0]); n, tn = self.rv(a[1])
            x = self.fresh('public', tp); self.emit('public', x, p, self.conv(n, tn, U64)); return ('var', x), tp
        if f == '__show':
            v, tv = self.rv(a[0]); x = self.fresh('shown', tv); self.emit('show', x, v); return ('var', x), tv
        if f == '__assert':
            c, tc = self.rv(a[0]); self.emit('if', self.truth(c, tc), [], [('fail',)]); return ('int', 0), VOID
        if f not in self.g.funs: self.err('unknown function ' + f)
        fn = self.g.funs[f]; args = []
        for x, (pn, pt) in zip(a, fn['params']):
            v, tv = self.rv(x, decay=not self.agg(pt), want=pt)
            if self.agg(pt):
                args.append(v)
            else: args.append(self.conv(v, tv, pt))
        if len(a) != len(fn['params']): self.err('arguments of ' + f)
        self.callees.append(f)
        rt = fn['ret']
        if self.agg(rt):
            d = getattr(self, 'into', None)
            self.into = None
            if d is None: d = ('var', self.alloc_local('', rt))
            self.emit('call', None, f, [d] + args); return d, rt
        if rt == VOID:
            self.emit('call', None, f, args); return ('int', 0), VOID
        x = self.tmp(rt); self.emit('call', x, f, args)
        return ('var', x), rt
    def zero(self, d, t, v, n):
        """memset(d, 0, n) for structures with several fields"""
        if v != ('int', 0) or not self.split(t): self.err('memset of pointers')
        if n != ('int', self.g.sizeof(t)): self.err('memset of a part of a structure')
        fs = self.g.structs[t[1]]
        for j, (fn, ft) in enumerate(fs):
            p = ('field', d, len(fs), j)
            if self.flat(ft): self.emit('fill', p, ('int', 0), ('int', self.g.sizeof(ft)))
            elif self.split(ft): self.zero(p, ft, v, ('int', self.g.sizeof(ft)))
            elif ft[0] == 'ptr': self.emit('storep', p, ('null',))
            else: self.err('memset')
    def effect(self, e):
        if e[0] in ('preinc', 'postinc'): e = ('preinc', e[1], e[2])
        n = len(self.out)
        r, t = self.rv0(e)
        if isinstance(r, list): return
        if e[0] not in ('call', 'assign', 'preinc', 'comma', 'cast') and r[0] != 'int': self.emit('eval', r)
        # the result of an unused call
        if e[0] == 'call' and self.out and self.out[-1][0] == 'call' and self.out[-1][1] is not None:
            s = self.out[-1]; self.out[-1] = ('call', None, s[2], s[3])
    # ---- initialisers
    def init_mem(self, p, t, init):
        if init[0] != 'init':
            if t[0] == 'vec':
                v, tv = self.rv0(init)
                if isinstance(v, list): self.store_limbs(p, v)
                else: self.emit('copy', p, v, ('int', self.g.sizeof(t)))
                return
            v, tv = self.rv(init, decay=not self.agg(t), want=t)
            self.write(('mem', p, t), v, tv); return
        xs = init[1]
        if t[0] in ('arr', 'vec'):
            el, n = (t[1], t[2]) if t[0] == 'arr' else (U64, t[1])
            if t[0] == 'arr' and all(x == ('num', 0, INT) for x in xs) and self.flat(t): return   # fresh memory is zero
            for i, x in enumerate(xs):
                if x == ('num', 0, INT) and self.flat(el): continue
                self.init_mem(('at', p, self.unit(el), ('int', i)) if i else p, el, x)
            return
        if t[0] == 'struct':
            for (fn, ft), x in zip(self.g.structs[t[1]], xs):
                if x == ('num', 0, INT): continue
                if self.split(t):
                    fs = self.g.structs[t[1]]; j = [n for n, _ in fs].index(fn)
                    self.init_mem(('field', p, len(fs), j), ft, x)
                else:
                    o, _ = self.g.offset(t[1], fn)
                    self.init_mem(('at', p, 1, ('int', o)) if o else p, ft, x)
            return
        self.init_mem(p, t, xs[0])
    # ---- statements
    def stmt(self, s):
        k = s[0]
        if k == 'loc': self.line = s[1]; return self.stmt(s[2])
        if k == 'skip': return
        if k == 'block':
            self.scopes.append({})
            for x in s[1]: self.stmt(x)
            self.scopes.pop(); return
        if k == 'decls':
            for n, t, init, st in s[1]:
                if st:
                    gn = f'{self.name}.{n}'
                    if gn not in self.g.globs: self.g.globs[gn] = (t, init, (self.f['file'], self.line))
                    self.g.globs[n] = self.g.globs[gn]; continue
                if t[0] == 'arr' and t[2] is None: t = ('arr', t[1], len(init[1]))
                if self.agg(t) or n in self.taken:
                    if init is not None and t[0] in ('vec', 'struct') and init[0] == 'call' and init[1][1] in self.g.funs:
                        x = self.alloc_local(n, t)
                        self.into = ('var', x)
                        # the arguments are translated first
                        fn = self.g.funs[init[1][1]]
                        self.into = None
                        args = []
                        for a, (pn, pt) in zip(init[2], fn['params']):
                            v, tv = self.rv(a, decay=not self.agg(pt), want=pt)
                            args.append(v if self.agg(pt) else self.conv(v, tv, pt))
                        self.callees.append(init[1][1])
                        self.emit('call', None, init[1][1], [('var', x)] + args)
                        self.scopes[-1][n] = (x, t, True); continue
                    x = self.alloc_local(n, t)
                    if init is not None:
                        self.init_mem(('var', x), t, init)
                    self.scopes[-1][n] = (x, t, True)
                else:
                    x = None
                    if init is not None:
                        v, tv = self.rv(init, want=t); v = self.conv(v, tv, t)
                        x = self.fresh(n, t); self.emit('set', x, v)
                    else: x = self.fresh(n, t)
                    self.scopes[-1][n] = (x, t, False)
            return
        if k == 'expr': self.effect(s[1]); return
        if k == 'if':
            c, tc = self.rv(s[1]); c = self.truth(c, tc)
            _, a = self.sub(lambda: self.stmt(s[2])); _, b = self.sub(lambda: self.stmt(s[3]))
            if c[0] == 'int': self.out += a if c[1] else b
            else: self.emit('if', c, a, b)
            return
        if k == 'for':
            self.scopes.append({})
            self.stmt(s[1])
            def cond():
                if s[2] is None: return ('int', 1)
                c, tc = self.rv(s[2]); return self.truth(c, tc)
            c, pre = self.sub(cond)
            _, body = self.sub(lambda: self.stmt(s[4]))
            _, inc = self.sub(lambda: self.effect(s[3]) if s[3] else None)
            if pre:
                body = pre + [('if', c, [], [('break',)])] + body; c = ('int', 1)
            self.emit('loop', c, inc, body)
            self.scopes.pop(); return
        if k == 'do':
            x = self.tmp(INT); self.emit('set', x, ('int', 1))
            _, body = self.sub(lambda: self.stmt(s[1]))
            def cond():
                c, tc = self.rv(s[2]); self.emit('set', x, self.conv(c, tc, BOOL))
            _, inc = self.sub(cond)
            self.emit('loop', ('var', x), inc, body); return
        if k == 'switch':
            c, tc = self.rv(s[1]); x = self.tmp(self.promote(tc)); self.emit('set', x, c)
            groups = s[2]
            def seq(i):
                ss = []
                for j in range(i, len(groups)):
                    for st in groups[j][1]:
                        q = st[2] if st[0] == 'loc' else st
                        if q[0] == 'break': return ss
                        ss.append(st)
                        if q[0] == 'return': return ss
                return ss
            chain = []
            for i, (ls, _) in enumerate(groups):
                if None in ls:
                    if i != len(groups) - 1: self.err('default is not last')
                _, b = self.sub(lambda: self.stmt(('block', seq(i))))
                chain.append((ls, b))
            def build(i):
                if i == len(chain): return []
                ls, b = chain[i]
                if None in ls: return b
                c = None
                for l in ls:
                    t = ('bin', 'Eq', INT, ('var', x), ('int', l))
                    c = t if c is None else ('cond', c, ('int', 1), t)
                return [('if', c, b, build(i + 1))]
            self.out += build(0); return
        if k == 'return':
            if s[1] is None: self.emit('return', None); return
            rt = self.f['ret']
            if self.agg(rt):
                v, tv = self.rv0(s[1])
                if isinstance(v, list): self.store_limbs(('var', self.retp), v)
                else: self.copy_agg(('var', self.retp), rt, v, tv)
                self.emit('return', None); return
            v, tv = self.rv(s[1], want=rt); self.emit('return', self.conv(v, tv, rt)); return
        if k == 'break': self.emit('break'); return
        if k == 'continue': self.emit('continue'); return
        self.err(f'statement {k}')
    def run(self):
        f = self.f
        self.taken = self.addr_taken()
        self.params = []
        if self.agg(f['ret']):
            self.retp = self.fresh('return', ('ptr', f['ret'])); self.params.append(self.retp)
        late = []
        for n, t in f['params']:
            if self.agg(t):
                x = self.fresh(n, ('ptr', t)); self.params.append(x); late.append((n, t, x))
            else:
                x = self.fresh(n, t); self.params.append(x)
                if n in self.taken: late.append((n, t, x))
                self.scopes[0][n] = (x, t, False)
        for n, t, x in late:
            y = self.alloc_local(n, t)
            if self.agg(t): self.copy_agg(('var', y), t, ('var', x), t)
            else: self.write(('mem', ('var', y), t), ('var', x), t)
            self.scopes[0][n] = (y, t, True)
        self.scopes.append({})
        for x in f['body'][1]: self.stmt(x)
        self.body = self.out
        return self

def setup(pp):
    g = Globals()
    SPLIT = set()
    def is_split(s):
        if s in SPLITTABLE: return True
        def hasptr(t): return t[0] == 'ptr' or (t[0] == 'arr' and hasptr(t[1])) or (t[0] == 'struct' and is_split(t[1]))
        return any(hasptr(t) for _, t in g.structs[s])
    g.is_split = is_split
    clash = {}
    for p in sorted(os.listdir(pp)):
        if p.endswith('.i'):
            Parser(g, f'{pp}/{p}').unit()
    return g

# structures whose fields are tracked one by one although they hold no pointer
SPLITTABLE = {'KeccakWidth1600_SpongeInstanceStruct', 'KeccakWidth1600times4_SpongeInstanceStruct',
              'Keccak_HashInstance', 'Keccak_HashInstancetimes4'}

def reach(g, roots):
    done, todo = {}, list(roots)
    while todo:
        f = todo.pop()
        if f in done: continue
        done[f] = T(g, f).run()
        todo += done[f].callees
    return done

# ---------------------------------------------------------------- inference
LO, HI = 0, 1
class Node:
    """what a pointer points to"""
    def __init__(self): self.p = None; self.kind = None; self.lab = LO; self.sub = []
    def find(self):
        n = self
        while n.p is not None: n = n.p
        return n
class Bad(Exception): pass
changed = [False]
def mk(kind, lab=LO, sub=()):
    n = Node(); n.kind, n.lab, n.sub = kind, lab, list(sub); return n
def setkind(n, kind, nsub=0):
    n = n.find()
    if n.kind is None:
        n.kind = kind; n.sub = [Node() for _ in range(nsub)]; changed[0] = True
    elif n.kind != kind or len(n.sub) != nsub: raise Bad(f'{n.kind} used as {kind}')
    return n
def unify(a, b):
    a, b = a.find(), b.find()
    if a is b: return a
    changed[0] = True
    if a.kind is None: a.p = b; return b
    if b.kind is None: b.p = a; return a
    if a.kind != b.kind or len(a.sub) != len(b.sub): raise Bad(f'{a.kind} with {b.kind}')
    b.p = a; a.lab = max(a.lab, b.lab)
    for x, y in zip(a.sub, b.sub): unify(x, y)
    return a
def raise_(n, lab):
    n = n.find()
    if lab > n.lab: n.lab = lab; changed[0] = True
def conc(n):
    """the type of a node"""
    n = n.find()
    if n.kind is None: return ('U',)
    if n.kind == 'B': return ('B', n.lab)
    return (n.kind,) + tuple(conc(x) for x in n.sub)
def inst(t, ids=None):
    if t[0] == 'U': return Node()
    if t[0] == 'B': return mk('B', t[1])
    return mk(t[0], LO, [inst(x) for x in t[1:]])

class Infer:
    def __init__(self, g, prog, analysis, secret):
        self.g, self.prog, self.analysis, self.secret = g, prog, analysis, secret
        self.memo = {}        # (f, arg types) -> Summary
        self.globs = {}
        self.errors = {}
    def glob(self, n):
        if n not in self.globs:
            self.globs[n] = mk('B', HI if n in self.secret else LO)
        return self.globs[n]
    def summary(self, f, args):
        key = (f, args)
        if key in self.memo:
            if self.memo[key] is None: raise CErr('recursion in ' + f)
            return self.memo[key]
        self.memo[key] = None
        a = self.analysis(self, f, args); a.solve()
        self.memo[key] = a
        return a

def vt_of(v):
    """('I', lab) or ('P', Node)"""
    return v

class Analysis:
    def __init__(self, inf, f, args):
        self.inf, self.t, self.f = inf, inf.prog[f], f
        self.env = {}
        for x, a in zip(self.t.params, args):
            self.env[x] = ['I', a[1]] if a[0] == 'I' else ['P', inst(a[1])]
        self.ret = None
        self.errs = []
        self.nulls = {}
    def solve(self):
        self.rounds = 0
        while True:
            changed[0] = False; self.errs = []
            self.block(self.t.body)
            self.rounds += 1
            if not changed[0]: break
            assert self.rounds < 200
        changed[0] = True
        if self.errs: self.inf.errors[(self.f, self.argtypes())] = self.errs
    def vt(self, v): return ('I', v[1]) if v[0] == 'I' else ('P', conc(v[1]))
    def argtypes(self): return tuple(self.vt(self.env[x]) for x in self.t.params)
    def rettype(self):
        return None if self.ret is None else self.vt(self.ret)
    def need_lo(self, v, what, e):
        if v[0] == 'I' and v[1] == HI: self.errs.append((what, e))
    def var(self, x):
        if x not in self.env:
            ct = self.t.vars[x-1][1]
            self.env[x] = ['P', Node()] if ct[0] == 'ptr' else ['I', LO]
        return self.env[x]
    def assign(self, d, v):
        """d := max(d, v)"""
        if d[0] == 'I':
            if v[0] != 'I': raise Bad('pointer as integer')
            if v[1] > d[1]: d[1] = v[1]; changed[0] = True
        else:
            if v[0] == 'N': return
            if v[0] != 'P': raise Bad('integer as pointer')
            unify(d[1], v[1])
    def ev(self, e):
        k = e[0]
        if k == 'int': return ('I', LO)
        if k == 'var': return self.var(e[1])
        if k == 'glob': return ('P', self.inf.glob(e[1]))
        if k == 'null': return ('N',)
        if k == 'un': return ('I', self.ev(e[3])[1])
        if k == 'bin': return ('I', max(self.ev(e[3])[1], self.ev(e[4])[1]))
        if k == 'div':
            a, b = self.ev(e[3]), self.ev(e[4]); self.need_lo(a, 'division', e); self.need_lo(b, 'division', e)
            return ('I', LO)
        if k == 'cond':
            self.need_lo(self.ev(e[1]), 'condition', e[1])
            a, b = self.ev(e[2]), self.ev(e[3])
            if a[0] == 'N': return b
            if b[0] == 'N': return a
            if a[0] == 'P': unify(a[1], b[1]); return a
            return ('I', max(a[1], b[1]))
        if k == 'load':
            p = self.ev(e[2]); return ('I', setkind(p[1], 'B').lab)
        if k == 'loadp':
            p = self.ev(e[1]); return ('P', setkind(p[1], 'PP', 1).sub[0])
        if k == 'at':
            self.need_lo(self.ev(e[3]), 'index', e); return self.ev(e[1])
        if k == 'field':
            p = self.ev(e[1]); return ('P', setkind(p[1], 'S', e[2]).sub[e[3]])
        if k == 'isnull':
            self.ev(e[1]); return ('I', LO)
        raise Bad(k)
    def block(self, b):
        for s in b:
            try: self.st(s)
            except Bad as x: raise CErr(f'{self.f}: {x}: {s}')
    def st(self, s):
        k = s[0]
        if k == 'set': self.assign(self.var(s[1]), self.ev(s[2]))
        elif k == 'store':
            p = self.ev(s[2]); v = self.ev(s[3]); n = setkind(p[1], 'B')
            raise_(n, v[1])
        elif k == 'storep':
            p = self.ev(s[1]); n = setkind(p[1], 'PP', 1); v = self.ev(s[2])
            if v[0] == 'P': unify(n.sub[0], v[1])
        elif k == 'storef':
            p = self.ev(s[1]); n = setkind(p[1], 'S', s[2]); v = self.ev(s[4]); unify(n.sub[s[3]], v[1])
        elif k == 'if':
            self.need_lo(self.ev(s[1]), 'branch', s[1]); self.block(s[2]); self.block(s[3])
        elif k == 'loop':
            self.need_lo(self.ev(s[1]), 'loop', s[1]); self.block(s[3]); self.block(s[2])
        elif k in ('break', 'continue', 'fail'): pass
        elif k == 'return':
            if s[1] is not None:
                v = self.ev(s[1])
                if self.ret is None:
                    self.ret = ['I', LO] if v[0] == 'I' else ['P', Node()]
                self.assign(self.ret, v)
        elif k == 'alloc':
            self.need_lo(self.ev(s[2]), 'allocation', s[2])
            ct = self.t.vars[s[1]-1][1][1]
            v = self.var(s[1])
            while ct[0] == 'arr': ct = ct[1]
            if ct[0] == 'ptr': setkind(v[1], 'PP', 1)
            elif ct[0] == 'struct' and self.t.split(ct): setkind(v[1], 'S', len(self.inf.g.structs[ct[1]]))
            else: setkind(v[1], 'B')
        elif k == 'copy':
            d = setkind(self.ev(s[1])[1], 'B'); r = setkind(self.ev(s[2])[1], 'B')
            self.need_lo(self.ev(s[3]), 'length', s[3]); raise_(d, r.lab)
        elif k == 'fill':
            d = setkind(self.ev(s[1])[1], 'B'); v = self.ev(s[2]); self.need_lo(self.ev(s[3]), 'length', s[3])
            raise_(d, v[1])
        elif k == 'public':
            setkind(self.ev(s[2])[1], 'B'); self.need_lo(self.ev(s[3]), 'length', s[3])
            setkind(self.var(s[1])[1], 'B')
        elif k == 'show': self.ev(s[2]); self.var(s[1])
        elif k == 'eval': self.ev(s[1])
        elif k == 'call':
            vs = [self.ev(a) for a in s[3]]
            ct = self.inf.prog[s[2]]
            args = []
            for i, v in enumerate(vs):
                if v[0] == 'N': v = ('P', self.nulls.setdefault((id(s), i), Node()))
                args.append(v)
            save = changed[0]
            a = self.inf.summary(s[2], tuple(self.vt(v) for v in args))
            changed[0] = save
            # copy the callee's view: same classes, raised labels
            m = {}
            def tie(cn, n):
                """make the caller's node n agree with the callee's node cn"""
                cn = cn.find()
                if id(cn) in m: unify(n, m[id(cn)]); return
                m[id(cn)] = n
                if cn.kind is None: return
                x = setkind(n, cn.kind, len(cn.sub))
                raise_(x, cn.lab)
                for u, w in zip(cn.sub, list(x.find().sub)): tie(u, w)
            for v, p in zip(args, ct.params):
                if v[0] == 'P': tie(a.env[p][1], v[1])
            if s[1] is not None and a.ret is not None:
                d = self.var(s[1])
                if a.ret[0] == 'I': self.assign(d, ('I', a.ret[1]))
                else: tie(a.ret[1], d[1])
        else: raise Bad(k)

TAPE = '__tape'

class Writes(Analysis):
    """the same with labels that say whether a block may be written"""
    def need_lo(self, v, what, e): pass
    def ev(self, e):
        v = super().ev(e)
        return ('I', LO) if v[0] == 'I' and e[0] == 'load' else v
    def st(self, s):
        k = s[0]
        if k in ('store', 'copy', 'fill'):
            for x in s[1:]:
                if isinstance(x, tuple): self.ev(x)
            d = self.ev(s[2] if k == 'store' else s[1]); raise_(setkind(d[1], 'B'), HI)
            if k == 'copy': setkind(self.ev(s[2])[1], 'B')
            return
        super().st(s)
        if k in ('alloc', 'public'):
            n = self.var(s[1])[1].find()
            if n.kind == 'B': raise_(n, HI)


# ---------------------------------------------------------------- output
def collect(inf, roots):
    """the entries of the table: every function at the types at which it is called"""
    table, todo = {}, list(roots)
    while todo:
        f, args = todo.pop()
        a = inf.summary(f, args)
        if a.argtypes() != args: args = a.argtypes(); a = inf.summary(f, args)
        assert a.argtypes() == args, f
        if (f, args) in table: continue
        table[(f, args)] = a
        def walk(b):
            for s in b:
                if s[0] == 'if': walk(s[2]); walk(s[3])
                elif s[0] == 'loop': walk(s[2]); walk(s[3])
                elif s[0] == 'call':
                    vs = []
                    for i, e in enumerate(s[3]):
                        v = a.ev(e)
                        if v[0] == 'N': v = ('P', a.nulls[(id(s), i)])
                        vs.append(a.vt(v))
                    todo.append((s[2], tuple(vs)))
        walk(a.t.body)
    return table

def z(n): return str(n) if n >= 0 else f'({n})'
def ity(t):
    if t == BOOL: t = ('int', 8, False)
    return ('s' if t[2] else 'u') + str(t[1])
class Emit:
    def __init__(self, gid): self.gid = gid
    def e(self, e):
        k = e[0]
        if k == 'int': return f'(EInt {z(e[1])})'
        if k == 'var': return f'(EVar {e[1]})'
        if k == 'glob': return f'(EGlob {self.gid[e[1]]})'
        if k == 'null': return 'ENull'
        if k == 'un': return f'(EUn O{e[1]} {ity(e[2])} {self.e(e[3])})'
        if k == 'bin': return f'(EBin O{e[1]} {ity(e[2])} {self.e(e[3])} {self.e(e[4])})'
        if k == 'div': return f'(EDiv O{e[1]} {ity(e[2])} {self.e(e[3])} {self.e(e[4])})'
        if k == 'cond': return f'(ECond {self.e(e[1])} {self.e(e[2])} {self.e(e[3])})'
        if k == 'load': return f'(ELoad {e[1]} {self.e(e[2])})'
        if k == 'loadp': return f'(ELoadP {self.e(e[1])})'
        if k == 'at': return f'(EAt {self.e(e[1])} {z(e[2])} {self.e(e[3])})'
        if k == 'field': return f'(EField {self.e(e[1])} {e[2]} {e[3]})'
        if k == 'isnull': return f'(EIsNull {self.e(e[1])})'
    def s(self, s, ind):
        k = s[0]; pad = ' ' * ind
        if k == 'set': return f'{pad}SSet {s[1]} {self.e(s[2])}'
        if k == 'store': return f'{pad}SStore {s[1]} {self.e(s[2])} {self.e(s[3])}'
        if k == 'storep': return f'{pad}SStoreP {self.e(s[1])} {self.e(s[2])}'
        if k == 'storef': return f'{pad}SStoreF {self.e(s[1])} {s[2]} {s[3]} {self.e(s[4])}'
        if k == 'if': return f'{pad}SIf {self.e(s[1])}\n{self.b(s[2], ind+2)}\n{self.b(s[3], ind+2)}'
        if k == 'loop': return f'{pad}SLoop {self.e(s[1])}\n{self.b(s[2], ind+2)}\n{self.b(s[3], ind+2)}'
        if k == 'break': return f'{pad}SBreak'
        if k == 'continue': return f'{pad}SContinue'
        if k == 'fail': return f'{pad}SFail'
        if k == 'return': return f'{pad}SReturn {self.e(s[1]) if s[1] is not None else "(EInt 0)"}'
        if k == 'call':
            d = f'(Some {s[1]}%positive)' if s[1] is not None else 'None'
            return f'{pad}SCall {d} f_{s[2]} [{"; ".join(self.e(a).strip() for a in s[3])}]'
        if k == 'alloc': return f'{pad}SAlloc {s[1]} {self.e(s[2])}'
        if k == 'copy': return f'{pad}SCopy {self.e(s[1])} {self.e(s[2])} {self.e(s[3])}'
        if k == 'fill': return f'{pad}SFill {self.e(s[1])} {self.e(s[2])} {self.e(s[3])}'
        if k == 'public': return f'{pad}SPublic {s[1]} {self.e(s[2])} {self.e(s[3])}'
        if k == 'show': return f'{pad}SShow {s[1]} {self.e(s[2])}'
        if k == 'eval': return f'{pad}SEval {self.e(s[1])}'
        raise CErr(k)
    def b(self, b, ind):
        """a block as one argument"""
        if not b: return ' ' * ind + 'SSkip'
        return ' ' * ind + '(\n' + self.seq(b, ind) + ')'
    def seq(self, b, ind):
        if not b: return ' ' * ind + 'SSkip'
        if len(b) > 40:
            h = len(b) // 2
            return ' ' * ind + '(\n' + self.seq(b[:h], ind) + ') ;;\n' + ' ' * ind + '(\n' + self.seq(b[h:], ind) + ')'
        return ' ;;\n'.join(self.s(x, ind) for x in b)

GROUPS = [('CtFields', ['fields.c', 'fields.h', 'compat.h', 'endian_compat.h', 'utils.h', 'compat.c', 'x86intrin.h', 'rand_stub.c', 'libc_stub.c']),
          ('CtAes', ['aes.c', 'aes.h']),
          ('CtKeccakP', ['KeccakP-1600-opt64.c', 'KeccakP-1600-times4-on1.c']),
          ('CtKeccak', None),
          ('CtZkHash', ['universal_hashing.c', 'universal_hashing.h']),
          ('CtVole', ['vc.c', 'vc.h', 'vole.c', 'vole.h']),
          ('CtProve', ['faest_aes.c', 'faest_aes.h']),
          ('CtFaest', ['faest.c', 'owf.c', 'owf.h', 'instances.c', 'instances.h']),
          ('CtApi', ['faest_param.c.in'])]
PUBLIC = ['verify']        # handles no secrets
ROOTS = ['keygen', 'sign', 'sign_with_randomness', 'verify', 'validate_keypair', 'clear_private_key']

OUTPUTS = {'keygen': ['pk', 'sk'], 'sign': ['signature', 'signature_len'], 'sign_with_randomness': ['signature', 'signature_len'],
           'verify': [], 'validate_keypair': [], 'clear_private_key': ['key']}

def glob_bytes(g, ty, init):
    """the bytes of a constant"""
    if init is None: return [0] * g.sizeof(ty)
    if ty[0] in ('arr', 'vec'):
        el, n = (ty[1], ty[2]) if ty[0] == 'arr' else (U64, ty[1])
        out = []
        for x in init[1]: out += glob_bytes(g, el, x)
        return out + [0] * (n * g.sizeof(el) - len(out))
    if ty[0] == 'struct':
        out = [0] * g.sizeof(ty)
        for (fn, ft), x in zip(g.structs[ty[1]], init[1]):
            o, _ = g.offset(ty[1], fn); b = glob_bytes(g, ft, x); out[o:o+len(b)] = b
        return out
    if init[0] == 'init': return glob_bytes(g, ty, init[1][0])
    v = g.const(init); return list((v % (1 << (8*g.sizeof(ty)))).to_bytes(g.sizeof(ty), 'little'))

def main(pp, out):
    g = setup(pp)
    sets = sorted(f[6:-7] for f in g.funs if f.startswith('faest_') and f.endswith('_keygen'))
    roots = [f'faest_{s}_{r}' for s in sets for r in ROOTS]
    prog = reach(g, roots)
    inf, winf = Infer(g, prog, Analysis, ('__tape',)), Infer(g, prog, Writes, ('__pos',))
    start, wstart = [], []
    for r in roots:
        ts, ws = [], []
        for p in prog[r].params:
            n, t = prog[r].vars[p-1]
            ts.append(('I', LO) if t[0] != 'ptr' else ('P', ('B', LO if n == 'signature_len' else HI)))
            ws.append(('I', LO) if t[0] != 'ptr' else ('P', ('B', LO)))
        if not any(r.endswith(x) for x in PUBLIC):
            start.append((r, tuple(ts))); inf.summary(*start[-1])
        a = winf.summary(r, tuple(ws))
        for p in prog[r].params:
            n, t = prog[r].vars[p-1]
            if t[0] == 'ptr' and a.vt(a.env[p])[1] == ('B', HI) and n not in OUTPUTS[r.split('_', 2 + ('_em_' in r))[-1]]:
                print('WRITE', r, n)
        wstart.append((r, a.argtypes()))
    if inf.errors:
        for (f, a), es in inf.errors.items():
            for e in es: print('LEAK', f, prog[f].f['file'], e)
        return 1
    for n, x in winf.globs.items():
        if x.find().lab == HI and n != '__pos': print('WRITE', n); return 1
    table = collect(inf, start)
    wtable = collect(winf, wstart)
    names = sorted(prog)
    fid = {f: i + 1 for i, f in enumerate(names)}
    used = sorted(set().union(*(t.globs for t in prog.values())))
    gid = {n: i + 1 for i, n in enumerate(used)}
    em = Emit(gid)
    def w(name, txt): open(f'{out}/{name}.v', 'w').write(txt)
    gen = '(** Generated by tools/ctc/c2v.py from the sources in /repo; see DESIGN.md. *)\n'
    # names
    t = gen + '(** Numbers for the functions, as in the comments of Model/Ct*.v. *)\nFrom Coq Require Import ZArith.\nFrom Verif Require Import Model.CtLang.\nLocal Open Scope Z_scope.\n\n'
    for f in names: t += f"(** {prog[f].f['file']}:{prog[f].f['l0']} *)\nDefinition f_{f} : positive := {fid[f]}.\n"
    for s in ('s', 'u'):
        for b in (8, 16, 32, 64): t += f"Definition {s}{b} : ity := IT {'true' if s == 's' else 'false'} {b}.\n"
    t += '\nNotation "a ;; b" := (SSeq a b) (at level 100, b at level 200, right associativity).\n'
    w('CtNames', t)
    assigned = set(); mods = []
    for mod, files in GROUPS:
        mine = []
        for f in names:
            base = os.path.basename(prog[f].f['file'])
            grp = next((m for m, fl in GROUPS if fl and base in fl), 'CtKeccak')
            if grp == mod: mine.append(f)
        mine.sort(key=lambda f: (prog[f].f['file'], prog[f].f['l0'], f))
        t = gen + 'From Coq Require Import ZArith List.\nFrom Verif Require Import Model.CtLang Model.CtNames.\nImport ListNotations.\nLocal Open Scope Z_scope.\n\n'
        for f in mine:
            d = prog[f].f
            vs = ', '.join(f'{i+1} = {n}' for i, (n, _) in enumerate(prog[f].vars) if n)
            t += f"(** {d['file']}:{d['l0']}-{d['l1']}, {f}.\n    Variables: {vs}. *)\n"
            t += f"Definition c_{f} : func := Func [{'; '.join(f'{p}%positive' for p in prog[f].params)}] (\n{em.seq(prog[f].body, 2)}).\n\n"
        w(mod, t); mods.append((mod, mine))
    t = gen + 'From Coq Require Import ZArith List FMapPositive.\nFrom Verif Require Import Model.CtLang Model.CtNames ' + ' '.join('Model.' + m for m, _ in mods) + '.\nImport ListNotations.\nLocal Open Scope Z_scope.\n\n'
    t += '(** All functions. *)\nDefinition functions : list (positive * func) :=\n  [' + ';\n   '.join(f'(f_{f}, c_{f})' for f in names) + '].\n\n'
    t += 'Definition code : program := fold_right (fun p m => PositiveMap.add (fst p) (snd p) m) (PositiveMap.empty func) functions.\n\n'
    for n in used:
        ty, init, where = g.globs[n]
        if n in ('__tape', '__pos'): continue
        b = glob_bytes(g, ty if ty[0] != 'arr' or ty[2] is not None else ('arr', ty[1], len(init[1])), init)
        t += f"(** {where[0]}:{where[1]}, {n} (block {gid[n]}) *)\nDefinition g_{n.replace('.', '_')} : list Z := [{'; '.join(map(str, b))}].\n"
    t += '\n(** The constants and their blocks. *)\nDefinition constants : list (positive * list Z) :=\n  [' + '; '.join(f"({gid[n]}%positive, g_{n.replace('.', '_')})" for n in used if n not in ('__tape', '__pos')) + '].\n'
    t += f"\n(** The bytes of the random source (tools/ctc/inc/rand_stub.c) and how many were used. *)\nDefinition tape : positive := {gid['__tape']}.\nDefinition tape_pos : positive := {gid['__pos']}.\n"
    t += f'(** The blocks up to this one are the constants and the random source. *)\nDefinition last_global : positive := {len(used)}.\n'
    w('CtProgram', t)
    # the tables
    def write_table(table, mod, note, imports, labels):
        tys = {}; order = []
        def pt(ty):
            if ty[0] == 'U': ty = ('B', LO)
            if ty in tys: return tys[ty]
            if ty[0] == 'B': s = f"PBytes {'true' if ty[1] else 'false'}"
            elif ty[0] == 'PP': s = f'PPtrs {pt(ty[1])}'
            else:
                s = 'PNil'
                for x in reversed([pt(x) for x in ty[1:]]): s = f'PCons {x} ({s})' if s != 'PNil' else f'PCons {x} PNil'
                s = f'PStruct ({s})'
            n = f'p{len(tys)}'; tys[ty] = n; order.append((n, s)); return n
        def vt(v): return ('hi' if v[1] else 'lo') if v[0] == 'I' else f'(TPtr {pt(v[1])})'
        ents = []
        for (f, args), a in sorted(table.items()):
            for i in range(len(a.t.vars)): a.var(i + 1)
            vs = '; '.join(f'({i+1}%positive, {vt(a.vt(a.env[i+1]))})' for i in range(len(a.t.vars)))
            r = a.rettype() or ('I', LO)
            ents.append(f"Entry f_{f} (Sig [{'; '.join(vt(x) for x in args)}] {vt(r)})\n     [{vs}]")
        t = gen + f'(** {note} *)\nFrom Coq Require Import ZArith List.\nFrom Verif Require Import Model.CtLang Model.CtNames {imports}.\nImport ListNotations.\n\n{labels}'
        for n, s in order: t += f'Definition {n} := {s}.\n'
        t += '\nDefinition entries : list entry :=\n  [' + ';\n   '.join(ents) + '].\n'
        open(f'{out}/../Proof/{mod}.v', 'w').write(t)
        return len(tys)
    n = write_table(table, 'CtEntries', 'Types of the variables of each function; checked in Proof/CtTable.', 'Proof.CtCheck',
                    'Definition lo := TInt false.\nDefinition hi := TInt true.\n')
    write_table(wtable, 'FpEntries', 'Types of the variables of each function, for the footprint; checked in Proof/FpTable.', 'Proof.CtCheck',
                'Definition lo := TInt false.\n')
    print(len(prog), 'functions', len(table), len(wtable), 'entries', len(used), 'constants', n, 'types')
    return 0

if __name__ == '__main__':
    sys.exit(main(sys.argv[1], sys.argv[2]))
