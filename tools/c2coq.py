"""Prints the functions of /repo/include/cglm as terms of the mini-C syntax of
rocq/theories/MiniC.v.  The headers are only read as text."""
import sys, os, re
from fractions import Fraction
sys.path.insert(0, os.path.dirname(os.path.abspath(__file__)))
from cparse import *
from intrin import simd_call

COMMON = {'CGLM_ALIGN(X)': '', 'CGLM_INLINE': 'static inline', 'CGLM_UNLIKELY(e)': '(e)', 'CGLM_EXPORT': '',
          '__STDC_VERSION__': '201112L', 'CGLM_CASTPTR_ASSUME_ALIGNED(e,t)': '((t*)(e))', 'cglm_io_h': '1',
          '_MM_SHUFFLE(z,y,x,w)': '(((z) << 6) | ((y) << 4) | ((x) << 2) | (w))'}
PP.frozen = {'CGLM_ALIGN', 'CGLM_INLINE', 'CGLM_UNLIKELY', 'CGLM_LIKELY', 'CGLM_EXPORT', 'CGLM_CASTPTR_ASSUME_ALIGNED', 'cglm_io_h'}
CFG = {'scalar': {}, 'sse2': {'__SSE__': '1', '__SSE2__': '1'}, 'sse3': {'__SSE__': '1', '__SSE2__': '1', '__SSE3__': '1'},
       'avx': {'__SSE__': '1', '__SSE2__': '1', '__AVX__': '1'},
       'fma': {'__SSE__': '1', '__SSE2__': '1', '__AVX__': '1', '__AVX2__': '1', '__FMA__': '1'},
       'neon': {'__ARM_NEON': '1', '__ARM_FP': '1', '__aarch64__': '1'},
       'neon32': {'__ARM_NEON': '1', '__ARM_FP': '1'}, 'wasm': {'__wasm__': '1', '__wasm_simd128__': '1'},
       'rh_zo': {'CGLM_FORCE_DEPTH_ZERO_TO_ONE': '1'}, 'lh_no': {'CGLM_FORCE_LEFT_HANDED': '1'},
       'lh_zo': {'CGLM_FORCE_DEPTH_ZERO_TO_ONE': '1', 'CGLM_FORCE_LEFT_HANDED': '1'},
       'fast': {'__FAST_MATH__': '1'}, 'eps': {'CGLM_USE_DEFAULT_EPSILON': '1'}}
ROOT = '/repo/include/cglm'

class Bad(Exception): pass

V2, V3, V4 = ptr(FLOAT), ptr(FLOAT), ptr(FLOAT)
NOISE = {'permute': 2, 'fade_vec4': 2, 'fade_vec3': 2, 'fade_vec2': 2, 'taylorInvSqrt': 2, 'gradNorm_vec4': 4,
         'gradNorm_vec3': 4, 'gradNorm_vec2': 4, 'i2gxyzw': 5, 'i2gxyz': 4, 'i2gxy': 3}

def parse(cfg, extra=()):
    d = dict(COMMON); d.update(CFG[cfg])
    pp = PP(ROOT, d, ('glm__noiseDetail_',))
    pp.file('cglm.h')
    for e in extra: pp.file(e)
    p = P(pp.out); p.top()
    # the statement macros of noise.h become functions of their array arguments
    kept = []
    for name, (params, toks, path, l0, l1) in pp.kept.items():
        short = name.replace('glm__noiseDetail_', '')
        if short not in NOISE or NOISE[short] != len(params): raise Bad('noise macro ' + name)
        q = P(toks); q.types = p.types
        body = q.block()
        # no local of the macro may capture an argument: the locals must not be used as
        # parameter names and callers' argument names must differ (checked at call sites)
        f = dict(name=name, ret=VOID, params=[(a, ptr(FLOAT)) for a in params], body=body, file=path, l0=l0, l1=l1, macro=True)
        p.funcs[name] = f; p.order.append(name)
    return p

MATH1 = {'sinf': 'OSin', 'cosf': 'OCos', 'tanf': 'OTan', 'asinf': 'OAsin', 'acosf': 'OAcos', 'atanf': 'OAtan',
         'sqrtf': 'OSqrt', 'fabsf': 'OAbs', 'floorf': 'OFloor'}
MATH2 = {'atan2f': 'OAtan2', 'fmodf': 'OFmod', 'powf': 'OPow', 'fminf': 'OFmin'}

IB = {'+': '+', '-': '-', '*': '*', '/': '/'}
NAMED = {'%': 'IRem', '&': 'IAnd', '|': 'IOr', '<<': 'IShl', '>>': 'IShr'}
CMP = {'<': '<', '>': '>', '<=': '<=', '>=': '>=', '==': '==', '!=': '!='}

def lit(fr):
    n, d = fr.numerator, fr.denominator
    return '(EF %s %d)' % (n if n >= 0 else '(%d)' % n, d)

def flit(s):
    t = s.rstrip('fFlL')
    if t.startswith('3.14159265'): return '(EPi 1 1)'
    if t.startswith('1.57079632'): return '(EPi 1 2)'
    if t.startswith('0.78539816'): return '(EPi 1 4)'
    return lit(Fraction(t))

def zs(n): return str(n) if n >= 0 else '(%d)' % n
def q(s): return '"%s"' % s

def has_assign(e):
    if isinstance(e, tuple):
        if e and e[0] == 'assign': return True
        return any(has_assign(x) for x in e)
    if isinstance(e, list): return any(has_assign(x) for x in e)
    return False

class Lower:
    def __init__(self, p, f):
        self.p, self.f = p, f
        self.locals = []       # (coq name, size or None)
        self.scope = [{}]      # C name -> (coq name, type, kind) kind: 'var' | 'cell' | 'blk'
        self.names = set(); self.calls = []; self.pre = []; self.ntmp = 0
        self.macro = f.get('macro'); self.ivec = {}
        self.addrtaken = set(); self.find_addr(f['body'])
        self.params = []
        for n, t in f['params']:
            self.names.add(n)
            if t[0] == 'agg':
                self.params.append('(%s, Some %d%%nat)' % (q(n), t[2])); self.scope[0][n] = (n, t, 'blk')
            else:
                if n in self.addrtaken and t[0] != 'ptr': raise Bad('address of parameter ' + n)
                self.params.append('(%s, None)' % q(n)); self.scope[0][n] = (n, t, 'var')
    def find_addr(self, e):
        if isinstance(e, tuple):
            # broadcast of a variable: the load is modelled as its value
            if e and e[0] == 'call' and e[1] in (('id', '_mm_broadcast_ss'), ('id', '_mm256_broadcast_ss')) and e[2][0][0] == 'addr' and e[2][0][1][0] == 'id': return
            if e and e[0] == 'addr' and e[1][0] == 'id': self.addrtaken.add(e[1][1])
            for x in e: self.find_addr(x)
        elif isinstance(e, list):
            for x in e: self.find_addr(x)
    def look(self, n):
        for s in reversed(self.scope):
            if n in s: return s[n]
        return None
    def declare(self, n, t):
        cn = n; k = 1
        while cn in self.names: k += 1; cn = '%s_%d' % (n, k)
        self.names.add(cn)
        if t[0] in ('arr', 'agg'): self.locals.append((cn, size(t))); kind = 'blk'
        elif n in self.addrtaken: self.locals.append((cn, 1)); kind = 'cell'
        else: self.locals.append((cn, None)); kind = 'var'
        self.scope[-1][n] = (cn, t, kind)
        return self.scope[-1][n]
    def temp(self, t):
        self.ntmp += 1
        n = 'tmp%d' % self.ntmp
        return self.declare('%' + n, t) if False else self.declare(n, t)
    # ---- expressions: return (coq text, type)
    def rv(self, e):
        k = e[0]
        if k == 'int': return '(EI %s)' % zs(e[1]), INT
        if k == 'flit': return flit(e[1]), FLOAT
        if k == 'id':
            v = self.look(e[1])
            if v:
                cn, t, kind = v
                if kind == 'cell': return '!%s' % q(cn), t
                return q(cn), t
            if e[1] in self.p.enums: return '(EI %s)' % zs(self.p.enums[e[1]]), INT
            if e[1] == 'true': return '(EB true)', BOOL
            if e[1] == 'false': return '(EB false)', BOOL
            if e[1] == 'FLT_EPSILON': return lit(Fraction(1, 2**23)), FLOAT
            if e[1] == 'FLT_MAX': return lit(Fraction((2**24 - 1) * 2**104)), FLOAT
            raise Bad('id ' + e[1])
        if k == 'index' and e[1][0] == 'member' and e[1][2] == 'val':
            b, t = self.rv(e[1][1])
            if t[0] != 'simdn': raise Bad('val')
            return 'builtin (PProj %d)$(%s)' % (self.p.const(e[2]), b), ('simd', t[2])
        if k in ('index', 'deref'):
            a, t = self.lv(e)
            if t[0] in ('arr', 'agg'): return a, t
            if t[0] == 'simd': raise Bad('simd deref')
            return '!' + a, t
        if k == 'member':
            if e[1][0] != 'call':
                b, t = self.rv(e[1])
                if t[0] == 'simdn': return b, ('val', t)
            a, t = self.lv(e)
            if t[0] in ('arr', 'agg'): return a, t
            return '!' + a, t
        if k == 'addr':
            a, t = self.lv(e[1]); return a, ptr(t)
        if k == 'neg':
            if e[1][0] == 'flit' and not flit(e[1][1]).startswith('(EPi'):
                a, t = self.rv(e[1]); return '(- %s)' % a, t
            a, t = self.rv(e[1])
            if t == BOOL: a, t = '(ECast TyI %s)' % a, INT
            if t not in (FLOAT, INT): raise Bad('neg %r' % (t,))
            return '(- %s)' % a, t
        if k == 'not': return '(ENot %s)' % self.cond(e[1]), BOOL
        if k == 'bin': return self.binop(e)
        if k == 'cast':
            a, t = self.rv(e[2]); return self.cast(a, t, e[1]), e[1]
        if k == 'cond':
            c = self.cond(e[1])
            n = len(self.pre)
            a, ta = self.rv(e[2]); b, tb = self.rv(e[3])
            if len(self.pre) != n: raise Bad('hoist inside ?:')
            t = self.join(ta, tb)
            return '(ECond %s %s %s)' % (c, self.cast(a, ta, t), self.cast(b, tb, t)), t
        if k == 'call': return self.call(e)
        if k == 'complit':
            t = e[1]
            cn, t, kind = self.temp(t)
            self.pre += self.init(q(cn), t, e[2], True)
            return q(cn), t
        if k == 'assign':
            # value of an assignment expression: hoisted in front of the statement
            self.pre += self.assign(e)
            return self.rv(e[2])
        raise Bad('expr ' + k)
    def join(self, a, b):
        if a == b: return a
        s = {a, b}
        if FLOAT in s and s <= {FLOAT, INT, BOOL, ('double',)}: return FLOAT
        if s <= {INT, BOOL}: return INT
        raise Bad('join %r %r' % (a, b))
    def cast(self, a, t, to):
        if to == ('double',): to = FLOAT
        if t == ('double',): t = FLOAT
        if t == to: return a
        if to == FLOAT and t in (INT, BOOL):
            m = re.match(r'\(EI \(?(-?\d+)\)?\)$', a)
            return '(ECast TyF %s)' % a
        if to == INT and t == BOOL: return '(ECast TyI %s)' % a
        if to == BOOL and t == INT: return '(ECast TyB %s)' % a
        if to == INT and t == FLOAT: return '(ECast TyI %s)' % a
        if to == BOOL and t[0] == 'ptr': return '(ECast TyB %s)' % a
        if to[0] == 'ptr' and t[0] in ('ptr', 'arr'): return a
        if to[0] == 'simd' and t[0] == 'simd': return a
        if to[0] == 'agg' and t[0] == 'agg' and to == t: return a
        raise Bad('cast %r -> %r' % (t, to))
    def cond(self, e):
        a, t = self.rv(e)
        if t == BOOL: return a
        if t == INT or t[0] == 'ptr': return '(ECast TyB %s)' % a
        if t == FLOAT: return '(%s != (EF 0 1))' % a
        raise Bad('cond %r' % (t,))
    def binop(self, e):
        o = e[1]
        if o in ('&&', '||'):
            a = self.cond(e[2]); n = len(self.pre); b = self.cond(e[3])
            if len(self.pre) != n: raise Bad('hoist inside &&')
            return '(%s %s %s)' % ('EAnd' if o == '&&' else 'EOr', a, b), BOOL
        a, ta = self.rv(e[2])
        b, tb = self.rv(e[3])
        if o in ('+', '-') and ta[0] in ('ptr', 'arr') and tb == INT:
            el = ta[1] if ta[0] == 'ptr' else ta[2]
            ix = b if o == '+' else '(- %s)' % b
            return '(EIx %s %d %s)' % (a, size(el), ix), ptr(el)
        if 'simd' in (ta[0], tb[0]): raise Bad('simd operator')
        t = self.join(ta, tb)
        if t == BOOL: t = INT
        a, b = self.cast(a, ta, t), self.cast(b, tb, t)
        if o in IB: return '(%s %s %s)' % (a, IB[o], b), t
        if o in CMP: return '(%s %s %s)' % (a, CMP[o], b), BOOL
        if o in NAMED:
            if t != INT: raise Bad('int op')
            return '(EBin (BArith %s) %s %s)' % (NAMED[o], a, b), INT
        raise Bad('op ' + o)
    def lv(self, e):
        """address of an lvalue: (coq text, type of the object)"""
        k = e[0]
        if k == 'id':
            v = self.look(e[1])
            if not v: raise Bad('lv id ' + e[1])
            cn, t, kind = v
            if kind == 'var': raise Bad('address of variable ' + e[1])
            return q(cn), t
        if k == 'index':
            a, t = self.rv(e[1])
            if t[0] == 'val':
                raise Bad('val lv')
            if t[0] == 'arr': el = t[2]
            elif t[0] == 'ptr': el = t[1]
            else: raise Bad('index %r' % (t,))
            s = size(el)
            i = e[2]
            try: n = self.p.const(i)
            except SyntaxError: n = None
            if n is not None and n >= 0:
                return ('%s.[%d]' % (a, n) if s == 1 else '%s.[%d:%d]' % (a, n, s)), el
            ix, ti = self.rv(i)
            ix = self.cast(ix, ti, INT)
            return '(EIx %s %d %s)' % (a, s, ix), el
        if k == 'deref':
            a, t = self.rv(e[1])
            if t[0] == 'ptr': return a, t[1]
            if t[0] == 'arr': return a, t[2]
            raise Bad('deref')
        if k == 'member':
            if e[1][0] == 'call':
                a, t = self.rv(e[1])
                if t[0] != 'agg': raise Bad('member of call')
                cn, _, _ = self.temp(t)
                self.pre.append('SStA %d %s %s' % (size(t), q(cn), a)); a = q(cn)
            else: a, t = self.lv(e[1])
            if t[0] != 'agg': raise Bad('member %r' % (t,))
            off, mt = self.p.members[t[1]][e[2]]
            return ('%s.[%d]' % (a, off) if off else a), mt
        if k == 'complit': return self.rv(e)
        raise Bad('lv ' + k)
    def value(self, e, t):
        """rvalue converted to type t (aggregates are loaded)"""
        if t[0] == 'simd' and e[0] == 'init':
            # the sign masks of simd/arm.h
            neg = []
            for x in e[1]:
                y = x[1] if x[0] == 'neg' else x
                if y[0] != 'flit' or float(y[1].rstrip('f')) != 0: raise Bad('vector initialiser')
                neg.append('true' if x[0] == 'neg' else 'false')
            if len(neg) != t[1]: raise Bad('vector initialiser')
            return 'builtin (PVsigns [%s])$()' % '; '.join(neg)
        if t[0] == 'agg' :
            a, ta = self.rv(e)
            if ta != t: raise Bad('agg type %r %r' % (ta, t))
            if e[0] in ('call',): return a
            return '(ELdA %d %s)' % (size(t), a)
        a, ta = self.rv(e)
        if ta[0] == 'val' : raise Bad('val')
        return self.cast(a, ta, t)
    def call(self, e):
        if e[1][0] != 'id': raise Bad('indirect call')
        fn = e[1][1]; args = e[2]
        if fn in self.p.funcs:
            g = self.p.funcs[fn]
            if len(g['params']) != len(args): raise Bad('arity ' + fn)
            self.calls.append(fn)
            if g.get('macro'):
                loc = set()
                def decls(s):
                    if isinstance(s, tuple):
                        if s and s[0] == 'decl': loc.update(x[0] for x in s[1])
                        for x in s: decls(x)
                    elif isinstance(s, list):
                        for x in s: decls(x)
                decls(g['body'])
                for a in args:
                    if not (a[0] == 'id' or a[0] == 'index'): raise Bad('macro arg')
                    b = a
                    while b[0] == 'index': b = b[1]
                    if b[1] in loc: raise Bad('macro capture %s %s' % (fn, b[1]))
            vs = [self.value(a, t) for a, (n, t) in zip(args, g['params'])]
            return '%s$(%s)' % (fn, ', '.join(vs)), g['ret']
        if fn in MATH1: return 'builtin (PF1 %s)$(%s)' % (MATH1[fn], self.value(args[0], FLOAT)), FLOAT
        if fn in MATH2: return 'builtin (PF2 %s)$(%s, %s)' % (MATH2[fn], self.value(args[0], FLOAT), self.value(args[1], FLOAT)), FLOAT
        if fn in ('isnan', 'isinf'):
            return 'builtin (PTest %s)$(%s)' % ('TNan' if fn == 'isnan' else 'TInf', self.value(args[0], FLOAT)), BOOL
        if fn == 'abs': return 'builtin PAbsI$(%s)' % self.value(args[0], INT), INT
        if fn == 'modff':
            a = self.value(args[0], FLOAT)
            b, tb = self.rv(args[1])
            # modff(x, p): stores the integral part, returns the fractional part
            self.pre.append('%s ::= builtin (PF1 OModi)$(%s)' % (b, a))
            return 'builtin (PF1 OModf)$(%s)' % a, FLOAT
        r = simd_call(self, fn, args)
        if r: return r
        raise Bad('call ' + fn)
    # ---- statements: lists of coq statements
    def flush(self):
        r, self.pre = self.pre, []; return r
    def assign(self, e):
        _, o, l, r = e
        out = []
        if r[0] == 'assign':
            out += self.assign(r); r = r[2]
        if o != '=': r = ('bin', o[0], l, r)
        v = self.look(l[1]) if l[0] == 'id' else None
        if r[0] == 'call' and r[1] == ('id', '_mm256_set_epi32') and v and v[1] == ('simd', 8):
            # constant index vector of a permutation, set once
            if l[1] in self.ivec: raise Bad('index vector set twice')
            self.ivec[l[1]] = r; return out
        if v and v[2] == 'var':
            a = self.value(r, v[1])
            return out + self.flush() + ['%s <~ %s' % (q(v[0]), a)]
        a, t = self.lv(l)
        b = self.value(r, t)
        out += self.flush()
        if t[0] == 'agg': out.append('SStA %d %s %s' % (size(t), a, b))
        elif t[0] == 'arr': raise Bad('array assign')
        else: out.append('%s ::= %s' % (a, b))
        return out
    def init(self, a, t, i, zero):
        """stores initialising the object of type t at address a"""
        out = []
        if t[0] == 'arr':
            if i[0] != 'init': raise Bad('array init')
            items = list(i[1]); el = t[2]; s = size(el)
            if el[0] == 'arr' and items and items[0][0] != 'init':
                if len(items) == 1 and items[0] in (('int', 0), ('flit', '0.0f')): items = []
                else:
                    n = el[1]
                    if el[2][0] == 'arr': raise Bad('init')
                    items = [('init', items[j:j+n]) for j in range(0, len(items), n)]
            for j in range(t[1]):
                aj = '%s.[%d]' % (a, j) if s == 1 else '%s.[%d:%d]' % (a, j, s)
                if j < len(items): out += self.init(aj, el, items[j], zero)
                else: out += self.init(aj, el, ('init', []) if el[0] in ('arr', 'agg') else ('flit', '0.0f') if el == FLOAT else ('int', 0), zero)
            return out
        if t[0] == 'agg':
            if i[0] != 'init':
                b = self.value(i, t); return self.flush() + ['SStA %d %s %s' % (size(t), a, b)]
            mem = self.p.members[t[1]]
            ft = mem['raw'][1] if 'raw' in mem else None
            if ft is None: raise Bad('agg init')
            if ft[0] == 'ptr': raise Bad('agg init ptr')
            items = i[1]
            if len(items) == 1 and items[0][0] == 'init': return self.init(a, ft, items[0], zero)
            return self.init(a, ft, i, zero)
        b = self.value(i, t)
        return self.flush() + ['%s ::= %s' % (a, b)]
    def stmt(self, s):
        k = s[0]
        if k == 'block':
            self.scope.append({}); r = []
            for x in s[1]: r += self.stmt(x)
            self.scope.pop(); return r
        if k == 'decl':
            r = []
            for n, t, i in s[1]:
                v = None
                if i is None: self.declare(n, t); continue
                if t[0] in ('arr', 'agg') :
                    v = self.declare(n, t)
                    r += self.init(q(v[0]), t, i, True)
                else:
                    a = self.value(i, t); r += self.flush()
                    v = self.declare(n, t)
                    if v[2] == 'cell': r.append('%s ::= %s' % (q(v[0]), a))
                    else: r.append('%s <~ %s' % (q(v[0]), a))
            return r
        if k == 'expr':
            e = s[1]
            if e[0] == 'assign': return self.assign(e)
            if e[0] == 'comma': return self.stmt(('expr', e[1])) + self.stmt(('expr', e[2]))
            if e[0] == 'cast' and e[1] == VOID: return []
            if e[0] == 'call' :
                st = simd_call(self, e[1][1], e[2], True) if e[1][0] == 'id' and e[1][1] not in self.p.funcs else None
                if st: return self.flush() + st
            a, t = self.rv(e)
            return self.flush() + ['SExp %s' % a]
        if k == 'return':
            if s[1] is None: return ['SRet0']
            if self.f['ret'] == VOID:
                a, t = self.rv(s[1]); return self.flush() + ['SExp %s' % a, 'SRet0']
            a = self.value(s[1], self.f['ret'])
            return self.flush() + ['SRet %s' % par(a)]
        if k == 'assert':
            c = s[1]
            while c[0] == 'bin' and c[1] == '&&' and c[3][0] == 'str': c = c[2]
            a = self.cond(c); return self.flush() + ['SAssert %s' % a]
        if k == 'if':
            c = self.cond(s[1]); pre = self.flush()
            a = self.stmt(s[2]); b = self.stmt(s[3]) if s[3] else []
            return pre + [('if', c, a, b)]
        if k == 'for':
            init = s[1]
            self.scope.append({}); r = []
            if init[0] == 'decl':
                (n, t, i), = init[1]
                if t != INT: raise Bad('loop var')
                lo = self.value(i, INT); self.declare(n, t)
            else:
                a = init[1]
                if a[0] != 'assign' or a[1] != '=' or a[2][0] != 'id': raise Bad('loop init')
                n = a[2][1]; lo = self.value(a[3], INT)
            v = self.look(n)
            c = s[2]
            if not (c[0] == 'bin' and c[1] in ('<', '<=') and c[2] == ('id', n)): raise Bad('loop cond %r' % (c,))
            hi = self.value(c[3], INT)
            if c[1] == '<=': hi = '(%s + EI 1)' % hi
            u = s[3]
            if u not in (('postinc', '++', ('id', n)), ('preinc', '++', ('id', n))): raise Bad('loop step')
            def ids(e, acc):
                if isinstance(e, tuple):
                    if e and e[0] == 'id': acc.add(e[1])
                    for x in e: ids(x, acc)
                elif isinstance(e, list):
                    for x in e: ids(x, acc)
                return acc
            def asg(e, acc):
                if isinstance(e, tuple):
                    if e and e[0] == 'assign' and e[2][0] == 'id': acc.add(e[2][1])
                    if e and e[0] in ('postinc', 'preinc'): acc.add(e[2][1])
                    for x in e: asg(x, acc)
                elif isinstance(e, list):
                    for x in e: asg(x, acc)
                return acc
            if (ids(c[3], set()) | {n}) & asg(s[4], set()): raise Bad('loop bound modified')
            pre = self.flush()
            body = self.stmt(s[4])
            self.scope.pop()
            return pre + [('for', v[0], lo, hi, body)]
        if k == 'switch':
            e, t = self.rv(s[1]); pre = self.flush()
            if t != INT: raise Bad('switch')
            if not e.startswith('"'):
                v = self.temp(INT); pre.append('%s <~ %s' % (q(v[0]), e)); e = q(v[0])
            groups = []; labels = []
            for v, body in s[2]:
                labels.append(v)
                if body: groups.append((labels, body)); labels = []
            if labels: groups.append((labels, [('break',)]))
            def nobreak(x):
                if isinstance(x, tuple):
                    if x == ('break',): raise Bad('break')
                    for y in x: nobreak(y)
                elif isinstance(x, list):
                    for y in x: nobreak(y)
            res = []
            for gi in reversed(range(len(groups))):
                labels, body = groups[gi]
                if body[-1] == ('break',): body = body[:-1]
                elif body[-1][0] == 'return' or gi == len(groups) - 1: pass
                elif body[-1][0] == 'block' and body[-1][1] and body[-1][1][-1] == ('break',):
                    body = body[:-1] + [('block', body[-1][1][:-1])]
                else: raise Bad('fallthrough')
                nobreak(body)
                b = self.stmt(('block', body))
                if None in labels:
                    if gi != len(groups) - 1: raise Bad('default not last')
                    res = b; continue
                cs = ['(%s == %s)' % (e, self.rv(v)[0]) for v in labels]
                c = cs[-1]
                for x in reversed(cs[:-1]): c = '(EOr %s %s)' % (x, c)
                res = [('if', c, b, res)]
            return pre + res
        raise Bad('stmt ' + k)
    def run(self):
        b = self.stmt(self.f['body'])
        return b

def par(a):
    return a

def show(b, ind):
    pad = ' ' * ind
    if not b: return pad + 'SSkip'
    out = []
    for s in b:
        if isinstance(s, str): out.append(pad + s)
        elif s[0] == 'if':
            out.append('%s(SIf %s (\n%s\n%s) (\n%s\n%s))' % (pad, s[1], show(s[2], ind + 2), pad, show(s[3], ind + 2), pad))
        elif s[0] == 'for':
            out.append('%s(SFor %s %s %s (\n%s\n%s))' % (pad, q(s[1]), s[2], s[3], show(s[4], ind + 2), pad))
    return ' ;;\n'.join(out)

def emit(p, f):
    L = Lower(p, f)
    b = L.run()
    ls = ['(%s, %s)' % (q(n), 'None' if s is None else 'Some %d%%nat' % s) for n, s in L.locals]
    txt = '(* %s:%d-%d *)\nDefinition %s : fundef := Fun\n  [%s]\n  [%s] (\n%s\n  ).\n' % (
        f['file'], f['l0'], f['l1'], f['name'], '; '.join(L.params), '; '.join(ls), show(b, 4))
    return txt, L.calls

HEAD = '''From Coq Require Import String List ZArith.
From Verif Require Import MiniC%s.
Import ListNotations.
Open Scope string_scope.
Open Scope Z_scope.
Open Scope mc_scope.
'''
