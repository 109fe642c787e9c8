"""Reads C headers as text: a small preprocessor and a parser for the subset of
C used by cglm.  Nothing is compiled or executed."""
import re, os

TOK = re.compile(r'''
  (?P<num>(?:0[xX][0-9a-fA-F]+|(?:\d+\.\d*|\.\d+|\d+)(?:[eE][+-]?\d+)?)[fFuUlL]*)
 |(?P<id>[A-Za-z_]\w*)
 |(?P<str>"(?:\\.|[^"\\])*"|'(?:\\.|[^'\\])*')
 |(?P<op>\.\.\.|<<=|>>=|\+\+|--|->|<<|>>|<=|>=|==|!=|&&|\|\||\+=|-=|\*=|/=|%=|&=|\|=|\^=|\#\#|[-+*/%<>=!&|^~?:;,.(){}\[\]\#])
''', re.X)

class Tok:
    __slots__ = ('k', 's', 'f', 'l', 'hide')
    def __init__(self, k, s, f, l, hide=()):
        self.k, self.s, self.f, self.l, self.hide = k, s, f, l, hide
    def __repr__(self): return self.s

def strip_comments(text):
    out = []; i = 0; n = len(text)
    while i < n:
        if text.startswith('/*', i):
            j = text.index('*/', i) + 2
            out.append(' ' + '\n' * text.count('\n', i, j)); i = j
        elif text.startswith('//', i):
            j = text.find('\n', i); j = n if j < 0 else j
            i = j
        elif text[i] == '"':
            m = re.compile(r'"(?:\\.|[^"\\])*"').match(text, i)
            out.append(m.group(0)); i = m.end()
        else:
            out.append(text[i]); i += 1
    return ''.join(out)

def lex(s, f, l):
    r = []; i = 0
    while i < len(s):
        if s[i].isspace(): i += 1; continue
        m = TOK.match(s, i)
        if not m: raise SyntaxError('%s:%d: cannot lex %r' % (f, l, s[i:i+20]))
        r.append(Tok(m.lastgroup, m.group(0), f, l)); i = m.end()
    return r

class PP:
    """Preprocessor with a fixed set of predefined macros."""
    def __init__(self, root, defines, keep_macros=()):
        self.root = root; self.macros = {}; self.out = []; self.once = set()
        self.keep = keep_macros      # prefixes of statement macros kept as functions
        self.kept = {}
        for k, v in defines.items(): self.define_text(k, v)
    def define_text(self, k, v):
        m = re.match(r'(\w+)\(([^)]*)\)$', k)
        if m: self.macros[m.group(1)] = ([a.strip() for a in m.group(2).split(',') if a.strip()], lex(v, '<cfg>', 0))
        else: self.macros[k] = (None, lex(v, '<cfg>', 0))
    def file(self, path):
        text = strip_comments(open(os.path.join(self.root, path)).read())
        lines = text.split('\n'); i = 0
        stack = []   # (active, taken, parent_active)
        active = True
        while i < len(lines):
            l0 = i + 1; s = lines[i]; i += 1
            if s.lstrip().startswith('#'):
                while s.rstrip().endswith('\\'):
                    s = s.rstrip()[:-1] + ' ' + lines[i]; i += 1
                m = re.match(r'\s*#\s*(\w+)\s*(.*)', s)
                d, rest = m.group(1), m.group(2)
                if d in ('if', 'ifdef', 'ifndef'):
                    if not active: stack.append((active, True)); continue
                    if d == 'if': v = self.cond(rest, path, l0)
                    else:
                        v = rest.split()[0] in self.macros
                        if d == 'ifndef': v = not v
                    stack.append((active, v)); active = v
                elif d == 'elif':
                    pa, taken = stack[-1]
                    if taken: active = False
                    else:
                        active = self.cond(rest, path, l0); stack[-1] = (pa, active)
                elif d == 'else':
                    pa, taken = stack[-1]
                    active = pa and not taken; stack[-1] = (pa, True)
                elif d == 'endif':
                    active = stack.pop()[0]
                elif not active: pass
                elif d == 'define':
                    m = re.match(r'(\w+)(\(([^)]*)\))?\s*(.*)$', rest, re.S)
                    name = m.group(1)
                    if name in self.frozen: continue
                    toks = lex(m.group(4), path, l0)
                    params = None
                    if m.group(2) is not None:
                        params = [a.strip() for a in m.group(3).split(',') if a.strip()]
                    self.macros[name] = (params, toks)
                    if any(name.startswith(k) for k in self.keep) and toks and toks[0].s == '{':
                        body = self.define_lines(lines, l0)
                        self.kept[name] = (params, self.expand(body), path, l0, i)
                elif d == 'undef': self.macros.pop(rest.split()[0], None)
                elif d == 'include':
                    m = re.match(r'"([^"]+)"', rest)
                    if m:
                        p = os.path.normpath(os.path.join(os.path.dirname(path), m.group(1)))
                        self.file(p)
                continue
            if active and s.strip():
                # macro invocations may span lines: gather until parentheses balance
                j = i
                toks = lex(s, path, l0)
                while self.needs_more(toks) and j < len(lines):
                    if lines[j].lstrip().startswith('#'): break
                    toks += lex(lines[j], path, j + 1); j += 1
                i = j
                self.out += self.expand(toks)
    frozen = set()
    def define_lines(self, lines, l0):
        toks = []; i = l0 - 1; first = True
        while True:
            s = lines[i]; cont = s.rstrip().endswith('\\')
            t = s.rstrip()[:-1] if cont else s
            if first:
                t = re.sub(r'^\s*#\s*define\s+\w+\([^)]*\)', '', t); first = False
            toks += lex(t, '', i + 1); i += 1
            if not cont: return toks
    def needs_more(self, toks):
        d = 0
        for t in toks:
            if t.s == '(': d += 1
            elif t.s == ')': d -= 1
        if d > 0: return True
        return False
    def cond(self, s, path, l):
        toks = lex(s, path, l); r = []; i = 0
        while i < len(toks):
            t = toks[i]
            if t.s in ('defined', '__has_builtin'):
                if toks[i+1].s == '(': nm = toks[i+2].s; i += 4
                else: nm = toks[i+1].s; i += 2
                r.append(Tok('num', '1' if t.s == 'defined' and nm in self.macros else '0', path, l)); continue
            r.append(t); i += 1
        r = self.expand(r)
        e = []
        for t in r:
            if t.k == 'id': e.append('0')
            elif t.s == '&&': e.append(' and ')
            elif t.s == '||': e.append(' or ')
            elif t.s == '!': e.append(' not ')
            elif t.k == 'num': e.append(t.s.rstrip('uUlL'))
            else: e.append(t.s)
        return bool(eval(''.join(e)))
    def expand(self, toks):
        out = []; toks = list(toks); i = 0
        while i < len(toks):
            t = toks[i]
            if t.k == 'id' and t.s in self.macros and t.s not in t.hide:
                params, body = self.macros[t.s]
                if any(t.s.startswith(k) for k in self.keep) and t.s in self.kept:
                    out.append(t); i += 1; continue
                hide = t.hide + (t.s,)
                if params is None:
                    rep = [Tok(b.k, b.s, t.f, t.l, b.hide + hide) for b in body]
                    toks[i:i+1] = rep; continue
                if i + 1 < len(toks) and toks[i+1].s == '(':
                    args = [[]]; d = 0; j = i + 1
                    while True:
                        u = toks[j]
                        if u.s == '(':
                            d += 1
                            if d > 1: args[-1].append(u)
                        elif u.s == ')':
                            d -= 1
                            if d == 0: break
                            args[-1].append(u)
                        elif u.s == ',' and d == 1: args.append([])
                        else: args[-1].append(u)
                        j += 1
                    if len(args) == 1 and not args[0] and not params: args = []
                    va = None
                    if params and params[-1] == '...':
                        k = len(params) - 1; va = []
                        for x, a in enumerate(args[k:]):
                            if x: va.append(Tok('op', ',', t.f, t.l))
                            va += a
                        args = args[:k]; ps = params[:-1] + ['__VA_ARGS__']; args.append(va)
                    else: ps = params
                    if len(args) != len(ps): raise SyntaxError('%s:%d macro %s arity' % (t.f, t.l, t.s))
                    amap = dict(zip(ps, args)); rep = []; b = 0
                    while b < len(body):
                        u = body[b]
                        if b + 1 < len(body) and body[b+1].s == '##':
                            parts = []
                            while True:
                                u = body[b]
                                if u.s in amap: parts += [x.s for x in amap[u.s]]
                                else: parts.append(u.s)
                                b += 1
                                if b < len(body) and body[b].s == '##': b += 1
                                else: break
                            s = ''.join(parts)
                            for x in lex(s, t.f, t.l): x.hide = hide; rep.append(x)
                            continue
                        if u.s in amap:
                            ea = self.expand([Tok(x.k, x.s, x.f, x.l, x.hide) for x in amap[u.s]])
                            rep += [Tok(x.k, x.s, t.f, t.l, x.hide) for x in ea]
                        else: rep.append(Tok(u.k, u.s, t.f, t.l, u.hide + hide))
                        b += 1
                    toks[i:j+1] = rep; continue
            out.append(t); i += 1
        return out

# ------------------------------------------------------------------ types
FLOAT, INT, BOOL, VOID = ('float',), ('int',), ('bool',), ('void',)
def arr(n, t): return ('arr', n, t)
def ptr(t): return ('ptr', t)
def size(t):
    if t[0] == 'arr': return t[1] * size(t[2])
    if t[0] == 'agg': return t[2]
    return 1

BASE = {'float': FLOAT, 'double': ('double',), 'int': INT, 'bool': BOOL, 'void': VOID, 'uint32_t': INT,
        'size_t': INT, 'unsigned': INT, 'char': ('char',), 'FILE': ('FILE',), 'glm_euler_seq': INT,
        '__m128': ('simd', 4), '__m128i': ('simd', 4), '__m256': ('simd', 8), '__m256i': ('simd', 8), '__m64': ('simd', 2), 'v128_t': ('simd', 4),
        'float32x4_t': ('simd', 4), 'float32x2_t': ('simd', 2), 'uint32x4_t': ('simd', 4), 'int32x4_t': ('simd', 4),
        'uint32x2_t': ('simd', 2), 'int32x2_t': ('simd', 2),
        'float32x4x2_t': ('simdn', 2, 4), 'float32x4x4_t': ('simdn', 4, 4), 'float32x2x2_t': ('simdn', 2, 2)}
QUAL = {'const', 'static', 'inline', '__restrict', 'restrict', 'register', 'extern'}

class P:
    """Parser producing tuples; keeps a table of typedefs and struct members."""
    def __init__(self, toks):
        self.t = toks; self.i = 0
        self.types = dict(BASE); self.members = {}; self.enums = {}
        self.funcs = {}; self.order = []
    def peek(self, k=0): return self.t[self.i + k].s if self.i + k < len(self.t) else None
    def tok(self): return self.t[self.i]
    def next(self):
        x = self.t[self.i]; self.i += 1; return x
    def eat(self, s):
        if self.peek() != s:
            x = self.tok(); raise SyntaxError('%s:%d: expected %r got %r' % (x.f, x.l, s, x.s))
        return self.next()
    def skip_attr(self):
        while True:
            if self.peek() in ('__attribute', '__attribute__', '__declspec'):
                self.next(); self.parens()
            elif self.peek() in QUAL: self.next()
            else: return
    def parens(self):
        d = 0
        while True:
            s = self.next().s
            if s == '(': d += 1
            elif s == ')':
                d -= 1
                if d == 0: return
    def is_type(self):
        return self.peek() in self.types or self.peek() in QUAL or self.peek() in ('__attribute', '__attribute__', 'struct', 'union', 'enum')
    def base_type(self):
        self.skip_attr()
        s = self.next().s
        if s == 'unsigned':
            if self.peek() in ('int', 'char'): self.next()
            self.skip_attr(); return INT
        if s not in self.types:
            x = self.t[self.i-1]; raise SyntaxError('%s:%d: not a type %r' % (x.f, x.l, s))
        self.skip_attr()
        return self.types[s]
    def stars(self, t):
        while self.peek() == '*' or self.peek() in QUAL:
            if self.next().s == '*': t = ptr(t)
        self.skip_attr()
        return t
    def suffix(self, t):
        if self.peek() == '[':
            self.next()
            if self.peek() == ']': n = None
            else: n = self.const(self.cond())
            self.eat(']')
            t = self.suffix(t)
            return arr(n, t)
        return t
    def const(self, e):
        if e[0] == 'int': return e[1]
        if e[0] == 'bin': 
            a, b = self.const(e[2]), self.const(e[3])
            return {'+': a + b, '-': a - b, '*': a * b, '<<': a << b, '|': a | b, '>>': a >> b, '&': a & b}[e[1]]
        if e[0] == 'neg': return -self.const(e[1])
        if e[0] == 'cast': return self.const(e[2])
        raise SyntaxError('const %r' % (e,))
    # ---- top level
    def top(self):
        while self.i < len(self.t):
            if self.peek() == ';': self.next(); continue
            if self.peek() == 'typedef': self.typedef(); continue
            self.external()
    def typedef(self):
        self.next()
        self.skip_attr()
        if self.peek() in ('union', 'struct'):
            self.next(); self.skip_attr()
            if self.peek() != '{': self.next()
            self.skip_attr()
            t, mem = self.struct_body(True)
            self.skip_attr()
            n = self.next().s; self.eat(';')
            self.types[n] = ('agg', n, t); self.members[n] = mem
            return
        if self.peek() == 'enum':
            self.next()
            if self.peek() != '{': self.next()
            self.eat('{'); v = 0
            while self.peek() != '}':
                k = self.next().s
                if self.peek() == '=': self.next(); v = self.const(self.cond())
                self.enums[k] = v; v += 1
                if self.peek() == ',': self.next()
            self.eat('}')
            n = self.next().s; self.eat(';'); self.types[n] = INT
            return
        t = self.base_type(); t = self.stars(t)
        n = self.next().s
        t = self.suffix(t); self.eat(';')
        self.types[n] = t
    def struct_body(self, union):
        self.eat('{'); mem = {}; off = 0; mx = 0
        while self.peek() != '}':
            if self.peek() in ('struct', 'union'):
                u = self.next().s == 'union'
                sz, m2 = self.struct_body(u)
                for k, (o, t) in m2.items(): mem[k] = ((0 if union else off) + o, t)
                self.eat(';')
                mx = max(mx, sz); off += sz
                continue
            b = self.base_type()
            while True:
                t = self.stars(b)
                n = self.next().s; t = self.suffix(t)
                mem[n] = (0 if union else off, t)
                mx = max(mx, size(t)); off += size(t)
                if self.peek() == ',': self.next(); continue
                break
            self.eat(';')
        self.eat('}')
        return (mx if union else off), mem
    def external(self):
        start = self.tok()
        # static unions used as constants in simd headers
        if self.peek() in ('union', 'struct'):
            while self.next().s != ';': pass
            return
        t = self.base_type(); t = self.stars(t)
        self.skip_attr()
        nt = self.next(); name = nt.s
        if self.peek() != '(':
            t = self.suffix(t)
            if self.peek() == '=':
                self.next(); init = self.initializer()
            self.eat(';'); return
        self.eat('('); params = []
        if self.peek() == 'void' and self.peek(1) == ')': self.next()
        while self.peek() != ')':
            if self.peek() == '...': self.next(); continue
            b = self.base_type(); b = self.stars(b)
            pn = self.next().s if self.peek() not in (',', ')', '[') else None
            b = self.suffix(b)
            if b[0] == 'arr': b = ptr(b[2])      # array parameters decay
            params.append((pn, b))
            if self.peek() == ',': self.next()
        self.eat(')'); self.skip_attr()
        if self.peek() == ';': self.next(); return
        i0 = self.i
        body = self.block()
        end = self.t[self.i-1]
        self.funcs[name] = dict(name=name, ret=t, params=params, body=body, file=nt.f, l0=nt.l, l1=end.l)
        self.order.append(name)
    # ---- statements
    def block(self):
        self.eat('{'); r = []
        while self.peek() != '}': r.append(self.stmt())
        self.eat('}')
        return ('block', r)
    def stmt(self):
        s = self.peek(); l = self.tok().l
        if s == '{': return self.block()
        if s == ';': self.next(); return ('block', [])
        if s == 'return':
            self.next()
            e = None if self.peek() == ';' else self.expr()
            self.eat(';'); return ('return', e)
        if s == 'if':
            self.next(); self.eat('('); c = self.expr(); self.eat(')')
            a = self.stmt(); b = None
            if self.peek() == 'else': self.next(); b = self.stmt()
            return ('if', c, a, b)
        if s == 'for':
            self.next(); self.eat('(')
            if self.is_type(): init = self.decl()
            else: init = ('expr', self.expr()); self.eat(';')
            c = self.expr(); self.eat(';'); u = self.expr(); self.eat(')')
            return ('for', init, c, u, self.stmt())
        if s == 'while' or s == 'do': raise SyntaxError('loop')
        if s == 'switch':
            self.next(); self.eat('('); e = self.expr(); self.eat(')'); self.eat('{')
            cases = []; 
            while self.peek() != '}':
                if self.peek() == 'case':
                    self.next(); v = self.cond(); self.eat(':'); cases.append([v, []])
                elif self.peek() == 'default':
                    self.next(); self.eat(':'); cases.append([None, []])
                else: cases[-1][1].append(self.stmt())
            self.eat('}')
            return ('switch', e, cases)
        if s == 'break': self.next(); self.eat(';'); return ('break',)
        if s == 'assert' or s == '__assert':
            self.next(); self.eat('('); e = self.expr(); self.eat(')'); self.eat(';')
            return ('assert', e)
        if self.is_type() and not self.peek(1) == '(': return self.decl()
        e = self.expr(); self.eat(';')
        return ('expr', e)
    def decl(self):
        b = self.base_type(); r = []
        while True:
            t = self.stars(b); n = self.next().s; t = self.suffix(t)
            self.skip_attr()
            init = None
            if self.peek() == '=': self.next(); init = self.initializer()
            if t[0] == 'arr' and t[1] is None: t = arr(len(init[1]), t[2])
            r.append((n, t, init))
            if self.peek() == ',': self.next(); continue
            break
        self.eat(';')
        return ('decl', r)
    def initializer(self):
        if self.peek() == '{':
            self.next(); r = []
            while self.peek() != '}':
                if self.peek() == '.':
                    self.next(); self.next(); self.eat('=')
                r.append(self.initializer())
                if self.peek() == ',': self.next()
            self.eat('}'); return ('init', r)
        return self.assign()
    # ---- expressions
    def expr(self):
        e = self.assign()
        while self.peek() == ',':
            self.next(); e = ('comma', e, self.assign())
        return e
    def assign(self):
        e = self.cond()
        if self.peek() in ('=', '+=', '-=', '*=', '/=', '%='):
            o = self.next().s
            return ('assign', o, e, self.assign())
        return e
    def cond(self):
        c = self.binary(0)
        if self.peek() == '?':
            self.next(); a = self.expr(); self.eat(':'); b = self.cond()
            return ('cond', c, a, b)
        return c
    PREC = [['||'], ['&&'], ['|'], ['^'], ['&'], ['==', '!='], ['<', '>', '<=', '>='], ['<<', '>>'], ['+', '-'], ['*', '/', '%']]
    def binary(self, k):
        if k == len(self.PREC): return self.unary()
        e = self.binary(k + 1)
        while self.peek() in self.PREC[k] and self.tok().k == 'op':
            o = self.next().s
            e = ('bin', o, e, self.binary(k + 1))
        return e
    def unary(self):
        s = self.peek()
        if s == '-': self.next(); return ('neg', self.unary())
        if s == '+': self.next(); return self.unary()
        if s == '!': self.next(); return ('not', self.unary())
        if s == '~': self.next(); return ('bnot', self.unary())
        if s == '*': self.next(); return ('deref', self.unary())
        if s == '&': self.next(); return ('addr', self.unary())
        if s in ('++', '--'): self.next(); return ('preinc', s, self.unary())
        if s == '(' and (self.peek(1) in self.types or self.peek(1) in QUAL) and self.peek(2) != '(':
            self.next(); t = self.base_type(); t = self.stars(t)
            t = self.suffix(t)
            self.eat(')')
            if self.peek() == '{': return self.postfix(('complit', t, self.initializer()))
            return ('cast', t, self.unary())
        if s == 'sizeof' or s == '__alignof__' or s == 'alignof':
            self.next(); self.parens(); return ('int', 0)
        return self.postfix(self.primary())
    def postfix(self, e):
        while True:
            s = self.peek()
            if s == '[': self.next(); i = self.expr(); self.eat(']'); e = ('index', e, i)
            elif s == '(':
                t = self.next(); a = []
                while self.peek() != ')':
                    a.append(self.arg())
                    if self.peek() == ',': self.next()
                self.eat(')'); e = ('call', e, a)
            elif s == '.': self.next(); e = ('member', e, self.next().s)
            elif s == '->': self.next(); e = ('member', ('deref', e), self.next().s)
            elif s in ('++', '--'): self.next(); e = ('postinc', s, e)
            else: return e
    def arg(self):
        # builtins take a type as argument (CGLM_CASTPTR_ASSUME_ALIGNED)
        return self.assign()
    def primary(self):
        t = self.next()
        if t.k == 'num':
            s = t.s
            if re.match(r'^(0[xX][0-9a-fA-F]+|\d+)[uUlL]*$', s): return ('int', int(s.rstrip('uUlL'), 0))
            return ('flit', s)
        if t.k == 'id': return ('id', t.s)
        if t.k == 'str': return ('str', t.s)
        if t.s == '(':
            e = self.expr(); self.eat(')'); return e
        raise SyntaxError('%s:%d: unexpected %r' % (t.f, t.l, t.s))
