"""Writes rocq/theories/Simd/<config>.v: the inline functions of cglm.h as they read in a SIMD
build, and rocq/theories/Config/<config>.v: those of cglm.h and struct.h in a build with
another value of a configuration macro.  A function whose text, and that of all functions it calls, is the same as in the
scalar build is not repeated; the others are named <config>_<C name>.
usage: gensimd.py config..."""
import sys, os, re, glob
sys.path.insert(0, os.path.dirname(os.path.abspath(__file__)))
from c2coq import *
sys.setrecursionlimit(100000)

OTHER = ('rh_zo', 'lh_no', 'lh_zo', 'fast', 'eps')

def texts(cfg, struct):
    extra = sorted(os.path.relpath(f, ROOT) for d in ('clipspace', 'handed') for f in glob.glob(ROOT + '/%s/*.h' % d))
    if struct: extra += ['struct.h'] + sorted(os.path.relpath(f, ROOT) for f in glob.glob(ROOT + '/struct/clipspace/*.h'))
    p = parse(cfg, extra)
    t, c, bad = {}, {}, {}
    for n in p.order:
        try: t[n], c[n] = emit(p, p.funcs[n])
        except (Bad, ValueError, SyntaxError, KeyError) as e: bad[n] = repr(e)
    ch = True
    while ch:
        ch = False
        for n in list(t):
            for x in c[n]:
                if x not in t: bad[n] = 'calls ' + x; del t[n]; ch = True; break
    return p, t, c, bad

def body(t): return t.split(':= Fun', 1)[1]

def main():
    here = os.path.dirname(os.path.abspath(__file__))
    scalar = {}
    for cfg in sys.argv[1:]:
        struct = cfg in OTHER
        out = os.path.join(here, '..', 'rocq', 'theories', 'Config' if struct else 'Simd'); os.makedirs(out, exist_ok=True)
        if struct not in scalar: scalar[struct] = texts('scalar', struct)
        ps, ts, cs, bs = scalar[struct]
        p, t, c, bad = texts(cfg, struct)
        new = {n for n in t if n not in ts or body(t[n]) != body(ts[n])}
        ch = True
        while ch:
            ch = False
            for n in t:
                if n not in new and any(x in new for x in c[n]): new.add(n); ch = True
        order = []; seen = set()
        def visit(n):
            if n in seen: return
            seen.add(n)
            for x in c[n]: visit(x)
            if n in new: order.append(n)
        for n in p.order:
            if n in t: visit(n)
        s = '(** The functions of include/cglm whose text differs in the %s build, or that call one,\n    written by tools/gensimd.py.  Functions not listed read as in the scalar build (Gen/).\n    The comment above each definition gives file and lines in /repo/include/cglm. *)\n' % cfg
        smods = sorted({ps.funcs[x]['file'].replace('/', '_').replace('-', '_')[:-2] for n in order for x in c[n] if x not in new and ps.funcs[x]['file'].startswith('struct')})
        s += 'From Coq Require Import String List ZArith.\nFrom Verif Require Import MiniC Cglm.\n' + ('From Verif.Gen Require Import %s.\n' % ' '.join(smods) if smods else '') + 'Import ListNotations.\nOpen Scope string_scope.\nOpen Scope Z_scope.\nOpen Scope mc_scope.\n\n'
        for n in order:
            h, b = t[n].split('Definition ' + n + ' :', 1)
            b = re.sub(r'\b(\w+)\$\(', lambda m: (cfg + '_' + m.group(1) if m.group(1) in new else m.group(1)) + '$(', b)
            s += h + 'Definition %s_%s :' % (cfg, n) + b + '\n'
        path = os.path.join(out, cfg + '.v')
        if not os.path.exists(path) or open(path).read() != s: open(path, 'w').write(s)
        print('%s: %d functions of %d' % (cfg, len(order), len(t)))
        for n in bad:
            if n not in bs: print('   not translated: %s (%s)' % (n, bad[n]))
main()
