"""Writes rocq/theories/Gen/*.v (one file per header) for the scalar configuration.
usage: gen.py [config]"""
import sys, os, glob
sys.path.insert(0, os.path.dirname(os.path.abspath(__file__)))
from c2coq import *
sys.setrecursionlimit(100000)

def modname(h): return h.replace('../../include/cglm/', '').replace('../../', '')[:-2].replace('/', '_').replace('-', '_')

def main():
    cfg = sys.argv[1] if len(sys.argv) > 1 else 'scalar'
    here = os.path.dirname(os.path.abspath(__file__))
    out = os.path.join(here, '..', 'rocq', 'theories', 'Gen' if cfg == 'scalar' else 'Gen' + cfg)
    extra = []
    if cfg == 'scalar':
        extra = sorted(os.path.relpath(f, ROOT) for d in ('clipspace', 'handed') for f in glob.glob(ROOT + '/%s/*.h' % d))
        extra += ['struct.h'] + sorted(os.path.relpath(f, ROOT) for f in glob.glob(ROOT + '/struct/clipspace/*.h'))
        # the exported functions (src/*.c)
        src = os.path.join(ROOT, '../../src')
        extra += sorted(os.path.relpath(f, ROOT) for d in ('', '/clipspace') for f in glob.glob(src + d + '/*.c'))
    p = parse(cfg, extra)
    for fn in p.funcs.values(): fn['file'] = fn['file'].replace('../../include/cglm/', '')
    skipped = []; done = {}
    texts = {}; calls = {}
    for n in p.order:
        try: texts[n], calls[n] = emit(p, p.funcs[n])
        except Bad as e: skipped.append((n, str(e)))
    # functions calling a skipped function are skipped too
    ch = True
    while ch:
        ch = False
        for n in list(texts):
            for c in calls[n]:
                if c not in texts:
                    skipped.append((n, 'calls ' + c)); del texts[n]; ch = True; break
    order = []; seen = set()
    def visit(n):
        if n in seen: return
        seen.add(n)
        for c in calls[n]: visit(c)
        order.append(n)
    for n in p.order:
        if n in texts: visit(n)
    files = {}
    for n in order: files.setdefault(p.funcs[n]['file'], []).append(n)
    os.makedirs(out, exist_ok=True)
    mods = []
    lib = 'Verif.' + os.path.basename(out)
    def fdeps(f):
        d = []
        for n in files[f]:
            for c in calls[n]:
                g = p.funcs[c]['file']
                if g != f and g not in d: d.append(g)
        return sorted(d)
    forder = []; fseen = set()
    def fvisit(f):
        if f in fseen: return
        fseen.add(f)
        for g in fdeps(f): fvisit(g)
        forder.append(f)
    for f in sorted(files): fvisit(f)
    for f in forder:
        d = fdeps(f)
        where = f.replace('../../', '') if f.startswith('../') else 'include/cglm/' + f
        t = '(** Functions of %s (configuration: %s), written by tools/gen.py.\n    The comment above each definition gives file and lines in /repo%s. *)\n' % (where, cfg, '' if f.startswith('../') else '/include/cglm')
        t += 'From Coq Require Import String List ZArith.\nFrom Verif Require Import MiniC.\n'
        if d: t += 'From %s Require Import %s.\n' % (lib, ' '.join(modname(g) for g in d))
        t += 'Import ListNotations.\nOpen Scope string_scope.\nOpen Scope Z_scope.\nOpen Scope mc_scope.\n\n'
        for n in files[f]: t += texts[n].replace('(* ../../', '(* ') + '\n'
        path = os.path.join(out, modname(f) + '.v')
        if not os.path.exists(path) or open(path).read() != t: open(path, 'w').write(t)
        mods.append(modname(f))
    for f in glob.glob(out + '/*.v'):
        if os.path.basename(f)[:-2] not in mods: os.remove(f)
    print('%s: %d functions, %d files' % (cfg, len(order), len(forder)))
    for s in skipped: print('  not translated: %s (%s)' % s)
main()
