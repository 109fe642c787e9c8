#!/usr/bin/env python3
"""Write rocq/theories/Spec/ClipConfig.v: for each of the four clip-space builds (handedness,
depth range) the functions without suffix and the functions that name the convention, taken
from the names in Gen/ and Config/."""
import re, glob, os
root = os.path.dirname(os.path.dirname(os.path.abspath(__file__)))
T = os.path.join(root, 'rocq/theories/')
def names(f): return re.findall(r'^Definition (\w+) : fundef', open(T + f).read(), re.M)
allg = {n for f in glob.glob(T + 'Gen/*.v') for n in names(os.path.relpath(f, T))}
stext = open(T + 'Spec/StructApi.v').read()
def rows(lh, zo):
    c = ('lh' if lh else 'rh') + '_' + ('zo' if zo else 'no')
    own = set() if c == 'rh_no' else set(names('Config/%s.v' % c))
    def here(n): return c + '_' + n if c + '_' + n in own else n
    def explicit(n):
        for suf in ('_' + c, '_' + c[3:], '_' + c[:2]):
            if n + suf in allg: return n + suf
    a = [(here(n), explicit(n)) for f in ('cam', 'project', 'euler') for n in names('Gen/%s.v' % f) if explicit(n)]
    b = [(here(n), explicit(n)) for f in ('cam', 'project') for n in names('Gen/struct_%s.v' % f)
         if explicit(n) and (n, explicit(n).replace(c, 'rh_no').replace('_z_zo', '_z_no')) in re.findall(r'\((\w+), (\w+)\)', stext)]
    d = []
    for f in ('cam', 'project', 'euler'):
        for n in names('Gen/struct_%s.v' % f):
            m = re.search(r'\(%s, (\w+), ([^)]*)\)' % n, stext)
            if m and (here(n) != n or here(m.group(1)) != m.group(1)): d.append((here(n), here(m.group(1)), m.group(2)))
    return a, b, d
r = '''(** * The four clip-space builds

    CGLM_FORCE_LEFT_HANDED selects a left-handed view space and CGLM_FORCE_DEPTH_ZERO_TO_ONE a
    clip depth from 0 to w (common.h:79-100).  In each build the functions without a suffix
    stand for those of the same name with the suffix of the convention (_lh/_rh, _zo/_no or
    both).  Written by tools/clipapi.py from the function names alone. *)

From Coq Require Import String List.
From Verif Require Import MiniC Cglm.
From Verif.Config Require Export rh_zo lh_no lh_zo.
From Verif.Spec Require Export CallApi StructApi.
Import ListNotations.

'''
res = {(lh, zo): rows(lh, zo) for lh in (0, 1) for zo in (0, 1)}
def table(name, ty, k, doc):
    s = '(** %s *)\nDefinition %s (lh zo : bool) : list (%s) :=\n  match lh, zo with\n' % (doc, name, ty)
    for (lh, zo), v in res.items():
        s += '  | %s, %s => [\n' % tuple('true' if x else 'false' for x in (lh, zo))
        s += ';\n'.join('    (' + ', '.join(t) + ')' for t in v[k]) + ']\n'
    return s + '  end.\n\n'
r += table('clip_config', 'fundef * fundef', 0, 'array functions')
r += table('struct_config', 'fundef * fundef', 1, 'struct functions that call a struct function')
r += table('struct_through', 'fundef * fundef * result', 2, 'struct functions that call an array function reading differently in this build')
r += '''(** glm_project and glm_unproject of each build; they depend on the depth range only *)
Definition project_in (lh zo : bool) : fundef :=
  match lh, zo with false, true => rh_zo_glm_project | true, true => lh_zo_glm_project | _, false => glm_project end.
Definition unproject_in (lh zo : bool) : fundef :=
  match lh, zo with false, true => rh_zo_glm_unproject | true, true => lh_zo_glm_unproject | _, false => glm_unproject end.
'''
open(T + 'Spec/ClipConfig.v', 'w').write(r.rstrip() + '\n')
for k in res: print(k, [len(x) for x in res[k]])
