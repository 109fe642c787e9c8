#!/usr/bin/env python3
"""Write rocq/theories/Spec/StructApi.v: for the functions of the struct API that pass all
their operands to one array function, the triples (struct function, array function, where the
result comes from).  The array function is the one of the same name, except those in `other`."""
import re, glob, os
root = os.path.dirname(os.path.dirname(os.path.abspath(__file__)))
G = os.path.join(root, 'rocq/theories/Gen/')
other = {'glms_scale': 'glm_scale_to', 'glms_scale2d': 'glm_scale2d_to', 'glms_rotate2d_to': 'glm_rotate2d',
         'glms_quat_normalize': 'glm_quat_normalize_to', 'glms_quat_imagn': 'glm_normalize_to',
         'glms_vec3_flipsign': 'glm_vec3_negate'}
def args(a): return re.findall(r'"(\w+)"', a) if re.fullmatch(r'("\w+"(, )?)*', a) else None
rows = []; calls = []; mods = []
for f in sorted(glob.glob(G + 'struct_*.v')):
    mods.append(os.path.basename(f)[:-2])
    for m in re.finditer(r'^Definition (glms_\w+) : fundef := Fun\n(.*?)\n  \)\.', open(f).read(), re.M | re.S):
        n, b = m.groups()
        ps, ls, body = re.fullmatch(r' ?\[(.*?)\] \[(.*?)\] \( (.*?)', re.sub(r'\s+', ' ', b)).groups()
        P = re.findall(r'\("(\w+)"', ps); L = re.findall(r'\("(\w+)"', ls); w = None
        x = re.fullmatch(r'SExp (\w+)\$\((.*?)\) ;; SRet \(ELdA (\d+) "(\w+)"\)', body)
        if x:
            a = args(x.group(2)); k, y = x.group(3), x.group(4)
            if a is not None:
                if L == [y]: w = 'Dest %s' % k if a[-1] == y else 'DestFirst %s' % k
                elif not L and a == P: w = 'InPlace %d' % P.index(y)
        x = re.fullmatch(r'(SExp|SRet) \(?(\w+)\$\((.*?)\)\)?', body)
        if x and not L and args(x.group(3)) == P and x.group(2).startswith('glm_'):
            w = 'Nothing' if x.group(1) == 'SExp' else 'Returned'
        if w: rows.append((n, other.get(n, 'glm_' + n[5:]), w))
        elif x and not L and x.group(2).startswith('glms_'): calls.append((n, n + ('_no' if n.endswith('project_z') else '_rh_no')))
r = '''(** * The struct functions and the array functions of the same name

    Written by tools/structapi.py.  The array function is the one of the same name, except
    that glms_scale, glms_scale2d and glms_quat_normalize correspond to the "_to" functions,
    glms_rotate2d_to to glm_rotate2d, glms_quat_imagn to glm_normalize_to and
    glms_vec3_flipsign to glm_vec3_negate. *)

From Coq Require Import String List.
From Verif Require Import MiniC Cglm.
From Verif.Gen Require Export %s.
From Verif.Spec Require Export StructPass.
Import ListNotations.

Definition struct_api : list (fundef * fundef * result) := [
''' % ' '.join(mods)
r += ';\n'.join('  (%s, %s, %s)' % t for t in rows) + '].\n'
r += '''
(** the functions of struct/cam.h and struct/project.h that stand for the default clip space *)
Definition struct_default : list (fundef * fundef) := [
''' + ';\n'.join('  (%s, %s)' % t for t in calls if 'aabb' not in t[0] or 'ortho' in t[0]) + '].\n'
open(os.path.join(root, 'rocq/theories/Spec/StructApi.v'), 'w').write(r)
print(len(rows), len(calls))
