#!/usr/bin/env python3
"""Write rocq/theories/Spec/CallApi.v: the pairs (exported function, inline function of the
same name) of the precompiled library, taken from the names in Gen/src_*.v and Gen/call_*.v."""
import re, glob, os
root = os.path.dirname(os.path.dirname(os.path.abspath(__file__)))
G = os.path.join(root, 'rocq/theories/Gen/')
# inline names that are macros: #define glm_mat4_inv_precise(mat, dest) glm_mat4_inv(mat, dest), mat4.h:96;
# glm_vec3_mulv, vec3.h:116; glm_vec4_mulv, vec4.h:94
alias = {'glm_mat4_inv_precise': 'glm_mat4_inv', 'glm_vec3_mulv': 'glm_vec3_mul', 'glm_vec4_mulv': 'glm_vec4_mul'}
mods = []; names = []
for f in sorted(glob.glob(G + 'src_*.v') + glob.glob(G + 'call_*.v')):
    ns = re.findall(r'^Definition (glmc_\w+) : fundef', open(f).read(), re.M)
    mods.append(os.path.basename(f)[:-2]); names += ns
r = '''(** * The exported functions and the inline functions of the same name

    Written by tools/callapi.py from the function names alone.  Three inline names are macros
    for another function (glm_mat4_inv_precise, glm_vec3_mulv, glm_vec4_mulv). *)

From Coq Require Import String List.
From Verif Require Import MiniC Cglm.
From Verif.Gen Require Export %s.
Import ListNotations.

(** same outcome, returned value and resulting memory for every float arithmetic, all actual
    arguments (values a C program can pass, i.e. not "uninitialised") and all memories *)
Definition same_effect (f g : fundef) : Prop := forall (S : Scalar) vs m,
  Forall (fun v => v <> VU) vs -> call S f vs m = call S g vs m.

Definition exported : list (fundef * fundef) := [
''' % ' '.join(mods)
r += ';\n'.join('  (%s, %s)' % (n, alias.get('glm_' + n[5:], 'glm_' + n[5:])) for n in names) + '].\n'
open(os.path.join(root, 'rocq/theories/Spec/CallApi.v'), 'w').write(r)
print(len(names))
