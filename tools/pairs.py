"""Writes rocq/theories/Spec/Builds.v: for each SIMD build, the functions with a signature in
Spec/Signatures.v whose text differs, paired with the scalar function.  tools/exact.json names
the pairs expected to agree for every arithmetic; Proofs/Simd*.v shows that they do."""
import re, os, json
here = os.path.dirname(os.path.abspath(__file__))
th = os.path.join(here, '..', 'rocq', 'theories')
sig = dict(re.findall(r'^\s*[\[;]?\s*\((\w+), (\[.*?\])\)[;\]]?', open(th + '/Spec/Signatures.v').read(), re.M))
exact = json.load(open(here + '/exact.json'))
apart = {'glm_mat4_transpose_to', 'glm_mat2_transpose_to', 'glm_quat_mul'}
skip = {'glm_vec4_norm_inf', 'glm_inv_tr', 'glm_perlin_vec2', 'glm_perlin_vec3', 'glm_perlin_vec4'}
x86 = {'glm_vec4_normalize_to', 'glm_vec4_normalize', 'glm_vec3_rotate_m4', 'glm_vec3_rotate_m3'}
skips = {'sse2': x86, 'avx': x86 | {'glm_mul'}, 'fma': x86 | {'glm_mul'}, 'wasm': x86, 'neon': set(), 'neon32': set()}
s = '''(** * The functions that differ between builds

    Written by tools/pairs.py.  Each list pairs a function of the scalar build with the same
    function of a SIMD build (Simd/) and gives the declared parameters.  The matrix
    transposition and the quaternion product are required to have sources apart from the
    destination.  Not in the lists, and treated on their own, are glm_vec4_norm_inf and
    glm_inv_tr; glm_vec4_normalize_to, glm_vec4_normalize, glm_vec3_rotate_m4 and
    glm_vec3_rotate_m3 except for NEON; glm_mul for AVX.  The Perlin noise
    functions are paired in Spec/NoiseBuilds.v. *)

From Coq Require Import List.
From Verif Require Import MiniC Contract Cglm.
From Verif.Spec Require Import Types Agree.
From Verif.Simd Require sse2 avx fma neon neon32 wasm.
Import ListNotations.

(** the two functions have the same outcome for all arguments and addresses that fit *)
Definition agree_on (S : Scalar) (p : fundef * fundef * list param) : Prop :=
  let '(f, g, ps) := p in forall args, Forall2 fits ps args -> agree S f g args.

'''
sigs = []
for cfg in ('sse2', 'avx', 'fma', 'neon', 'neon32', 'wasm'):
    names = [n[len(cfg) + 1:] for n in re.findall(r'^Definition (\w+) : fundef', open(th + '/Simd/%s.v' % cfg).read(), re.M)]
    sigs += ['(%s.%s_%s, %s)' % (cfg, cfg, n, sig[n]) for n in names if n in sig and not (n == 'glm_vec4_sign' and cfg in ('sse2', 'avx', 'fma'))]
    l = [n for n in names if n in sig and n not in skip and n not in skips[cfg]]
    for kind, ns in (('exact', [n for n in l if n in exact[cfg]]), ('real', [n for n in l if n not in exact[cfg]])):
        ent = ['(%s, %s.%s_%s, %s)' % (n, cfg, cfg, n, sig[n].replace('Reads', 'Apart') if n in apart else sig[n]) for n in ns]
        s += 'Definition %s_%s : list (fundef * fundef * list param) :=\n  [%s].\n\n' % (cfg, kind, ';\n   '.join(ent))
        print(cfg, kind, len(ns))
s += '''(** the declared parameters of the functions that differ, except glm_vec4_sign of the x86 builds *)
Definition simd_signatures : list (fundef * list param) :=
  [%s].
''' % ';\n   '.join(sigs)
print(len(sigs))
open(th + '/Spec/Builds.v', 'w').write(s)
