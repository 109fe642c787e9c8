#!/usr/bin/env python3
"""Writes rocq/theories/Spec/ApproxLists.v from approx.json: per function its parameters and the error
bounds, in units of 2^-25, for arguments up to 1, up to 1000, and up to 1 with an error of 2^-20.
The bounds were found by evaluating [worst] of Proofs/ApproxSound.v; the proofs check them anew."""
import json, os
here = os.path.dirname(os.path.abspath(__file__))
d = json.load(open(os.path.join(here, 'approx.json')))
def row(f, ps, b):
    return '  ((%s, %s), (%d, %d, %s))' % (f, ps, b[0], b[1], 'Some %d' % b[2] if b[2] >= 0 else 'None')
def table(name, rows):
    return 'Definition %s : list (fundef * list param * (Z * Z * option Z)) :=\n [\n%s\n ].\n' % (name, ';\n'.join(row(*r) for r in rows))
out = '''(** * Error bounds of functions (written by tools/approx.py) *)

From Coq Require Import List ZArith.
From Verif Require Import MiniC Cglm.
From Verif.Simd Require sse2 avx fma neon neon32 wasm.
From Verif.Spec Require Import Types Signatures.
Import ListNotations.
Local Open Scope Z_scope.

(** a function, its parameters, and bounds of its errors in units of 2^-25: on floats up to 1; on floats up
    to 1000; on floats within 2^-20 of numbers up to 1 *)
''' + table('error_bounds', d['plain']) + '''
(** the same for functions that take sines or cosines *)
''' + table('trig_error_bounds', d['trig'])
open(os.path.join(here, '..', 'rocq', 'theories', 'Spec', 'ApproxLists.v'), 'w').write(out)
