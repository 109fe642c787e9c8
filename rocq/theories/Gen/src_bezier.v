(** Functions of src/bezier.c (configuration: scalar), written by tools/gen.py.
    The comment above each definition gives file and lines in /repo. *)
From Coq Require Import String List ZArith.
From Verif Require Import MiniC.
From Verif.Gen Require Import bezier.
Import ListNotations.
Open Scope string_scope.
Open Scope Z_scope.
Open Scope mc_scope.

(* src/bezier.c:13-15 *)
Definition glmc_bezier : fundef := Fun
  [("s", None); ("p0", None); ("c0", None); ("c1", None); ("p1", None)]
  [] (
    SRet glm_bezier$("s", "p0", "c0", "c1", "p1")
  ).

(* src/bezier.c:19-21 *)
Definition glmc_hermite : fundef := Fun
  [("s", None); ("p0", None); ("t0", None); ("t1", None); ("p1", None)]
  [] (
    SRet glm_hermite$("s", "p0", "t0", "t1", "p1")
  ).

(* src/bezier.c:25-27 *)
Definition glmc_decasteljau : fundef := Fun
  [("prm", None); ("p0", None); ("c0", None); ("c1", None); ("p1", None)]
  [] (
    SRet glm_decasteljau$("prm", "p0", "c0", "c1", "p1")
  ).

