(** Functions of src/affine2d.c (configuration: scalar), written by tools/gen.py.
    The comment above each definition gives file and lines in /repo. *)
From Coq Require Import String List ZArith.
From Verif Require Import MiniC.
From Verif.Gen Require Import affine2d.
Import ListNotations.
Open Scope string_scope.
Open Scope Z_scope.
Open Scope mc_scope.

(* src/affine2d.c:13-15 *)
Definition glmc_translate2d_make : fundef := Fun
  [("m", None); ("v", None)]
  [] (
    SExp glm_translate2d_make$("m", "v")
  ).

(* src/affine2d.c:19-21 *)
Definition glmc_translate2d_to : fundef := Fun
  [("m", None); ("v", None); ("dest", None)]
  [] (
    SExp glm_translate2d_to$("m", "v", "dest")
  ).

(* src/affine2d.c:25-27 *)
Definition glmc_translate2d : fundef := Fun
  [("m", None); ("v", None)]
  [] (
    SExp glm_translate2d$("m", "v")
  ).

(* src/affine2d.c:31-33 *)
Definition glmc_translate2d_x : fundef := Fun
  [("m", None); ("to", None)]
  [] (
    SExp glm_translate2d_x$("m", "to")
  ).

(* src/affine2d.c:37-39 *)
Definition glmc_translate2d_y : fundef := Fun
  [("m", None); ("to", None)]
  [] (
    SExp glm_translate2d_y$("m", "to")
  ).

(* src/affine2d.c:43-45 *)
Definition glmc_scale2d_to : fundef := Fun
  [("m", None); ("v", None); ("dest", None)]
  [] (
    SExp glm_scale2d_to$("m", "v", "dest")
  ).

(* src/affine2d.c:49-51 *)
Definition glmc_scale2d_make : fundef := Fun
  [("m", None); ("v", None)]
  [] (
    SExp glm_scale2d_make$("m", "v")
  ).

(* src/affine2d.c:55-57 *)
Definition glmc_scale2d : fundef := Fun
  [("m", None); ("v", None)]
  [] (
    SExp glm_scale2d$("m", "v")
  ).

(* src/affine2d.c:61-63 *)
Definition glmc_scale2d_uni : fundef := Fun
  [("m", None); ("s", None)]
  [] (
    SExp glm_scale2d_uni$("m", "s")
  ).

(* src/affine2d.c:67-69 *)
Definition glmc_rotate2d_make : fundef := Fun
  [("m", None); ("angle", None)]
  [] (
    SExp glm_rotate2d_make$("m", "angle")
  ).

(* src/affine2d.c:73-75 *)
Definition glmc_rotate2d : fundef := Fun
  [("m", None); ("angle", None)]
  [] (
    SExp glm_rotate2d$("m", "angle")
  ).

(* src/affine2d.c:79-81 *)
Definition glmc_rotate2d_to : fundef := Fun
  [("m", None); ("angle", None); ("dest", None)]
  [] (
    SExp glm_rotate2d_to$("m", "angle", "dest")
  ).

