(** Functions of src/affine.c (configuration: scalar), written by tools/gen.py.
    The comment above each definition gives file and lines in /repo. *)
From Coq Require Import String List ZArith.
From Verif Require Import MiniC.
From Verif.Gen Require Import affine_mat affine_post affine_pre affine.
Import ListNotations.
Open Scope string_scope.
Open Scope Z_scope.
Open Scope mc_scope.

(* src/affine.c:13-15 *)
Definition glmc_translate_make : fundef := Fun
  [("m", None); ("v", None)]
  [] (
    SExp glm_translate_make$("m", "v")
  ).

(* src/affine.c:19-21 *)
Definition glmc_translate_to : fundef := Fun
  [("m", None); ("v", None); ("dest", None)]
  [] (
    SExp glm_translate_to$("m", "v", "dest")
  ).

(* src/affine.c:25-27 *)
Definition glmc_translate : fundef := Fun
  [("m", None); ("v", None)]
  [] (
    SExp glm_translate$("m", "v")
  ).

(* src/affine.c:31-33 *)
Definition glmc_translate_x : fundef := Fun
  [("m", None); ("to", None)]
  [] (
    SExp glm_translate_x$("m", "to")
  ).

(* src/affine.c:37-39 *)
Definition glmc_translate_y : fundef := Fun
  [("m", None); ("to", None)]
  [] (
    SExp glm_translate_y$("m", "to")
  ).

(* src/affine.c:43-45 *)
Definition glmc_translate_z : fundef := Fun
  [("m", None); ("to", None)]
  [] (
    SExp glm_translate_z$("m", "to")
  ).

(* src/affine.c:49-51 *)
Definition glmc_scale_make : fundef := Fun
  [("m", None); ("v", None)]
  [] (
    SExp glm_scale_make$("m", "v")
  ).

(* src/affine.c:55-57 *)
Definition glmc_scale_to : fundef := Fun
  [("m", None); ("v", None); ("dest", None)]
  [] (
    SExp glm_scale_to$("m", "v", "dest")
  ).

(* src/affine.c:61-63 *)
Definition glmc_scale : fundef := Fun
  [("m", None); ("v", None)]
  [] (
    SExp glm_scale$("m", "v")
  ).

(* src/affine.c:67-69 *)
Definition glmc_scale_uni : fundef := Fun
  [("m", None); ("s", None)]
  [] (
    SExp glm_scale_uni$("m", "s")
  ).

(* src/affine.c:73-75 *)
Definition glmc_rotate_x : fundef := Fun
  [("m", None); ("rad", None); ("dest", None)]
  [] (
    SExp glm_rotate_x$("m", "rad", "dest")
  ).

(* src/affine.c:79-81 *)
Definition glmc_rotate_y : fundef := Fun
  [("m", None); ("rad", None); ("dest", None)]
  [] (
    SExp glm_rotate_y$("m", "rad", "dest")
  ).

(* src/affine.c:85-87 *)
Definition glmc_rotate_z : fundef := Fun
  [("m", None); ("rad", None); ("dest", None)]
  [] (
    SExp glm_rotate_z$("m", "rad", "dest")
  ).

(* src/affine.c:91-93 *)
Definition glmc_rotate_make : fundef := Fun
  [("m", None); ("angle", None); ("axis", None)]
  [] (
    SExp glm_rotate_make$("m", "angle", "axis")
  ).

(* src/affine.c:97-99 *)
Definition glmc_rotate : fundef := Fun
  [("m", None); ("angle", None); ("axis", None)]
  [] (
    SExp glm_rotate$("m", "angle", "axis")
  ).

(* src/affine.c:103-105 *)
Definition glmc_rotate_at : fundef := Fun
  [("m", None); ("pivot", None); ("angle", None); ("axis", None)]
  [] (
    SExp glm_rotate_at$("m", "pivot", "angle", "axis")
  ).

(* src/affine.c:109-111 *)
Definition glmc_rotate_atm : fundef := Fun
  [("m", None); ("pivot", None); ("angle", None); ("axis", None)]
  [] (
    SExp glm_rotate_atm$("m", "pivot", "angle", "axis")
  ).

(* src/affine.c:115-117 *)
Definition glmc_spin : fundef := Fun
  [("m", None); ("angle", None); ("axis", None)]
  [] (
    SExp glm_spin$("m", "angle", "axis")
  ).

(* src/affine.c:121-123 *)
Definition glmc_decompose_scalev : fundef := Fun
  [("m", None); ("s", None)]
  [] (
    SExp glm_decompose_scalev$("m", "s")
  ).

(* src/affine.c:127-129 *)
Definition glmc_uniscaled : fundef := Fun
  [("m", None)]
  [] (
    SRet glm_uniscaled$("m")
  ).

(* src/affine.c:133-135 *)
Definition glmc_decompose_rs : fundef := Fun
  [("m", None); ("r", None); ("s", None)]
  [] (
    SExp glm_decompose_rs$("m", "r", "s")
  ).

(* src/affine.c:139-141 *)
Definition glmc_translated : fundef := Fun
  [("m", None); ("v", None)]
  [] (
    SExp glm_translated$("m", "v")
  ).

(* src/affine.c:145-147 *)
Definition glmc_translated_to : fundef := Fun
  [("m", None); ("v", None); ("dest", None)]
  [] (
    SExp glm_translated_to$("m", "v", "dest")
  ).

(* src/affine.c:151-153 *)
Definition glmc_translated_x : fundef := Fun
  [("m", None); ("x", None)]
  [] (
    SExp glm_translated_x$("m", "x")
  ).

(* src/affine.c:157-159 *)
Definition glmc_translated_y : fundef := Fun
  [("m", None); ("y", None)]
  [] (
    SExp glm_translated_y$("m", "y")
  ).

(* src/affine.c:163-165 *)
Definition glmc_translated_z : fundef := Fun
  [("m", None); ("z", None)]
  [] (
    SExp glm_translated_z$("m", "z")
  ).

(* src/affine.c:169-171 *)
Definition glmc_rotated_x : fundef := Fun
  [("m", None); ("angle", None); ("dest", None)]
  [] (
    SExp glm_rotated_x$("m", "angle", "dest")
  ).

(* src/affine.c:175-177 *)
Definition glmc_rotated_y : fundef := Fun
  [("m", None); ("angle", None); ("dest", None)]
  [] (
    SExp glm_rotated_y$("m", "angle", "dest")
  ).

(* src/affine.c:181-183 *)
Definition glmc_rotated_z : fundef := Fun
  [("m", None); ("angle", None); ("dest", None)]
  [] (
    SExp glm_rotated_z$("m", "angle", "dest")
  ).

(* src/affine.c:187-189 *)
Definition glmc_rotated : fundef := Fun
  [("m", None); ("angle", None); ("axis", None)]
  [] (
    SExp glm_rotated$("m", "angle", "axis")
  ).

(* src/affine.c:193-195 *)
Definition glmc_rotated_at : fundef := Fun
  [("m", None); ("pivot", None); ("angle", None); ("axis", None)]
  [] (
    SExp glm_rotated_at$("m", "pivot", "angle", "axis")
  ).

(* src/affine.c:199-201 *)
Definition glmc_spinned : fundef := Fun
  [("m", None); ("angle", None); ("axis", None)]
  [] (
    SExp glm_spinned$("m", "angle", "axis")
  ).

(* src/affine.c:205-207 *)
Definition glmc_decompose : fundef := Fun
  [("m", None); ("t", None); ("r", None); ("s", None)]
  [] (
    SExp glm_decompose$("m", "t", "r", "s")
  ).

(* src/affine.c:211-213 *)
Definition glmc_mul : fundef := Fun
  [("m1", None); ("m2", None); ("dest", None)]
  [] (
    SExp glm_mul$("m1", "m2", "dest")
  ).

(* src/affine.c:217-219 *)
Definition glmc_mul_rot : fundef := Fun
  [("m1", None); ("m2", None); ("dest", None)]
  [] (
    SExp glm_mul_rot$("m1", "m2", "dest")
  ).

(* src/affine.c:223-225 *)
Definition glmc_inv_tr : fundef := Fun
  [("mat", None)]
  [] (
    SExp glm_inv_tr$("mat")
  ).

