(** Functions of src/euler.c (configuration: scalar), written by tools/gen.py.
    The comment above each definition gives file and lines in /repo. *)
From Coq Require Import String List ZArith.
From Verif Require Import MiniC.
From Verif.Gen Require Import euler.
Import ListNotations.
Open Scope string_scope.
Open Scope Z_scope.
Open Scope mc_scope.

(* src/euler.c:13-15 *)
Definition glmc_euler_angles : fundef := Fun
  [("m", None); ("dest", None)]
  [] (
    SExp glm_euler_angles$("m", "dest")
  ).

(* src/euler.c:19-21 *)
Definition glmc_euler : fundef := Fun
  [("angles", None); ("dest", None)]
  [] (
    SExp glm_euler$("angles", "dest")
  ).

(* src/euler.c:25-27 *)
Definition glmc_euler_xyz : fundef := Fun
  [("angles", None); ("dest", None)]
  [] (
    SExp glm_euler_xyz$("angles", "dest")
  ).

(* src/euler.c:31-33 *)
Definition glmc_euler_zyx : fundef := Fun
  [("angles", None); ("dest", None)]
  [] (
    SExp glm_euler_zyx$("angles", "dest")
  ).

(* src/euler.c:37-39 *)
Definition glmc_euler_zxy : fundef := Fun
  [("angles", None); ("dest", None)]
  [] (
    SExp glm_euler_zxy$("angles", "dest")
  ).

(* src/euler.c:43-45 *)
Definition glmc_euler_xzy : fundef := Fun
  [("angles", None); ("dest", None)]
  [] (
    SExp glm_euler_xzy$("angles", "dest")
  ).

(* src/euler.c:49-51 *)
Definition glmc_euler_yzx : fundef := Fun
  [("angles", None); ("dest", None)]
  [] (
    SExp glm_euler_yzx$("angles", "dest")
  ).

(* src/euler.c:55-57 *)
Definition glmc_euler_yxz : fundef := Fun
  [("angles", None); ("dest", None)]
  [] (
    SExp glm_euler_yxz$("angles", "dest")
  ).

(* src/euler.c:61-63 *)
Definition glmc_euler_by_order : fundef := Fun
  [("angles", None); ("axis", None); ("dest", None)]
  [] (
    SExp glm_euler_by_order$("angles", "axis", "dest")
  ).

(* src/euler.c:67-69 *)
Definition glmc_euler_xyz_quat : fundef := Fun
  [("angles", None); ("dest", None)]
  [] (
    SExp glm_euler_xyz_quat$("angles", "dest")
  ).

(* src/euler.c:73-75 *)
Definition glmc_euler_xzy_quat : fundef := Fun
  [("angles", None); ("dest", None)]
  [] (
    SExp glm_euler_xzy_quat$("angles", "dest")
  ).

(* src/euler.c:79-81 *)
Definition glmc_euler_yxz_quat : fundef := Fun
  [("angles", None); ("dest", None)]
  [] (
    SExp glm_euler_yxz_quat$("angles", "dest")
  ).

(* src/euler.c:85-87 *)
Definition glmc_euler_yzx_quat : fundef := Fun
  [("angles", None); ("dest", None)]
  [] (
    SExp glm_euler_yzx_quat$("angles", "dest")
  ).

(* src/euler.c:91-93 *)
Definition glmc_euler_zxy_quat : fundef := Fun
  [("angles", None); ("dest", None)]
  [] (
    SExp glm_euler_zxy_quat$("angles", "dest")
  ).

(* src/euler.c:97-99 *)
Definition glmc_euler_zyx_quat : fundef := Fun
  [("angles", None); ("dest", None)]
  [] (
    SExp glm_euler_zyx_quat$("angles", "dest")
  ).

