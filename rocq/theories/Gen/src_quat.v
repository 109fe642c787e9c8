(** Functions of src/quat.c (configuration: scalar), written by tools/gen.py.
    The comment above each definition gives file and lines in /repo. *)
From Coq Require Import String List ZArith.
From Verif Require Import MiniC.
From Verif.Gen Require Import quat.
Import ListNotations.
Open Scope string_scope.
Open Scope Z_scope.
Open Scope mc_scope.

(* src/quat.c:13-15 *)
Definition glmc_quat_identity : fundef := Fun
  [("q", None)]
  [] (
    SExp glm_quat_identity$("q")
  ).

(* src/quat.c:19-21 *)
Definition glmc_quat_identity_array : fundef := Fun
  [("q", None); ("count", None)]
  [] (
    SExp glm_quat_identity_array$("q", "count")
  ).

(* src/quat.c:25-27 *)
Definition glmc_quat_init : fundef := Fun
  [("q", None); ("x", None); ("y", None); ("z", None); ("w", None)]
  [] (
    SExp glm_quat_init$("q", "x", "y", "z", "w")
  ).

(* src/quat.c:31-33 *)
Definition glmc_quat : fundef := Fun
  [("q", None); ("angle", None); ("x", None); ("y", None); ("z", None)]
  [] (
    SExp glm_quat$("q", "angle", "x", "y", "z")
  ).

(* src/quat.c:37-39 *)
Definition glmc_quatv : fundef := Fun
  [("q", None); ("angle", None); ("axis", None)]
  [] (
    SExp glm_quatv$("q", "angle", "axis")
  ).

(* src/quat.c:43-45 *)
Definition glmc_quat_copy : fundef := Fun
  [("q", None); ("dest", None)]
  [] (
    SExp glm_quat_copy$("q", "dest")
  ).

(* src/quat.c:49-51 *)
Definition glmc_quat_from_vecs : fundef := Fun
  [("a", None); ("b", None); ("dest", None)]
  [] (
    SExp glm_quat_from_vecs$("a", "b", "dest")
  ).

(* src/quat.c:55-57 *)
Definition glmc_quat_norm : fundef := Fun
  [("q", None)]
  [] (
    SRet glm_quat_norm$("q")
  ).

(* src/quat.c:61-63 *)
Definition glmc_quat_normalize_to : fundef := Fun
  [("q", None); ("dest", None)]
  [] (
    SExp glm_quat_normalize_to$("q", "dest")
  ).

(* src/quat.c:67-69 *)
Definition glmc_quat_normalize : fundef := Fun
  [("q", None)]
  [] (
    SExp glm_quat_normalize$("q")
  ).

(* src/quat.c:73-75 *)
Definition glmc_quat_dot : fundef := Fun
  [("p", None); ("q", None)]
  [] (
    SRet glm_quat_dot$("p", "q")
  ).

(* src/quat.c:79-81 *)
Definition glmc_quat_conjugate : fundef := Fun
  [("q", None); ("dest", None)]
  [] (
    SExp glm_quat_conjugate$("q", "dest")
  ).

(* src/quat.c:85-87 *)
Definition glmc_quat_inv : fundef := Fun
  [("q", None); ("dest", None)]
  [] (
    SExp glm_quat_inv$("q", "dest")
  ).

(* src/quat.c:91-93 *)
Definition glmc_quat_add : fundef := Fun
  [("p", None); ("q", None); ("dest", None)]
  [] (
    SExp glm_quat_add$("p", "q", "dest")
  ).

(* src/quat.c:97-99 *)
Definition glmc_quat_sub : fundef := Fun
  [("p", None); ("q", None); ("dest", None)]
  [] (
    SExp glm_quat_sub$("p", "q", "dest")
  ).

(* src/quat.c:103-105 *)
Definition glmc_quat_real : fundef := Fun
  [("q", None)]
  [] (
    SRet glm_quat_real$("q")
  ).

(* src/quat.c:109-111 *)
Definition glmc_quat_imag : fundef := Fun
  [("q", None); ("dest", None)]
  [] (
    SExp glm_quat_imag$("q", "dest")
  ).

(* src/quat.c:115-117 *)
Definition glmc_quat_imagn : fundef := Fun
  [("q", None); ("dest", None)]
  [] (
    SExp glm_quat_imagn$("q", "dest")
  ).

(* src/quat.c:121-123 *)
Definition glmc_quat_imaglen : fundef := Fun
  [("q", None)]
  [] (
    SRet glm_quat_imaglen$("q")
  ).

(* src/quat.c:127-129 *)
Definition glmc_quat_angle : fundef := Fun
  [("q", None)]
  [] (
    SRet glm_quat_angle$("q")
  ).

(* src/quat.c:133-135 *)
Definition glmc_quat_axis : fundef := Fun
  [("q", None); ("dest", None)]
  [] (
    SExp glm_quat_axis$("q", "dest")
  ).

(* src/quat.c:139-141 *)
Definition glmc_quat_mul : fundef := Fun
  [("p", None); ("q", None); ("dest", None)]
  [] (
    SExp glm_quat_mul$("p", "q", "dest")
  ).

(* src/quat.c:145-147 *)
Definition glmc_quat_mat4 : fundef := Fun
  [("q", None); ("dest", None)]
  [] (
    SExp glm_quat_mat4$("q", "dest")
  ).

(* src/quat.c:151-153 *)
Definition glmc_quat_mat4t : fundef := Fun
  [("q", None); ("dest", None)]
  [] (
    SExp glm_quat_mat4t$("q", "dest")
  ).

(* src/quat.c:157-159 *)
Definition glmc_quat_mat3 : fundef := Fun
  [("q", None); ("dest", None)]
  [] (
    SExp glm_quat_mat3$("q", "dest")
  ).

(* src/quat.c:163-165 *)
Definition glmc_quat_mat3t : fundef := Fun
  [("q", None); ("dest", None)]
  [] (
    SExp glm_quat_mat3t$("q", "dest")
  ).

(* src/quat.c:169-171 *)
Definition glmc_quat_lerp : fundef := Fun
  [("from", None); ("to", None); ("t", None); ("dest", None)]
  [] (
    SExp glm_quat_lerp$("from", "to", "t", "dest")
  ).

(* src/quat.c:175-177 *)
Definition glmc_quat_lerpc : fundef := Fun
  [("from", None); ("to", None); ("t", None); ("dest", None)]
  [] (
    SExp glm_quat_lerpc$("from", "to", "t", "dest")
  ).

(* src/quat.c:181-183 *)
Definition glmc_quat_nlerp : fundef := Fun
  [("from", None); ("to", None); ("t", None); ("dest", None)]
  [] (
    SExp glm_quat_nlerp$("from", "to", "t", "dest")
  ).

(* src/quat.c:187-189 *)
Definition glmc_quat_slerp : fundef := Fun
  [("from", None); ("to", None); ("t", None); ("dest", None)]
  [] (
    SExp glm_quat_slerp$("from", "to", "t", "dest")
  ).

(* src/quat.c:193-195 *)
Definition glmc_quat_slerp_longest : fundef := Fun
  [("from", None); ("to", None); ("t", None); ("dest", None)]
  [] (
    SExp glm_quat_slerp_longest$("from", "to", "t", "dest")
  ).

(* src/quat.c:199-201 *)
Definition glmc_quat_look : fundef := Fun
  [("eye", None); ("ori", None); ("dest", None)]
  [] (
    SExp glm_quat_look$("eye", "ori", "dest")
  ).

(* src/quat.c:205-207 *)
Definition glmc_quat_for : fundef := Fun
  [("dir", None); ("up", None); ("dest", None)]
  [] (
    SExp glm_quat_for$("dir", "up", "dest")
  ).

(* src/quat.c:211-213 *)
Definition glmc_quat_forp : fundef := Fun
  [("from", None); ("to", None); ("up", None); ("dest", None)]
  [] (
    SExp glm_quat_forp$("from", "to", "up", "dest")
  ).

(* src/quat.c:217-219 *)
Definition glmc_quat_rotatev : fundef := Fun
  [("q", None); ("v", None); ("dest", None)]
  [] (
    SExp glm_quat_rotatev$("q", "v", "dest")
  ).

(* src/quat.c:223-225 *)
Definition glmc_quat_rotate : fundef := Fun
  [("m", None); ("q", None); ("dest", None)]
  [] (
    SExp glm_quat_rotate$("m", "q", "dest")
  ).

(* src/quat.c:229-231 *)
Definition glmc_quat_rotate_at : fundef := Fun
  [("model", None); ("q", None); ("pivot", None)]
  [] (
    SExp glm_quat_rotate_at$("model", "q", "pivot")
  ).

(* src/quat.c:235-237 *)
Definition glmc_quat_rotate_atm : fundef := Fun
  [("m", None); ("q", None); ("pivot", None)]
  [] (
    SExp glm_quat_rotate_atm$("m", "q", "pivot")
  ).

(* src/quat.c:241-243 *)
Definition glmc_quat_make : fundef := Fun
  [("src", None); ("dest", None)]
  [] (
    SExp glm_quat_make$("src", "dest")
  ).

