(** Functions of src/ivec3.c (configuration: scalar), written by tools/gen.py.
    The comment above each definition gives file and lines in /repo. *)
From Coq Require Import String List ZArith.
From Verif Require Import MiniC.
From Verif.Gen Require Import ivec3.
Import ListNotations.
Open Scope string_scope.
Open Scope Z_scope.
Open Scope mc_scope.

(* src/ivec3.c:13-15 *)
Definition glmc_ivec3 : fundef := Fun
  [("v4", None); ("dest", None)]
  [] (
    SExp glm_ivec3$("v4", "dest")
  ).

(* src/ivec3.c:19-21 *)
Definition glmc_ivec3_copy : fundef := Fun
  [("a", None); ("dest", None)]
  [] (
    SExp glm_ivec3_copy$("a", "dest")
  ).

(* src/ivec3.c:25-27 *)
Definition glmc_ivec3_zero : fundef := Fun
  [("v", None)]
  [] (
    SExp glm_ivec3_zero$("v")
  ).

(* src/ivec3.c:31-33 *)
Definition glmc_ivec3_one : fundef := Fun
  [("v", None)]
  [] (
    SExp glm_ivec3_one$("v")
  ).

(* src/ivec3.c:37-39 *)
Definition glmc_ivec3_dot : fundef := Fun
  [("a", None); ("b", None)]
  [] (
    SRet glm_ivec3_dot$("a", "b")
  ).

(* src/ivec3.c:43-45 *)
Definition glmc_ivec3_norm2 : fundef := Fun
  [("v", None)]
  [] (
    SRet glm_ivec3_norm2$("v")
  ).

(* src/ivec3.c:49-51 *)
Definition glmc_ivec3_norm : fundef := Fun
  [("v", None)]
  [] (
    SRet glm_ivec3_norm$("v")
  ).

(* src/ivec3.c:55-57 *)
Definition glmc_ivec3_add : fundef := Fun
  [("a", None); ("b", None); ("dest", None)]
  [] (
    SExp glm_ivec3_add$("a", "b", "dest")
  ).

(* src/ivec3.c:61-63 *)
Definition glmc_ivec3_adds : fundef := Fun
  [("v", None); ("s", None); ("dest", None)]
  [] (
    SExp glm_ivec3_adds$("v", "s", "dest")
  ).

(* src/ivec3.c:67-69 *)
Definition glmc_ivec3_sub : fundef := Fun
  [("a", None); ("b", None); ("dest", None)]
  [] (
    SExp glm_ivec3_sub$("a", "b", "dest")
  ).

(* src/ivec3.c:73-75 *)
Definition glmc_ivec3_subs : fundef := Fun
  [("v", None); ("s", None); ("dest", None)]
  [] (
    SExp glm_ivec3_subs$("v", "s", "dest")
  ).

(* src/ivec3.c:79-81 *)
Definition glmc_ivec3_mul : fundef := Fun
  [("a", None); ("b", None); ("dest", None)]
  [] (
    SExp glm_ivec3_mul$("a", "b", "dest")
  ).

(* src/ivec3.c:85-87 *)
Definition glmc_ivec3_scale : fundef := Fun
  [("v", None); ("s", None); ("dest", None)]
  [] (
    SExp glm_ivec3_scale$("v", "s", "dest")
  ).

(* src/ivec3.c:91-93 *)
Definition glmc_ivec3_div : fundef := Fun
  [("a", None); ("b", None); ("dest", None)]
  [] (
    SExp glm_ivec3_div$("a", "b", "dest")
  ).

(* src/ivec3.c:97-99 *)
Definition glmc_ivec3_divs : fundef := Fun
  [("v", None); ("s", None); ("dest", None)]
  [] (
    SExp glm_ivec3_divs$("v", "s", "dest")
  ).

(* src/ivec3.c:103-105 *)
Definition glmc_ivec3_mod : fundef := Fun
  [("a", None); ("b", None); ("dest", None)]
  [] (
    SExp glm_ivec3_mod$("a", "b", "dest")
  ).

(* src/ivec3.c:109-111 *)
Definition glmc_ivec3_addadd : fundef := Fun
  [("a", None); ("b", None); ("dest", None)]
  [] (
    SExp glm_ivec3_addadd$("a", "b", "dest")
  ).

(* src/ivec3.c:115-117 *)
Definition glmc_ivec3_addadds : fundef := Fun
  [("a", None); ("s", None); ("dest", None)]
  [] (
    SExp glm_ivec3_addadds$("a", "s", "dest")
  ).

(* src/ivec3.c:121-123 *)
Definition glmc_ivec3_subadd : fundef := Fun
  [("a", None); ("b", None); ("dest", None)]
  [] (
    SExp glm_ivec3_subadd$("a", "b", "dest")
  ).

(* src/ivec3.c:127-129 *)
Definition glmc_ivec3_subadds : fundef := Fun
  [("a", None); ("s", None); ("dest", None)]
  [] (
    SExp glm_ivec3_subadds$("a", "s", "dest")
  ).

(* src/ivec3.c:133-135 *)
Definition glmc_ivec3_muladd : fundef := Fun
  [("a", None); ("b", None); ("dest", None)]
  [] (
    SExp glm_ivec3_muladd$("a", "b", "dest")
  ).

(* src/ivec3.c:139-141 *)
Definition glmc_ivec3_muladds : fundef := Fun
  [("a", None); ("s", None); ("dest", None)]
  [] (
    SExp glm_ivec3_muladds$("a", "s", "dest")
  ).

(* src/ivec3.c:145-147 *)
Definition glmc_ivec3_maxadd : fundef := Fun
  [("a", None); ("b", None); ("dest", None)]
  [] (
    SExp glm_ivec3_maxadd$("a", "b", "dest")
  ).

(* src/ivec3.c:151-153 *)
Definition glmc_ivec3_minadd : fundef := Fun
  [("a", None); ("b", None); ("dest", None)]
  [] (
    SExp glm_ivec3_minadd$("a", "b", "dest")
  ).

(* src/ivec3.c:157-159 *)
Definition glmc_ivec3_subsub : fundef := Fun
  [("a", None); ("b", None); ("dest", None)]
  [] (
    SExp glm_ivec3_subsub$("a", "b", "dest")
  ).

(* src/ivec3.c:163-165 *)
Definition glmc_ivec3_subsubs : fundef := Fun
  [("a", None); ("s", None); ("dest", None)]
  [] (
    SExp glm_ivec3_subsubs$("a", "s", "dest")
  ).

(* src/ivec3.c:169-171 *)
Definition glmc_ivec3_addsub : fundef := Fun
  [("a", None); ("b", None); ("dest", None)]
  [] (
    SExp glm_ivec3_addsub$("a", "b", "dest")
  ).

(* src/ivec3.c:175-177 *)
Definition glmc_ivec3_addsubs : fundef := Fun
  [("a", None); ("s", None); ("dest", None)]
  [] (
    SExp glm_ivec3_addsubs$("a", "s", "dest")
  ).

(* src/ivec3.c:181-183 *)
Definition glmc_ivec3_mulsub : fundef := Fun
  [("a", None); ("b", None); ("dest", None)]
  [] (
    SExp glm_ivec3_mulsub$("a", "b", "dest")
  ).

(* src/ivec3.c:187-189 *)
Definition glmc_ivec3_mulsubs : fundef := Fun
  [("a", None); ("s", None); ("dest", None)]
  [] (
    SExp glm_ivec3_mulsubs$("a", "s", "dest")
  ).

(* src/ivec3.c:193-195 *)
Definition glmc_ivec3_maxsub : fundef := Fun
  [("a", None); ("b", None); ("dest", None)]
  [] (
    SExp glm_ivec3_maxsub$("a", "b", "dest")
  ).

(* src/ivec3.c:199-201 *)
Definition glmc_ivec3_minsub : fundef := Fun
  [("a", None); ("b", None); ("dest", None)]
  [] (
    SExp glm_ivec3_minsub$("a", "b", "dest")
  ).

(* src/ivec3.c:205-207 *)
Definition glmc_ivec3_distance2 : fundef := Fun
  [("a", None); ("b", None)]
  [] (
    SRet glm_ivec3_distance2$("a", "b")
  ).

(* src/ivec3.c:211-213 *)
Definition glmc_ivec3_distance : fundef := Fun
  [("a", None); ("b", None)]
  [] (
    SRet glm_ivec3_distance$("a", "b")
  ).

(* src/ivec3.c:217-219 *)
Definition glmc_ivec3_fill : fundef := Fun
  [("v", None); ("val", None)]
  [] (
    SExp glm_ivec3_fill$("v", "val")
  ).

(* src/ivec3.c:223-225 *)
Definition glmc_ivec3_eq : fundef := Fun
  [("v", None); ("val", None)]
  [] (
    SRet glm_ivec3_eq$("v", "val")
  ).

(* src/ivec3.c:229-231 *)
Definition glmc_ivec3_eqv : fundef := Fun
  [("a", None); ("b", None)]
  [] (
    SRet glm_ivec3_eqv$("a", "b")
  ).

(* src/ivec3.c:235-237 *)
Definition glmc_ivec3_maxv : fundef := Fun
  [("a", None); ("b", None); ("dest", None)]
  [] (
    SExp glm_ivec3_maxv$("a", "b", "dest")
  ).

(* src/ivec3.c:241-243 *)
Definition glmc_ivec3_minv : fundef := Fun
  [("a", None); ("b", None); ("dest", None)]
  [] (
    SExp glm_ivec3_minv$("a", "b", "dest")
  ).

(* src/ivec3.c:247-249 *)
Definition glmc_ivec3_clamp : fundef := Fun
  [("v", None); ("minVal", None); ("maxVal", None)]
  [] (
    SExp glm_ivec3_clamp$("v", "minVal", "maxVal")
  ).

(* src/ivec3.c:253-255 *)
Definition glmc_ivec3_abs : fundef := Fun
  [("v", None); ("dest", None)]
  [] (
    SExp glm_ivec3_abs$("v", "dest")
  ).

