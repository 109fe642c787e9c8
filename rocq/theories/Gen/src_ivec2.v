(** Functions of src/ivec2.c (configuration: scalar), written by tools/gen.py.
    The comment above each definition gives file and lines in /repo. *)
From Coq Require Import String List ZArith.
From Verif Require Import MiniC.
From Verif.Gen Require Import ivec2.
Import ListNotations.
Open Scope string_scope.
Open Scope Z_scope.
Open Scope mc_scope.

(* src/ivec2.c:13-15 *)
Definition glmc_ivec2 : fundef := Fun
  [("v", None); ("dest", None)]
  [] (
    SExp glm_ivec2$("v", "dest")
  ).

(* src/ivec2.c:19-21 *)
Definition glmc_ivec2_copy : fundef := Fun
  [("a", None); ("dest", None)]
  [] (
    SExp glm_ivec2_copy$("a", "dest")
  ).

(* src/ivec2.c:25-27 *)
Definition glmc_ivec2_zero : fundef := Fun
  [("v", None)]
  [] (
    SExp glm_ivec2_zero$("v")
  ).

(* src/ivec2.c:31-33 *)
Definition glmc_ivec2_one : fundef := Fun
  [("v", None)]
  [] (
    SExp glm_ivec2_one$("v")
  ).

(* src/ivec2.c:37-39 *)
Definition glmc_ivec2_dot : fundef := Fun
  [("a", None); ("b", None)]
  [] (
    SRet glm_ivec2_dot$("a", "b")
  ).

(* src/ivec2.c:43-45 *)
Definition glmc_ivec2_cross : fundef := Fun
  [("a", None); ("b", None)]
  [] (
    SRet glm_ivec2_cross$("a", "b")
  ).

(* src/ivec2.c:49-51 *)
Definition glmc_ivec2_add : fundef := Fun
  [("a", None); ("b", None); ("dest", None)]
  [] (
    SExp glm_ivec2_add$("a", "b", "dest")
  ).

(* src/ivec2.c:55-57 *)
Definition glmc_ivec2_adds : fundef := Fun
  [("v", None); ("s", None); ("dest", None)]
  [] (
    SExp glm_ivec2_adds$("v", "s", "dest")
  ).

(* src/ivec2.c:61-63 *)
Definition glmc_ivec2_sub : fundef := Fun
  [("a", None); ("b", None); ("dest", None)]
  [] (
    SExp glm_ivec2_sub$("a", "b", "dest")
  ).

(* src/ivec2.c:67-69 *)
Definition glmc_ivec2_subs : fundef := Fun
  [("v", None); ("s", None); ("dest", None)]
  [] (
    SExp glm_ivec2_subs$("v", "s", "dest")
  ).

(* src/ivec2.c:73-75 *)
Definition glmc_ivec2_mul : fundef := Fun
  [("a", None); ("b", None); ("dest", None)]
  [] (
    SExp glm_ivec2_mul$("a", "b", "dest")
  ).

(* src/ivec2.c:79-81 *)
Definition glmc_ivec2_scale : fundef := Fun
  [("v", None); ("s", None); ("dest", None)]
  [] (
    SExp glm_ivec2_scale$("v", "s", "dest")
  ).

(* src/ivec2.c:85-87 *)
Definition glmc_ivec2_div : fundef := Fun
  [("a", None); ("b", None); ("dest", None)]
  [] (
    SExp glm_ivec2_div$("a", "b", "dest")
  ).

(* src/ivec2.c:91-93 *)
Definition glmc_ivec2_divs : fundef := Fun
  [("v", None); ("s", None); ("dest", None)]
  [] (
    SExp glm_ivec2_divs$("v", "s", "dest")
  ).

(* src/ivec2.c:97-99 *)
Definition glmc_ivec2_mod : fundef := Fun
  [("a", None); ("b", None); ("dest", None)]
  [] (
    SExp glm_ivec2_mod$("a", "b", "dest")
  ).

(* src/ivec2.c:103-105 *)
Definition glmc_ivec2_addadd : fundef := Fun
  [("a", None); ("b", None); ("dest", None)]
  [] (
    SExp glm_ivec2_addadd$("a", "b", "dest")
  ).

(* src/ivec2.c:109-111 *)
Definition glmc_ivec2_addadds : fundef := Fun
  [("a", None); ("s", None); ("dest", None)]
  [] (
    SExp glm_ivec2_addadds$("a", "s", "dest")
  ).

(* src/ivec2.c:115-117 *)
Definition glmc_ivec2_subadd : fundef := Fun
  [("a", None); ("b", None); ("dest", None)]
  [] (
    SExp glm_ivec2_subadd$("a", "b", "dest")
  ).

(* src/ivec2.c:121-123 *)
Definition glmc_ivec2_subadds : fundef := Fun
  [("a", None); ("s", None); ("dest", None)]
  [] (
    SExp glm_ivec2_subadds$("a", "s", "dest")
  ).

(* src/ivec2.c:127-129 *)
Definition glmc_ivec2_muladd : fundef := Fun
  [("a", None); ("b", None); ("dest", None)]
  [] (
    SExp glm_ivec2_muladd$("a", "b", "dest")
  ).

(* src/ivec2.c:133-135 *)
Definition glmc_ivec2_muladds : fundef := Fun
  [("a", None); ("s", None); ("dest", None)]
  [] (
    SExp glm_ivec2_muladds$("a", "s", "dest")
  ).

(* src/ivec2.c:139-141 *)
Definition glmc_ivec2_maxadd : fundef := Fun
  [("a", None); ("b", None); ("dest", None)]
  [] (
    SExp glm_ivec2_maxadd$("a", "b", "dest")
  ).

(* src/ivec2.c:145-147 *)
Definition glmc_ivec2_minadd : fundef := Fun
  [("a", None); ("b", None); ("dest", None)]
  [] (
    SExp glm_ivec2_minadd$("a", "b", "dest")
  ).

(* src/ivec2.c:151-153 *)
Definition glmc_ivec2_subsub : fundef := Fun
  [("a", None); ("b", None); ("dest", None)]
  [] (
    SExp glm_ivec2_subsub$("a", "b", "dest")
  ).

(* src/ivec2.c:157-159 *)
Definition glmc_ivec2_subsubs : fundef := Fun
  [("a", None); ("s", None); ("dest", None)]
  [] (
    SExp glm_ivec2_subsubs$("a", "s", "dest")
  ).

(* src/ivec2.c:163-165 *)
Definition glmc_ivec2_addsub : fundef := Fun
  [("a", None); ("b", None); ("dest", None)]
  [] (
    SExp glm_ivec2_addsub$("a", "b", "dest")
  ).

(* src/ivec2.c:169-171 *)
Definition glmc_ivec2_addsubs : fundef := Fun
  [("a", None); ("s", None); ("dest", None)]
  [] (
    SExp glm_ivec2_addsubs$("a", "s", "dest")
  ).

(* src/ivec2.c:175-177 *)
Definition glmc_ivec2_mulsub : fundef := Fun
  [("a", None); ("b", None); ("dest", None)]
  [] (
    SExp glm_ivec2_mulsub$("a", "b", "dest")
  ).

(* src/ivec2.c:181-183 *)
Definition glmc_ivec2_mulsubs : fundef := Fun
  [("a", None); ("s", None); ("dest", None)]
  [] (
    SExp glm_ivec2_mulsubs$("a", "s", "dest")
  ).

(* src/ivec2.c:187-189 *)
Definition glmc_ivec2_maxsub : fundef := Fun
  [("a", None); ("b", None); ("dest", None)]
  [] (
    SExp glm_ivec2_maxsub$("a", "b", "dest")
  ).

(* src/ivec2.c:193-195 *)
Definition glmc_ivec2_minsub : fundef := Fun
  [("a", None); ("b", None); ("dest", None)]
  [] (
    SExp glm_ivec2_minsub$("a", "b", "dest")
  ).

(* src/ivec2.c:199-201 *)
Definition glmc_ivec2_distance2 : fundef := Fun
  [("a", None); ("b", None)]
  [] (
    SRet glm_ivec2_distance2$("a", "b")
  ).

(* src/ivec2.c:205-207 *)
Definition glmc_ivec2_distance : fundef := Fun
  [("a", None); ("b", None)]
  [] (
    SRet glm_ivec2_distance$("a", "b")
  ).

(* src/ivec2.c:211-213 *)
Definition glmc_ivec2_fill : fundef := Fun
  [("v", None); ("val", None)]
  [] (
    SExp glm_ivec2_fill$("v", "val")
  ).

(* src/ivec2.c:217-219 *)
Definition glmc_ivec2_eq : fundef := Fun
  [("v", None); ("val", None)]
  [] (
    SRet glm_ivec2_eq$("v", "val")
  ).

(* src/ivec2.c:223-225 *)
Definition glmc_ivec2_eqv : fundef := Fun
  [("a", None); ("b", None)]
  [] (
    SRet glm_ivec2_eqv$("a", "b")
  ).

(* src/ivec2.c:229-231 *)
Definition glmc_ivec2_maxv : fundef := Fun
  [("a", None); ("b", None); ("dest", None)]
  [] (
    SExp glm_ivec2_maxv$("a", "b", "dest")
  ).

(* src/ivec2.c:235-237 *)
Definition glmc_ivec2_minv : fundef := Fun
  [("a", None); ("b", None); ("dest", None)]
  [] (
    SExp glm_ivec2_minv$("a", "b", "dest")
  ).

(* src/ivec2.c:241-243 *)
Definition glmc_ivec2_clamp : fundef := Fun
  [("v", None); ("minVal", None); ("maxVal", None)]
  [] (
    SExp glm_ivec2_clamp$("v", "minVal", "maxVal")
  ).

(* src/ivec2.c:247-249 *)
Definition glmc_ivec2_abs : fundef := Fun
  [("v", None); ("dest", None)]
  [] (
    SExp glm_ivec2_abs$("v", "dest")
  ).

