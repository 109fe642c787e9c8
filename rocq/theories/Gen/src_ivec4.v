(** Functions of src/ivec4.c (configuration: scalar), written by tools/gen.py.
    The comment above each definition gives file and lines in /repo. *)
From Coq Require Import String List ZArith.
From Verif Require Import MiniC.
From Verif.Gen Require Import ivec4.
Import ListNotations.
Open Scope string_scope.
Open Scope Z_scope.
Open Scope mc_scope.

(* src/ivec4.c:13-15 *)
Definition glmc_ivec4 : fundef := Fun
  [("v3", None); ("last", None); ("dest", None)]
  [] (
    SExp glm_ivec4$("v3", "last", "dest")
  ).

(* src/ivec4.c:19-21 *)
Definition glmc_ivec4_copy : fundef := Fun
  [("a", None); ("dest", None)]
  [] (
    SExp glm_ivec4_copy$("a", "dest")
  ).

(* src/ivec4.c:25-27 *)
Definition glmc_ivec4_zero : fundef := Fun
  [("v", None)]
  [] (
    SExp glm_ivec4_zero$("v")
  ).

(* src/ivec4.c:31-33 *)
Definition glmc_ivec4_one : fundef := Fun
  [("v", None)]
  [] (
    SExp glm_ivec4_one$("v")
  ).

(* src/ivec4.c:37-39 *)
Definition glmc_ivec4_add : fundef := Fun
  [("a", None); ("b", None); ("dest", None)]
  [] (
    SExp glm_ivec4_add$("a", "b", "dest")
  ).

(* src/ivec4.c:43-45 *)
Definition glmc_ivec4_adds : fundef := Fun
  [("v", None); ("s", None); ("dest", None)]
  [] (
    SExp glm_ivec4_adds$("v", "s", "dest")
  ).

(* src/ivec4.c:49-51 *)
Definition glmc_ivec4_sub : fundef := Fun
  [("a", None); ("b", None); ("dest", None)]
  [] (
    SExp glm_ivec4_sub$("a", "b", "dest")
  ).

(* src/ivec4.c:55-57 *)
Definition glmc_ivec4_subs : fundef := Fun
  [("v", None); ("s", None); ("dest", None)]
  [] (
    SExp glm_ivec4_subs$("v", "s", "dest")
  ).

(* src/ivec4.c:61-63 *)
Definition glmc_ivec4_mul : fundef := Fun
  [("a", None); ("b", None); ("dest", None)]
  [] (
    SExp glm_ivec4_mul$("a", "b", "dest")
  ).

(* src/ivec4.c:67-69 *)
Definition glmc_ivec4_scale : fundef := Fun
  [("v", None); ("s", None); ("dest", None)]
  [] (
    SExp glm_ivec4_scale$("v", "s", "dest")
  ).

(* src/ivec4.c:73-75 *)
Definition glmc_ivec4_addadd : fundef := Fun
  [("a", None); ("b", None); ("dest", None)]
  [] (
    SExp glm_ivec4_addadd$("a", "b", "dest")
  ).

(* src/ivec4.c:79-81 *)
Definition glmc_ivec4_addadds : fundef := Fun
  [("a", None); ("s", None); ("dest", None)]
  [] (
    SExp glm_ivec4_addadds$("a", "s", "dest")
  ).

(* src/ivec4.c:85-87 *)
Definition glmc_ivec4_subadd : fundef := Fun
  [("a", None); ("b", None); ("dest", None)]
  [] (
    SExp glm_ivec4_subadd$("a", "b", "dest")
  ).

(* src/ivec4.c:91-93 *)
Definition glmc_ivec4_subadds : fundef := Fun
  [("a", None); ("s", None); ("dest", None)]
  [] (
    SExp glm_ivec4_subadds$("a", "s", "dest")
  ).

(* src/ivec4.c:97-99 *)
Definition glmc_ivec4_muladd : fundef := Fun
  [("a", None); ("b", None); ("dest", None)]
  [] (
    SExp glm_ivec4_muladd$("a", "b", "dest")
  ).

(* src/ivec4.c:103-105 *)
Definition glmc_ivec4_muladds : fundef := Fun
  [("a", None); ("s", None); ("dest", None)]
  [] (
    SExp glm_ivec4_muladds$("a", "s", "dest")
  ).

(* src/ivec4.c:109-111 *)
Definition glmc_ivec4_maxadd : fundef := Fun
  [("a", None); ("b", None); ("dest", None)]
  [] (
    SExp glm_ivec4_maxadd$("a", "b", "dest")
  ).

(* src/ivec4.c:115-117 *)
Definition glmc_ivec4_minadd : fundef := Fun
  [("a", None); ("b", None); ("dest", None)]
  [] (
    SExp glm_ivec4_minadd$("a", "b", "dest")
  ).

(* src/ivec4.c:121-123 *)
Definition glmc_ivec4_subsub : fundef := Fun
  [("a", None); ("b", None); ("dest", None)]
  [] (
    SExp glm_ivec4_subsub$("a", "b", "dest")
  ).

(* src/ivec4.c:127-129 *)
Definition glmc_ivec4_subsubs : fundef := Fun
  [("a", None); ("s", None); ("dest", None)]
  [] (
    SExp glm_ivec4_subsubs$("a", "s", "dest")
  ).

(* src/ivec4.c:133-135 *)
Definition glmc_ivec4_addsub : fundef := Fun
  [("a", None); ("b", None); ("dest", None)]
  [] (
    SExp glm_ivec4_addsub$("a", "b", "dest")
  ).

(* src/ivec4.c:139-141 *)
Definition glmc_ivec4_addsubs : fundef := Fun
  [("a", None); ("s", None); ("dest", None)]
  [] (
    SExp glm_ivec4_addsubs$("a", "s", "dest")
  ).

(* src/ivec4.c:145-147 *)
Definition glmc_ivec4_mulsub : fundef := Fun
  [("a", None); ("b", None); ("dest", None)]
  [] (
    SExp glm_ivec4_mulsub$("a", "b", "dest")
  ).

(* src/ivec4.c:151-153 *)
Definition glmc_ivec4_mulsubs : fundef := Fun
  [("a", None); ("s", None); ("dest", None)]
  [] (
    SExp glm_ivec4_mulsubs$("a", "s", "dest")
  ).

(* src/ivec4.c:157-159 *)
Definition glmc_ivec4_maxsub : fundef := Fun
  [("a", None); ("b", None); ("dest", None)]
  [] (
    SExp glm_ivec4_maxsub$("a", "b", "dest")
  ).

(* src/ivec4.c:163-165 *)
Definition glmc_ivec4_minsub : fundef := Fun
  [("a", None); ("b", None); ("dest", None)]
  [] (
    SExp glm_ivec4_minsub$("a", "b", "dest")
  ).

(* src/ivec4.c:169-171 *)
Definition glmc_ivec4_distance2 : fundef := Fun
  [("a", None); ("b", None)]
  [] (
    SRet glm_ivec4_distance2$("a", "b")
  ).

(* src/ivec4.c:175-177 *)
Definition glmc_ivec4_distance : fundef := Fun
  [("a", None); ("b", None)]
  [] (
    SRet glm_ivec4_distance$("a", "b")
  ).

(* src/ivec4.c:181-183 *)
Definition glmc_ivec4_maxv : fundef := Fun
  [("a", None); ("b", None); ("dest", None)]
  [] (
    SExp glm_ivec4_maxv$("a", "b", "dest")
  ).

(* src/ivec4.c:187-189 *)
Definition glmc_ivec4_minv : fundef := Fun
  [("a", None); ("b", None); ("dest", None)]
  [] (
    SExp glm_ivec4_minv$("a", "b", "dest")
  ).

(* src/ivec4.c:193-195 *)
Definition glmc_ivec4_clamp : fundef := Fun
  [("v", None); ("minVal", None); ("maxVal", None)]
  [] (
    SExp glm_ivec4_clamp$("v", "minVal", "maxVal")
  ).

(* src/ivec4.c:199-201 *)
Definition glmc_ivec4_abs : fundef := Fun
  [("v", None); ("dest", None)]
  [] (
    SExp glm_ivec4_abs$("v", "dest")
  ).

