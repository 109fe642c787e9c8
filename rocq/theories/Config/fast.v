(** The functions of include/cglm whose text differs in the fast build, or that call one,
    written by tools/gensimd.py.  Functions not listed read as in the scalar build (Gen/).
    The comment above each definition gives file and lines in /repo/include/cglm. *)
From Coq Require Import String List ZArith.
From Verif Require Import MiniC Cglm.
Import ListNotations.
Open Scope string_scope.
Open Scope Z_scope.
Open Scope mc_scope.

(* vec2-ext.h:143-149 *)
Definition fast_glm_vec2_isnan : fundef := Fun
  [("v", None)]
  [] (
    SRet (EB false)
  ).

(* vec2-ext.h:159-165 *)
Definition fast_glm_vec2_isinf : fundef := Fun
  [("v", None)]
  [] (
    SRet (EB false)
  ).

(* vec2-ext.h:175-177 *)
Definition fast_glm_vec2_isvalid : fundef := Fun
  [("v", None)]
  [] (
    SRet (EAnd (ENot fast_glm_vec2_isnan$("v")) (ENot fast_glm_vec2_isinf$("v")))
  ).

(* vec3-ext.h:178-184 *)
Definition fast_glm_vec3_isnan : fundef := Fun
  [("v", None)]
  [] (
    SRet (EB false)
  ).

(* vec3-ext.h:194-200 *)
Definition fast_glm_vec3_isinf : fundef := Fun
  [("v", None)]
  [] (
    SRet (EB false)
  ).

(* vec3-ext.h:210-212 *)
Definition fast_glm_vec3_isvalid : fundef := Fun
  [("v", None)]
  [] (
    SRet (EAnd (ENot fast_glm_vec3_isnan$("v")) (ENot fast_glm_vec3_isinf$("v")))
  ).

(* vec4-ext.h:192-198 *)
Definition fast_glm_vec4_isnan : fundef := Fun
  [("v", None)]
  [] (
    SRet (EB false)
  ).

(* vec4-ext.h:208-214 *)
Definition fast_glm_vec4_isinf : fundef := Fun
  [("v", None)]
  [] (
    SRet (EB false)
  ).

(* vec4-ext.h:224-226 *)
Definition fast_glm_vec4_isvalid : fundef := Fun
  [("v", None)]
  [] (
    SRet (EAnd (ENot fast_glm_vec4_isnan$("v")) (ENot fast_glm_vec4_isinf$("v")))
  ).

(* struct/vec2-ext.h:149-151 *)
Definition fast_glms_vec2_isnan : fundef := Fun
  [("v", Some 2%nat)]
  [] (
    SRet fast_glm_vec2_isnan$("v")
  ).

(* struct/vec2-ext.h:161-163 *)
Definition fast_glms_vec2_isinf : fundef := Fun
  [("v", Some 2%nat)]
  [] (
    SRet fast_glm_vec2_isinf$("v")
  ).

(* struct/vec2-ext.h:173-175 *)
Definition fast_glms_vec2_isvalid : fundef := Fun
  [("v", Some 2%nat)]
  [] (
    SRet fast_glm_vec2_isvalid$("v")
  ).

(* struct/vec3-ext.h:165-167 *)
Definition fast_glms_vec3_isnan : fundef := Fun
  [("v", Some 3%nat)]
  [] (
    SRet fast_glm_vec3_isnan$("v")
  ).

(* struct/vec3-ext.h:177-179 *)
Definition fast_glms_vec3_isinf : fundef := Fun
  [("v", Some 3%nat)]
  [] (
    SRet fast_glm_vec3_isinf$("v")
  ).

(* struct/vec3-ext.h:189-191 *)
Definition fast_glms_vec3_isvalid : fundef := Fun
  [("v", Some 3%nat)]
  [] (
    SRet fast_glm_vec3_isvalid$("v")
  ).

(* struct/vec4-ext.h:165-167 *)
Definition fast_glms_vec4_isnan : fundef := Fun
  [("v", Some 4%nat)]
  [] (
    SRet fast_glm_vec4_isnan$("v")
  ).

(* struct/vec4-ext.h:177-179 *)
Definition fast_glms_vec4_isinf : fundef := Fun
  [("v", Some 4%nat)]
  [] (
    SRet fast_glm_vec4_isinf$("v")
  ).

(* struct/vec4-ext.h:189-191 *)
Definition fast_glms_vec4_isvalid : fundef := Fun
  [("v", Some 4%nat)]
  [] (
    SRet fast_glm_vec4_isvalid$("v")
  ).

