(** Functions of include/cglm/struct/vec2-ext.h (configuration: scalar), written by tools/gen.py.
    The comment above each definition gives file and lines in /repo/include/cglm. *)
From Coq Require Import String List ZArith.
From Verif Require Import MiniC.
From Verif.Gen Require Import vec2_ext.
Import ListNotations.
Open Scope string_scope.
Open Scope Z_scope.
Open Scope mc_scope.

(* struct/vec2-ext.h:54-58 *)
Definition glms_vec2_fill : fundef := Fun
  [("val", None)]
  [("r", Some 2%nat)] (
    SExp glm_vec2_fill$("r", "val") ;;
    SRet (ELdA 2 "r")
  ).

(* struct/vec2-ext.h:68-70 *)
Definition glms_vec2_eq : fundef := Fun
  [("v", Some 2%nat); ("val", None)]
  [] (
    SRet glm_vec2_eq$("v", "val")
  ).

(* struct/vec2-ext.h:80-82 *)
Definition glms_vec2_eq_eps : fundef := Fun
  [("v", Some 2%nat); ("val", None)]
  [] (
    SRet glm_vec2_eq_eps$("v", "val")
  ).

(* struct/vec2-ext.h:91-93 *)
Definition glms_vec2_eq_all : fundef := Fun
  [("v", Some 2%nat)]
  [] (
    SRet glm_vec2_eq_all$("v")
  ).

(* struct/vec2-ext.h:103-105 *)
Definition glms_vec2_eqv : fundef := Fun
  [("a", Some 2%nat); ("b", Some 2%nat)]
  [] (
    SRet glm_vec2_eqv$("a", "b")
  ).

(* struct/vec2-ext.h:115-117 *)
Definition glms_vec2_eqv_eps : fundef := Fun
  [("a", Some 2%nat); ("b", Some 2%nat)]
  [] (
    SRet glm_vec2_eqv_eps$("a", "b")
  ).

(* struct/vec2-ext.h:126-128 *)
Definition glms_vec2_max : fundef := Fun
  [("v", Some 2%nat)]
  [] (
    SRet glm_vec2_max$("v")
  ).

(* struct/vec2-ext.h:137-139 *)
Definition glms_vec2_min : fundef := Fun
  [("v", Some 2%nat)]
  [] (
    SRet glm_vec2_min$("v")
  ).

(* struct/vec2-ext.h:149-151 *)
Definition glms_vec2_isnan : fundef := Fun
  [("v", Some 2%nat)]
  [] (
    SRet glm_vec2_isnan$("v")
  ).

(* struct/vec2-ext.h:161-163 *)
Definition glms_vec2_isinf : fundef := Fun
  [("v", Some 2%nat)]
  [] (
    SRet glm_vec2_isinf$("v")
  ).

(* struct/vec2-ext.h:173-175 *)
Definition glms_vec2_isvalid : fundef := Fun
  [("v", Some 2%nat)]
  [] (
    SRet glm_vec2_isvalid$("v")
  ).

(* struct/vec2-ext.h:187-191 *)
Definition glms_vec2_sign : fundef := Fun
  [("v", Some 2%nat)]
  [("r", Some 2%nat)] (
    SExp glm_vec2_sign$("v", "r") ;;
    SRet (ELdA 2 "r")
  ).

(* struct/vec2-ext.h:201-205 *)
Definition glms_vec2_abs : fundef := Fun
  [("v", Some 2%nat)]
  [("r", Some 2%nat)] (
    SExp glm_vec2_abs$("v", "r") ;;
    SRet (ELdA 2 "r")
  ).

(* struct/vec2-ext.h:215-219 *)
Definition glms_vec2_fract : fundef := Fun
  [("v", Some 2%nat)]
  [("r", Some 2%nat)] (
    SExp glm_vec2_fract$("v", "r") ;;
    SRet (ELdA 2 "r")
  ).

(* struct/vec2-ext.h:229-233 *)
Definition glms_vec2_floor : fundef := Fun
  [("v", Some 2%nat)]
  [("r", Some 2%nat)] (
    SExp glm_vec2_floor$("v", "r") ;;
    SRet (ELdA 2 "r")
  ).

(* struct/vec2-ext.h:244-248 *)
Definition glms_vec2_mods : fundef := Fun
  [("v", Some 2%nat); ("s", None)]
  [("r", Some 2%nat)] (
    SExp glm_vec2_mods$("v", "s", "r") ;;
    SRet (ELdA 2 "r")
  ).

(* struct/vec2-ext.h:260-264 *)
Definition glms_vec2_steps : fundef := Fun
  [("edge", None); ("x", Some 2%nat)]
  [("r", Some 2%nat)] (
    SExp glm_vec2_steps$("edge", "x", "r") ;;
    SRet (ELdA 2 "r")
  ).

(* struct/vec2-ext.h:276-280 *)
Definition glms_vec2_stepr : fundef := Fun
  [("edge", Some 2%nat); ("x", None)]
  [("r", Some 2%nat)] (
    SExp glm_vec2_stepr$("edge", "x", "r") ;;
    SRet (ELdA 2 "r")
  ).

(* struct/vec2-ext.h:290-294 *)
Definition glms_vec2_sqrt : fundef := Fun
  [("v", Some 2%nat)]
  [("r", Some 2%nat)] (
    SExp glm_vec2_sqrt$("v", "r") ;;
    SRet (ELdA 2 "r")
  ).

(* struct/vec2-ext.h:305-308 *)
Definition glms_vec2_complex_mul : fundef := Fun
  [("a", Some 2%nat); ("b", Some 2%nat); ("dest", Some 2%nat)]
  [] (
    SExp glm_vec2_complex_mul$("a", "b", "dest") ;;
    SRet (ELdA 2 "dest")
  ).

(* struct/vec2-ext.h:319-322 *)
Definition glms_vec2_complex_div : fundef := Fun
  [("a", Some 2%nat); ("b", Some 2%nat); ("dest", Some 2%nat)]
  [] (
    SExp glm_vec2_complex_div$("a", "b", "dest") ;;
    SRet (ELdA 2 "dest")
  ).

(* struct/vec2-ext.h:332-335 *)
Definition glms_vec2_complex_conjugate : fundef := Fun
  [("a", Some 2%nat); ("dest", Some 2%nat)]
  [] (
    SExp glm_vec2_complex_conjugate$("a", "dest") ;;
    SRet (ELdA 2 "dest")
  ).

