(** Functions of include/cglm/struct/vec4-ext.h (configuration: scalar), written by tools/gen.py.
    The comment above each definition gives file and lines in /repo/include/cglm. *)
From Coq Require Import String List ZArith.
From Verif Require Import MiniC.
From Verif.Gen Require Import vec4_ext.
Import ListNotations.
Open Scope string_scope.
Open Scope Z_scope.
Open Scope mc_scope.

(* struct/vec4-ext.h:56-60 *)
Definition glms_vec4_broadcast : fundef := Fun
  [("val", None)]
  [("r", Some 4%nat)] (
    SExp glm_vec4_broadcast$("val", "r") ;;
    SRet (ELdA 4 "r")
  ).

(* struct/vec4-ext.h:70-74 *)
Definition glms_vec4_fill : fundef := Fun
  [("val", None)]
  [("r", Some 4%nat)] (
    SExp glm_vec4_fill$("r", "val") ;;
    SRet (ELdA 4 "r")
  ).

(* struct/vec4-ext.h:84-86 *)
Definition glms_vec4_eq : fundef := Fun
  [("v", Some 4%nat); ("val", None)]
  [] (
    SRet glm_vec4_eq$("v", "val")
  ).

(* struct/vec4-ext.h:96-98 *)
Definition glms_vec4_eq_eps : fundef := Fun
  [("v", Some 4%nat); ("val", None)]
  [] (
    SRet glm_vec4_eq_eps$("v", "val")
  ).

(* struct/vec4-ext.h:107-109 *)
Definition glms_vec4_eq_all : fundef := Fun
  [("v", Some 4%nat)]
  [] (
    SRet glm_vec4_eq_all$("v")
  ).

(* struct/vec4-ext.h:119-121 *)
Definition glms_vec4_eqv : fundef := Fun
  [("a", Some 4%nat); ("b", Some 4%nat)]
  [] (
    SRet glm_vec4_eqv$("a", "b")
  ).

(* struct/vec4-ext.h:131-133 *)
Definition glms_vec4_eqv_eps : fundef := Fun
  [("a", Some 4%nat); ("b", Some 4%nat)]
  [] (
    SRet glm_vec4_eqv_eps$("a", "b")
  ).

(* struct/vec4-ext.h:142-144 *)
Definition glms_vec4_max : fundef := Fun
  [("v", Some 4%nat)]
  [] (
    SRet glm_vec4_max$("v")
  ).

(* struct/vec4-ext.h:153-155 *)
Definition glms_vec4_min : fundef := Fun
  [("v", Some 4%nat)]
  [] (
    SRet glm_vec4_min$("v")
  ).

(* struct/vec4-ext.h:165-167 *)
Definition glms_vec4_isnan : fundef := Fun
  [("v", Some 4%nat)]
  [] (
    SRet glm_vec4_isnan$("v")
  ).

(* struct/vec4-ext.h:177-179 *)
Definition glms_vec4_isinf : fundef := Fun
  [("v", Some 4%nat)]
  [] (
    SRet glm_vec4_isinf$("v")
  ).

(* struct/vec4-ext.h:189-191 *)
Definition glms_vec4_isvalid : fundef := Fun
  [("v", Some 4%nat)]
  [] (
    SRet glm_vec4_isvalid$("v")
  ).

(* struct/vec4-ext.h:203-207 *)
Definition glms_vec4_sign : fundef := Fun
  [("v", Some 4%nat)]
  [("r", Some 4%nat)] (
    SExp glm_vec4_sign$("v", "r") ;;
    SRet (ELdA 4 "r")
  ).

(* struct/vec4-ext.h:217-221 *)
Definition glms_vec4_abs : fundef := Fun
  [("v", Some 4%nat)]
  [("r", Some 4%nat)] (
    SExp glm_vec4_abs$("v", "r") ;;
    SRet (ELdA 4 "r")
  ).

(* struct/vec4-ext.h:231-235 *)
Definition glms_vec4_fract : fundef := Fun
  [("v", Some 4%nat)]
  [("r", Some 4%nat)] (
    SExp glm_vec4_fract$("v", "r") ;;
    SRet (ELdA 4 "r")
  ).

(* struct/vec4-ext.h:245-249 *)
Definition glms_vec4_floor : fundef := Fun
  [("v", Some 4%nat)]
  [("r", Some 4%nat)] (
    SExp glm_vec4_floor$("v", "r") ;;
    SRet (ELdA 4 "r")
  ).

(* struct/vec4-ext.h:260-264 *)
Definition glms_vec4_mods : fundef := Fun
  [("v", Some 4%nat); ("s", None)]
  [("r", Some 4%nat)] (
    SExp glm_vec4_mods$("v", "s", "r") ;;
    SRet (ELdA 4 "r")
  ).

(* struct/vec4-ext.h:276-280 *)
Definition glms_vec4_steps : fundef := Fun
  [("edge", None); ("x", Some 4%nat)]
  [("r", Some 4%nat)] (
    SExp glm_vec4_steps$("edge", "x", "r") ;;
    SRet (ELdA 4 "r")
  ).

(* struct/vec4-ext.h:292-296 *)
Definition glms_vec4_stepr : fundef := Fun
  [("edge", Some 4%nat); ("x", None)]
  [("r", Some 4%nat)] (
    SExp glm_vec4_stepr$("edge", "x", "r") ;;
    SRet (ELdA 4 "r")
  ).

(* struct/vec4-ext.h:307-309 *)
Definition glms_vec4_hadd : fundef := Fun
  [("v", Some 4%nat)]
  [] (
    SRet glm_vec4_hadd$("v")
  ).

(* struct/vec4-ext.h:319-323 *)
Definition glms_vec4_sqrt : fundef := Fun
  [("v", Some 4%nat)]
  [("r", Some 4%nat)] (
    SExp glm_vec4_sqrt$("v", "r") ;;
    SRet (ELdA 4 "r")
  ).

