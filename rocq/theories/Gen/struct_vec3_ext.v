(** Functions of include/cglm/struct/vec3-ext.h (configuration: scalar), written by tools/gen.py.
    The comment above each definition gives file and lines in /repo/include/cglm. *)
From Coq Require Import String List ZArith.
From Verif Require Import MiniC.
From Verif.Gen Require Import vec3_ext.
Import ListNotations.
Open Scope string_scope.
Open Scope Z_scope.
Open Scope mc_scope.

(* struct/vec3-ext.h:56-60 *)
Definition glms_vec3_broadcast : fundef := Fun
  [("val", None)]
  [("r", Some 3%nat)] (
    SExp glm_vec3_broadcast$("val", "r") ;;
    SRet (ELdA 3 "r")
  ).

(* struct/vec3-ext.h:70-74 *)
Definition glms_vec3_fill : fundef := Fun
  [("val", None)]
  [("r", Some 3%nat)] (
    SExp glm_vec3_fill$("r", "val") ;;
    SRet (ELdA 3 "r")
  ).

(* struct/vec3-ext.h:84-86 *)
Definition glms_vec3_eq : fundef := Fun
  [("v", Some 3%nat); ("val", None)]
  [] (
    SRet glm_vec3_eq$("v", "val")
  ).

(* struct/vec3-ext.h:96-98 *)
Definition glms_vec3_eq_eps : fundef := Fun
  [("v", Some 3%nat); ("val", None)]
  [] (
    SRet glm_vec3_eq_eps$("v", "val")
  ).

(* struct/vec3-ext.h:107-109 *)
Definition glms_vec3_eq_all : fundef := Fun
  [("v", Some 3%nat)]
  [] (
    SRet glm_vec3_eq_all$("v")
  ).

(* struct/vec3-ext.h:119-121 *)
Definition glms_vec3_eqv : fundef := Fun
  [("a", Some 3%nat); ("b", Some 3%nat)]
  [] (
    SRet glm_vec3_eqv$("a", "b")
  ).

(* struct/vec3-ext.h:131-133 *)
Definition glms_vec3_eqv_eps : fundef := Fun
  [("a", Some 3%nat); ("b", Some 3%nat)]
  [] (
    SRet glm_vec3_eqv_eps$("a", "b")
  ).

(* struct/vec3-ext.h:142-144 *)
Definition glms_vec3_max : fundef := Fun
  [("v", Some 3%nat)]
  [] (
    SRet glm_vec3_max$("v")
  ).

(* struct/vec3-ext.h:153-155 *)
Definition glms_vec3_min : fundef := Fun
  [("v", Some 3%nat)]
  [] (
    SRet glm_vec3_min$("v")
  ).

(* struct/vec3-ext.h:165-167 *)
Definition glms_vec3_isnan : fundef := Fun
  [("v", Some 3%nat)]
  [] (
    SRet glm_vec3_isnan$("v")
  ).

(* struct/vec3-ext.h:177-179 *)
Definition glms_vec3_isinf : fundef := Fun
  [("v", Some 3%nat)]
  [] (
    SRet glm_vec3_isinf$("v")
  ).

(* struct/vec3-ext.h:189-191 *)
Definition glms_vec3_isvalid : fundef := Fun
  [("v", Some 3%nat)]
  [] (
    SRet glm_vec3_isvalid$("v")
  ).

(* struct/vec3-ext.h:203-207 *)
Definition glms_vec3_sign : fundef := Fun
  [("v", Some 3%nat)]
  [("r", Some 3%nat)] (
    SExp glm_vec3_sign$("v", "r") ;;
    SRet (ELdA 3 "r")
  ).

(* struct/vec3-ext.h:217-221 *)
Definition glms_vec3_abs : fundef := Fun
  [("v", Some 3%nat)]
  [("r", Some 3%nat)] (
    SExp glm_vec3_abs$("v", "r") ;;
    SRet (ELdA 3 "r")
  ).

(* struct/vec3-ext.h:231-235 *)
Definition glms_vec3_fract : fundef := Fun
  [("v", Some 3%nat)]
  [("r", Some 3%nat)] (
    SExp glm_vec3_fract$("v", "r") ;;
    SRet (ELdA 3 "r")
  ).

(* struct/vec3-ext.h:245-249 *)
Definition glms_vec3_floor : fundef := Fun
  [("v", Some 3%nat)]
  [("r", Some 3%nat)] (
    SExp glm_vec3_floor$("v", "r") ;;
    SRet (ELdA 3 "r")
  ).

(* struct/vec3-ext.h:260-264 *)
Definition glms_vec3_mods : fundef := Fun
  [("v", Some 3%nat); ("s", None)]
  [("r", Some 3%nat)] (
    SExp glm_vec3_mods$("v", "s", "r") ;;
    SRet (ELdA 3 "r")
  ).

(* struct/vec3-ext.h:276-280 *)
Definition glms_vec3_steps : fundef := Fun
  [("edge", None); ("x", Some 3%nat)]
  [("r", Some 3%nat)] (
    SExp glm_vec3_steps$("edge", "x", "r") ;;
    SRet (ELdA 3 "r")
  ).

(* struct/vec3-ext.h:292-296 *)
Definition glms_vec3_stepr : fundef := Fun
  [("edge", Some 3%nat); ("x", None)]
  [("r", Some 3%nat)] (
    SExp glm_vec3_stepr$("edge", "x", "r") ;;
    SRet (ELdA 3 "r")
  ).

(* struct/vec3-ext.h:307-309 *)
Definition glms_vec3_hadd : fundef := Fun
  [("v", Some 3%nat)]
  [] (
    SRet glm_vec3_hadd$("v")
  ).

(* struct/vec3-ext.h:319-323 *)
Definition glms_vec3_sqrt : fundef := Fun
  [("v", Some 3%nat)]
  [("r", Some 3%nat)] (
    SExp glm_vec3_sqrt$("v", "r") ;;
    SRet (ELdA 3 "r")
  ).

