(** Functions of include/cglm/struct/affine.h (configuration: scalar), written by tools/gen.py.
    The comment above each definition gives file and lines in /repo/include/cglm. *)
From Coq Require Import String List ZArith.
From Verif Require Import MiniC.
From Verif.Gen Require Import affine_pre affine.
Import ListNotations.
Open Scope string_scope.
Open Scope Z_scope.
Open Scope mc_scope.

(* struct/affine.h:52-56 *)
Definition glms_translate_make : fundef := Fun
  [("v", Some 3%nat)]
  [("m", Some 16%nat)] (
    SExp glm_translate_make$("m", "v") ;;
    SRet (ELdA 16 "m")
  ).

(* struct/affine.h:66-70 *)
Definition glms_scale_make : fundef := Fun
  [("v", Some 3%nat)]
  [("m", Some 16%nat)] (
    SExp glm_scale_make$("m", "v") ;;
    SRet (ELdA 16 "m")
  ).

(* struct/affine.h:82-86 *)
Definition glms_scale : fundef := Fun
  [("m", Some 16%nat); ("v", Some 3%nat)]
  [("r", Some 16%nat)] (
    SExp glm_scale_to$("m", "v", "r") ;;
    SRet (ELdA 16 "r")
  ).

(* struct/affine.h:98-101 *)
Definition glms_scale_uni : fundef := Fun
  [("m", Some 16%nat); ("s", None)]
  [] (
    SExp glm_scale_uni$("m", "s") ;;
    SRet (ELdA 16 "m")
  ).

(* struct/affine.h:114-118 *)
Definition glms_rotate_make : fundef := Fun
  [("angle", None); ("axis", Some 3%nat)]
  [("m", Some 16%nat)] (
    SExp glm_rotate_make$("m", "angle", "axis") ;;
    SRet (ELdA 16 "m")
  ).

(* struct/affine.h:135-139 *)
Definition glms_rotate_atm : fundef := Fun
  [("pivot", Some 3%nat); ("angle", None); ("axis", Some 3%nat)]
  [("m", Some 16%nat)] (
    SExp glm_rotate_atm$("m", "pivot", "angle", "axis") ;;
    SRet (ELdA 16 "m")
  ).

(* struct/affine.h:149-153 *)
Definition glms_decompose_scalev : fundef := Fun
  [("m", Some 16%nat)]
  [("r", Some 3%nat)] (
    SExp glm_decompose_scalev$("m", "r") ;;
    SRet (ELdA 3 "r")
  ).

(* struct/affine.h:165-167 *)
Definition glms_uniscaled : fundef := Fun
  [("m", Some 16%nat)]
  [] (
    SRet glm_uniscaled$("m")
  ).

(* struct/affine.h:179-181 *)
Definition glms_decompose_rs : fundef := Fun
  [("m", Some 16%nat); ("r", None); ("s", None)]
  [] (
    SExp glm_decompose_rs$("m", "r", "s")
  ).

(* struct/affine.h:194-196 *)
Definition glms_decompose : fundef := Fun
  [("m", Some 16%nat); ("t", None); ("r", None); ("s", None)]
  [] (
    SExp glm_decompose$("m", "t", "r", "s")
  ).

