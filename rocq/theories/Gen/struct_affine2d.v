(** Functions of include/cglm/struct/affine2d.h (configuration: scalar), written by tools/gen.py.
    The comment above each definition gives file and lines in /repo/include/cglm. *)
From Coq Require Import String List ZArith.
From Verif Require Import MiniC.
From Verif.Gen Require Import affine2d.
Import ListNotations.
Open Scope string_scope.
Open Scope Z_scope.
Open Scope mc_scope.

(* struct/affine2d.h:41-44 *)
Definition glms_translate2d : fundef := Fun
  [("m", Some 9%nat); ("v", Some 2%nat)]
  [] (
    SExp glm_translate2d$("m", "v") ;;
    SRet (ELdA 9 "m")
  ).

(* struct/affine2d.h:55-58 *)
Definition glms_translate2d_x : fundef := Fun
  [("m", Some 9%nat); ("x", None)]
  [] (
    SExp glm_translate2d_x$("m", "x") ;;
    SRet (ELdA 9 "m")
  ).

(* struct/affine2d.h:69-72 *)
Definition glms_translate2d_y : fundef := Fun
  [("m", Some 9%nat); ("y", None)]
  [] (
    SExp glm_translate2d_y$("m", "y") ;;
    SRet (ELdA 9 "m")
  ).

(* struct/affine2d.h:82-86 *)
Definition glms_translate2d_make : fundef := Fun
  [("v", Some 2%nat)]
  [("m", Some 9%nat)] (
    SExp glm_translate2d_make$("m", "v") ;;
    SRet (ELdA 9 "m")
  ).

(* struct/affine2d.h:96-100 *)
Definition glms_scale2d_make : fundef := Fun
  [("v", Some 2%nat)]
  [("m", Some 9%nat)] (
    SExp glm_scale2d_make$("m", "v") ;;
    SRet (ELdA 9 "m")
  ).

(* struct/affine2d.h:112-116 *)
Definition glms_scale2d : fundef := Fun
  [("m", Some 9%nat); ("v", Some 2%nat)]
  [("r", Some 9%nat)] (
    SExp glm_scale2d_to$("m", "v", "r") ;;
    SRet (ELdA 9 "r")
  ).

(* struct/affine2d.h:128-131 *)
Definition glms_scale2d_uni : fundef := Fun
  [("m", Some 9%nat); ("s", None)]
  [] (
    SExp glm_scale2d_uni$("m", "s") ;;
    SRet (ELdA 9 "m")
  ).

(* struct/affine2d.h:143-147 *)
Definition glms_rotate2d_make : fundef := Fun
  [("angle", None)]
  [("m", Some 9%nat)] (
    SExp glm_rotate2d_make$("m", "angle") ;;
    SRet (ELdA 9 "m")
  ).

(* struct/affine2d.h:158-161 *)
Definition glms_rotate2d : fundef := Fun
  [("m", Some 9%nat); ("angle", None)]
  [] (
    SExp glm_rotate2d$("m", "angle") ;;
    SRet (ELdA 9 "m")
  ).

(* struct/affine2d.h:172-175 *)
Definition glms_rotate2d_to : fundef := Fun
  [("m", Some 9%nat); ("angle", None)]
  [] (
    SExp glm_rotate2d$("m", "angle") ;;
    SRet (ELdA 9 "m")
  ).

