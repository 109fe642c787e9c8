(** Functions of include/cglm/struct/affine-pre.h (configuration: scalar), written by tools/gen.py.
    The comment above each definition gives file and lines in /repo/include/cglm. *)
From Coq Require Import String List ZArith.
From Verif Require Import MiniC.
From Verif.Gen Require Import affine_pre.
Import ListNotations.
Open Scope string_scope.
Open Scope Z_scope.
Open Scope mc_scope.

(* struct/affine-pre.h:42-45 *)
Definition glms_translate : fundef := Fun
  [("m", Some 16%nat); ("v", Some 3%nat)]
  [] (
    SExp glm_translate$("m", "v") ;;
    SRet (ELdA 16 "m")
  ).

(* struct/affine-pre.h:56-59 *)
Definition glms_translate_x : fundef := Fun
  [("m", Some 16%nat); ("x", None)]
  [] (
    SExp glm_translate_x$("m", "x") ;;
    SRet (ELdA 16 "m")
  ).

(* struct/affine-pre.h:70-73 *)
Definition glms_translate_y : fundef := Fun
  [("m", Some 16%nat); ("y", None)]
  [] (
    SExp glm_translate_y$("m", "y") ;;
    SRet (ELdA 16 "m")
  ).

(* struct/affine-pre.h:84-87 *)
Definition glms_translate_z : fundef := Fun
  [("m", Some 16%nat); ("z", None)]
  [] (
    SExp glm_translate_z$("m", "z") ;;
    SRet (ELdA 16 "m")
  ).

(* struct/affine-pre.h:99-103 *)
Definition glms_rotate_x : fundef := Fun
  [("m", Some 16%nat); ("angle", None)]
  [("r", Some 16%nat)] (
    SExp glm_rotate_x$("m", "angle", "r") ;;
    SRet (ELdA 16 "r")
  ).

(* struct/affine-pre.h:115-119 *)
Definition glms_rotate_y : fundef := Fun
  [("m", Some 16%nat); ("angle", None)]
  [("r", Some 16%nat)] (
    SExp glm_rotate_y$("m", "angle", "r") ;;
    SRet (ELdA 16 "r")
  ).

(* struct/affine-pre.h:131-135 *)
Definition glms_rotate_z : fundef := Fun
  [("m", Some 16%nat); ("angle", None)]
  [("r", Some 16%nat)] (
    SExp glm_rotate_z$("m", "angle", "r") ;;
    SRet (ELdA 16 "r")
  ).

(* struct/affine-pre.h:147-150 *)
Definition glms_rotate : fundef := Fun
  [("m", Some 16%nat); ("angle", None); ("axis", Some 3%nat)]
  [] (
    SExp glm_rotate$("m", "angle", "axis") ;;
    SRet (ELdA 16 "m")
  ).

(* struct/affine-pre.h:164-167 *)
Definition glms_rotate_at : fundef := Fun
  [("m", Some 16%nat); ("pivot", Some 3%nat); ("angle", None); ("axis", Some 3%nat)]
  [] (
    SExp glm_rotate_at$("m", "pivot", "angle", "axis") ;;
    SRet (ELdA 16 "m")
  ).

(* struct/affine-pre.h:179-182 *)
Definition glms_spin : fundef := Fun
  [("m", Some 16%nat); ("angle", None); ("axis", Some 3%nat)]
  [] (
    SExp glm_spin$("m", "angle", "axis") ;;
    SRet (ELdA 16 "m")
  ).

