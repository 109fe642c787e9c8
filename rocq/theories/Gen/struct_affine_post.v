(** Functions of include/cglm/struct/affine-post.h (configuration: scalar), written by tools/gen.py.
    The comment above each definition gives file and lines in /repo/include/cglm. *)
From Coq Require Import String List ZArith.
From Verif Require Import MiniC.
From Verif.Gen Require Import affine_post.
Import ListNotations.
Open Scope string_scope.
Open Scope Z_scope.
Open Scope mc_scope.

(* struct/affine-post.h:42-45 *)
Definition glms_translated : fundef := Fun
  [("m", Some 16%nat); ("v", Some 3%nat)]
  [] (
    SExp glm_translated$("m", "v") ;;
    SRet (ELdA 16 "m")
  ).

(* struct/affine-post.h:56-59 *)
Definition glms_translated_x : fundef := Fun
  [("m", Some 16%nat); ("x", None)]
  [] (
    SExp glm_translated_x$("m", "x") ;;
    SRet (ELdA 16 "m")
  ).

(* struct/affine-post.h:70-73 *)
Definition glms_translated_y : fundef := Fun
  [("m", Some 16%nat); ("y", None)]
  [] (
    SExp glm_translated_y$("m", "y") ;;
    SRet (ELdA 16 "m")
  ).

(* struct/affine-post.h:84-87 *)
Definition glms_translated_z : fundef := Fun
  [("m", Some 16%nat); ("z", None)]
  [] (
    SExp glm_translated_z$("m", "z") ;;
    SRet (ELdA 16 "m")
  ).

(* struct/affine-post.h:99-103 *)
Definition glms_rotated_x : fundef := Fun
  [("m", Some 16%nat); ("angle", None)]
  [("r", Some 16%nat)] (
    SExp glm_rotated_x$("m", "angle", "r") ;;
    SRet (ELdA 16 "r")
  ).

(* struct/affine-post.h:115-119 *)
Definition glms_rotated_y : fundef := Fun
  [("m", Some 16%nat); ("angle", None)]
  [("r", Some 16%nat)] (
    SExp glm_rotated_y$("m", "angle", "r") ;;
    SRet (ELdA 16 "r")
  ).

(* struct/affine-post.h:131-135 *)
Definition glms_rotated_z : fundef := Fun
  [("m", Some 16%nat); ("angle", None)]
  [("r", Some 16%nat)] (
    SExp glm_rotated_z$("m", "angle", "r") ;;
    SRet (ELdA 16 "r")
  ).

(* struct/affine-post.h:147-150 *)
Definition glms_rotated : fundef := Fun
  [("m", Some 16%nat); ("angle", None); ("axis", Some 3%nat)]
  [] (
    SExp glm_rotated$("m", "angle", "axis") ;;
    SRet (ELdA 16 "m")
  ).

(* struct/affine-post.h:164-167 *)
Definition glms_rotated_at : fundef := Fun
  [("m", Some 16%nat); ("pivot", Some 3%nat); ("angle", None); ("axis", Some 3%nat)]
  [] (
    SExp glm_rotated_at$("m", "pivot", "angle", "axis") ;;
    SRet (ELdA 16 "m")
  ).

(* struct/affine-post.h:179-182 *)
Definition glms_spinned : fundef := Fun
  [("m", Some 16%nat); ("angle", None); ("axis", Some 3%nat)]
  [] (
    SExp glm_spinned$("m", "angle", "axis") ;;
    SRet (ELdA 16 "m")
  ).

