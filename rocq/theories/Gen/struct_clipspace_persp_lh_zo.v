(** Functions of include/cglm/struct/clipspace/persp_lh_zo.h (configuration: scalar), written by tools/gen.py.
    The comment above each definition gives file and lines in /repo/include/cglm. *)
From Coq Require Import String List ZArith.
From Verif Require Import MiniC.
From Verif.Gen Require Import clipspace_persp_lh_zo.
Import ListNotations.
Open Scope string_scope.
Open Scope Z_scope.
Open Scope mc_scope.

(* struct/clipspace/persp_lh_zo.h:59-65 *)
Definition glms_frustum_lh_zo : fundef := Fun
  [("left", None); ("right", None); ("bottom", None); ("top", None); ("nearZ", None); ("farZ", None)]
  [("dest", Some 16%nat)] (
    SExp glm_frustum_lh_zo$("left", "right", "bottom", "top", "nearZ", "farZ", "dest") ;;
    SRet (ELdA 16 "dest")
  ).

(* struct/clipspace/persp_lh_zo.h:80-84 *)
Definition glms_perspective_lh_zo : fundef := Fun
  [("fovy", None); ("aspect", None); ("nearZ", None); ("farZ", None)]
  [("dest", Some 16%nat)] (
    SExp glm_perspective_lh_zo$("fovy", "aspect", "nearZ", "farZ", "dest") ;;
    SRet (ELdA 16 "dest")
  ).

(* struct/clipspace/persp_lh_zo.h:102-107 *)
Definition glms_persp_move_far_lh_zo : fundef := Fun
  [("proj", Some 16%nat); ("deltaFar", None)]
  [("dest", Some 16%nat)] (
    SStA 16 "dest" (ELdA 16 "proj") ;;
    SExp glm_persp_move_far_lh_zo$("dest", "deltaFar") ;;
    SRet (ELdA 16 "dest")
  ).

(* struct/clipspace/persp_lh_zo.h:119-123 *)
Definition glms_perspective_default_lh_zo : fundef := Fun
  [("aspect", None)]
  [("dest", Some 16%nat)] (
    SExp glm_perspective_default_lh_zo$("aspect", "dest") ;;
    SRet (ELdA 16 "dest")
  ).

(* struct/clipspace/persp_lh_zo.h:140-145 *)
Definition glms_perspective_resize_lh_zo : fundef := Fun
  [("proj", Some 16%nat); ("aspect", None)]
  [("dest", Some 16%nat)] (
    SStA 16 "dest" (ELdA 16 "proj") ;;
    SExp glm_perspective_resize_lh_zo$("aspect", "dest") ;;
    SRet (ELdA 16 "dest")
  ).

(* struct/clipspace/persp_lh_zo.h:162-167 *)
Definition glms_persp_decomp_lh_zo : fundef := Fun
  [("proj", Some 16%nat); ("nearZ", None); ("farZ", None); ("top", None); ("bottom", None); ("left", None); ("right", None)]
  [] (
    SExp glm_persp_decomp_lh_zo$("proj", "nearZ", "farZ", "top", "bottom", "left", "right")
  ).

(* struct/clipspace/persp_lh_zo.h:180-182 *)
Definition glms_persp_decompv_lh_zo : fundef := Fun
  [("proj", Some 16%nat); ("dest", None)]
  [] (
    SExp glm_persp_decompv_lh_zo$("proj", "dest")
  ).

(* struct/clipspace/persp_lh_zo.h:196-200 *)
Definition glms_persp_decomp_x_lh_zo : fundef := Fun
  [("proj", Some 16%nat); ("left", None); ("right", None)]
  [] (
    SExp glm_persp_decomp_x_lh_zo$("proj", "left", "right")
  ).

(* struct/clipspace/persp_lh_zo.h:214-218 *)
Definition glms_persp_decomp_y_lh_zo : fundef := Fun
  [("proj", Some 16%nat); ("top", None); ("bottom", None)]
  [] (
    SExp glm_persp_decomp_y_lh_zo$("proj", "top", "bottom")
  ).

(* struct/clipspace/persp_lh_zo.h:232-236 *)
Definition glms_persp_decomp_z_lh_zo : fundef := Fun
  [("proj", Some 16%nat); ("nearZ", None); ("farZ", None)]
  [] (
    SExp glm_persp_decomp_z_lh_zo$("proj", "nearZ", "farZ")
  ).

(* struct/clipspace/persp_lh_zo.h:248-250 *)
Definition glms_persp_decomp_far_lh_zo : fundef := Fun
  [("proj", Some 16%nat); ("farZ", None)]
  [] (
    SExp glm_persp_decomp_far_lh_zo$("proj", "farZ")
  ).

(* struct/clipspace/persp_lh_zo.h:262-264 *)
Definition glms_persp_decomp_near_lh_zo : fundef := Fun
  [("proj", Some 16%nat); ("nearZ", None)]
  [] (
    SExp glm_persp_decomp_near_lh_zo$("proj", "nearZ")
  ).

(* struct/clipspace/persp_lh_zo.h:278-280 *)
Definition glms_persp_fovy_lh_zo : fundef := Fun
  [("proj", Some 16%nat)]
  [] (
    SRet glm_persp_fovy_lh_zo$("proj")
  ).

(* struct/clipspace/persp_lh_zo.h:291-293 *)
Definition glms_persp_aspect_lh_zo : fundef := Fun
  [("proj", Some 16%nat)]
  [] (
    SRet glm_persp_aspect_lh_zo$("proj")
  ).

(* struct/clipspace/persp_lh_zo.h:306-310 *)
Definition glms_persp_sizes_lh_zo : fundef := Fun
  [("proj", Some 16%nat); ("fovy", None)]
  [("dest", Some 4%nat)] (
    SExp glm_persp_sizes_lh_zo$("proj", "fovy", "dest") ;;
    SRet (ELdA 4 "dest")
  ).

