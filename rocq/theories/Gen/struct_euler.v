(** Functions of include/cglm/struct/euler.h (configuration: scalar), written by tools/gen.py.
    The comment above each definition gives file and lines in /repo/include/cglm. *)
From Coq Require Import String List ZArith.
From Verif Require Import MiniC.
From Verif.Gen Require Import euler.
Import ListNotations.
Open Scope string_scope.
Open Scope Z_scope.
Open Scope mc_scope.

(* struct/euler.h:52-56 *)
Definition glms_euler_angles : fundef := Fun
  [("m", Some 16%nat)]
  [("dest", Some 3%nat)] (
    SExp glm_euler_angles$("m", "dest") ;;
    SRet (ELdA 3 "dest")
  ).

(* struct/euler.h:66-70 *)
Definition glms_euler_xyz : fundef := Fun
  [("angles", Some 3%nat)]
  [("dest", Some 16%nat)] (
    SExp glm_euler_xyz$("angles", "dest") ;;
    SRet (ELdA 16 "dest")
  ).

(* struct/euler.h:80-84 *)
Definition glms_euler_xzy : fundef := Fun
  [("angles", Some 3%nat)]
  [("dest", Some 16%nat)] (
    SExp glm_euler_xzy$("angles", "dest") ;;
    SRet (ELdA 16 "dest")
  ).

(* struct/euler.h:95-99 *)
Definition glms_euler_yxz : fundef := Fun
  [("angles", Some 3%nat)]
  [("dest", Some 16%nat)] (
    SExp glm_euler_yxz$("angles", "dest") ;;
    SRet (ELdA 16 "dest")
  ).

(* struct/euler.h:109-113 *)
Definition glms_euler_yzx : fundef := Fun
  [("angles", Some 3%nat)]
  [("dest", Some 16%nat)] (
    SExp glm_euler_yzx$("angles", "dest") ;;
    SRet (ELdA 16 "dest")
  ).

(* struct/euler.h:123-127 *)
Definition glms_euler_zxy : fundef := Fun
  [("angles", Some 3%nat)]
  [("dest", Some 16%nat)] (
    SExp glm_euler_zxy$("angles", "dest") ;;
    SRet (ELdA 16 "dest")
  ).

(* struct/euler.h:137-141 *)
Definition glms_euler_zyx : fundef := Fun
  [("angles", Some 3%nat)]
  [("dest", Some 16%nat)] (
    SExp glm_euler_zyx$("angles", "dest") ;;
    SRet (ELdA 16 "dest")
  ).

(* struct/euler.h:152-156 *)
Definition glms_euler_by_order : fundef := Fun
  [("angles", Some 3%nat); ("ord", None)]
  [("dest", Some 16%nat)] (
    SExp glm_euler_by_order$("angles", "ord", "dest") ;;
    SRet (ELdA 16 "dest")
  ).

(* struct/euler.h:167-171 *)
Definition glms_euler_xyz_quat : fundef := Fun
  [("angles", Some 3%nat)]
  [("dest", Some 4%nat)] (
    SExp glm_euler_xyz_quat$("angles", "dest") ;;
    SRet (ELdA 4 "dest")
  ).

(* struct/euler.h:182-186 *)
Definition glms_euler_xzy_quat : fundef := Fun
  [("angles", Some 3%nat)]
  [("dest", Some 4%nat)] (
    SExp glm_euler_xzy_quat$("angles", "dest") ;;
    SRet (ELdA 4 "dest")
  ).

(* struct/euler.h:197-201 *)
Definition glms_euler_yxz_quat : fundef := Fun
  [("angles", Some 3%nat)]
  [("dest", Some 4%nat)] (
    SExp glm_euler_yxz_quat$("angles", "dest") ;;
    SRet (ELdA 4 "dest")
  ).

(* struct/euler.h:212-216 *)
Definition glms_euler_yzx_quat : fundef := Fun
  [("angles", Some 3%nat)]
  [("dest", Some 4%nat)] (
    SExp glm_euler_yzx_quat$("angles", "dest") ;;
    SRet (ELdA 4 "dest")
  ).

(* struct/euler.h:227-231 *)
Definition glms_euler_zxy_quat : fundef := Fun
  [("angles", Some 3%nat)]
  [("dest", Some 4%nat)] (
    SExp glm_euler_zxy_quat$("angles", "dest") ;;
    SRet (ELdA 4 "dest")
  ).

(* struct/euler.h:242-246 *)
Definition glms_euler_zyx_quat : fundef := Fun
  [("angles", Some 3%nat)]
  [("dest", Some 4%nat)] (
    SExp glm_euler_zyx_quat$("angles", "dest") ;;
    SRet (ELdA 4 "dest")
  ).

