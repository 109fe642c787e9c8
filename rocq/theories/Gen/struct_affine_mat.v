(** Functions of include/cglm/struct/affine-mat.h (configuration: scalar), written by tools/gen.py.
    The comment above each definition gives file and lines in /repo/include/cglm. *)
From Coq Require Import String List ZArith.
From Verif Require Import MiniC.
From Verif.Gen Require Import affine_mat.
Import ListNotations.
Open Scope string_scope.
Open Scope Z_scope.
Open Scope mc_scope.

(* struct/affine-mat.h:43-47 *)
Definition glms_mul : fundef := Fun
  [("m1", Some 16%nat); ("m2", Some 16%nat)]
  [("r", Some 16%nat)] (
    SExp glm_mul$("m1", "m2", "r") ;;
    SRet (ELdA 16 "r")
  ).

(* struct/affine-mat.h:67-71 *)
Definition glms_mul_rot : fundef := Fun
  [("m1", Some 16%nat); ("m2", Some 16%nat)]
  [("r", Some 16%nat)] (
    SExp glm_mul_rot$("m1", "m2", "r") ;;
    SRet (ELdA 16 "r")
  ).

(* struct/affine-mat.h:86-89 *)
Definition glms_inv_tr : fundef := Fun
  [("m", Some 16%nat)]
  [] (
    SExp glm_inv_tr$("m") ;;
    SRet (ELdA 16 "m")
  ).

