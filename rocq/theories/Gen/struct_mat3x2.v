(** Functions of include/cglm/struct/mat3x2.h (configuration: scalar), written by tools/gen.py.
    The comment above each definition gives file and lines in /repo/include/cglm. *)
From Coq Require Import String List ZArith.
From Verif Require Import MiniC.
From Verif.Gen Require Import mat3x2.
Import ListNotations.
Open Scope string_scope.
Open Scope Z_scope.
Open Scope mc_scope.

(* struct/mat3x2.h:44-48 *)
Definition glms_mat3x2_zero : fundef := Fun
  []
  [("dest", Some 6%nat)] (
    SExp glm_mat3x2_zero$("dest") ;;
    SRet (ELdA 6 "dest")
  ).

(* struct/mat3x2.h:58-62 *)
Definition glms_mat3x2_make : fundef := Fun
  [("src", None)]
  [("dest", Some 6%nat)] (
    SExp glm_mat3x2_make$("src", "dest") ;;
    SRet (ELdA 6 "dest")
  ).

(* struct/mat3x2.h:77-81 *)
Definition glms_mat3x2_mul : fundef := Fun
  [("m1", Some 6%nat); ("m2", Some 6%nat)]
  [("dest", Some 4%nat)] (
    SExp glm_mat3x2_mul$("m1", "m2", "dest") ;;
    SRet (ELdA 4 "dest")
  ).

(* struct/mat3x2.h:92-96 *)
Definition glms_mat3x2_mulv : fundef := Fun
  [("m", Some 6%nat); ("v", Some 3%nat)]
  [("dest", Some 2%nat)] (
    SExp glm_mat3x2_mulv$("m", "v", "dest") ;;
    SRet (ELdA 2 "dest")
  ).

(* struct/mat3x2.h:106-110 *)
Definition glms_mat3x2_transpose : fundef := Fun
  [("m", Some 6%nat)]
  [("dest", Some 6%nat)] (
    SExp glm_mat3x2_transpose$("m", "dest") ;;
    SRet (ELdA 6 "dest")
  ).

(* struct/mat3x2.h:120-123 *)
Definition glms_mat3x2_scale : fundef := Fun
  [("m", Some 6%nat); ("s", None)]
  [] (
    SExp glm_mat3x2_scale$("m", "s") ;;
    SRet (ELdA 6 "m")
  ).

