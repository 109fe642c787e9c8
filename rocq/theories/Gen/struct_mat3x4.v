(** Functions of include/cglm/struct/mat3x4.h (configuration: scalar), written by tools/gen.py.
    The comment above each definition gives file and lines in /repo/include/cglm. *)
From Coq Require Import String List ZArith.
From Verif Require Import MiniC.
From Verif.Gen Require Import mat3x4.
Import ListNotations.
Open Scope string_scope.
Open Scope Z_scope.
Open Scope mc_scope.

(* struct/mat3x4.h:44-48 *)
Definition glms_mat3x4_zero : fundef := Fun
  []
  [("dest", Some 12%nat)] (
    SExp glm_mat3x4_zero$("dest") ;;
    SRet (ELdA 12 "dest")
  ).

(* struct/mat3x4.h:58-62 *)
Definition glms_mat3x4_make : fundef := Fun
  [("src", None)]
  [("dest", Some 12%nat)] (
    SExp glm_mat3x4_make$("src", "dest") ;;
    SRet (ELdA 12 "dest")
  ).

(* struct/mat3x4.h:77-81 *)
Definition glms_mat3x4_mul : fundef := Fun
  [("m1", Some 12%nat); ("m2", Some 12%nat)]
  [("dest", Some 16%nat)] (
    SExp glm_mat3x4_mul$("m1", "m2", "dest") ;;
    SRet (ELdA 16 "dest")
  ).

(* struct/mat3x4.h:92-96 *)
Definition glms_mat3x4_mulv : fundef := Fun
  [("m", Some 12%nat); ("v", Some 3%nat)]
  [("dest", Some 4%nat)] (
    SExp glm_mat3x4_mulv$("m", "v", "dest") ;;
    SRet (ELdA 4 "dest")
  ).

(* struct/mat3x4.h:106-110 *)
Definition glms_mat3x4_transpose : fundef := Fun
  [("m", Some 12%nat)]
  [("dest", Some 12%nat)] (
    SExp glm_mat3x4_transpose$("m", "dest") ;;
    SRet (ELdA 12 "dest")
  ).

(* struct/mat3x4.h:120-123 *)
Definition glms_mat3x4_scale : fundef := Fun
  [("m", Some 12%nat); ("s", None)]
  [] (
    SExp glm_mat3x4_scale$("m", "s") ;;
    SRet (ELdA 12 "m")
  ).

