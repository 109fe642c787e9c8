(** Functions of include/cglm/struct/mat4x3.h (configuration: scalar), written by tools/gen.py.
    The comment above each definition gives file and lines in /repo/include/cglm. *)
From Coq Require Import String List ZArith.
From Verif Require Import MiniC.
From Verif.Gen Require Import mat4x3.
Import ListNotations.
Open Scope string_scope.
Open Scope Z_scope.
Open Scope mc_scope.

(* struct/mat4x3.h:44-48 *)
Definition glms_mat4x3_zero : fundef := Fun
  []
  [("dest", Some 12%nat)] (
    SExp glm_mat4x3_zero$("dest") ;;
    SRet (ELdA 12 "dest")
  ).

(* struct/mat4x3.h:58-62 *)
Definition glms_mat4x3_make : fundef := Fun
  [("src", None)]
  [("dest", Some 12%nat)] (
    SExp glm_mat4x3_make$("src", "dest") ;;
    SRet (ELdA 12 "dest")
  ).

(* struct/mat4x3.h:77-81 *)
Definition glms_mat4x3_mul : fundef := Fun
  [("m1", Some 12%nat); ("m2", Some 12%nat)]
  [("dest", Some 9%nat)] (
    SExp glm_mat4x3_mul$("m1", "m2", "dest") ;;
    SRet (ELdA 9 "dest")
  ).

(* struct/mat4x3.h:92-96 *)
Definition glms_mat4x3_mulv : fundef := Fun
  [("m", Some 12%nat); ("v", Some 4%nat)]
  [("dest", Some 3%nat)] (
    SExp glm_mat4x3_mulv$("m", "v", "dest") ;;
    SRet (ELdA 3 "dest")
  ).

(* struct/mat4x3.h:106-110 *)
Definition glms_mat4x3_transpose : fundef := Fun
  [("m", Some 12%nat)]
  [("dest", Some 12%nat)] (
    SExp glm_mat4x3_transpose$("m", "dest") ;;
    SRet (ELdA 12 "dest")
  ).

(* struct/mat4x3.h:120-123 *)
Definition glms_mat4x3_scale : fundef := Fun
  [("m", Some 12%nat); ("s", None)]
  [] (
    SExp glm_mat4x3_scale$("m", "s") ;;
    SRet (ELdA 12 "m")
  ).

