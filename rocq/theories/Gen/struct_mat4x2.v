(** Functions of include/cglm/struct/mat4x2.h (configuration: scalar), written by tools/gen.py.
    The comment above each definition gives file and lines in /repo/include/cglm. *)
From Coq Require Import String List ZArith.
From Verif Require Import MiniC.
From Verif.Gen Require Import mat4x2.
Import ListNotations.
Open Scope string_scope.
Open Scope Z_scope.
Open Scope mc_scope.

(* struct/mat4x2.h:45-49 *)
Definition glms_mat4x2_zero : fundef := Fun
  []
  [("dest", Some 8%nat)] (
    SExp glm_mat4x2_zero$("dest") ;;
    SRet (ELdA 8 "dest")
  ).

(* struct/mat4x2.h:59-63 *)
Definition glms_mat4x2_make : fundef := Fun
  [("src", None)]
  [("dest", Some 8%nat)] (
    SExp glm_mat4x2_make$("src", "dest") ;;
    SRet (ELdA 8 "dest")
  ).

(* struct/mat4x2.h:78-82 *)
Definition glms_mat4x2_mul : fundef := Fun
  [("m1", Some 8%nat); ("m2", Some 8%nat)]
  [("dest", Some 4%nat)] (
    SExp glm_mat4x2_mul$("m1", "m2", "dest") ;;
    SRet (ELdA 4 "dest")
  ).

(* struct/mat4x2.h:93-97 *)
Definition glms_mat4x2_mulv : fundef := Fun
  [("m", Some 8%nat); ("v", Some 4%nat)]
  [("dest", Some 2%nat)] (
    SExp glm_mat4x2_mulv$("m", "v", "dest") ;;
    SRet (ELdA 2 "dest")
  ).

(* struct/mat4x2.h:107-111 *)
Definition glms_mat4x2_transpose : fundef := Fun
  [("m", Some 8%nat)]
  [("dest", Some 8%nat)] (
    SExp glm_mat4x2_transpose$("m", "dest") ;;
    SRet (ELdA 8 "dest")
  ).

(* struct/mat4x2.h:121-124 *)
Definition glms_mat4x2_scale : fundef := Fun
  [("m", Some 8%nat); ("s", None)]
  [] (
    SExp glm_mat4x2_scale$("m", "s") ;;
    SRet (ELdA 8 "m")
  ).

