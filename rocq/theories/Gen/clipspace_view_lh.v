(** Functions of include/cglm/clipspace/view_lh.h (configuration: scalar), written by tools/gen.py.
    The comment above each definition gives file and lines in /repo/include/cglm. *)
From Coq Require Import String List ZArith.
From Verif Require Import MiniC.
From Verif.Gen Require Import vec3.
Import ListNotations.
Open Scope string_scope.
Open Scope Z_scope.
Open Scope mc_scope.

(* clipspace/view_lh.h:34-57 *)
Definition glm_lookat_lh : fundef := Fun
  [("eye", None); ("center", None); ("up", None); ("dest", None)]
  [("f", Some 3%nat); ("u", Some 3%nat); ("s", Some 3%nat)] (
    SExp glm_vec3_sub$("center", "eye", "f") ;;
    SExp glm_vec3_normalize$("f") ;;
    SExp glm_vec3_crossn$("up", "f", "s") ;;
    SExp glm_vec3_cross$("f", "s", "u") ;;
    "dest".[0:4].[0] ::= !"s".[0] ;;
    "dest".[0:4].[1] ::= !"u".[0] ;;
    "dest".[0:4].[2] ::= !"f".[0] ;;
    "dest".[1:4].[0] ::= !"s".[1] ;;
    "dest".[1:4].[1] ::= !"u".[1] ;;
    "dest".[1:4].[2] ::= !"f".[1] ;;
    "dest".[2:4].[0] ::= !"s".[2] ;;
    "dest".[2:4].[1] ::= !"u".[2] ;;
    "dest".[2:4].[2] ::= !"f".[2] ;;
    "dest".[3:4].[0] ::= (- glm_vec3_dot$("s", "eye")) ;;
    "dest".[3:4].[1] ::= (- glm_vec3_dot$("u", "eye")) ;;
    "dest".[3:4].[2] ::= (- glm_vec3_dot$("f", "eye")) ;;
    "dest".[2:4].[3] ::= (EF 0 1) ;;
    "dest".[1:4].[3] ::= !"dest".[2:4].[3] ;;
    "dest".[0:4].[3] ::= !"dest".[1:4].[3] ;;
    "dest".[3:4].[3] ::= (EF 1 1)
  ).

(* clipspace/view_lh.h:75-79 *)
Definition glm_look_lh : fundef := Fun
  [("eye", None); ("dir", None); ("up", None); ("dest", None)]
  [("target", Some 3%nat)] (
    SExp glm_vec3_add$("eye", "dir", "target") ;;
    SExp glm_lookat_lh$("eye", "target", "up", "dest")
  ).

(* clipspace/view_lh.h:93-97 *)
Definition glm_look_anyup_lh : fundef := Fun
  [("eye", None); ("dir", None); ("dest", None)]
  [("up", Some 3%nat)] (
    SExp glm_vec3_ortho$("dir", "up") ;;
    SExp glm_look_lh$("eye", "dir", "up", "dest")
  ).

