(** Functions of include/cglm/struct/noise.h (configuration: scalar), written by tools/gen.py.
    The comment above each definition gives file and lines in /repo/include/cglm. *)
From Coq Require Import String List ZArith.
From Verif Require Import MiniC.
From Verif.Gen Require Import noise.
Import ListNotations.
Open Scope string_scope.
Open Scope Z_scope.
Open Scope mc_scope.

(* struct/noise.h:29-31 *)
Definition glms_perlin_vec4 : fundef := Fun
  [("point", Some 4%nat)]
  [] (
    SRet glm_perlin_vec4$("point")
  ).

(* struct/noise.h:41-43 *)
Definition glms_perlin_vec3 : fundef := Fun
  [("point", Some 3%nat)]
  [] (
    SRet glm_perlin_vec3$("point")
  ).

(* struct/noise.h:53-55 *)
Definition glms_perlin_vec2 : fundef := Fun
  [("point", Some 2%nat)]
  [] (
    SRet glm_perlin_vec2$("point")
  ).

