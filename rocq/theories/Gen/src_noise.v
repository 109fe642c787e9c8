(** Functions of src/noise.c (configuration: scalar), written by tools/gen.py.
    The comment above each definition gives file and lines in /repo. *)
From Coq Require Import String List ZArith.
From Verif Require Import MiniC.
From Verif.Gen Require Import noise.
Import ListNotations.
Open Scope string_scope.
Open Scope Z_scope.
Open Scope mc_scope.

(* src/noise.c:13-15 *)
Definition glmc_perlin_vec4 : fundef := Fun
  [("p", None)]
  [] (
    SRet glm_perlin_vec4$("p")
  ).

(* src/noise.c:19-21 *)
Definition glmc_perlin_vec3 : fundef := Fun
  [("p", None)]
  [] (
    SRet glm_perlin_vec3$("p")
  ).

(* src/noise.c:25-27 *)
Definition glmc_perlin_vec2 : fundef := Fun
  [("p", None)]
  [] (
    SRet glm_perlin_vec2$("p")
  ).

