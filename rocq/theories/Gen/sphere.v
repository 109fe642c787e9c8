(** Functions of include/cglm/sphere.h (configuration: scalar), written by tools/gen.py.
    The comment above each definition gives file and lines in /repo/include/cglm. *)
From Coq Require Import String List ZArith.
From Verif Require Import MiniC.
From Verif.Gen Require Import mat4 util vec3.
Import ListNotations.
Open Scope string_scope.
Open Scope Z_scope.
Open Scope mc_scope.

(* sphere.h:30-32 *)
Definition glm_sphere_radii : fundef := Fun
  [("s", None)]
  [] (
    SRet !"s".[3]
  ).

(* sphere.h:43-46 *)
Definition glm_sphere_transform : fundef := Fun
  [("s", None); ("m", None); ("dest", None)]
  [] (
    SExp glm_mat4_mulv3$("m", "s", (EF 1 1), "dest") ;;
    "dest".[3] ::= !"s".[3]
  ).

(* sphere.h:60-71 *)
Definition glm_sphere_merge : fundef := Fun
  [("s1", None); ("s2", None); ("dest", None)]
  [("dist", None); ("radii", None)] (
    "dist" <~ glm_vec3_distance$("s1", "s2") ;;
    "radii" <~ (("dist" + !"s1".[3]) + !"s2".[3]) ;;
    "radii" <~ glm_max$("radii", !"s1".[3]) ;;
    "radii" <~ glm_max$("radii", !"s2".[3]) ;;
    SExp glm_vec3_center$("s1", "s2", "dest") ;;
    "dest".[3] ::= "radii"
  ).

(* sphere.h:81-83 *)
Definition glm_sphere_sphere : fundef := Fun
  [("s1", None); ("s2", None)]
  [] (
    SRet (glm_vec3_distance2$("s1", "s2") <= glm_pow2$((!"s1".[3] + !"s2".[3])))
  ).

(* sphere.h:93-97 *)
Definition glm_sphere_point : fundef := Fun
  [("s", None); ("point", None)]
  [("rr", None)] (
    "rr" <~ (!"s".[3] * !"s".[3]) ;;
    SRet (glm_vec3_distance2$("point", "s") <= "rr")
  ).

