(** Functions of include/cglm/box.h (configuration: scalar), written by tools/gen.py.
    The comment above each definition gives file and lines in /repo/include/cglm. *)
From Coq Require Import String List ZArith.
From Verif Require Import MiniC.
From Verif.Gen Require Import util vec3_ext vec3.
Import ListNotations.
Open Scope string_scope.
Open Scope Z_scope.
Open Scope mc_scope.

(* box.h:25-51 *)
Definition glm_aabb_transform : fundef := Fun
  [("box", None); ("m", None); ("dest", None)]
  [("v", Some 6%nat); ("xa", Some 3%nat); ("xb", Some 3%nat); ("ya", Some 3%nat); ("yb", Some 3%nat); ("za", Some 3%nat); ("zb", Some 3%nat)] (
    SExp glm_vec3_scale$("m".[0:4], !"box".[0:3].[0], "xa") ;;
    SExp glm_vec3_scale$("m".[0:4], !"box".[1:3].[0], "xb") ;;
    SExp glm_vec3_scale$("m".[1:4], !"box".[0:3].[1], "ya") ;;
    SExp glm_vec3_scale$("m".[1:4], !"box".[1:3].[1], "yb") ;;
    SExp glm_vec3_scale$("m".[2:4], !"box".[0:3].[2], "za") ;;
    SExp glm_vec3_scale$("m".[2:4], !"box".[1:3].[2], "zb") ;;
    SExp glm_vec3$("m".[3:4], "v".[0:3]) ;;
    SExp glm_vec3_minadd$("xa", "xb", "v".[0:3]) ;;
    SExp glm_vec3_minadd$("ya", "yb", "v".[0:3]) ;;
    SExp glm_vec3_minadd$("za", "zb", "v".[0:3]) ;;
    SExp glm_vec3$("m".[3:4], "v".[1:3]) ;;
    SExp glm_vec3_maxadd$("xa", "xb", "v".[1:3]) ;;
    SExp glm_vec3_maxadd$("ya", "yb", "v".[1:3]) ;;
    SExp glm_vec3_maxadd$("za", "zb", "v".[1:3]) ;;
    SExp glm_vec3_copy$("v".[0:3], "dest".[0:3]) ;;
    SExp glm_vec3_copy$("v".[1:3], "dest".[1:3])
  ).

(* box.h:65-73 *)
Definition glm_aabb_merge : fundef := Fun
  [("box1", None); ("box2", None); ("dest", None)]
  [] (
    "dest".[0:3].[0] ::= glm_min$(!"box1".[0:3].[0], !"box2".[0:3].[0]) ;;
    "dest".[0:3].[1] ::= glm_min$(!"box1".[0:3].[1], !"box2".[0:3].[1]) ;;
    "dest".[0:3].[2] ::= glm_min$(!"box1".[0:3].[2], !"box2".[0:3].[2]) ;;
    "dest".[1:3].[0] ::= glm_max$(!"box1".[1:3].[0], !"box2".[1:3].[0]) ;;
    "dest".[1:3].[1] ::= glm_max$(!"box1".[1:3].[1], !"box2".[1:3].[1]) ;;
    "dest".[1:3].[2] ::= glm_max$(!"box1".[1:3].[2], !"box2".[1:3].[2])
  ).

(* box.h:88-96 *)
Definition glm_aabb_crop : fundef := Fun
  [("box", None); ("cropBox", None); ("dest", None)]
  [] (
    "dest".[0:3].[0] ::= glm_max$(!"box".[0:3].[0], !"cropBox".[0:3].[0]) ;;
    "dest".[0:3].[1] ::= glm_max$(!"box".[0:3].[1], !"cropBox".[0:3].[1]) ;;
    "dest".[0:3].[2] ::= glm_max$(!"box".[0:3].[2], !"cropBox".[0:3].[2]) ;;
    "dest".[1:3].[0] ::= glm_min$(!"box".[1:3].[0], !"cropBox".[1:3].[0]) ;;
    "dest".[1:3].[1] ::= glm_min$(!"box".[1:3].[1], !"cropBox".[1:3].[1]) ;;
    "dest".[1:3].[2] ::= glm_min$(!"box".[1:3].[2], !"cropBox".[1:3].[2])
  ).

(* box.h:112-118 *)
Definition glm_aabb_crop_until : fundef := Fun
  [("box", None); ("cropBox", None); ("clampBox", None); ("dest", None)]
  [] (
    SExp glm_aabb_crop$("box", "cropBox", "dest") ;;
    SExp glm_aabb_merge$("clampBox", "dest", "dest")
  ).

(* box.h:136-151 *)
Definition glm_aabb_frustum : fundef := Fun
  [("box", None); ("planes", None)]
  [("p", None); ("dp", None); ("i", None)] (
    (SFor "i" (EI 0) (EI 6) (
      "p" <~ (EIx "planes" 4 "i") ;;
      "dp" <~ (((!"p".[0] * !(EIx "box" 3 (ECast TyI (!"p".[0] > (EF 0 1)))).[0]) + (!"p".[1] * !(EIx "box" 3 (ECast TyI (!"p".[1] > (EF 0 1)))).[1])) + (!"p".[2] * !(EIx "box" 3 (ECast TyI (!"p".[2] > (EF 0 1)))).[2])) ;;
      (SIf ("dp" < (- !"p".[3])) (
        SRet (EB false)
      ) (
        SSkip
      ))
    )) ;;
    SRet (EB true)
  ).

(* box.h:160-163 *)
Definition glm_aabb_invalidate : fundef := Fun
  [("box", None)]
  [] (
    SExp glm_vec3_broadcast$((EF 340282346638528859811704183484516925440 1), "box".[0:3]) ;;
    SExp glm_vec3_broadcast$((- (EF 340282346638528859811704183484516925440 1)), "box".[1:3])
  ).

(* box.h:172-175 *)
Definition glm_aabb_isvalid : fundef := Fun
  [("box", None)]
  [] (
    SRet (EAnd (glm_vec3_max$("box".[0:3]) != (EF 340282346638528859811704183484516925440 1)) (glm_vec3_min$("box".[1:3]) != (- (EF 340282346638528859811704183484516925440 1))))
  ).

(* box.h:184-186 *)
Definition glm_aabb_size : fundef := Fun
  [("box", None)]
  [] (
    SRet glm_vec3_distance$("box".[0:3], "box".[1:3])
  ).

(* box.h:195-197 *)
Definition glm_aabb_radius : fundef := Fun
  [("box", None)]
  [] (
    SRet (glm_aabb_size$("box") * (EF 1 2))
  ).

(* box.h:207-209 *)
Definition glm_aabb_center : fundef := Fun
  [("box", None); ("dest", None)]
  [] (
    SExp glm_vec3_center$("box".[0:3], "box".[1:3], "dest")
  ).

(* box.h:219-223 *)
Definition glm_aabb_aabb : fundef := Fun
  [("box", None); ("other", None)]
  [] (
    SRet (EAnd (EAnd (EAnd (!"box".[0:3].[0] <= !"other".[1:3].[0]) (!"box".[1:3].[0] >= !"other".[0:3].[0])) (EAnd (!"box".[0:3].[1] <= !"other".[1:3].[1]) (!"box".[1:3].[1] >= !"other".[0:3].[1]))) (EAnd (!"box".[0:3].[2] <= !"other".[1:3].[2]) (!"box".[1:3].[2] >= !"other".[0:3].[2])))
  ).

(* box.h:238-251 *)
Definition glm_aabb_sphere : fundef := Fun
  [("box", None); ("s", None)]
  [("dmin", None); ("a", None); ("b", None); ("c", None)] (
    "a" <~ ((ECast TyI (!"s".[0] < !"box".[0:3].[0])) + (ECast TyI (!"s".[0] > !"box".[1:3].[0]))) ;;
    "b" <~ ((ECast TyI (!"s".[1] < !"box".[0:3].[1])) + (ECast TyI (!"s".[1] > !"box".[1:3].[1]))) ;;
    "c" <~ ((ECast TyI (!"s".[2] < !"box".[0:3].[2])) + (ECast TyI (!"s".[2] > !"box".[1:3].[2]))) ;;
    "dmin" <~ ((glm_pow2$(((!"s".[0] - !(EIx "box" 3 (ECast TyI (ENot (ECast TyB ("a" - (EI 1)))))).[0]) * (ECast TyF ("a" != (EI 0))))) + glm_pow2$(((!"s".[1] - !(EIx "box" 3 (ECast TyI (ENot (ECast TyB ("b" - (EI 1)))))).[1]) * (ECast TyF ("b" != (EI 0)))))) + glm_pow2$(((!"s".[2] - !(EIx "box" 3 (ECast TyI (ENot (ECast TyB ("c" - (EI 1)))))).[2]) * (ECast TyF ("c" != (EI 0)))))) ;;
    SRet ("dmin" <= glm_pow2$(!"s".[3]))
  ).

(* box.h:261-265 *)
Definition glm_aabb_point : fundef := Fun
  [("box", None); ("point", None)]
  [] (
    SRet (EAnd (EAnd (EAnd (!"point".[0] >= !"box".[0:3].[0]) (!"point".[0] <= !"box".[1:3].[0])) (EAnd (!"point".[1] >= !"box".[0:3].[1]) (!"point".[1] <= !"box".[1:3].[1]))) (EAnd (!"point".[2] >= !"box".[0:3].[2]) (!"point".[2] <= !"box".[1:3].[2])))
  ).

(* box.h:275-279 *)
Definition glm_aabb_contains : fundef := Fun
  [("box", None); ("other", None)]
  [] (
    SRet (EAnd (EAnd (EAnd (!"box".[0:3].[0] <= !"other".[0:3].[0]) (!"box".[1:3].[0] >= !"other".[1:3].[0])) (EAnd (!"box".[0:3].[1] <= !"other".[0:3].[1]) (!"box".[1:3].[1] >= !"other".[1:3].[1]))) (EAnd (!"box".[0:3].[2] <= !"other".[0:3].[2]) (!"box".[1:3].[2] >= !"other".[1:3].[2])))
  ).

