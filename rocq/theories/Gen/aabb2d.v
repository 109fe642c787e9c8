(** Functions of include/cglm/aabb2d.h (configuration: scalar), written by tools/gen.py.
    The comment above each definition gives file and lines in /repo/include/cglm. *)
From Coq Require Import String List ZArith.
From Verif Require Import MiniC.
From Verif.Gen Require Import util vec2_ext vec2.
Import ListNotations.
Open Scope string_scope.
Open Scope Z_scope.
Open Scope mc_scope.

(* aabb2d.h:25-28 *)
Definition glm_aabb2d_zero : fundef := Fun
  [("aabb", None)]
  [] (
    SExp glm_vec2_zero$("aabb".[0:2]) ;;
    SExp glm_vec2_zero$("aabb".[1:2])
  ).

(* aabb2d.h:38-41 *)
Definition glm_aabb2d_copy : fundef := Fun
  [("aabb", None); ("dest", None)]
  [] (
    SExp glm_vec2_copy$("aabb".[0:2], "dest".[0:2]) ;;
    SExp glm_vec2_copy$("aabb".[1:2], "dest".[1:2])
  ).

(* aabb2d.h:52-73 *)
Definition glm_aabb2d_transform : fundef := Fun
  [("aabb", None); ("m", None); ("dest", None)]
  [("v", Some 4%nat); ("xa", Some 2%nat); ("xb", Some 2%nat); ("ya", Some 2%nat); ("yb", Some 2%nat)] (
    SExp glm_vec2_scale$("m".[0:3], !"aabb".[0:2].[0], "xa") ;;
    SExp glm_vec2_scale$("m".[0:3], !"aabb".[1:2].[0], "xb") ;;
    SExp glm_vec2_scale$("m".[1:3], !"aabb".[0:2].[1], "ya") ;;
    SExp glm_vec2_scale$("m".[1:3], !"aabb".[1:2].[1], "yb") ;;
    SExp glm_vec2$("m".[2:3], "v".[0:2]) ;;
    SExp glm_vec2_minadd$("xa", "xb", "v".[0:2]) ;;
    SExp glm_vec2_minadd$("ya", "yb", "v".[0:2]) ;;
    SExp glm_vec2$("m".[2:3], "v".[1:2]) ;;
    SExp glm_vec2_maxadd$("xa", "xb", "v".[1:2]) ;;
    SExp glm_vec2_maxadd$("ya", "yb", "v".[1:2]) ;;
    SExp glm_vec2_copy$("v".[0:2], "dest".[0:2]) ;;
    SExp glm_vec2_copy$("v".[1:2], "dest".[1:2])
  ).

(* aabb2d.h:87-93 *)
Definition glm_aabb2d_merge : fundef := Fun
  [("aabb1", None); ("aabb2", None); ("dest", None)]
  [] (
    "dest".[0:2].[0] ::= glm_min$(!"aabb1".[0:2].[0], !"aabb2".[0:2].[0]) ;;
    "dest".[0:2].[1] ::= glm_min$(!"aabb1".[0:2].[1], !"aabb2".[0:2].[1]) ;;
    "dest".[1:2].[0] ::= glm_max$(!"aabb1".[1:2].[0], !"aabb2".[1:2].[0]) ;;
    "dest".[1:2].[1] ::= glm_max$(!"aabb1".[1:2].[1], !"aabb2".[1:2].[1])
  ).

(* aabb2d.h:108-114 *)
Definition glm_aabb2d_crop : fundef := Fun
  [("aabb", None); ("cropAabb", None); ("dest", None)]
  [] (
    "dest".[0:2].[0] ::= glm_max$(!"aabb".[0:2].[0], !"cropAabb".[0:2].[0]) ;;
    "dest".[0:2].[1] ::= glm_max$(!"aabb".[0:2].[1], !"cropAabb".[0:2].[1]) ;;
    "dest".[1:2].[0] ::= glm_min$(!"aabb".[1:2].[0], !"cropAabb".[1:2].[0]) ;;
    "dest".[1:2].[1] ::= glm_min$(!"aabb".[1:2].[1], !"cropAabb".[1:2].[1])
  ).

(* aabb2d.h:130-136 *)
Definition glm_aabb2d_crop_until : fundef := Fun
  [("aabb", None); ("cropAabb", None); ("clampAabb", None); ("dest", None)]
  [] (
    SExp glm_aabb2d_crop$("aabb", "cropAabb", "dest") ;;
    SExp glm_aabb2d_merge$("clampAabb", "dest", "dest")
  ).

(* aabb2d.h:145-148 *)
Definition glm_aabb2d_invalidate : fundef := Fun
  [("aabb", None)]
  [] (
    SExp glm_vec2_fill$("aabb".[0:2], (EF 340282346638528859811704183484516925440 1)) ;;
    SExp glm_vec2_fill$("aabb".[1:2], (- (EF 340282346638528859811704183484516925440 1)))
  ).

(* aabb2d.h:157-160 *)
Definition glm_aabb2d_isvalid : fundef := Fun
  [("aabb", None)]
  [] (
    SRet (EAnd (glm_vec2_max$("aabb".[0:2]) != (EF 340282346638528859811704183484516925440 1)) (glm_vec2_min$("aabb".[1:2]) != (- (EF 340282346638528859811704183484516925440 1))))
  ).

(* aabb2d.h:169-171 *)
Definition glm_aabb2d_diag : fundef := Fun
  [("aabb", None)]
  [] (
    SRet glm_vec2_distance$("aabb".[0:2], "aabb".[1:2])
  ).

(* aabb2d.h:181-183 *)
Definition glm_aabb2d_sizev : fundef := Fun
  [("aabb", None); ("dest", None)]
  [] (
    SExp glm_vec2_sub$("aabb".[1:2], "aabb".[0:2], "dest")
  ).

(* aabb2d.h:192-194 *)
Definition glm_aabb2d_radius : fundef := Fun
  [("aabb", None)]
  [] (
    SRet (glm_aabb2d_diag$("aabb") * (EF 1 2))
  ).

(* aabb2d.h:204-206 *)
Definition glm_aabb2d_center : fundef := Fun
  [("aabb", None); ("dest", None)]
  [] (
    SExp glm_vec2_center$("aabb".[0:2], "aabb".[1:2], "dest")
  ).

(* aabb2d.h:216-219 *)
Definition glm_aabb2d_aabb : fundef := Fun
  [("aabb", None); ("other", None)]
  [] (
    SRet (EAnd (EAnd (!"aabb".[0:2].[0] <= !"other".[1:2].[0]) (!"aabb".[1:2].[0] >= !"other".[0:2].[0])) (EAnd (!"aabb".[0:2].[1] <= !"other".[1:2].[1]) (!"aabb".[1:2].[1] >= !"other".[0:2].[1])))
  ).

(* aabb2d.h:231-242 *)
Definition glm_aabb2d_circle : fundef := Fun
  [("aabb", None); ("c", None)]
  [("dmin", None); ("a", None); ("b", None)] (
    "a" <~ ((ECast TyI (!"c".[0] < !"aabb".[0:2].[0])) + (ECast TyI (!"c".[0] > !"aabb".[1:2].[0]))) ;;
    "b" <~ ((ECast TyI (!"c".[1] < !"aabb".[0:2].[1])) + (ECast TyI (!"c".[1] > !"aabb".[1:2].[1]))) ;;
    "dmin" <~ (glm_pow2$(((!"c".[0] - !(EIx "aabb" 2 (ECast TyI (ENot (ECast TyB ("a" - (EI 1)))))).[0]) * (ECast TyF ("a" != (EI 0))))) + glm_pow2$(((!"c".[1] - !(EIx "aabb" 2 (ECast TyI (ENot (ECast TyB ("b" - (EI 1)))))).[1]) * (ECast TyF ("b" != (EI 0)))))) ;;
    SRet ("dmin" <= glm_pow2$(!"c".[2]))
  ).

(* aabb2d.h:252-255 *)
Definition glm_aabb2d_point : fundef := Fun
  [("aabb", None); ("point", None)]
  [] (
    SRet (EAnd (EAnd (!"point".[0] >= !"aabb".[0:2].[0]) (!"point".[0] <= !"aabb".[1:2].[0])) (EAnd (!"point".[1] >= !"aabb".[0:2].[1]) (!"point".[1] <= !"aabb".[1:2].[1])))
  ).

(* aabb2d.h:265-268 *)
Definition glm_aabb2d_contains : fundef := Fun
  [("aabb", None); ("other", None)]
  [] (
    SRet (EAnd (EAnd (!"aabb".[0:2].[0] <= !"other".[0:2].[0]) (!"aabb".[1:2].[0] >= !"other".[1:2].[0])) (EAnd (!"aabb".[0:2].[1] <= !"other".[0:2].[1]) (!"aabb".[1:2].[1] >= !"other".[1:2].[1])))
  ).

