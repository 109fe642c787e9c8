(** Functions of include/cglm/clipspace/persp_rh_zo.h (configuration: scalar), written by tools/gen.py.
    The comment above each definition gives file and lines in /repo/include/cglm. *)
From Coq Require Import String List ZArith.
From Verif Require Import MiniC.
From Verif.Gen Require Import clipspace_persp mat4.
Import ListNotations.
Open Scope string_scope.
Open Scope Z_scope.
Open Scope mc_scope.

(* clipspace/persp_rh_zo.h:66-86 *)
Definition glm_frustum_rh_zo : fundef := Fun
  [("left", None); ("right", None); ("bottom", None); ("top", None); ("nearZ", None); ("farZ", None); ("dest", None)]
  [("rl", None); ("tb", None); ("fn", None); ("nv", None)] (
    SExp glm_mat4_zero$("dest") ;;
    "rl" <~ ((EF 1 1) / ("right" - "left")) ;;
    "tb" <~ ((EF 1 1) / ("top" - "bottom")) ;;
    "fn" <~ ((- (EF 1 1)) / ("farZ" - "nearZ")) ;;
    "nv" <~ ((EF 2 1) * "nearZ") ;;
    "dest".[0:4].[0] ::= ("nv" * "rl") ;;
    "dest".[1:4].[1] ::= ("nv" * "tb") ;;
    "dest".[2:4].[0] ::= (("right" + "left") * "rl") ;;
    "dest".[2:4].[1] ::= (("top" + "bottom") * "tb") ;;
    "dest".[2:4].[2] ::= ("farZ" * "fn") ;;
    "dest".[2:4].[3] ::= (- (EF 1 1)) ;;
    "dest".[3:4].[2] ::= (("farZ" * "nearZ") * "fn")
  ).

(* clipspace/persp_rh_zo.h:100-117 *)
Definition glm_perspective_rh_zo : fundef := Fun
  [("fovy", None); ("aspect", None); ("nearZ", None); ("farZ", None); ("dest", None)]
  [("f", None); ("fn", None)] (
    SExp glm_mat4_zero$("dest") ;;
    "f" <~ ((EF 1 1) / builtin (PF1 OTan)$(("fovy" * (EF 1 2)))) ;;
    "fn" <~ ((EF 1 1) / ("nearZ" - "farZ")) ;;
    "dest".[0:4].[0] ::= ("f" / "aspect") ;;
    "dest".[1:4].[1] ::= "f" ;;
    "dest".[2:4].[2] ::= ("farZ" * "fn") ;;
    "dest".[2:4].[3] ::= (- (EF 1 1)) ;;
    "dest".[3:4].[2] ::= (("nearZ" * "farZ") * "fn")
  ).

(* clipspace/persp_rh_zo.h:129-131 *)
Definition glm_perspective_default_rh_zo : fundef := Fun
  [("aspect", None); ("dest", None)]
  [] (
    SExp glm_perspective_rh_zo$((EPi 1 4), "aspect", (EF 1 100), (EF 100 1), "dest")
  ).

(* clipspace/persp_rh_zo.h:144-149 *)
Definition glm_perspective_resize_rh_zo : fundef := Fun
  [("aspect", None); ("proj", None)]
  [] (
    (SIf (!"proj".[0:4].[0] == (EF 0 1)) (
      SRet0
    ) (
      SSkip
    )) ;;
    "proj".[0:4].[0] ::= (!"proj".[1:4].[1] / "aspect")
  ).

(* clipspace/persp_rh_zo.h:162-174 *)
Definition glm_persp_move_far_rh_zo : fundef := Fun
  [("proj", None); ("deltaFar", None)]
  [("fn", None); ("farZ", None); ("nearZ", None); ("p22", None); ("p32", None)] (
    "p22" <~ !"proj".[2:4].[2] ;;
    "p32" <~ !"proj".[3:4].[2] ;;
    "nearZ" <~ ("p32" / "p22") ;;
    "farZ" <~ (("p32" / ("p22" + (EF 1 1))) + "deltaFar") ;;
    "fn" <~ ((EF 1 1) / ("nearZ" - "farZ")) ;;
    "proj".[2:4].[2] ::= ("farZ" * "fn") ;;
    "proj".[3:4].[2] ::= (("nearZ" * "farZ") * "fn")
  ).

(* clipspace/persp_rh_zo.h:191-217 *)
Definition glm_persp_decomp_rh_zo : fundef := Fun
  [("proj", None); ("nearZ", None); ("farZ", None); ("top", None); ("bottom", None); ("left", None); ("right", None)]
  [("m00", None); ("m11", None); ("m20", None); ("m21", None); ("m22", None); ("m32", None); ("n", None); ("f", None); ("n_m11", None); ("n_m00", None)] (
    "m00" <~ !"proj".[0:4].[0] ;;
    "m11" <~ !"proj".[1:4].[1] ;;
    "m20" <~ !"proj".[2:4].[0] ;;
    "m21" <~ !"proj".[2:4].[1] ;;
    "m22" <~ !"proj".[2:4].[2] ;;
    "m32" <~ !"proj".[3:4].[2] ;;
    "n" <~ ("m32" / "m22") ;;
    "f" <~ ("m32" / ("m22" + (EF 1 1))) ;;
    "n_m11" <~ ("n" / "m11") ;;
    "n_m00" <~ ("n" / "m00") ;;
    "nearZ" ::= "n" ;;
    "farZ" ::= "f" ;;
    "bottom" ::= ("n_m11" * ("m21" - (EF 1 1))) ;;
    "top" ::= ("n_m11" * ("m21" + (EF 1 1))) ;;
    "left" ::= ("n_m00" * ("m20" - (EF 1 1))) ;;
    "right" ::= ("n_m00" * ("m20" + (EF 1 1)))
  ).

(* clipspace/persp_rh_zo.h:230-233 *)
Definition glm_persp_decompv_rh_zo : fundef := Fun
  [("proj", None); ("dest", None)]
  [] (
    SExp glm_persp_decomp_rh_zo$("proj", "dest".[0], "dest".[1], "dest".[2], "dest".[3], "dest".[4], "dest".[5])
  ).

(* clipspace/persp_rh_zo.h:245-257 *)
Definition glm_persp_decomp_x_rh_zo : fundef := Fun
  [("proj", None); ("left", None); ("right", None)]
  [("nearZ", None); ("m20", None); ("m00", None); ("m22", None)] (
    "m00" <~ !"proj".[0:4].[0] ;;
    "m20" <~ !"proj".[2:4].[0] ;;
    "m22" <~ !"proj".[2:4].[2] ;;
    "nearZ" <~ (!"proj".[3:4].[2] / "m22") ;;
    "left" ::= (("nearZ" * ("m20" - (EF 1 1))) / "m00") ;;
    "right" ::= (("nearZ" * ("m20" + (EF 1 1))) / "m00")
  ).

(* clipspace/persp_rh_zo.h:271-283 *)
Definition glm_persp_decomp_y_rh_zo : fundef := Fun
  [("proj", None); ("top", None); ("bottom", None)]
  [("nearZ", None); ("m21", None); ("m11", None); ("m22", None)] (
    "m21" <~ !"proj".[2:4].[1] ;;
    "m11" <~ !"proj".[1:4].[1] ;;
    "m22" <~ !"proj".[2:4].[2] ;;
    "nearZ" <~ (!"proj".[3:4].[2] / "m22") ;;
    "bottom" ::= (("nearZ" * ("m21" - (ECast TyF (EI 1)))) / "m11") ;;
    "top" ::= (("nearZ" * ("m21" + (ECast TyF (EI 1)))) / "m11")
  ).

(* clipspace/persp_rh_zo.h:297-307 *)
Definition glm_persp_decomp_z_rh_zo : fundef := Fun
  [("proj", None); ("nearZ", None); ("farZ", None)]
  [("m32", None); ("m22", None)] (
    "m32" <~ !"proj".[3:4].[2] ;;
    "m22" <~ !"proj".[2:4].[2] ;;
    "nearZ" ::= ("m32" / "m22") ;;
    "farZ" ::= ("m32" / ("m22" + (EF 1 1)))
  ).

(* clipspace/persp_rh_zo.h:319-321 *)
Definition glm_persp_decomp_far_rh_zo : fundef := Fun
  [("proj", None); ("farZ", None)]
  [] (
    "farZ" ::= (!"proj".[3:4].[2] / (!"proj".[2:4].[2] + (EF 1 1)))
  ).

(* clipspace/persp_rh_zo.h:333-335 *)
Definition glm_persp_decomp_near_rh_zo : fundef := Fun
  [("proj", None); ("nearZ", None)]
  [] (
    "nearZ" ::= (!"proj".[3:4].[2] / !"proj".[2:4].[2])
  ).

(* clipspace/persp_rh_zo.h:348-360 *)
Definition glm_persp_sizes_rh_zo : fundef := Fun
  [("proj", None); ("fovy", None); ("dest", None)]
  [("t", None); ("a", None); ("nearZ", Some 1%nat); ("farZ", Some 1%nat)] (
    "t" <~ ((EF 2 1) * builtin (PF1 OTan)$(("fovy" * (EF 1 2)))) ;;
    "a" <~ glm_persp_aspect$("proj") ;;
    SExp glm_persp_decomp_z_rh_zo$("proj", "nearZ", "farZ") ;;
    "dest".[1] ::= ("t" * !"nearZ") ;;
    "dest".[3] ::= ("t" * !"farZ") ;;
    "dest".[0] ::= ("a" * !"dest".[1]) ;;
    "dest".[2] ::= ("a" * !"dest".[3])
  ).

(* clipspace/persp_rh_zo.h:373-375 *)
Definition glm_persp_fovy_rh_zo : fundef := Fun
  [("proj", None)]
  [] (
    SRet glm_persp_fovy$("proj")
  ).

(* clipspace/persp_rh_zo.h:385-387 *)
Definition glm_persp_aspect_rh_zo : fundef := Fun
  [("proj", None)]
  [] (
    SRet glm_persp_aspect$("proj")
  ).

