(** Functions of include/cglm/clipspace/ortho_rh_no.h (configuration: scalar), written by tools/gen.py.
    The comment above each definition gives file and lines in /repo/include/cglm. *)
From Coq Require Import String List ZArith.
From Verif Require Import MiniC.
From Verif.Gen Require Import mat4.
Import ListNotations.
Open Scope string_scope.
Open Scope Z_scope.
Open Scope mc_scope.

(* clipspace/ortho_rh_no.h:50-69 *)
Definition glm_ortho_rh_no : fundef := Fun
  [("left", None); ("right", None); ("bottom", None); ("top", None); ("nearZ", None); ("farZ", None); ("dest", None)]
  [("rl", None); ("tb", None); ("fn", None)] (
    SExp glm_mat4_zero$("dest") ;;
    "rl" <~ ((EF 1 1) / ("right" - "left")) ;;
    "tb" <~ ((EF 1 1) / ("top" - "bottom")) ;;
    "fn" <~ ((- (EF 1 1)) / ("farZ" - "nearZ")) ;;
    "dest".[0:4].[0] ::= ((EF 2 1) * "rl") ;;
    "dest".[1:4].[1] ::= ((EF 2 1) * "tb") ;;
    "dest".[2:4].[2] ::= ((EF 2 1) * "fn") ;;
    "dest".[3:4].[0] ::= ((- ("right" + "left")) * "rl") ;;
    "dest".[3:4].[1] ::= ((- ("top" + "bottom")) * "tb") ;;
    "dest".[3:4].[2] ::= (("farZ" + "nearZ") * "fn") ;;
    "dest".[3:4].[3] ::= (EF 1 1)
  ).

(* clipspace/ortho_rh_no.h:83-88 *)
Definition glm_ortho_aabb_rh_no : fundef := Fun
  [("box", None); ("dest", None)]
  [] (
    SExp glm_ortho_rh_no$(!"box".[0:3].[0], !"box".[1:3].[0], !"box".[0:3].[1], !"box".[1:3].[1], (- !"box".[1:3].[2]), (- !"box".[0:3].[2]), "dest")
  ).

(* clipspace/ortho_rh_no.h:103-108 *)
Definition glm_ortho_aabb_p_rh_no : fundef := Fun
  [("box", None); ("padding", None); ("dest", None)]
  [] (
    SExp glm_ortho_rh_no$((!"box".[0:3].[0] - "padding"), (!"box".[1:3].[0] + "padding"), (!"box".[0:3].[1] - "padding"), (!"box".[1:3].[1] + "padding"), (- (!"box".[1:3].[2] + "padding")), (- (!"box".[0:3].[2] - "padding")), "dest")
  ).

(* clipspace/ortho_rh_no.h:123-128 *)
Definition glm_ortho_aabb_pz_rh_no : fundef := Fun
  [("box", None); ("padding", None); ("dest", None)]
  [] (
    SExp glm_ortho_rh_no$(!"box".[0:3].[0], !"box".[1:3].[0], !"box".[0:3].[1], !"box".[1:3].[1], (- (!"box".[1:3].[2] + "padding")), (- (!"box".[0:3].[2] - "padding")), "dest")
  ).

(* clipspace/ortho_rh_no.h:140-149 *)
Definition glm_ortho_default_rh_no : fundef := Fun
  [("aspect", None); ("dest", None)]
  [] (
    (SIf ("aspect" >= (EF 1 1)) (
      SExp glm_ortho_rh_no$((- "aspect"), "aspect", (- (EF 1 1)), (EF 1 1), (- (EF 100 1)), (EF 100 1), "dest") ;;
      SRet0
    ) (
      SSkip
    )) ;;
    "aspect" <~ ((EF 1 1) / "aspect") ;;
    SExp glm_ortho_rh_no$((- (EF 1 1)), (EF 1 1), (- "aspect"), "aspect", (- (EF 100 1)), (EF 100 1), "dest")
  ).

(* clipspace/ortho_rh_no.h:162-181 *)
Definition glm_ortho_default_s_rh_no : fundef := Fun
  [("aspect", None); ("size", None); ("dest", None)]
  [] (
    (SIf ("aspect" >= (EF 1 1)) (
      SExp glm_ortho_rh_no$(((- "size") * "aspect"), ("size" * "aspect"), (- "size"), "size", ((- "size") - (EF 100 1)), ("size" + (EF 100 1)), "dest") ;;
      SRet0
    ) (
      SSkip
    )) ;;
    SExp glm_ortho_rh_no$((- "size"), "size", ((- "size") / "aspect"), ("size" / "aspect"), ((- "size") - (EF 100 1)), ("size" + (EF 100 1)), "dest")
  ).

