(** Functions of include/cglm/ray.h (configuration: scalar), written by tools/gen.py.
    The comment above each definition gives file and lines in /repo/include/cglm. *)
From Coq Require Import String List ZArith.
From Verif Require Import MiniC.
From Verif.Gen Require Import vec3.
Import ListNotations.
Open Scope string_scope.
Open Scope Z_scope.
Open Scope mc_scope.

(* ray.h:42-80 *)
Definition glm_ray_triangle : fundef := Fun
  [("origin", None); ("direction", None); ("v0", None); ("v1", None); ("v2", None); ("d", None)]
  [("edge1", Some 3%nat); ("edge2", Some 3%nat); ("p", Some 3%nat); ("t", Some 3%nat); ("q", Some 3%nat); ("det", None); ("inv_det", None); ("u", None); ("v", None); ("dist", None); ("epsilon", None)] (
    "epsilon" <~ (EF 1 1000000) ;;
    SExp glm_vec3_sub$("v1", "v0", "edge1") ;;
    SExp glm_vec3_sub$("v2", "v0", "edge2") ;;
    SExp glm_vec3_cross$("direction", "edge2", "p") ;;
    "det" <~ glm_vec3_dot$("edge1", "p") ;;
    (SIf (EAnd ("det" > (- "epsilon")) ("det" < "epsilon")) (
      SRet (EB false)
    ) (
      SSkip
    )) ;;
    "inv_det" <~ ((EF 1 1) / "det") ;;
    SExp glm_vec3_sub$("origin", "v0", "t") ;;
    "u" <~ ("inv_det" * glm_vec3_dot$("t", "p")) ;;
    (SIf (EOr ("u" < (EF 0 1)) ("u" > (EF 1 1))) (
      SRet (EB false)
    ) (
      SSkip
    )) ;;
    SExp glm_vec3_cross$("t", "edge1", "q") ;;
    "v" <~ ("inv_det" * glm_vec3_dot$("direction", "q")) ;;
    (SIf (EOr ("v" < (EF 0 1)) (("u" + "v") > (EF 1 1))) (
      SRet (EB false)
    ) (
      SSkip
    )) ;;
    "dist" <~ ("inv_det" * glm_vec3_dot$("edge2", "q")) ;;
    (SIf (ECast TyB "d") (
      "d" ::= "dist"
    ) (
      SSkip
    )) ;;
    SRet ("dist" > "epsilon")
  ).

(* ray.h:104-156 *)
Definition glm_ray_sphere : fundef := Fun
  [("origin", None); ("dir", None); ("s", None); ("t1", None); ("t2", None)]
  [("dp", Some 3%nat); ("r2", None); ("ddp", None); ("dpp", None); ("dscr", None); ("q", None); ("tmp", None); ("_t1", None); ("_t2", None)] (
    SExp glm_vec3_sub$("s", "origin", "dp") ;;
    "ddp" <~ glm_vec3_dot$("dir", "dp") ;;
    "dpp" <~ glm_vec3_norm2$("dp") ;;
    SExp glm_vec3_mulsubs$("dir", "ddp", "dp") ;;
    "r2" <~ (!"s".[3] * !"s".[3]) ;;
    "dscr" <~ ("r2" - glm_vec3_norm2$("dp")) ;;
    (SIf ("dscr" < (EF 0 1)) (
      SRet (EB false)
    ) (
      SSkip
    )) ;;
    "dscr" <~ builtin (PF1 OSqrt)$("dscr") ;;
    "q" <~ (ECond ("ddp" >= (EF 0 1)) ("ddp" + "dscr") ("ddp" - "dscr")) ;;
    "_t1" <~ "q" ;;
    "_t2" <~ (("dpp" - "r2") / "q") ;;
    (SIf ("_t1" > "_t2") (
      "tmp" <~ "_t1" ;;
      "_t1" <~ "_t2" ;;
      "_t2" <~ "tmp"
    ) (
      SSkip
    )) ;;
    "t1" ::= "_t1" ;;
    "t2" ::= "_t2" ;;
    (SIf (EAnd ("_t1" < (EF 0 1)) ("_t2" < (EF 0 1))) (
      SRet (EB false)
    ) (
      SSkip
    )) ;;
    SRet (EB true)
  ).

(* ray.h:168-172 *)
Definition glm_ray_at : fundef := Fun
  [("orig", None); ("dir", None); ("t", None); ("point", None)]
  [("dst", Some 3%nat)] (
    SExp glm_vec3_scale$("dir", "t", "dst") ;;
    SExp glm_vec3_add$("orig", "dst", "point")
  ).

