(** Functions of include/cglm/vec4-ext.h (configuration: scalar), written by tools/gen.py.
    The comment above each definition gives file and lines in /repo/include/cglm. *)
From Coq Require Import String List ZArith.
From Verif Require Import MiniC.
From Verif.Gen Require Import util vec3_ext.
Import ListNotations.
Open Scope string_scope.
Open Scope Z_scope.
Open Scope mc_scope.

(* vec4-ext.h:51-59 *)
Definition glm_vec4_broadcast : fundef := Fun
  [("val", None); ("d", None)]
  [] (
    "d".[3] ::= "val" ;;
    "d".[2] ::= !"d".[3] ;;
    "d".[1] ::= !"d".[2] ;;
    "d".[0] ::= !"d".[1]
  ).

(* vec4-ext.h:69-77 *)
Definition glm_vec4_fill : fundef := Fun
  [("v", None); ("val", None)]
  [] (
    "v".[3] ::= "val" ;;
    "v".[2] ::= !"v".[3] ;;
    "v".[1] ::= !"v".[2] ;;
    "v".[0] ::= !"v".[1]
  ).

(* vec4-ext.h:87-92 *)
Definition glm_vec4_eq : fundef := Fun
  [("v", None); ("val", None)]
  [] (
    SRet (EAnd (EAnd (EAnd (!"v".[0] == "val") (!"v".[0] == !"v".[1])) (!"v".[0] == !"v".[2])) (!"v".[0] == !"v".[3]))
  ).

(* vec4-ext.h:102-107 *)
Definition glm_vec4_eq_eps : fundef := Fun
  [("v", None); ("val", None)]
  [] (
    SRet (EAnd (EAnd (EAnd (builtin (PF1 OAbs)$((!"v".[0] - "val")) <= (EF 1 100000)) (builtin (PF1 OAbs)$((!"v".[1] - "val")) <= (EF 1 100000))) (builtin (PF1 OAbs)$((!"v".[2] - "val")) <= (EF 1 100000))) (builtin (PF1 OAbs)$((!"v".[3] - "val")) <= (EF 1 100000)))
  ).

(* vec4-ext.h:116-118 *)
Definition glm_vec4_eq_all : fundef := Fun
  [("v", None)]
  [] (
    SRet glm_vec4_eq_eps$("v", !"v".[0])
  ).

(* vec4-ext.h:128-133 *)
Definition glm_vec4_eqv : fundef := Fun
  [("a", None); ("b", None)]
  [] (
    SRet (EAnd (EAnd (EAnd (!"a".[0] == !"b".[0]) (!"a".[1] == !"b".[1])) (!"a".[2] == !"b".[2])) (!"a".[3] == !"b".[3]))
  ).

(* vec4-ext.h:143-148 *)
Definition glm_vec4_eqv_eps : fundef := Fun
  [("a", None); ("b", None)]
  [] (
    SRet (EAnd (EAnd (EAnd (builtin (PF1 OAbs)$((!"a".[0] - !"b".[0])) <= (EF 1 100000)) (builtin (PF1 OAbs)$((!"a".[1] - !"b".[1])) <= (EF 1 100000))) (builtin (PF1 OAbs)$((!"a".[2] - !"b".[2])) <= (EF 1 100000))) (builtin (PF1 OAbs)$((!"a".[3] - !"b".[3])) <= (EF 1 100000)))
  ).

(* vec4-ext.h:157-165 *)
Definition glm_vec4_max : fundef := Fun
  [("v", None)]
  [("max", None)] (
    "max" <~ glm_vec3_max$("v") ;;
    (SIf (!"v".[3] > "max") (
      "max" <~ !"v".[3]
    ) (
      SSkip
    )) ;;
    SRet "max"
  ).

(* vec4-ext.h:174-182 *)
Definition glm_vec4_min : fundef := Fun
  [("v", None)]
  [("min", None)] (
    "min" <~ glm_vec3_min$("v") ;;
    (SIf (!"v".[3] < "min") (
      "min" <~ !"v".[3]
    ) (
      SSkip
    )) ;;
    SRet "min"
  ).

(* vec4-ext.h:192-198 *)
Definition glm_vec4_isnan : fundef := Fun
  [("v", None)]
  [] (
    SRet (EOr (EOr (EOr builtin (PTest TNan)$(!"v".[0]) builtin (PTest TNan)$(!"v".[1])) builtin (PTest TNan)$(!"v".[2])) builtin (PTest TNan)$(!"v".[3]))
  ).

(* vec4-ext.h:208-214 *)
Definition glm_vec4_isinf : fundef := Fun
  [("v", None)]
  [] (
    SRet (EOr (EOr (EOr builtin (PTest TInf)$(!"v".[0]) builtin (PTest TInf)$(!"v".[1])) builtin (PTest TInf)$(!"v".[2])) builtin (PTest TInf)$(!"v".[3]))
  ).

(* vec4-ext.h:224-226 *)
Definition glm_vec4_isvalid : fundef := Fun
  [("v", None)]
  [] (
    SRet (EAnd (ENot glm_vec4_isnan$("v")) (ENot glm_vec4_isinf$("v")))
  ).

(* vec4-ext.h:237-255 *)
Definition glm_vec4_sign : fundef := Fun
  [("v", None); ("dest", None)]
  [] (
    "dest".[0] ::= glm_signf$(!"v".[0]) ;;
    "dest".[1] ::= glm_signf$(!"v".[1]) ;;
    "dest".[2] ::= glm_signf$(!"v".[2]) ;;
    "dest".[3] ::= glm_signf$(!"v".[3])
  ).

(* vec4-ext.h:265-278 *)
Definition glm_vec4_abs : fundef := Fun
  [("v", None); ("dest", None)]
  [] (
    "dest".[0] ::= builtin (PF1 OAbs)$(!"v".[0]) ;;
    "dest".[1] ::= builtin (PF1 OAbs)$(!"v".[1]) ;;
    "dest".[2] ::= builtin (PF1 OAbs)$(!"v".[2]) ;;
    "dest".[3] ::= builtin (PF1 OAbs)$(!"v".[3])
  ).

(* vec4-ext.h:288-293 *)
Definition glm_vec4_fract : fundef := Fun
  [("v", None); ("dest", None)]
  [] (
    "dest".[0] ::= builtin (PF2 OFmin)$((!"v".[0] - builtin (PF1 OFloor)$(!"v".[0])), (EF 16777215 16777216)) ;;
    "dest".[1] ::= builtin (PF2 OFmin)$((!"v".[1] - builtin (PF1 OFloor)$(!"v".[1])), (EF 16777215 16777216)) ;;
    "dest".[2] ::= builtin (PF2 OFmin)$((!"v".[2] - builtin (PF1 OFloor)$(!"v".[2])), (EF 16777215 16777216)) ;;
    "dest".[3] ::= builtin (PF2 OFmin)$((!"v".[3] - builtin (PF1 OFloor)$(!"v".[3])), (EF 16777215 16777216))
  ).

(* vec4-ext.h:303-308 *)
Definition glm_vec4_floor : fundef := Fun
  [("v", None); ("dest", None)]
  [] (
    "dest".[0] ::= builtin (PF1 OFloor)$(!"v".[0]) ;;
    "dest".[1] ::= builtin (PF1 OFloor)$(!"v".[1]) ;;
    "dest".[2] ::= builtin (PF1 OFloor)$(!"v".[2]) ;;
    "dest".[3] ::= builtin (PF1 OFloor)$(!"v".[3])
  ).

(* vec4-ext.h:319-324 *)
Definition glm_vec4_mods : fundef := Fun
  [("v", None); ("s", None); ("dest", None)]
  [] (
    "dest".[0] ::= builtin (PF2 OFmod)$(!"v".[0], "s") ;;
    "dest".[1] ::= builtin (PF2 OFmod)$(!"v".[1], "s") ;;
    "dest".[2] ::= builtin (PF2 OFmod)$(!"v".[2], "s") ;;
    "dest".[3] ::= builtin (PF2 OFmod)$(!"v".[3], "s")
  ).

(* vec4-ext.h:336-341 *)
Definition glm_vec4_steps : fundef := Fun
  [("edge", None); ("x", None); ("dest", None)]
  [] (
    "dest".[0] ::= glm_step$("edge", !"x".[0]) ;;
    "dest".[1] ::= glm_step$("edge", !"x".[1]) ;;
    "dest".[2] ::= glm_step$("edge", !"x".[2]) ;;
    "dest".[3] ::= glm_step$("edge", !"x".[3])
  ).

(* vec4-ext.h:353-358 *)
Definition glm_vec4_stepr : fundef := Fun
  [("edge", None); ("x", None); ("dest", None)]
  [] (
    "dest".[0] ::= glm_step$(!"edge".[0], "x") ;;
    "dest".[1] ::= glm_step$(!"edge".[1], "x") ;;
    "dest".[2] ::= glm_step$(!"edge".[2], "x") ;;
    "dest".[3] ::= glm_step$(!"edge".[3], "x")
  ).

(* vec4-ext.h:369-377 *)
Definition glm_vec4_hadd : fundef := Fun
  [("v", None)]
  [] (
    SRet (((!"v".[0] + !"v".[1]) + !"v".[2]) + !"v".[3])
  ).

(* vec4-ext.h:387-398 *)
Definition glm_vec4_sqrt : fundef := Fun
  [("v", None); ("dest", None)]
  [] (
    "dest".[0] ::= builtin (PF1 OSqrt)$(!"v".[0]) ;;
    "dest".[1] ::= builtin (PF1 OSqrt)$(!"v".[1]) ;;
    "dest".[2] ::= builtin (PF1 OSqrt)$(!"v".[2]) ;;
    "dest".[3] ::= builtin (PF1 OSqrt)$(!"v".[3])
  ).

