(** Functions of include/cglm/vec3-ext.h (configuration: scalar), written by tools/gen.py.
    The comment above each definition gives file and lines in /repo/include/cglm. *)
From Coq Require Import String List ZArith.
From Verif Require Import MiniC.
From Verif.Gen Require Import util.
Import ListNotations.
Open Scope string_scope.
Open Scope Z_scope.
Open Scope mc_scope.

(* vec3-ext.h:51-53 *)
Definition glm_vec3_broadcast : fundef := Fun
  [("val", None); ("d", None)]
  [] (
    "d".[2] ::= "val" ;;
    "d".[1] ::= !"d".[2] ;;
    "d".[0] ::= !"d".[1]
  ).

(* vec3-ext.h:63-65 *)
Definition glm_vec3_fill : fundef := Fun
  [("v", None); ("val", None)]
  [] (
    "v".[2] ::= "val" ;;
    "v".[1] ::= !"v".[2] ;;
    "v".[0] ::= !"v".[1]
  ).

(* vec3-ext.h:75-77 *)
Definition glm_vec3_eq : fundef := Fun
  [("v", None); ("val", None)]
  [] (
    SRet (EAnd (EAnd (!"v".[0] == "val") (!"v".[0] == !"v".[1])) (!"v".[0] == !"v".[2]))
  ).

(* vec3-ext.h:87-91 *)
Definition glm_vec3_eq_eps : fundef := Fun
  [("v", None); ("val", None)]
  [] (
    SRet (EAnd (EAnd (builtin (PF1 OAbs)$((!"v".[0] - "val")) <= (EF 1 100000)) (builtin (PF1 OAbs)$((!"v".[1] - "val")) <= (EF 1 100000))) (builtin (PF1 OAbs)$((!"v".[2] - "val")) <= (EF 1 100000)))
  ).

(* vec3-ext.h:100-102 *)
Definition glm_vec3_eq_all : fundef := Fun
  [("v", None)]
  [] (
    SRet glm_vec3_eq_eps$("v", !"v".[0])
  ).

(* vec3-ext.h:112-116 *)
Definition glm_vec3_eqv : fundef := Fun
  [("a", None); ("b", None)]
  [] (
    SRet (EAnd (EAnd (!"a".[0] == !"b".[0]) (!"a".[1] == !"b".[1])) (!"a".[2] == !"b".[2]))
  ).

(* vec3-ext.h:126-130 *)
Definition glm_vec3_eqv_eps : fundef := Fun
  [("a", None); ("b", None)]
  [] (
    SRet (EAnd (EAnd (builtin (PF1 OAbs)$((!"a".[0] - !"b".[0])) <= (EF 1 100000)) (builtin (PF1 OAbs)$((!"a".[1] - !"b".[1])) <= (EF 1 100000))) (builtin (PF1 OAbs)$((!"a".[2] - !"b".[2])) <= (EF 1 100000)))
  ).

(* vec3-ext.h:139-149 *)
Definition glm_vec3_max : fundef := Fun
  [("v", None)]
  [("max", None)] (
    "max" <~ !"v".[0] ;;
    (SIf (!"v".[1] > "max") (
      "max" <~ !"v".[1]
    ) (
      SSkip
    )) ;;
    (SIf (!"v".[2] > "max") (
      "max" <~ !"v".[2]
    ) (
      SSkip
    )) ;;
    SRet "max"
  ).

(* vec3-ext.h:158-168 *)
Definition glm_vec3_min : fundef := Fun
  [("v", None)]
  [("min", None)] (
    "min" <~ !"v".[0] ;;
    (SIf (!"v".[1] < "min") (
      "min" <~ !"v".[1]
    ) (
      SSkip
    )) ;;
    (SIf (!"v".[2] < "min") (
      "min" <~ !"v".[2]
    ) (
      SSkip
    )) ;;
    SRet "min"
  ).

(* vec3-ext.h:178-184 *)
Definition glm_vec3_isnan : fundef := Fun
  [("v", None)]
  [] (
    SRet (EOr (EOr builtin (PTest TNan)$(!"v".[0]) builtin (PTest TNan)$(!"v".[1])) builtin (PTest TNan)$(!"v".[2]))
  ).

(* vec3-ext.h:194-200 *)
Definition glm_vec3_isinf : fundef := Fun
  [("v", None)]
  [] (
    SRet (EOr (EOr builtin (PTest TInf)$(!"v".[0]) builtin (PTest TInf)$(!"v".[1])) builtin (PTest TInf)$(!"v".[2]))
  ).

(* vec3-ext.h:210-212 *)
Definition glm_vec3_isvalid : fundef := Fun
  [("v", None)]
  [] (
    SRet (EAnd (ENot glm_vec3_isnan$("v")) (ENot glm_vec3_isinf$("v")))
  ).

(* vec3-ext.h:223-227 *)
Definition glm_vec3_sign : fundef := Fun
  [("v", None); ("dest", None)]
  [] (
    "dest".[0] ::= glm_signf$(!"v".[0]) ;;
    "dest".[1] ::= glm_signf$(!"v".[1]) ;;
    "dest".[2] ::= glm_signf$(!"v".[2])
  ).

(* vec3-ext.h:237-241 *)
Definition glm_vec3_abs : fundef := Fun
  [("v", None); ("dest", None)]
  [] (
    "dest".[0] ::= builtin (PF1 OAbs)$(!"v".[0]) ;;
    "dest".[1] ::= builtin (PF1 OAbs)$(!"v".[1]) ;;
    "dest".[2] ::= builtin (PF1 OAbs)$(!"v".[2])
  ).

(* vec3-ext.h:251-255 *)
Definition glm_vec3_fract : fundef := Fun
  [("v", None); ("dest", None)]
  [] (
    "dest".[0] ::= builtin (PF2 OFmin)$((!"v".[0] - builtin (PF1 OFloor)$(!"v".[0])), (EF 16777215 16777216)) ;;
    "dest".[1] ::= builtin (PF2 OFmin)$((!"v".[1] - builtin (PF1 OFloor)$(!"v".[1])), (EF 16777215 16777216)) ;;
    "dest".[2] ::= builtin (PF2 OFmin)$((!"v".[2] - builtin (PF1 OFloor)$(!"v".[2])), (EF 16777215 16777216))
  ).

(* vec3-ext.h:265-269 *)
Definition glm_vec3_floor : fundef := Fun
  [("v", None); ("dest", None)]
  [] (
    "dest".[0] ::= builtin (PF1 OFloor)$(!"v".[0]) ;;
    "dest".[1] ::= builtin (PF1 OFloor)$(!"v".[1]) ;;
    "dest".[2] ::= builtin (PF1 OFloor)$(!"v".[2])
  ).

(* vec3-ext.h:280-284 *)
Definition glm_vec3_mods : fundef := Fun
  [("v", None); ("s", None); ("dest", None)]
  [] (
    "dest".[0] ::= builtin (PF2 OFmod)$(!"v".[0], "s") ;;
    "dest".[1] ::= builtin (PF2 OFmod)$(!"v".[1], "s") ;;
    "dest".[2] ::= builtin (PF2 OFmod)$(!"v".[2], "s")
  ).

(* vec3-ext.h:296-300 *)
Definition glm_vec3_steps : fundef := Fun
  [("edge", None); ("x", None); ("dest", None)]
  [] (
    "dest".[0] ::= glm_step$("edge", !"x".[0]) ;;
    "dest".[1] ::= glm_step$("edge", !"x".[1]) ;;
    "dest".[2] ::= glm_step$("edge", !"x".[2])
  ).

(* vec3-ext.h:312-316 *)
Definition glm_vec3_stepr : fundef := Fun
  [("edge", None); ("x", None); ("dest", None)]
  [] (
    "dest".[0] ::= glm_step$(!"edge".[0], "x") ;;
    "dest".[1] ::= glm_step$(!"edge".[1], "x") ;;
    "dest".[2] ::= glm_step$(!"edge".[2], "x")
  ).

(* vec3-ext.h:327-329 *)
Definition glm_vec3_hadd : fundef := Fun
  [("v", None)]
  [] (
    SRet ((!"v".[0] + !"v".[1]) + !"v".[2])
  ).

(* vec3-ext.h:339-343 *)
Definition glm_vec3_sqrt : fundef := Fun
  [("v", None); ("dest", None)]
  [] (
    "dest".[0] ::= builtin (PF1 OSqrt)$(!"v".[0]) ;;
    "dest".[1] ::= builtin (PF1 OSqrt)$(!"v".[1]) ;;
    "dest".[2] ::= builtin (PF1 OSqrt)$(!"v".[2])
  ).

