(** Functions of include/cglm/vec2-ext.h (configuration: scalar), written by tools/gen.py.
    The comment above each definition gives file and lines in /repo/include/cglm. *)
From Coq Require Import String List ZArith.
From Verif Require Import MiniC.
From Verif.Gen Require Import util.
Import ListNotations.
Open Scope string_scope.
Open Scope Z_scope.
Open Scope mc_scope.

(* vec2-ext.h:48-50 *)
Definition glm_vec2_fill : fundef := Fun
  [("v", None); ("val", None)]
  [] (
    "v".[1] ::= "val" ;;
    "v".[0] ::= !"v".[1]
  ).

(* vec2-ext.h:60-62 *)
Definition glm_vec2_eq : fundef := Fun
  [("v", None); ("val", None)]
  [] (
    SRet (EAnd (!"v".[0] == "val") (!"v".[0] == !"v".[1]))
  ).

(* vec2-ext.h:72-75 *)
Definition glm_vec2_eq_eps : fundef := Fun
  [("v", None); ("val", None)]
  [] (
    SRet (EAnd (builtin (PF1 OAbs)$((!"v".[0] - "val")) <= (EF 1 100000)) (builtin (PF1 OAbs)$((!"v".[1] - "val")) <= (EF 1 100000)))
  ).

(* vec2-ext.h:84-86 *)
Definition glm_vec2_eq_all : fundef := Fun
  [("v", None)]
  [] (
    SRet glm_vec2_eq_eps$("v", !"v".[0])
  ).

(* vec2-ext.h:96-98 *)
Definition glm_vec2_eqv : fundef := Fun
  [("a", None); ("b", None)]
  [] (
    SRet (EAnd (!"a".[0] == !"b".[0]) (!"a".[1] == !"b".[1]))
  ).

(* vec2-ext.h:108-111 *)
Definition glm_vec2_eqv_eps : fundef := Fun
  [("a", None); ("b", None)]
  [] (
    SRet (EAnd (builtin (PF1 OAbs)$((!"a".[0] - !"b".[0])) <= (EF 1 100000)) (builtin (PF1 OAbs)$((!"a".[1] - !"b".[1])) <= (EF 1 100000)))
  ).

(* vec2-ext.h:120-122 *)
Definition glm_vec2_max : fundef := Fun
  [("v", None)]
  [] (
    SRet glm_max$(!"v".[0], !"v".[1])
  ).

(* vec2-ext.h:131-133 *)
Definition glm_vec2_min : fundef := Fun
  [("v", None)]
  [] (
    SRet glm_min$(!"v".[0], !"v".[1])
  ).

(* vec2-ext.h:143-149 *)
Definition glm_vec2_isnan : fundef := Fun
  [("v", None)]
  [] (
    SRet (EOr builtin (PTest TNan)$(!"v".[0]) builtin (PTest TNan)$(!"v".[1]))
  ).

(* vec2-ext.h:159-165 *)
Definition glm_vec2_isinf : fundef := Fun
  [("v", None)]
  [] (
    SRet (EOr builtin (PTest TInf)$(!"v".[0]) builtin (PTest TInf)$(!"v".[1]))
  ).

(* vec2-ext.h:175-177 *)
Definition glm_vec2_isvalid : fundef := Fun
  [("v", None)]
  [] (
    SRet (EAnd (ENot glm_vec2_isnan$("v")) (ENot glm_vec2_isinf$("v")))
  ).

(* vec2-ext.h:188-191 *)
Definition glm_vec2_sign : fundef := Fun
  [("v", None); ("dest", None)]
  [] (
    "dest".[0] ::= glm_signf$(!"v".[0]) ;;
    "dest".[1] ::= glm_signf$(!"v".[1])
  ).

(* vec2-ext.h:201-204 *)
Definition glm_vec2_abs : fundef := Fun
  [("v", None); ("dest", None)]
  [] (
    "dest".[0] ::= builtin (PF1 OAbs)$(!"v".[0]) ;;
    "dest".[1] ::= builtin (PF1 OAbs)$(!"v".[1])
  ).

(* vec2-ext.h:214-217 *)
Definition glm_vec2_fract : fundef := Fun
  [("v", None); ("dest", None)]
  [] (
    "dest".[0] ::= builtin (PF2 OFmin)$((!"v".[0] - builtin (PF1 OFloor)$(!"v".[0])), (EF 16777215 16777216)) ;;
    "dest".[1] ::= builtin (PF2 OFmin)$((!"v".[1] - builtin (PF1 OFloor)$(!"v".[1])), (EF 16777215 16777216))
  ).

(* vec2-ext.h:227-230 *)
Definition glm_vec2_floor : fundef := Fun
  [("v", None); ("dest", None)]
  [] (
    "dest".[0] ::= builtin (PF1 OFloor)$(!"v".[0]) ;;
    "dest".[1] ::= builtin (PF1 OFloor)$(!"v".[1])
  ).

(* vec2-ext.h:241-244 *)
Definition glm_vec2_mods : fundef := Fun
  [("v", None); ("s", None); ("dest", None)]
  [] (
    "dest".[0] ::= builtin (PF2 OFmod)$(!"v".[0], "s") ;;
    "dest".[1] ::= builtin (PF2 OFmod)$(!"v".[1], "s")
  ).

(* vec2-ext.h:254-257 *)
Definition glm_vec2_sqrt : fundef := Fun
  [("v", None); ("dest", None)]
  [] (
    "dest".[0] ::= builtin (PF1 OSqrt)$(!"v".[0]) ;;
    "dest".[1] ::= builtin (PF1 OSqrt)$(!"v".[1])
  ).

(* vec2-ext.h:268-274 *)
Definition glm_vec2_complex_mul : fundef := Fun
  [("a", None); ("b", None); ("dest", None)]
  [("tr", None); ("ti", None)] (
    "tr" <~ ((!"a".[0] * !"b".[0]) - (!"a".[1] * !"b".[1])) ;;
    "ti" <~ ((!"a".[0] * !"b".[1]) + (!"a".[1] * !"b".[0])) ;;
    "dest".[0] ::= "tr" ;;
    "dest".[1] ::= "ti"
  ).

(* vec2-ext.h:286-289 *)
Definition glm_vec2_steps : fundef := Fun
  [("edge", None); ("x", None); ("dest", None)]
  [] (
    "dest".[0] ::= glm_step$("edge", !"x".[0]) ;;
    "dest".[1] ::= glm_step$("edge", !"x".[1])
  ).

(* vec2-ext.h:301-304 *)
Definition glm_vec2_stepr : fundef := Fun
  [("edge", None); ("x", None); ("dest", None)]
  [] (
    "dest".[0] ::= glm_step$(!"edge".[0], "x") ;;
    "dest".[1] ::= glm_step$(!"edge".[1], "x")
  ).

(* vec2-ext.h:315-322 *)
Definition glm_vec2_complex_div : fundef := Fun
  [("a", None); ("b", None); ("dest", None)]
  [("tr", None); ("ti", None); ("ibnorm2", None)] (
    "ibnorm2" <~ ((EF 1 1) / ((!"b".[0] * !"b".[0]) + (!"b".[1] * !"b".[1]))) ;;
    "tr" <~ ("ibnorm2" * ((!"a".[0] * !"b".[0]) + (!"a".[1] * !"b".[1]))) ;;
    "ti" <~ ("ibnorm2" * ((!"a".[1] * !"b".[0]) - (!"a".[0] * !"b".[1]))) ;;
    "dest".[0] ::= "tr" ;;
    "dest".[1] ::= "ti"
  ).

(* vec2-ext.h:332-335 *)
Definition glm_vec2_complex_conjugate : fundef := Fun
  [("a", None); ("dest", None)]
  [] (
    "dest".[0] ::= !"a".[0] ;;
    "dest".[1] ::= (- !"a".[1])
  ).

