(** Functions of src/ease.c (configuration: scalar), written by tools/gen.py.
    The comment above each definition gives file and lines in /repo. *)
From Coq Require Import String List ZArith.
From Verif Require Import MiniC.
From Verif.Gen Require Import ease.
Import ListNotations.
Open Scope string_scope.
Open Scope Z_scope.
Open Scope mc_scope.

(* src/ease.c:13-15 *)
Definition glmc_ease_linear : fundef := Fun
  [("t", None)]
  [] (
    SRet glm_ease_linear$("t")
  ).

(* src/ease.c:19-21 *)
Definition glmc_ease_sine_in : fundef := Fun
  [("t", None)]
  [] (
    SRet glm_ease_sine_in$("t")
  ).

(* src/ease.c:25-27 *)
Definition glmc_ease_sine_out : fundef := Fun
  [("t", None)]
  [] (
    SRet glm_ease_sine_out$("t")
  ).

(* src/ease.c:31-33 *)
Definition glmc_ease_sine_inout : fundef := Fun
  [("t", None)]
  [] (
    SRet glm_ease_sine_inout$("t")
  ).

(* src/ease.c:37-39 *)
Definition glmc_ease_quad_in : fundef := Fun
  [("t", None)]
  [] (
    SRet glm_ease_quad_in$("t")
  ).

(* src/ease.c:43-45 *)
Definition glmc_ease_quad_out : fundef := Fun
  [("t", None)]
  [] (
    SRet glm_ease_quad_out$("t")
  ).

(* src/ease.c:49-51 *)
Definition glmc_ease_quad_inout : fundef := Fun
  [("t", None)]
  [] (
    SRet glm_ease_quad_inout$("t")
  ).

(* src/ease.c:55-57 *)
Definition glmc_ease_cubic_in : fundef := Fun
  [("t", None)]
  [] (
    SRet glm_ease_cubic_in$("t")
  ).

(* src/ease.c:61-63 *)
Definition glmc_ease_cubic_out : fundef := Fun
  [("t", None)]
  [] (
    SRet glm_ease_cubic_out$("t")
  ).

(* src/ease.c:67-69 *)
Definition glmc_ease_cubic_inout : fundef := Fun
  [("t", None)]
  [] (
    SRet glm_ease_cubic_inout$("t")
  ).

(* src/ease.c:73-75 *)
Definition glmc_ease_quart_in : fundef := Fun
  [("t", None)]
  [] (
    SRet glm_ease_quart_in$("t")
  ).

(* src/ease.c:79-81 *)
Definition glmc_ease_quart_out : fundef := Fun
  [("t", None)]
  [] (
    SRet glm_ease_quart_out$("t")
  ).

(* src/ease.c:85-87 *)
Definition glmc_ease_quart_inout : fundef := Fun
  [("t", None)]
  [] (
    SRet glm_ease_quart_inout$("t")
  ).

(* src/ease.c:91-93 *)
Definition glmc_ease_quint_in : fundef := Fun
  [("t", None)]
  [] (
    SRet glm_ease_quint_in$("t")
  ).

(* src/ease.c:97-99 *)
Definition glmc_ease_quint_out : fundef := Fun
  [("t", None)]
  [] (
    SRet glm_ease_quint_out$("t")
  ).

(* src/ease.c:103-105 *)
Definition glmc_ease_quint_inout : fundef := Fun
  [("t", None)]
  [] (
    SRet glm_ease_quint_inout$("t")
  ).

(* src/ease.c:109-111 *)
Definition glmc_ease_exp_in : fundef := Fun
  [("t", None)]
  [] (
    SRet glm_ease_exp_in$("t")
  ).

(* src/ease.c:115-117 *)
Definition glmc_ease_exp_out : fundef := Fun
  [("t", None)]
  [] (
    SRet glm_ease_exp_out$("t")
  ).

(* src/ease.c:121-123 *)
Definition glmc_ease_exp_inout : fundef := Fun
  [("t", None)]
  [] (
    SRet glm_ease_exp_inout$("t")
  ).

(* src/ease.c:127-129 *)
Definition glmc_ease_circ_in : fundef := Fun
  [("t", None)]
  [] (
    SRet glm_ease_circ_in$("t")
  ).

(* src/ease.c:133-135 *)
Definition glmc_ease_circ_out : fundef := Fun
  [("t", None)]
  [] (
    SRet glm_ease_circ_out$("t")
  ).

(* src/ease.c:139-141 *)
Definition glmc_ease_circ_inout : fundef := Fun
  [("t", None)]
  [] (
    SRet glm_ease_circ_inout$("t")
  ).

(* src/ease.c:145-147 *)
Definition glmc_ease_back_in : fundef := Fun
  [("t", None)]
  [] (
    SRet glm_ease_back_in$("t")
  ).

(* src/ease.c:151-153 *)
Definition glmc_ease_back_out : fundef := Fun
  [("t", None)]
  [] (
    SRet glm_ease_back_out$("t")
  ).

(* src/ease.c:157-159 *)
Definition glmc_ease_back_inout : fundef := Fun
  [("t", None)]
  [] (
    SRet glm_ease_back_inout$("t")
  ).

(* src/ease.c:163-165 *)
Definition glmc_ease_elast_in : fundef := Fun
  [("t", None)]
  [] (
    SRet glm_ease_elast_in$("t")
  ).

(* src/ease.c:169-171 *)
Definition glmc_ease_elast_out : fundef := Fun
  [("t", None)]
  [] (
    SRet glm_ease_elast_out$("t")
  ).

(* src/ease.c:175-177 *)
Definition glmc_ease_elast_inout : fundef := Fun
  [("t", None)]
  [] (
    SRet glm_ease_elast_inout$("t")
  ).

(* src/ease.c:181-183 *)
Definition glmc_ease_bounce_out : fundef := Fun
  [("t", None)]
  [] (
    SRet glm_ease_bounce_out$("t")
  ).

(* src/ease.c:187-189 *)
Definition glmc_ease_bounce_in : fundef := Fun
  [("t", None)]
  [] (
    SRet glm_ease_bounce_in$("t")
  ).

(* src/ease.c:193-195 *)
Definition glmc_ease_bounce_inout : fundef := Fun
  [("t", None)]
  [] (
    SRet glm_ease_bounce_inout$("t")
  ).

