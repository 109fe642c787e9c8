(** Functions of src/vec2.c (configuration: scalar), written by tools/gen.py.
    The comment above each definition gives file and lines in /repo. *)
From Coq Require Import String List ZArith.
From Verif Require Import MiniC.
From Verif.Gen Require Import vec2_ext vec2.
Import ListNotations.
Open Scope string_scope.
Open Scope Z_scope.
Open Scope mc_scope.

(* src/vec2.c:13-15 *)
Definition glmc_vec2 : fundef := Fun
  [("v", None); ("dest", None)]
  [] (
    SExp glm_vec2$("v", "dest")
  ).

(* src/vec2.c:19-21 *)
Definition glmc_vec2_fill : fundef := Fun
  [("v", None); ("val", None)]
  [] (
    SExp glm_vec2_fill$("v", "val")
  ).

(* src/vec2.c:25-27 *)
Definition glmc_vec2_eq : fundef := Fun
  [("v", None); ("val", None)]
  [] (
    SRet glm_vec2_eq$("v", "val")
  ).

(* src/vec2.c:31-33 *)
Definition glmc_vec2_eqv : fundef := Fun
  [("a", None); ("b", None)]
  [] (
    SRet glm_vec2_eqv$("a", "b")
  ).

(* src/vec2.c:37-39 *)
Definition glmc_vec2_copy : fundef := Fun
  [("a", None); ("dest", None)]
  [] (
    SExp glm_vec2_copy$("a", "dest")
  ).

(* src/vec2.c:43-45 *)
Definition glmc_vec2_zero : fundef := Fun
  [("v", None)]
  [] (
    SExp glm_vec2_zero$("v")
  ).

(* src/vec2.c:49-51 *)
Definition glmc_vec2_one : fundef := Fun
  [("v", None)]
  [] (
    SExp glm_vec2_one$("v")
  ).

(* src/vec2.c:55-57 *)
Definition glmc_vec2_dot : fundef := Fun
  [("a", None); ("b", None)]
  [] (
    SRet glm_vec2_dot$("a", "b")
  ).

(* src/vec2.c:61-63 *)
Definition glmc_vec2_cross : fundef := Fun
  [("a", None); ("b", None)]
  [] (
    SRet glm_vec2_cross$("a", "b")
  ).

(* src/vec2.c:67-69 *)
Definition glmc_vec2_norm2 : fundef := Fun
  [("v", None)]
  [] (
    SRet glm_vec2_norm2$("v")
  ).

(* src/vec2.c:73-75 *)
Definition glmc_vec2_norm : fundef := Fun
  [("v", None)]
  [] (
    SRet glm_vec2_norm$("v")
  ).

(* src/vec2.c:79-81 *)
Definition glmc_vec2_add : fundef := Fun
  [("a", None); ("b", None); ("dest", None)]
  [] (
    SExp glm_vec2_add$("a", "b", "dest")
  ).

(* src/vec2.c:85-87 *)
Definition glmc_vec2_adds : fundef := Fun
  [("v", None); ("s", None); ("dest", None)]
  [] (
    SExp glm_vec2_adds$("v", "s", "dest")
  ).

(* src/vec2.c:91-93 *)
Definition glmc_vec2_sub : fundef := Fun
  [("a", None); ("b", None); ("dest", None)]
  [] (
    SExp glm_vec2_sub$("a", "b", "dest")
  ).

(* src/vec2.c:97-99 *)
Definition glmc_vec2_subs : fundef := Fun
  [("v", None); ("s", None); ("dest", None)]
  [] (
    SExp glm_vec2_subs$("v", "s", "dest")
  ).

(* src/vec2.c:103-105 *)
Definition glmc_vec2_mul : fundef := Fun
  [("a", None); ("b", None); ("dest", None)]
  [] (
    SExp glm_vec2_mul$("a", "b", "dest")
  ).

(* src/vec2.c:109-111 *)
Definition glmc_vec2_scale : fundef := Fun
  [("v", None); ("s", None); ("dest", None)]
  [] (
    SExp glm_vec2_scale$("v", "s", "dest")
  ).

(* src/vec2.c:115-117 *)
Definition glmc_vec2_scale_as : fundef := Fun
  [("v", None); ("s", None); ("dest", None)]
  [] (
    SExp glm_vec2_scale_as$("v", "s", "dest")
  ).

(* src/vec2.c:121-123 *)
Definition glmc_vec2_div : fundef := Fun
  [("a", None); ("b", None); ("dest", None)]
  [] (
    SExp glm_vec2_div$("a", "b", "dest")
  ).

(* src/vec2.c:127-129 *)
Definition glmc_vec2_divs : fundef := Fun
  [("v", None); ("s", None); ("dest", None)]
  [] (
    SExp glm_vec2_divs$("v", "s", "dest")
  ).

(* src/vec2.c:133-135 *)
Definition glmc_vec2_addadd : fundef := Fun
  [("a", None); ("b", None); ("dest", None)]
  [] (
    SExp glm_vec2_addadd$("a", "b", "dest")
  ).

(* src/vec2.c:139-141 *)
Definition glmc_vec2_subadd : fundef := Fun
  [("a", None); ("b", None); ("dest", None)]
  [] (
    SExp glm_vec2_subadd$("a", "b", "dest")
  ).

(* src/vec2.c:145-147 *)
Definition glmc_vec2_muladd : fundef := Fun
  [("a", None); ("b", None); ("dest", None)]
  [] (
    SExp glm_vec2_muladd$("a", "b", "dest")
  ).

(* src/vec2.c:151-153 *)
Definition glmc_vec2_muladds : fundef := Fun
  [("a", None); ("s", None); ("dest", None)]
  [] (
    SExp glm_vec2_muladds$("a", "s", "dest")
  ).

(* src/vec2.c:157-159 *)
Definition glmc_vec2_maxadd : fundef := Fun
  [("a", None); ("b", None); ("dest", None)]
  [] (
    SExp glm_vec2_maxadd$("a", "b", "dest")
  ).

(* src/vec2.c:163-165 *)
Definition glmc_vec2_minadd : fundef := Fun
  [("a", None); ("b", None); ("dest", None)]
  [] (
    SExp glm_vec2_minadd$("a", "b", "dest")
  ).

(* src/vec2.c:169-171 *)
Definition glmc_vec2_subsub : fundef := Fun
  [("a", None); ("b", None); ("dest", None)]
  [] (
    SExp glm_vec2_subsub$("a", "b", "dest")
  ).

(* src/vec2.c:175-177 *)
Definition glmc_vec2_addsub : fundef := Fun
  [("a", None); ("b", None); ("dest", None)]
  [] (
    SExp glm_vec2_addsub$("a", "b", "dest")
  ).

(* src/vec2.c:181-183 *)
Definition glmc_vec2_mulsub : fundef := Fun
  [("a", None); ("b", None); ("dest", None)]
  [] (
    SExp glm_vec2_mulsub$("a", "b", "dest")
  ).

(* src/vec2.c:187-189 *)
Definition glmc_vec2_mulsubs : fundef := Fun
  [("a", None); ("s", None); ("dest", None)]
  [] (
    SExp glm_vec2_mulsubs$("a", "s", "dest")
  ).

(* src/vec2.c:193-195 *)
Definition glmc_vec2_maxsub : fundef := Fun
  [("a", None); ("b", None); ("dest", None)]
  [] (
    SExp glm_vec2_maxsub$("a", "b", "dest")
  ).

(* src/vec2.c:199-201 *)
Definition glmc_vec2_minsub : fundef := Fun
  [("a", None); ("b", None); ("dest", None)]
  [] (
    SExp glm_vec2_minsub$("a", "b", "dest")
  ).

(* src/vec2.c:206-208 *)
Definition glmc_vec2_negate_to : fundef := Fun
  [("v", None); ("dest", None)]
  [] (
    SExp glm_vec2_negate_to$("v", "dest")
  ).

(* src/vec2.c:212-214 *)
Definition glmc_vec2_negate : fundef := Fun
  [("v", None)]
  [] (
    SExp glm_vec2_negate$("v")
  ).

(* src/vec2.c:218-220 *)
Definition glmc_vec2_normalize : fundef := Fun
  [("v", None)]
  [] (
    SExp glm_vec2_normalize$("v")
  ).

(* src/vec2.c:224-226 *)
Definition glmc_vec2_normalize_to : fundef := Fun
  [("v", None); ("dest", None)]
  [] (
    SExp glm_vec2_normalize_to$("v", "dest")
  ).

(* src/vec2.c:230-232 *)
Definition glmc_vec2_rotate : fundef := Fun
  [("v", None); ("angle", None); ("dest", None)]
  [] (
    SExp glm_vec2_rotate$("v", "angle", "dest")
  ).

(* src/vec2.c:236-238 *)
Definition glmc_vec2_center : fundef := Fun
  [("a", None); ("b", None); ("dest", None)]
  [] (
    SExp glm_vec2_center$("a", "b", "dest")
  ).

(* src/vec2.c:242-244 *)
Definition glmc_vec2_distance2 : fundef := Fun
  [("a", None); ("b", None)]
  [] (
    SRet glm_vec2_distance2$("a", "b")
  ).

(* src/vec2.c:248-250 *)
Definition glmc_vec2_distance : fundef := Fun
  [("a", None); ("b", None)]
  [] (
    SRet glm_vec2_distance$("a", "b")
  ).

(* src/vec2.c:254-256 *)
Definition glmc_vec2_maxv : fundef := Fun
  [("a", None); ("b", None); ("dest", None)]
  [] (
    SExp glm_vec2_maxv$("a", "b", "dest")
  ).

(* src/vec2.c:260-262 *)
Definition glmc_vec2_minv : fundef := Fun
  [("a", None); ("b", None); ("dest", None)]
  [] (
    SExp glm_vec2_minv$("a", "b", "dest")
  ).

(* src/vec2.c:266-268 *)
Definition glmc_vec2_clamp : fundef := Fun
  [("v", None); ("minval", None); ("maxval", None)]
  [] (
    SExp glm_vec2_clamp$("v", "minval", "maxval")
  ).

(* src/vec2.c:272-274 *)
Definition glmc_vec2_abs : fundef := Fun
  [("v", None); ("dest", None)]
  [] (
    SExp glm_vec2_abs$("v", "dest")
  ).

(* src/vec2.c:278-280 *)
Definition glmc_vec2_fract : fundef := Fun
  [("v", None); ("dest", None)]
  [] (
    SExp glm_vec2_fract$("v", "dest")
  ).

(* src/vec2.c:284-286 *)
Definition glmc_vec2_floor : fundef := Fun
  [("v", None); ("dest", None)]
  [] (
    SExp glm_vec2_floor$("v", "dest")
  ).

(* src/vec2.c:290-292 *)
Definition glmc_vec2_mods : fundef := Fun
  [("v", None); ("s", None); ("dest", None)]
  [] (
    SExp glm_vec2_mods$("v", "s", "dest")
  ).

(* src/vec2.c:296-298 *)
Definition glmc_vec2_step : fundef := Fun
  [("edge", None); ("v", None); ("dest", None)]
  [] (
    SExp glm_vec2_step$("edge", "v", "dest")
  ).

(* src/vec2.c:302-304 *)
Definition glmc_vec2_steps : fundef := Fun
  [("edge", None); ("v", None); ("dest", None)]
  [] (
    SExp glm_vec2_steps$("edge", "v", "dest")
  ).

(* src/vec2.c:308-310 *)
Definition glmc_vec2_stepr : fundef := Fun
  [("edge", None); ("v", None); ("dest", None)]
  [] (
    SExp glm_vec2_stepr$("edge", "v", "dest")
  ).

(* src/vec2.c:314-316 *)
Definition glmc_vec2_swizzle : fundef := Fun
  [("v", None); ("mask", None); ("dest", None)]
  [] (
    SExp glm_vec2_swizzle$("v", "mask", "dest")
  ).

(* src/vec2.c:320-322 *)
Definition glmc_vec2_lerp : fundef := Fun
  [("from", None); ("to", None); ("t", None); ("dest", None)]
  [] (
    SExp glm_vec2_lerp$("from", "to", "t", "dest")
  ).

(* src/vec2.c:326-328 *)
Definition glmc_vec2_complex_mul : fundef := Fun
  [("a", None); ("b", None); ("dest", None)]
  [] (
    SExp glm_vec2_complex_mul$("a", "b", "dest")
  ).

(* src/vec2.c:332-334 *)
Definition glmc_vec2_complex_div : fundef := Fun
  [("a", None); ("b", None); ("dest", None)]
  [] (
    SExp glm_vec2_complex_div$("a", "b", "dest")
  ).

(* src/vec2.c:338-340 *)
Definition glmc_vec2_complex_conjugate : fundef := Fun
  [("a", None); ("dest", None)]
  [] (
    SExp glm_vec2_complex_conjugate$("a", "dest")
  ).

(* src/vec2.c:344-346 *)
Definition glmc_vec2_make : fundef := Fun
  [("src", None); ("dest", None)]
  [] (
    SExp glm_vec2_make$("src", "dest")
  ).

(* src/vec2.c:350-352 *)
Definition glmc_vec2_reflect : fundef := Fun
  [("v", None); ("n", None); ("dest", None)]
  [] (
    SExp glm_vec2_reflect$("v", "n", "dest")
  ).

(* src/vec2.c:356-358 *)
Definition glmc_vec2_refract : fundef := Fun
  [("v", None); ("n", None); ("eta", None); ("dest", None)]
  [] (
    SRet glm_vec2_refract$("v", "n", "eta", "dest")
  ).

