(** Functions of src/vec4.c (configuration: scalar), written by tools/gen.py.
    The comment above each definition gives file and lines in /repo. *)
From Coq Require Import String List ZArith.
From Verif Require Import MiniC.
From Verif.Gen Require Import vec4_ext vec4.
Import ListNotations.
Open Scope string_scope.
Open Scope Z_scope.
Open Scope mc_scope.

(* src/vec4.c:259-261 *)
Definition glmc_vec4_lerp : fundef := Fun
  [("from", None); ("to", None); ("t", None); ("dest", None)]
  [] (
    SExp glm_vec4_lerp$("from", "to", "t", "dest")
  ).

(* src/vec4.c:265-267 *)
Definition glmc_vec4_lerpc : fundef := Fun
  [("from", None); ("to", None); ("t", None); ("dest", None)]
  [] (
    SExp glm_vec4_lerpc$("from", "to", "t", "dest")
  ).

(* src/vec4.c:13-15 *)
Definition glmc_vec4 : fundef := Fun
  [("v3", None); ("last", None); ("dest", None)]
  [] (
    SExp glm_vec4$("v3", "last", "dest")
  ).

(* src/vec4.c:19-21 *)
Definition glmc_vec4_zero : fundef := Fun
  [("v", None)]
  [] (
    SExp glm_vec4_zero$("v")
  ).

(* src/vec4.c:25-27 *)
Definition glmc_vec4_one : fundef := Fun
  [("v", None)]
  [] (
    SExp glm_vec4_one$("v")
  ).

(* src/vec4.c:31-33 *)
Definition glmc_vec4_copy3 : fundef := Fun
  [("v", None); ("dest", None)]
  [] (
    SExp glm_vec4_copy3$("v", "dest")
  ).

(* src/vec4.c:37-39 *)
Definition glmc_vec4_copy : fundef := Fun
  [("v", None); ("dest", None)]
  [] (
    SExp glm_vec4_copy$("v", "dest")
  ).

(* src/vec4.c:43-45 *)
Definition glmc_vec4_ucopy : fundef := Fun
  [("v", None); ("dest", None)]
  [] (
    SExp glm_vec4_ucopy$("v", "dest")
  ).

(* src/vec4.c:49-51 *)
Definition glmc_vec4_dot : fundef := Fun
  [("a", None); ("b", None)]
  [] (
    SRet glm_vec4_dot$("a", "b")
  ).

(* src/vec4.c:55-57 *)
Definition glmc_vec4_norm : fundef := Fun
  [("v", None)]
  [] (
    SRet glm_vec4_norm$("v")
  ).

(* src/vec4.c:61-63 *)
Definition glmc_vec4_normalize_to : fundef := Fun
  [("v", None); ("dest", None)]
  [] (
    SExp glm_vec4_normalize_to$("v", "dest")
  ).

(* src/vec4.c:67-69 *)
Definition glmc_vec4_normalize : fundef := Fun
  [("v", None)]
  [] (
    SExp glm_vec4_normalize$("v")
  ).

(* src/vec4.c:73-75 *)
Definition glmc_vec4_norm2 : fundef := Fun
  [("v", None)]
  [] (
    SRet glm_vec4_norm2$("v")
  ).

(* src/vec4.c:79-81 *)
Definition glmc_vec4_norm_one : fundef := Fun
  [("v", None)]
  [] (
    SRet glm_vec4_norm_one$("v")
  ).

(* src/vec4.c:85-87 *)
Definition glmc_vec4_norm_inf : fundef := Fun
  [("v", None)]
  [] (
    SRet glm_vec4_norm_inf$("v")
  ).

(* src/vec4.c:91-93 *)
Definition glmc_vec4_add : fundef := Fun
  [("a", None); ("b", None); ("dest", None)]
  [] (
    SExp glm_vec4_add$("a", "b", "dest")
  ).

(* src/vec4.c:97-99 *)
Definition glmc_vec4_adds : fundef := Fun
  [("v", None); ("s", None); ("dest", None)]
  [] (
    SExp glm_vec4_adds$("v", "s", "dest")
  ).

(* src/vec4.c:103-105 *)
Definition glmc_vec4_sub : fundef := Fun
  [("a", None); ("b", None); ("dest", None)]
  [] (
    SExp glm_vec4_sub$("a", "b", "dest")
  ).

(* src/vec4.c:109-111 *)
Definition glmc_vec4_subs : fundef := Fun
  [("v", None); ("s", None); ("dest", None)]
  [] (
    SExp glm_vec4_subs$("v", "s", "dest")
  ).

(* src/vec4.c:115-117 *)
Definition glmc_vec4_mul : fundef := Fun
  [("a", None); ("b", None); ("d", None)]
  [] (
    SExp glm_vec4_mul$("a", "b", "d")
  ).

(* src/vec4.c:121-123 *)
Definition glmc_vec4_scale : fundef := Fun
  [("v", None); ("s", None); ("dest", None)]
  [] (
    SExp glm_vec4_scale$("v", "s", "dest")
  ).

(* src/vec4.c:127-129 *)
Definition glmc_vec4_scale_as : fundef := Fun
  [("v", None); ("s", None); ("dest", None)]
  [] (
    SExp glm_vec4_scale_as$("v", "s", "dest")
  ).

(* src/vec4.c:133-135 *)
Definition glmc_vec4_div : fundef := Fun
  [("a", None); ("b", None); ("dest", None)]
  [] (
    SExp glm_vec4_div$("a", "b", "dest")
  ).

(* src/vec4.c:139-141 *)
Definition glmc_vec4_divs : fundef := Fun
  [("v", None); ("s", None); ("dest", None)]
  [] (
    SExp glm_vec4_divs$("v", "s", "dest")
  ).

(* src/vec4.c:145-147 *)
Definition glmc_vec4_addadd : fundef := Fun
  [("a", None); ("b", None); ("dest", None)]
  [] (
    SExp glm_vec4_addadd$("a", "b", "dest")
  ).

(* src/vec4.c:151-153 *)
Definition glmc_vec4_subadd : fundef := Fun
  [("a", None); ("b", None); ("dest", None)]
  [] (
    SExp glm_vec4_subadd$("a", "b", "dest")
  ).

(* src/vec4.c:157-159 *)
Definition glmc_vec4_muladd : fundef := Fun
  [("a", None); ("b", None); ("dest", None)]
  [] (
    SExp glm_vec4_muladd$("a", "b", "dest")
  ).

(* src/vec4.c:163-165 *)
Definition glmc_vec4_muladds : fundef := Fun
  [("a", None); ("s", None); ("dest", None)]
  [] (
    SExp glm_vec4_muladds$("a", "s", "dest")
  ).

(* src/vec4.c:169-171 *)
Definition glmc_vec4_maxadd : fundef := Fun
  [("a", None); ("b", None); ("dest", None)]
  [] (
    SExp glm_vec4_maxadd$("a", "b", "dest")
  ).

(* src/vec4.c:175-177 *)
Definition glmc_vec4_minadd : fundef := Fun
  [("a", None); ("b", None); ("dest", None)]
  [] (
    SExp glm_vec4_minadd$("a", "b", "dest")
  ).

(* src/vec4.c:181-183 *)
Definition glmc_vec4_subsub : fundef := Fun
  [("a", None); ("b", None); ("dest", None)]
  [] (
    SExp glm_vec4_subsub$("a", "b", "dest")
  ).

(* src/vec4.c:187-189 *)
Definition glmc_vec4_addsub : fundef := Fun
  [("a", None); ("b", None); ("dest", None)]
  [] (
    SExp glm_vec4_addsub$("a", "b", "dest")
  ).

(* src/vec4.c:193-195 *)
Definition glmc_vec4_mulsub : fundef := Fun
  [("a", None); ("b", None); ("dest", None)]
  [] (
    SExp glm_vec4_mulsub$("a", "b", "dest")
  ).

(* src/vec4.c:199-201 *)
Definition glmc_vec4_mulsubs : fundef := Fun
  [("a", None); ("s", None); ("dest", None)]
  [] (
    SExp glm_vec4_mulsubs$("a", "s", "dest")
  ).

(* src/vec4.c:205-207 *)
Definition glmc_vec4_maxsub : fundef := Fun
  [("a", None); ("b", None); ("dest", None)]
  [] (
    SExp glm_vec4_maxsub$("a", "b", "dest")
  ).

(* src/vec4.c:211-213 *)
Definition glmc_vec4_minsub : fundef := Fun
  [("a", None); ("b", None); ("dest", None)]
  [] (
    SExp glm_vec4_minsub$("a", "b", "dest")
  ).

(* src/vec4.c:217-219 *)
Definition glmc_vec4_negate : fundef := Fun
  [("v", None)]
  [] (
    SExp glm_vec4_negate$("v")
  ).

(* src/vec4.c:223-225 *)
Definition glmc_vec4_negate_to : fundef := Fun
  [("v", None); ("dest", None)]
  [] (
    SExp glm_vec4_negate_to$("v", "dest")
  ).

(* src/vec4.c:229-231 *)
Definition glmc_vec4_distance : fundef := Fun
  [("a", None); ("b", None)]
  [] (
    SRet glm_vec4_distance$("a", "b")
  ).

(* src/vec4.c:235-237 *)
Definition glmc_vec4_distance2 : fundef := Fun
  [("a", None); ("b", None)]
  [] (
    SRet glm_vec4_distance2$("a", "b")
  ).

(* src/vec4.c:241-243 *)
Definition glmc_vec4_maxv : fundef := Fun
  [("a", None); ("b", None); ("dest", None)]
  [] (
    SExp glm_vec4_maxv$("a", "b", "dest")
  ).

(* src/vec4.c:247-249 *)
Definition glmc_vec4_minv : fundef := Fun
  [("a", None); ("b", None); ("dest", None)]
  [] (
    SExp glm_vec4_minv$("a", "b", "dest")
  ).

(* src/vec4.c:253-255 *)
Definition glmc_vec4_clamp : fundef := Fun
  [("v", None); ("minVal", None); ("maxVal", None)]
  [] (
    SExp glm_vec4_clamp$("v", "minVal", "maxVal")
  ).

(* src/vec4.c:271-273 *)
Definition glmc_vec4_step : fundef := Fun
  [("edge", None); ("x", None); ("dest", None)]
  [] (
    SExp glm_vec4_step$("edge", "x", "dest")
  ).

(* src/vec4.c:277-279 *)
Definition glmc_vec4_smoothstep_uni : fundef := Fun
  [("edge0", None); ("edge1", None); ("x", None); ("dest", None)]
  [] (
    SExp glm_vec4_smoothstep_uni$("edge0", "edge1", "x", "dest")
  ).

(* src/vec4.c:283-285 *)
Definition glmc_vec4_smoothstep : fundef := Fun
  [("edge0", None); ("edge1", None); ("x", None); ("dest", None)]
  [] (
    SExp glm_vec4_smoothstep$("edge0", "edge1", "x", "dest")
  ).

(* src/vec4.c:289-291 *)
Definition glmc_vec4_smoothinterp : fundef := Fun
  [("from", None); ("to", None); ("t", None); ("dest", None)]
  [] (
    SExp glm_vec4_smoothinterp$("from", "to", "t", "dest")
  ).

(* src/vec4.c:295-297 *)
Definition glmc_vec4_smoothinterpc : fundef := Fun
  [("from", None); ("to", None); ("t", None); ("dest", None)]
  [] (
    SExp glm_vec4_smoothinterpc$("from", "to", "t", "dest")
  ).

(* src/vec4.c:301-303 *)
Definition glmc_vec4_cubic : fundef := Fun
  [("s", None); ("dest", None)]
  [] (
    SExp glm_vec4_cubic$("s", "dest")
  ).

(* src/vec4.c:307-309 *)
Definition glmc_vec4_swizzle : fundef := Fun
  [("v", None); ("mask", None); ("dest", None)]
  [] (
    SExp glm_vec4_swizzle$("v", "mask", "dest")
  ).

(* src/vec4.c:315-317 *)
Definition glmc_vec4_mulv : fundef := Fun
  [("a", None); ("b", None); ("d", None)]
  [] (
    SExp glm_vec4_mul$("a", "b", "d")
  ).

(* src/vec4.c:321-323 *)
Definition glmc_vec4_broadcast : fundef := Fun
  [("val", None); ("d", None)]
  [] (
    SExp glm_vec4_broadcast$("val", "d")
  ).

(* src/vec4.c:327-329 *)
Definition glmc_vec4_fill : fundef := Fun
  [("v", None); ("val", None)]
  [] (
    SExp glm_vec4_fill$("v", "val")
  ).

(* src/vec4.c:333-335 *)
Definition glmc_vec4_eq : fundef := Fun
  [("v", None); ("val", None)]
  [] (
    SRet glm_vec4_eq$("v", "val")
  ).

(* src/vec4.c:339-341 *)
Definition glmc_vec4_eq_eps : fundef := Fun
  [("v", None); ("val", None)]
  [] (
    SRet glm_vec4_eq_eps$("v", "val")
  ).

(* src/vec4.c:345-347 *)
Definition glmc_vec4_eq_all : fundef := Fun
  [("v", None)]
  [] (
    SRet glm_vec4_eq_all$("v")
  ).

(* src/vec4.c:351-353 *)
Definition glmc_vec4_eqv : fundef := Fun
  [("a", None); ("b", None)]
  [] (
    SRet glm_vec4_eqv$("a", "b")
  ).

(* src/vec4.c:357-359 *)
Definition glmc_vec4_eqv_eps : fundef := Fun
  [("a", None); ("b", None)]
  [] (
    SRet glm_vec4_eqv_eps$("a", "b")
  ).

(* src/vec4.c:363-365 *)
Definition glmc_vec4_max : fundef := Fun
  [("v", None)]
  [] (
    SRet glm_vec4_max$("v")
  ).

(* src/vec4.c:369-371 *)
Definition glmc_vec4_min : fundef := Fun
  [("v", None)]
  [] (
    SRet glm_vec4_min$("v")
  ).

(* src/vec4.c:375-377 *)
Definition glmc_vec4_isnan : fundef := Fun
  [("v", None)]
  [] (
    SRet glm_vec4_isnan$("v")
  ).

(* src/vec4.c:381-383 *)
Definition glmc_vec4_isinf : fundef := Fun
  [("v", None)]
  [] (
    SRet glm_vec4_isinf$("v")
  ).

(* src/vec4.c:387-389 *)
Definition glmc_vec4_isvalid : fundef := Fun
  [("v", None)]
  [] (
    SRet glm_vec4_isvalid$("v")
  ).

(* src/vec4.c:393-395 *)
Definition glmc_vec4_sign : fundef := Fun
  [("v", None); ("dest", None)]
  [] (
    SExp glm_vec4_sign$("v", "dest")
  ).

(* src/vec4.c:399-401 *)
Definition glmc_vec4_abs : fundef := Fun
  [("v", None); ("dest", None)]
  [] (
    SExp glm_vec4_abs$("v", "dest")
  ).

(* src/vec4.c:405-407 *)
Definition glmc_vec4_fract : fundef := Fun
  [("v", None); ("dest", None)]
  [] (
    SExp glm_vec4_fract$("v", "dest")
  ).

(* src/vec4.c:411-413 *)
Definition glmc_vec4_floor : fundef := Fun
  [("v", None); ("dest", None)]
  [] (
    SExp glm_vec4_floor$("v", "dest")
  ).

(* src/vec4.c:417-419 *)
Definition glmc_vec4_mods : fundef := Fun
  [("v", None); ("s", None); ("dest", None)]
  [] (
    SExp glm_vec4_mods$("v", "s", "dest")
  ).

(* src/vec4.c:423-425 *)
Definition glmc_vec4_steps : fundef := Fun
  [("edge", None); ("v", None); ("dest", None)]
  [] (
    SExp glm_vec4_steps$("edge", "v", "dest")
  ).

(* src/vec4.c:429-431 *)
Definition glmc_vec4_stepr : fundef := Fun
  [("edge", None); ("v", None); ("dest", None)]
  [] (
    SExp glm_vec4_stepr$("edge", "v", "dest")
  ).

(* src/vec4.c:435-437 *)
Definition glmc_vec4_hadd : fundef := Fun
  [("v", None)]
  [] (
    SRet glm_vec4_hadd$("v")
  ).

(* src/vec4.c:441-443 *)
Definition glmc_vec4_sqrt : fundef := Fun
  [("v", None); ("dest", None)]
  [] (
    SExp glm_vec4_sqrt$("v", "dest")
  ).

(* src/vec4.c:447-449 *)
Definition glmc_vec4_make : fundef := Fun
  [("src", None); ("dest", None)]
  [] (
    SExp glm_vec4_make$("src", "dest")
  ).

(* src/vec4.c:453-455 *)
Definition glmc_vec4_reflect : fundef := Fun
  [("v", None); ("n", None); ("dest", None)]
  [] (
    SExp glm_vec4_reflect$("v", "n", "dest")
  ).

(* src/vec4.c:459-461 *)
Definition glmc_vec4_refract : fundef := Fun
  [("v", None); ("n", None); ("eta", None); ("dest", None)]
  [] (
    SRet glm_vec4_refract$("v", "n", "eta", "dest")
  ).

