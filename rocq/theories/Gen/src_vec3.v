(** Functions of src/vec3.c (configuration: scalar), written by tools/gen.py.
    The comment above each definition gives file and lines in /repo. *)
From Coq Require Import String List ZArith.
From Verif Require Import MiniC.
From Verif.Gen Require Import vec3_ext vec3.
Import ListNotations.
Open Scope string_scope.
Open Scope Z_scope.
Open Scope mc_scope.

(* src/vec3.c:301-303 *)
Definition glmc_vec3_lerp : fundef := Fun
  [("from", None); ("to", None); ("t", None); ("dest", None)]
  [] (
    SExp glm_vec3_lerp$("from", "to", "t", "dest")
  ).

(* src/vec3.c:307-309 *)
Definition glmc_vec3_lerpc : fundef := Fun
  [("from", None); ("to", None); ("t", None); ("dest", None)]
  [] (
    SExp glm_vec3_lerpc$("from", "to", "t", "dest")
  ).

(* src/vec3.c:13-15 *)
Definition glmc_vec3 : fundef := Fun
  [("v4", None); ("dest", None)]
  [] (
    SExp glm_vec3$("v4", "dest")
  ).

(* src/vec3.c:19-21 *)
Definition glmc_vec3_copy : fundef := Fun
  [("a", None); ("dest", None)]
  [] (
    SExp glm_vec3_copy$("a", "dest")
  ).

(* src/vec3.c:25-27 *)
Definition glmc_vec3_zero : fundef := Fun
  [("v", None)]
  [] (
    SExp glm_vec3_zero$("v")
  ).

(* src/vec3.c:31-33 *)
Definition glmc_vec3_one : fundef := Fun
  [("v", None)]
  [] (
    SExp glm_vec3_one$("v")
  ).

(* src/vec3.c:37-39 *)
Definition glmc_vec3_dot : fundef := Fun
  [("a", None); ("b", None)]
  [] (
    SRet glm_vec3_dot$("a", "b")
  ).

(* src/vec3.c:43-45 *)
Definition glmc_vec3_cross : fundef := Fun
  [("a", None); ("b", None); ("dest", None)]
  [] (
    SExp glm_vec3_cross$("a", "b", "dest")
  ).

(* src/vec3.c:49-51 *)
Definition glmc_vec3_crossn : fundef := Fun
  [("a", None); ("b", None); ("dest", None)]
  [] (
    SExp glm_vec3_crossn$("a", "b", "dest")
  ).

(* src/vec3.c:55-57 *)
Definition glmc_vec3_norm : fundef := Fun
  [("v", None)]
  [] (
    SRet glm_vec3_norm$("v")
  ).

(* src/vec3.c:61-63 *)
Definition glmc_vec3_normalize_to : fundef := Fun
  [("v", None); ("dest", None)]
  [] (
    SExp glm_vec3_normalize_to$("v", "dest")
  ).

(* src/vec3.c:67-69 *)
Definition glmc_vec3_normalize : fundef := Fun
  [("v", None)]
  [] (
    SExp glm_vec3_normalize$("v")
  ).

(* src/vec3.c:73-75 *)
Definition glmc_vec3_norm2 : fundef := Fun
  [("v", None)]
  [] (
    SRet glm_vec3_norm2$("v")
  ).

(* src/vec3.c:79-81 *)
Definition glmc_vec3_norm_one : fundef := Fun
  [("v", None)]
  [] (
    SRet glm_vec3_norm_one$("v")
  ).

(* src/vec3.c:85-87 *)
Definition glmc_vec3_norm_inf : fundef := Fun
  [("v", None)]
  [] (
    SRet glm_vec3_norm_inf$("v")
  ).

(* src/vec3.c:91-93 *)
Definition glmc_vec3_add : fundef := Fun
  [("a", None); ("b", None); ("dest", None)]
  [] (
    SExp glm_vec3_add$("a", "b", "dest")
  ).

(* src/vec3.c:97-99 *)
Definition glmc_vec3_adds : fundef := Fun
  [("v", None); ("s", None); ("dest", None)]
  [] (
    SExp glm_vec3_adds$("v", "s", "dest")
  ).

(* src/vec3.c:103-105 *)
Definition glmc_vec3_sub : fundef := Fun
  [("a", None); ("b", None); ("dest", None)]
  [] (
    SExp glm_vec3_sub$("a", "b", "dest")
  ).

(* src/vec3.c:109-111 *)
Definition glmc_vec3_subs : fundef := Fun
  [("v", None); ("s", None); ("dest", None)]
  [] (
    SExp glm_vec3_subs$("v", "s", "dest")
  ).

(* src/vec3.c:115-117 *)
Definition glmc_vec3_mul : fundef := Fun
  [("a", None); ("b", None); ("d", None)]
  [] (
    SExp glm_vec3_mul$("a", "b", "d")
  ).

(* src/vec3.c:121-123 *)
Definition glmc_vec3_scale : fundef := Fun
  [("v", None); ("s", None); ("dest", None)]
  [] (
    SExp glm_vec3_scale$("v", "s", "dest")
  ).

(* src/vec3.c:127-129 *)
Definition glmc_vec3_scale_as : fundef := Fun
  [("v", None); ("s", None); ("dest", None)]
  [] (
    SExp glm_vec3_scale_as$("v", "s", "dest")
  ).

(* src/vec3.c:133-135 *)
Definition glmc_vec3_div : fundef := Fun
  [("a", None); ("b", None); ("dest", None)]
  [] (
    SExp glm_vec3_div$("a", "b", "dest")
  ).

(* src/vec3.c:139-141 *)
Definition glmc_vec3_divs : fundef := Fun
  [("a", None); ("s", None); ("dest", None)]
  [] (
    SExp glm_vec3_divs$("a", "s", "dest")
  ).

(* src/vec3.c:145-147 *)
Definition glmc_vec3_addadd : fundef := Fun
  [("a", None); ("b", None); ("dest", None)]
  [] (
    SExp glm_vec3_addadd$("a", "b", "dest")
  ).

(* src/vec3.c:151-153 *)
Definition glmc_vec3_subadd : fundef := Fun
  [("a", None); ("b", None); ("dest", None)]
  [] (
    SExp glm_vec3_subadd$("a", "b", "dest")
  ).

(* src/vec3.c:157-159 *)
Definition glmc_vec3_muladd : fundef := Fun
  [("a", None); ("b", None); ("dest", None)]
  [] (
    SExp glm_vec3_muladd$("a", "b", "dest")
  ).

(* src/vec3.c:163-165 *)
Definition glmc_vec3_muladds : fundef := Fun
  [("a", None); ("s", None); ("dest", None)]
  [] (
    SExp glm_vec3_muladds$("a", "s", "dest")
  ).

(* src/vec3.c:169-171 *)
Definition glmc_vec3_maxadd : fundef := Fun
  [("a", None); ("b", None); ("dest", None)]
  [] (
    SExp glm_vec3_maxadd$("a", "b", "dest")
  ).

(* src/vec3.c:175-177 *)
Definition glmc_vec3_minadd : fundef := Fun
  [("a", None); ("b", None); ("dest", None)]
  [] (
    SExp glm_vec3_minadd$("a", "b", "dest")
  ).

(* src/vec3.c:181-183 *)
Definition glmc_vec3_subsub : fundef := Fun
  [("a", None); ("b", None); ("dest", None)]
  [] (
    SExp glm_vec3_subsub$("a", "b", "dest")
  ).

(* src/vec3.c:187-189 *)
Definition glmc_vec3_addsub : fundef := Fun
  [("a", None); ("b", None); ("dest", None)]
  [] (
    SExp glm_vec3_addsub$("a", "b", "dest")
  ).

(* src/vec3.c:193-195 *)
Definition glmc_vec3_mulsub : fundef := Fun
  [("a", None); ("b", None); ("dest", None)]
  [] (
    SExp glm_vec3_mulsub$("a", "b", "dest")
  ).

(* src/vec3.c:199-201 *)
Definition glmc_vec3_mulsubs : fundef := Fun
  [("a", None); ("s", None); ("dest", None)]
  [] (
    SExp glm_vec3_mulsubs$("a", "s", "dest")
  ).

(* src/vec3.c:205-207 *)
Definition glmc_vec3_maxsub : fundef := Fun
  [("a", None); ("b", None); ("dest", None)]
  [] (
    SExp glm_vec3_maxsub$("a", "b", "dest")
  ).

(* src/vec3.c:211-213 *)
Definition glmc_vec3_minsub : fundef := Fun
  [("a", None); ("b", None); ("dest", None)]
  [] (
    SExp glm_vec3_minsub$("a", "b", "dest")
  ).

(* src/vec3.c:217-219 *)
Definition glmc_vec3_negate : fundef := Fun
  [("v", None)]
  [] (
    SExp glm_vec3_negate$("v")
  ).

(* src/vec3.c:223-225 *)
Definition glmc_vec3_negate_to : fundef := Fun
  [("v", None); ("dest", None)]
  [] (
    SExp glm_vec3_negate_to$("v", "dest")
  ).

(* src/vec3.c:229-231 *)
Definition glmc_vec3_angle : fundef := Fun
  [("a", None); ("b", None)]
  [] (
    SRet glm_vec3_angle$("a", "b")
  ).

(* src/vec3.c:235-237 *)
Definition glmc_vec3_rotate : fundef := Fun
  [("v", None); ("angle", None); ("axis", None)]
  [] (
    SExp glm_vec3_rotate$("v", "angle", "axis")
  ).

(* src/vec3.c:241-243 *)
Definition glmc_vec3_rotate_m4 : fundef := Fun
  [("m", None); ("v", None); ("dest", None)]
  [] (
    SExp glm_vec3_rotate_m4$("m", "v", "dest")
  ).

(* src/vec3.c:247-249 *)
Definition glmc_vec3_rotate_m3 : fundef := Fun
  [("m", None); ("v", None); ("dest", None)]
  [] (
    SExp glm_vec3_rotate_m3$("m", "v", "dest")
  ).

(* src/vec3.c:253-255 *)
Definition glmc_vec3_proj : fundef := Fun
  [("a", None); ("b", None); ("dest", None)]
  [] (
    SExp glm_vec3_proj$("a", "b", "dest")
  ).

(* src/vec3.c:259-261 *)
Definition glmc_vec3_center : fundef := Fun
  [("a", None); ("b", None); ("dest", None)]
  [] (
    SExp glm_vec3_center$("a", "b", "dest")
  ).

(* src/vec3.c:265-267 *)
Definition glmc_vec3_distance : fundef := Fun
  [("a", None); ("b", None)]
  [] (
    SRet glm_vec3_distance$("a", "b")
  ).

(* src/vec3.c:271-273 *)
Definition glmc_vec3_distance2 : fundef := Fun
  [("a", None); ("b", None)]
  [] (
    SRet glm_vec3_distance2$("a", "b")
  ).

(* src/vec3.c:277-279 *)
Definition glmc_vec3_maxv : fundef := Fun
  [("a", None); ("b", None); ("dest", None)]
  [] (
    SExp glm_vec3_maxv$("a", "b", "dest")
  ).

(* src/vec3.c:283-285 *)
Definition glmc_vec3_minv : fundef := Fun
  [("a", None); ("b", None); ("dest", None)]
  [] (
    SExp glm_vec3_minv$("a", "b", "dest")
  ).

(* src/vec3.c:289-291 *)
Definition glmc_vec3_clamp : fundef := Fun
  [("v", None); ("minVal", None); ("maxVal", None)]
  [] (
    SExp glm_vec3_clamp$("v", "minVal", "maxVal")
  ).

(* src/vec3.c:295-297 *)
Definition glmc_vec3_ortho : fundef := Fun
  [("v", None); ("dest", None)]
  [] (
    SExp glm_vec3_ortho$("v", "dest")
  ).

(* src/vec3.c:313-315 *)
Definition glmc_vec3_step : fundef := Fun
  [("edge", None); ("x", None); ("dest", None)]
  [] (
    SExp glm_vec3_step$("edge", "x", "dest")
  ).

(* src/vec3.c:319-321 *)
Definition glmc_vec3_smoothstep_uni : fundef := Fun
  [("edge0", None); ("edge1", None); ("x", None); ("dest", None)]
  [] (
    SExp glm_vec3_smoothstep_uni$("edge0", "edge1", "x", "dest")
  ).

(* src/vec3.c:325-327 *)
Definition glmc_vec3_smoothstep : fundef := Fun
  [("edge0", None); ("edge1", None); ("x", None); ("dest", None)]
  [] (
    SExp glm_vec3_smoothstep$("edge0", "edge1", "x", "dest")
  ).

(* src/vec3.c:331-333 *)
Definition glmc_vec3_smoothinterp : fundef := Fun
  [("from", None); ("to", None); ("t", None); ("dest", None)]
  [] (
    SExp glm_vec3_smoothinterp$("from", "to", "t", "dest")
  ).

(* src/vec3.c:337-339 *)
Definition glmc_vec3_smoothinterpc : fundef := Fun
  [("from", None); ("to", None); ("t", None); ("dest", None)]
  [] (
    SExp glm_vec3_smoothinterpc$("from", "to", "t", "dest")
  ).

(* src/vec3.c:343-345 *)
Definition glmc_vec3_swizzle : fundef := Fun
  [("v", None); ("mask", None); ("dest", None)]
  [] (
    SExp glm_vec3_swizzle$("v", "mask", "dest")
  ).

(* src/vec3.c:351-353 *)
Definition glmc_vec3_mulv : fundef := Fun
  [("a", None); ("b", None); ("d", None)]
  [] (
    SExp glm_vec3_mul$("a", "b", "d")
  ).

(* src/vec3.c:357-359 *)
Definition glmc_vec3_broadcast : fundef := Fun
  [("val", None); ("d", None)]
  [] (
    SExp glm_vec3_broadcast$("val", "d")
  ).

(* src/vec3.c:363-365 *)
Definition glmc_vec3_fill : fundef := Fun
  [("v", None); ("val", None)]
  [] (
    SExp glm_vec3_fill$("v", "val")
  ).

(* src/vec3.c:369-371 *)
Definition glmc_vec3_eq : fundef := Fun
  [("v", None); ("val", None)]
  [] (
    SRet glm_vec3_eq$("v", "val")
  ).

(* src/vec3.c:375-377 *)
Definition glmc_vec3_eq_eps : fundef := Fun
  [("v", None); ("val", None)]
  [] (
    SRet glm_vec3_eq_eps$("v", "val")
  ).

(* src/vec3.c:381-383 *)
Definition glmc_vec3_eq_all : fundef := Fun
  [("v", None)]
  [] (
    SRet glm_vec3_eq_all$("v")
  ).

(* src/vec3.c:387-389 *)
Definition glmc_vec3_eqv : fundef := Fun
  [("a", None); ("b", None)]
  [] (
    SRet glm_vec3_eqv$("a", "b")
  ).

(* src/vec3.c:393-395 *)
Definition glmc_vec3_eqv_eps : fundef := Fun
  [("a", None); ("b", None)]
  [] (
    SRet glm_vec3_eqv_eps$("a", "b")
  ).

(* src/vec3.c:399-401 *)
Definition glmc_vec3_max : fundef := Fun
  [("v", None)]
  [] (
    SRet glm_vec3_max$("v")
  ).

(* src/vec3.c:405-407 *)
Definition glmc_vec3_min : fundef := Fun
  [("v", None)]
  [] (
    SRet glm_vec3_min$("v")
  ).

(* src/vec3.c:411-413 *)
Definition glmc_vec3_isnan : fundef := Fun
  [("v", None)]
  [] (
    SRet glm_vec3_isnan$("v")
  ).

(* src/vec3.c:417-419 *)
Definition glmc_vec3_isinf : fundef := Fun
  [("v", None)]
  [] (
    SRet glm_vec3_isinf$("v")
  ).

(* src/vec3.c:423-425 *)
Definition glmc_vec3_isvalid : fundef := Fun
  [("v", None)]
  [] (
    SRet glm_vec3_isvalid$("v")
  ).

(* src/vec3.c:429-431 *)
Definition glmc_vec3_sign : fundef := Fun
  [("v", None); ("dest", None)]
  [] (
    SExp glm_vec3_sign$("v", "dest")
  ).

(* src/vec3.c:435-437 *)
Definition glmc_vec3_abs : fundef := Fun
  [("v", None); ("dest", None)]
  [] (
    SExp glm_vec3_abs$("v", "dest")
  ).

(* src/vec3.c:441-443 *)
Definition glmc_vec3_fract : fundef := Fun
  [("v", None); ("dest", None)]
  [] (
    SExp glm_vec3_fract$("v", "dest")
  ).

(* src/vec3.c:447-449 *)
Definition glmc_vec3_floor : fundef := Fun
  [("v", None); ("dest", None)]
  [] (
    SExp glm_vec3_floor$("v", "dest")
  ).

(* src/vec3.c:453-455 *)
Definition glmc_vec3_mods : fundef := Fun
  [("v", None); ("s", None); ("dest", None)]
  [] (
    SExp glm_vec3_mods$("v", "s", "dest")
  ).

(* src/vec3.c:459-461 *)
Definition glmc_vec3_steps : fundef := Fun
  [("edge", None); ("v", None); ("dest", None)]
  [] (
    SExp glm_vec3_steps$("edge", "v", "dest")
  ).

(* src/vec3.c:465-467 *)
Definition glmc_vec3_stepr : fundef := Fun
  [("edge", None); ("v", None); ("dest", None)]
  [] (
    SExp glm_vec3_stepr$("edge", "v", "dest")
  ).

(* src/vec3.c:471-473 *)
Definition glmc_vec3_hadd : fundef := Fun
  [("v", None)]
  [] (
    SRet glm_vec3_hadd$("v")
  ).

(* src/vec3.c:477-479 *)
Definition glmc_vec3_sqrt : fundef := Fun
  [("v", None); ("dest", None)]
  [] (
    SExp glm_vec3_sqrt$("v", "dest")
  ).

(* src/vec3.c:483-485 *)
Definition glmc_vec3_make : fundef := Fun
  [("src", None); ("dest", None)]
  [] (
    SExp glm_vec3_make$("src", "dest")
  ).

(* src/vec3.c:489-491 *)
Definition glmc_vec3_faceforward : fundef := Fun
  [("n", None); ("v", None); ("nref", None); ("dest", None)]
  [] (
    SExp glm_vec3_faceforward$("n", "v", "nref", "dest")
  ).

(* src/vec3.c:495-497 *)
Definition glmc_vec3_reflect : fundef := Fun
  [("v", None); ("n", None); ("dest", None)]
  [] (
    SExp glm_vec3_reflect$("v", "n", "dest")
  ).

(* src/vec3.c:501-503 *)
Definition glmc_vec3_refract : fundef := Fun
  [("v", None); ("n", None); ("eta", None); ("dest", None)]
  [] (
    SRet glm_vec3_refract$("v", "n", "eta", "dest")
  ).

