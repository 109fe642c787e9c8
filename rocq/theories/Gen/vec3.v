(** Functions of include/cglm/vec3.h (configuration: scalar), written by tools/gen.py.
    The comment above each definition gives file and lines in /repo/include/cglm. *)
From Coq Require Import String List ZArith.
From Verif Require Import MiniC.
From Verif.Gen Require Import util vec3_ext vec4.
Import ListNotations.
Open Scope string_scope.
Open Scope Z_scope.
Open Scope mc_scope.

(* vec3.h:143-147 *)
Definition glm_vec3 : fundef := Fun
  [("v4", None); ("dest", None)]
  [] (
    "dest".[0] ::= !"v4".[0] ;;
    "dest".[1] ::= !"v4".[1] ;;
    "dest".[2] ::= !"v4".[2]
  ).

(* vec3.h:157-161 *)
Definition glm_vec3_copy : fundef := Fun
  [("a", None); ("dest", None)]
  [] (
    "dest".[0] ::= !"a".[0] ;;
    "dest".[1] ::= !"a".[1] ;;
    "dest".[2] ::= !"a".[2]
  ).

(* vec3.h:170-172 *)
Definition glm_vec3_zero : fundef := Fun
  [("v", None)]
  [] (
    "v".[2] ::= (EF 0 1) ;;
    "v".[1] ::= !"v".[2] ;;
    "v".[0] ::= !"v".[1]
  ).

(* vec3.h:181-183 *)
Definition glm_vec3_one : fundef := Fun
  [("v", None)]
  [] (
    "v".[2] ::= (EF 1 1) ;;
    "v".[1] ::= !"v".[2] ;;
    "v".[0] ::= !"v".[1]
  ).

(* vec3.h:195-197 *)
Definition glm_vec3_dot : fundef := Fun
  [("a", None); ("b", None)]
  [] (
    SRet (((!"a".[0] * !"b".[0]) + (!"a".[1] * !"b".[1])) + (!"a".[2] * !"b".[2]))
  ).

(* vec3.h:212-214 *)
Definition glm_vec3_norm2 : fundef := Fun
  [("v", None)]
  [] (
    SRet glm_vec3_dot$("v", "v")
  ).

(* vec3.h:226-228 *)
Definition glm_vec3_norm : fundef := Fun
  [("v", None)]
  [] (
    SRet builtin (PF1 OSqrt)$(glm_vec3_norm2$("v"))
  ).

(* vec3.h:246-250 *)
Definition glm_vec3_norm_one : fundef := Fun
  [("v", None)]
  [("t", Some 3%nat)] (
    SExp glm_vec3_abs$("v", "t") ;;
    SRet glm_vec3_hadd$("t")
  ).

(* vec3.h:267-271 *)
Definition glm_vec3_norm_inf : fundef := Fun
  [("v", None)]
  [("t", Some 3%nat)] (
    SExp glm_vec3_abs$("v", "t") ;;
    SRet glm_vec3_max$("t")
  ).

(* vec3.h:282-286 *)
Definition glm_vec3_add : fundef := Fun
  [("a", None); ("b", None); ("dest", None)]
  [] (
    "dest".[0] ::= (!"a".[0] + !"b".[0]) ;;
    "dest".[1] ::= (!"a".[1] + !"b".[1]) ;;
    "dest".[2] ::= (!"a".[2] + !"b".[2])
  ).

(* vec3.h:297-301 *)
Definition glm_vec3_adds : fundef := Fun
  [("v", None); ("s", None); ("dest", None)]
  [] (
    "dest".[0] ::= (!"v".[0] + "s") ;;
    "dest".[1] ::= (!"v".[1] + "s") ;;
    "dest".[2] ::= (!"v".[2] + "s")
  ).

(* vec3.h:312-316 *)
Definition glm_vec3_sub : fundef := Fun
  [("a", None); ("b", None); ("dest", None)]
  [] (
    "dest".[0] ::= (!"a".[0] - !"b".[0]) ;;
    "dest".[1] ::= (!"a".[1] - !"b".[1]) ;;
    "dest".[2] ::= (!"a".[2] - !"b".[2])
  ).

(* vec3.h:327-331 *)
Definition glm_vec3_subs : fundef := Fun
  [("v", None); ("s", None); ("dest", None)]
  [] (
    "dest".[0] ::= (!"v".[0] - "s") ;;
    "dest".[1] ::= (!"v".[1] - "s") ;;
    "dest".[2] ::= (!"v".[2] - "s")
  ).

(* vec3.h:342-346 *)
Definition glm_vec3_mul : fundef := Fun
  [("a", None); ("b", None); ("dest", None)]
  [] (
    "dest".[0] ::= (!"a".[0] * !"b".[0]) ;;
    "dest".[1] ::= (!"a".[1] * !"b".[1]) ;;
    "dest".[2] ::= (!"a".[2] * !"b".[2])
  ).

(* vec3.h:357-361 *)
Definition glm_vec3_scale : fundef := Fun
  [("v", None); ("s", None); ("dest", None)]
  [] (
    "dest".[0] ::= (!"v".[0] * "s") ;;
    "dest".[1] ::= (!"v".[1] * "s") ;;
    "dest".[2] ::= (!"v".[2] * "s")
  ).

(* vec3.h:372-382 *)
Definition glm_vec3_scale_as : fundef := Fun
  [("v", None); ("s", None); ("dest", None)]
  [("norm", None)] (
    "norm" <~ glm_vec3_norm$("v") ;;
    (SIf ("norm" < (EF 1 8388608)) (
      SExp glm_vec3_zero$("dest") ;;
      SRet0
    ) (
      SSkip
    )) ;;
    SExp glm_vec3_scale$("v", ("s" / "norm"), "dest")
  ).

(* vec3.h:393-397 *)
Definition glm_vec3_div : fundef := Fun
  [("a", None); ("b", None); ("dest", None)]
  [] (
    "dest".[0] ::= (!"a".[0] / !"b".[0]) ;;
    "dest".[1] ::= (!"a".[1] / !"b".[1]) ;;
    "dest".[2] ::= (!"a".[2] / !"b".[2])
  ).

(* vec3.h:408-412 *)
Definition glm_vec3_divs : fundef := Fun
  [("v", None); ("s", None); ("dest", None)]
  [] (
    "dest".[0] ::= (!"v".[0] / "s") ;;
    "dest".[1] ::= (!"v".[1] / "s") ;;
    "dest".[2] ::= (!"v".[2] / "s")
  ).

(* vec3.h:425-429 *)
Definition glm_vec3_addadd : fundef := Fun
  [("a", None); ("b", None); ("dest", None)]
  [] (
    "dest".[0] ::= (!"dest".[0] + (!"a".[0] + !"b".[0])) ;;
    "dest".[1] ::= (!"dest".[1] + (!"a".[1] + !"b".[1])) ;;
    "dest".[2] ::= (!"dest".[2] + (!"a".[2] + !"b".[2]))
  ).

(* vec3.h:442-446 *)
Definition glm_vec3_subadd : fundef := Fun
  [("a", None); ("b", None); ("dest", None)]
  [] (
    "dest".[0] ::= (!"dest".[0] + (!"a".[0] - !"b".[0])) ;;
    "dest".[1] ::= (!"dest".[1] + (!"a".[1] - !"b".[1])) ;;
    "dest".[2] ::= (!"dest".[2] + (!"a".[2] - !"b".[2]))
  ).

(* vec3.h:459-463 *)
Definition glm_vec3_muladd : fundef := Fun
  [("a", None); ("b", None); ("dest", None)]
  [] (
    "dest".[0] ::= (!"dest".[0] + (!"a".[0] * !"b".[0])) ;;
    "dest".[1] ::= (!"dest".[1] + (!"a".[1] * !"b".[1])) ;;
    "dest".[2] ::= (!"dest".[2] + (!"a".[2] * !"b".[2]))
  ).

(* vec3.h:476-480 *)
Definition glm_vec3_muladds : fundef := Fun
  [("a", None); ("s", None); ("dest", None)]
  [] (
    "dest".[0] ::= (!"dest".[0] + (!"a".[0] * "s")) ;;
    "dest".[1] ::= (!"dest".[1] + (!"a".[1] * "s")) ;;
    "dest".[2] ::= (!"dest".[2] + (!"a".[2] * "s"))
  ).

(* vec3.h:493-497 *)
Definition glm_vec3_maxadd : fundef := Fun
  [("a", None); ("b", None); ("dest", None)]
  [] (
    "dest".[0] ::= (!"dest".[0] + glm_max$(!"a".[0], !"b".[0])) ;;
    "dest".[1] ::= (!"dest".[1] + glm_max$(!"a".[1], !"b".[1])) ;;
    "dest".[2] ::= (!"dest".[2] + glm_max$(!"a".[2], !"b".[2]))
  ).

(* vec3.h:510-514 *)
Definition glm_vec3_minadd : fundef := Fun
  [("a", None); ("b", None); ("dest", None)]
  [] (
    "dest".[0] ::= (!"dest".[0] + glm_min$(!"a".[0], !"b".[0])) ;;
    "dest".[1] ::= (!"dest".[1] + glm_min$(!"a".[1], !"b".[1])) ;;
    "dest".[2] ::= (!"dest".[2] + glm_min$(!"a".[2], !"b".[2]))
  ).

(* vec3.h:527-531 *)
Definition glm_vec3_subsub : fundef := Fun
  [("a", None); ("b", None); ("dest", None)]
  [] (
    "dest".[0] ::= (!"dest".[0] - (!"a".[0] - !"b".[0])) ;;
    "dest".[1] ::= (!"dest".[1] - (!"a".[1] - !"b".[1])) ;;
    "dest".[2] ::= (!"dest".[2] - (!"a".[2] - !"b".[2]))
  ).

(* vec3.h:544-548 *)
Definition glm_vec3_addsub : fundef := Fun
  [("a", None); ("b", None); ("dest", None)]
  [] (
    "dest".[0] ::= (!"dest".[0] - (!"a".[0] + !"b".[0])) ;;
    "dest".[1] ::= (!"dest".[1] - (!"a".[1] + !"b".[1])) ;;
    "dest".[2] ::= (!"dest".[2] - (!"a".[2] + !"b".[2]))
  ).

(* vec3.h:561-565 *)
Definition glm_vec3_mulsub : fundef := Fun
  [("a", None); ("b", None); ("dest", None)]
  [] (
    "dest".[0] ::= (!"dest".[0] - (!"a".[0] * !"b".[0])) ;;
    "dest".[1] ::= (!"dest".[1] - (!"a".[1] * !"b".[1])) ;;
    "dest".[2] ::= (!"dest".[2] - (!"a".[2] * !"b".[2]))
  ).

(* vec3.h:578-582 *)
Definition glm_vec3_mulsubs : fundef := Fun
  [("a", None); ("s", None); ("dest", None)]
  [] (
    "dest".[0] ::= (!"dest".[0] - (!"a".[0] * "s")) ;;
    "dest".[1] ::= (!"dest".[1] - (!"a".[1] * "s")) ;;
    "dest".[2] ::= (!"dest".[2] - (!"a".[2] * "s"))
  ).

(* vec3.h:595-599 *)
Definition glm_vec3_maxsub : fundef := Fun
  [("a", None); ("b", None); ("dest", None)]
  [] (
    "dest".[0] ::= (!"dest".[0] - glm_max$(!"a".[0], !"b".[0])) ;;
    "dest".[1] ::= (!"dest".[1] - glm_max$(!"a".[1], !"b".[1])) ;;
    "dest".[2] ::= (!"dest".[2] - glm_max$(!"a".[2], !"b".[2]))
  ).

(* vec3.h:612-616 *)
Definition glm_vec3_minsub : fundef := Fun
  [("a", None); ("b", None); ("dest", None)]
  [] (
    "dest".[0] ::= (!"dest".[0] - glm_min$(!"a".[0], !"b".[0])) ;;
    "dest".[1] ::= (!"dest".[1] - glm_min$(!"a".[1], !"b".[1])) ;;
    "dest".[2] ::= (!"dest".[2] - glm_min$(!"a".[2], !"b".[2]))
  ).

(* vec3.h:626-630 *)
Definition glm_vec3_negate_to : fundef := Fun
  [("v", None); ("dest", None)]
  [] (
    "dest".[0] ::= (- !"v".[0]) ;;
    "dest".[1] ::= (- !"v".[1]) ;;
    "dest".[2] ::= (- !"v".[2])
  ).

(* vec3.h:639-641 *)
Definition glm_vec3_negate : fundef := Fun
  [("v", None)]
  [] (
    SExp glm_vec3_negate_to$("v", "v")
  ).

(* vec3.h:650-661 *)
Definition glm_vec3_normalize : fundef := Fun
  [("v", None)]
  [("norm", None)] (
    "norm" <~ glm_vec3_norm$("v") ;;
    (SIf ("norm" < (EF 1 8388608)) (
      "v".[2] ::= (EF 0 1) ;;
      "v".[1] ::= !"v".[2] ;;
      "v".[0] ::= !"v".[1] ;;
      SRet0
    ) (
      SSkip
    )) ;;
    SExp glm_vec3_scale$("v", ((EF 1 1) / "norm"), "v")
  ).

(* vec3.h:671-682 *)
Definition glm_vec3_normalize_to : fundef := Fun
  [("v", None); ("dest", None)]
  [("norm", None)] (
    "norm" <~ glm_vec3_norm$("v") ;;
    (SIf ("norm" < (EF 1 8388608)) (
      SExp glm_vec3_zero$("dest") ;;
      SRet0
    ) (
      SSkip
    )) ;;
    SExp glm_vec3_scale$("v", ((EF 1 1) / "norm"), "dest")
  ).

(* vec3.h:693-700 *)
Definition glm_vec3_cross : fundef := Fun
  [("a", None); ("b", None); ("dest", None)]
  [("c", Some 3%nat)] (
    "c".[0] ::= ((!"a".[1] * !"b".[2]) - (!"a".[2] * !"b".[1])) ;;
    "c".[1] ::= ((!"a".[2] * !"b".[0]) - (!"a".[0] * !"b".[2])) ;;
    "c".[2] ::= ((!"a".[0] * !"b".[1]) - (!"a".[1] * !"b".[0])) ;;
    SExp glm_vec3_copy$("c", "dest")
  ).

(* vec3.h:711-714 *)
Definition glm_vec3_crossn : fundef := Fun
  [("a", None); ("b", None); ("dest", None)]
  [] (
    SExp glm_vec3_cross$("a", "b", "dest") ;;
    SExp glm_vec3_normalize$("dest")
  ).

(* vec3.h:726-739 *)
Definition glm_vec3_angle : fundef := Fun
  [("a", None); ("b", None)]
  [("norm", None); ("dot", None)] (
    "norm" <~ ((EF 1 1) / (glm_vec3_norm$("a") * glm_vec3_norm$("b"))) ;;
    "dot" <~ (glm_vec3_dot$("a", "b") * "norm") ;;
    (SIf ("dot" > (EF 1 1)) (
      SRet (EF 0 1)
    ) (
      (SIf ("dot" < (- (EF 1 1))) (
        SRet (EPi 1 1)
      ) (
        SSkip
      ))
    )) ;;
    SRet builtin (PF1 OAcos)$("dot")
  ).

(* vec3.h:750-771 *)
Definition glm_vec3_rotate : fundef := Fun
  [("v", None); ("angle", None); ("axis", None)]
  [("v1", Some 3%nat); ("v2", Some 3%nat); ("k", Some 3%nat); ("c", None); ("s", None)] (
    "c" <~ builtin (PF1 OCos)$("angle") ;;
    "s" <~ builtin (PF1 OSin)$("angle") ;;
    SExp glm_vec3_normalize_to$("axis", "k") ;;
    SExp glm_vec3_scale$("v", "c", "v1") ;;
    SExp glm_vec3_cross$("k", "v", "v2") ;;
    SExp glm_vec3_scale$("v2", "s", "v2") ;;
    SExp glm_vec3_add$("v1", "v2", "v1") ;;
    SExp glm_vec3_scale$("k", (glm_vec3_dot$("k", "v") * ((EF 1 1) - "c")), "v2") ;;
    SExp glm_vec3_add$("v1", "v2", "v")
  ).

(* vec3.h:788-800 *)
Definition glm_vec3_rotate_m4 : fundef := Fun
  [("m", None); ("v", None); ("dest", None)]
  [("x", Some 4%nat); ("y", Some 4%nat); ("z", Some 4%nat); ("res", Some 4%nat)] (
    SExp glm_vec4_normalize_to$("m".[0:4], "x") ;;
    SExp glm_vec4_normalize_to$("m".[1:4], "y") ;;
    SExp glm_vec4_normalize_to$("m".[2:4], "z") ;;
    SExp glm_vec4_scale$("x", !"v".[0], "res") ;;
    SExp glm_vec4_muladds$("y", !"v".[1], "res") ;;
    SExp glm_vec4_muladds$("z", !"v".[2], "res") ;;
    SExp glm_vec3$("res", "dest")
  ).

(* vec3.h:811-827 *)
Definition glm_vec3_rotate_m3 : fundef := Fun
  [("m", None); ("v", None); ("dest", None)]
  [("res", Some 4%nat); ("x", Some 4%nat); ("y", Some 4%nat); ("z", Some 4%nat)] (
    SExp glm_vec4$("m".[0:3], (EF 0 1), "x") ;;
    SExp glm_vec4$("m".[1:3], (EF 0 1), "y") ;;
    SExp glm_vec4$("m".[2:3], (EF 0 1), "z") ;;
    SExp glm_vec4_normalize$("x") ;;
    SExp glm_vec4_normalize$("y") ;;
    SExp glm_vec4_normalize$("z") ;;
    SExp glm_vec4_scale$("x", !"v".[0], "res") ;;
    SExp glm_vec4_muladds$("y", !"v".[1], "res") ;;
    SExp glm_vec4_muladds$("z", !"v".[2], "res") ;;
    SExp glm_vec3$("res", "dest")
  ).

(* vec3.h:838-842 *)
Definition glm_vec3_proj : fundef := Fun
  [("a", None); ("b", None); ("dest", None)]
  [] (
    SExp glm_vec3_scale$("b", (glm_vec3_dot$("a", "b") / glm_vec3_norm2$("b")), "dest")
  ).

(* vec3.h:853-856 *)
Definition glm_vec3_center : fundef := Fun
  [("a", None); ("b", None); ("dest", None)]
  [] (
    SExp glm_vec3_add$("a", "b", "dest") ;;
    SExp glm_vec3_scale$("dest", (EF 1 2), "dest")
  ).

(* vec3.h:867-871 *)
Definition glm_vec3_distance2 : fundef := Fun
  [("a", None); ("b", None)]
  [] (
    SRet ((glm_pow2$((!"a".[0] - !"b".[0])) + glm_pow2$((!"a".[1] - !"b".[1]))) + glm_pow2$((!"a".[2] - !"b".[2])))
  ).

(* vec3.h:882-884 *)
Definition glm_vec3_distance : fundef := Fun
  [("a", None); ("b", None)]
  [] (
    SRet builtin (PF1 OSqrt)$(glm_vec3_distance2$("a", "b"))
  ).

(* vec3.h:895-899 *)
Definition glm_vec3_maxv : fundef := Fun
  [("a", None); ("b", None); ("dest", None)]
  [] (
    "dest".[0] ::= glm_max$(!"a".[0], !"b".[0]) ;;
    "dest".[1] ::= glm_max$(!"a".[1], !"b".[1]) ;;
    "dest".[2] ::= glm_max$(!"a".[2], !"b".[2])
  ).

(* vec3.h:910-914 *)
Definition glm_vec3_minv : fundef := Fun
  [("a", None); ("b", None); ("dest", None)]
  [] (
    "dest".[0] ::= glm_min$(!"a".[0], !"b".[0]) ;;
    "dest".[1] ::= glm_min$(!"a".[1], !"b".[1]) ;;
    "dest".[2] ::= glm_min$(!"a".[2], !"b".[2])
  ).

(* vec3.h:924-929 *)
Definition glm_vec3_ortho : fundef := Fun
  [("v", None); ("dest", None)]
  [("ignore", Some 1%nat); ("f", None); ("result", Some 3%nat)] (
    "ignore" ::= builtin (PF1 OModi)$((builtin (PF1 OAbs)$(!"v".[0]) + (EF 1 2))) ;;
    "f" <~ builtin (PF1 OModf)$((builtin (PF1 OAbs)$(!"v".[0]) + (EF 1 2))) ;;
    "result".[0] ::= (- !"v".[1]) ;;
    "result".[1] ::= (!"v".[0] - ("f" * !"v".[2])) ;;
    "result".[2] ::= ("f" * !"v".[1]) ;;
    SExp glm_vec3_copy$("result", "dest")
  ).

(* vec3.h:940-944 *)
Definition glm_vec3_clamp : fundef := Fun
  [("v", None); ("minVal", None); ("maxVal", None)]
  [] (
    "v".[0] ::= glm_clamp$(!"v".[0], "minVal", "maxVal") ;;
    "v".[1] ::= glm_clamp$(!"v".[1], "minVal", "maxVal") ;;
    "v".[2] ::= glm_clamp$(!"v".[2], "minVal", "maxVal")
  ).

(* vec3.h:958-966 *)
Definition glm_vec3_lerp : fundef := Fun
  [("from", None); ("to", None); ("t", None); ("dest", None)]
  [("s", Some 3%nat); ("v", Some 3%nat)] (
    SExp glm_vec3_broadcast$("t", "s") ;;
    SExp glm_vec3_sub$("to", "from", "v") ;;
    SExp glm_vec3_mul$("s", "v", "v") ;;
    SExp glm_vec3_add$("from", "v", "dest")
  ).

(* vec3.h:980-982 *)
Definition glm_vec3_lerpc : fundef := Fun
  [("from", None); ("to", None); ("t", None); ("dest", None)]
  [] (
    SExp glm_vec3_lerp$("from", "to", glm_clamp_zo$("t"), "dest")
  ).

(* vec3.h:996-998 *)
Definition glm_vec3_mix : fundef := Fun
  [("from", None); ("to", None); ("t", None); ("dest", None)]
  [] (
    SExp glm_vec3_lerp$("from", "to", "t", "dest")
  ).

(* vec3.h:1012-1014 *)
Definition glm_vec3_mixc : fundef := Fun
  [("from", None); ("to", None); ("t", None); ("dest", None)]
  [] (
    SExp glm_vec3_lerpc$("from", "to", "t", "dest")
  ).

(* vec3.h:1025-1029 *)
Definition glm_vec3_step : fundef := Fun
  [("edge", None); ("x", None); ("dest", None)]
  [] (
    "dest".[0] ::= glm_step$(!"edge".[0], !"x".[0]) ;;
    "dest".[1] ::= glm_step$(!"edge".[1], !"x".[1]) ;;
    "dest".[2] ::= glm_step$(!"edge".[2], !"x".[2])
  ).

(* vec3.h:1041-1045 *)
Definition glm_vec3_smoothstep_uni : fundef := Fun
  [("edge0", None); ("edge1", None); ("x", None); ("dest", None)]
  [] (
    "dest".[0] ::= glm_smoothstep$("edge0", "edge1", !"x".[0]) ;;
    "dest".[1] ::= glm_smoothstep$("edge0", "edge1", !"x".[1]) ;;
    "dest".[2] ::= glm_smoothstep$("edge0", "edge1", !"x".[2])
  ).

(* vec3.h:1057-1061 *)
Definition glm_vec3_smoothstep : fundef := Fun
  [("edge0", None); ("edge1", None); ("x", None); ("dest", None)]
  [] (
    "dest".[0] ::= glm_smoothstep$(!"edge0".[0], !"edge1".[0], !"x".[0]) ;;
    "dest".[1] ::= glm_smoothstep$(!"edge0".[1], !"edge1".[1], !"x".[1]) ;;
    "dest".[2] ::= glm_smoothstep$(!"edge0".[2], !"edge1".[2], !"x".[2])
  ).

(* vec3.h:1075-1083 *)
Definition glm_vec3_smoothinterp : fundef := Fun
  [("from", None); ("to", None); ("t", None); ("dest", None)]
  [("s", Some 3%nat); ("v", Some 3%nat)] (
    SExp glm_vec3_broadcast$(glm_smooth$("t"), "s") ;;
    SExp glm_vec3_sub$("to", "from", "v") ;;
    SExp glm_vec3_mul$("s", "v", "v") ;;
    SExp glm_vec3_add$("from", "v", "dest")
  ).

(* vec3.h:1097-1099 *)
Definition glm_vec3_smoothinterpc : fundef := Fun
  [("from", None); ("to", None); ("t", None); ("dest", None)]
  [] (
    SExp glm_vec3_smoothinterp$("from", "to", glm_clamp_zo$("t"), "dest")
  ).

(* vec3.h:1112-1120 *)
Definition glm_vec3_swizzle : fundef := Fun
  [("v", None); ("mask", None); ("dest", None)]
  [("t", Some 3%nat)] (
    "t".[0] ::= !(EIx "v" 1 (EBin (BArith IAnd) "mask" (EBin (BArith IShl) (EI 3) (EI 0)))) ;;
    "t".[1] ::= !(EIx "v" 1 (EBin (BArith IShr) (EBin (BArith IAnd) "mask" (EBin (BArith IShl) (EI 3) (EI 2))) (EI 2))) ;;
    "t".[2] ::= !(EIx "v" 1 (EBin (BArith IShr) (EBin (BArith IAnd) "mask" (EBin (BArith IShl) (EI 3) (EI 4))) (EI 4))) ;;
    SExp glm_vec3_copy$("t", "dest")
  ).

(* vec3.h:1133-1135 *)
Definition glm_cross : fundef := Fun
  [("a", None); ("b", None); ("d", None)]
  [] (
    SExp glm_vec3_cross$("a", "b", "d")
  ).

(* vec3.h:1149-1151 *)
Definition glm_dot : fundef := Fun
  [("a", None); ("b", None)]
  [] (
    SRet glm_vec3_dot$("a", "b")
  ).

(* vec3.h:1162-1164 *)
Definition glm_normalize : fundef := Fun
  [("v", None)]
  [] (
    SExp glm_vec3_normalize$("v")
  ).

(* vec3.h:1176-1178 *)
Definition glm_normalize_to : fundef := Fun
  [("v", None); ("dest", None)]
  [] (
    SExp glm_vec3_normalize_to$("v", "dest")
  ).

(* vec3.h:1188-1192 *)
Definition glm_vec3_make : fundef := Fun
  [("src", None); ("dest", None)]
  [] (
    "dest".[0] ::= !"src".[0] ;;
    "dest".[1] ::= !"src".[1] ;;
    "dest".[2] ::= !"src".[2]
  ).

(* vec3.h:1206-1214 *)
Definition glm_vec3_faceforward : fundef := Fun
  [("n", None); ("v", None); ("nref", None); ("dest", None)]
  [] (
    (SIf (glm_vec3_dot$("v", "nref") < (EF 0 1)) (
      SExp glm_vec3_copy$("n", "dest")
    ) (
      SExp glm_vec3_negate_to$("n", "dest")
    ))
  ).

(* vec3.h:1225-1229 *)
Definition glm_vec3_reflect : fundef := Fun
  [("v", None); ("n", None); ("dest", None)]
  [("temp", Some 3%nat)] (
    SExp glm_vec3_scale$("n", ((EF 2 1) * glm_vec3_dot$("v", "n")), "temp") ;;
    SExp glm_vec3_sub$("v", "temp", "dest")
  ).

(* vec3.h:1247-1262 *)
Definition glm_vec3_refract : fundef := Fun
  [("v", None); ("n", None); ("eta", None); ("dest", None)]
  [("ndi", None); ("eni", None); ("k", None)] (
    "ndi" <~ glm_vec3_dot$("n", "v") ;;
    "eni" <~ ("eta" * "ndi") ;;
    "k" <~ (((EF 1 1) - ("eta" * "eta")) + ("eni" * "eni")) ;;
    (SIf ("k" < (EF 0 1)) (
      SExp glm_vec3_zero$("dest") ;;
      SRet (EB false)
    ) (
      SSkip
    )) ;;
    SExp glm_vec3_scale$("v", "eta", "dest") ;;
    SExp glm_vec3_mulsubs$("n", ("eni" + builtin (PF1 OSqrt)$("k")), "dest") ;;
    SRet (EB true)
  ).

