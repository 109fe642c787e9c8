(** Functions of include/cglm/vec4.h (configuration: scalar), written by tools/gen.py.
    The comment above each definition gives file and lines in /repo/include/cglm. *)
From Coq Require Import String List ZArith.
From Verif Require Import MiniC.
From Verif.Gen Require Import util vec4_ext.
Import ListNotations.
Open Scope string_scope.
Open Scope Z_scope.
Open Scope mc_scope.

(* vec4.h:120-125 *)
Definition glm_vec4 : fundef := Fun
  [("v3", None); ("last", None); ("dest", None)]
  [] (
    "dest".[0] ::= !"v3".[0] ;;
    "dest".[1] ::= !"v3".[1] ;;
    "dest".[2] ::= !"v3".[2] ;;
    "dest".[3] ::= "last"
  ).

(* vec4.h:135-139 *)
Definition glm_vec4_copy3 : fundef := Fun
  [("a", None); ("dest", None)]
  [] (
    "dest".[0] ::= !"a".[0] ;;
    "dest".[1] ::= !"a".[1] ;;
    "dest".[2] ::= !"a".[2]
  ).

(* vec4.h:149-162 *)
Definition glm_vec4_copy : fundef := Fun
  [("v", None); ("dest", None)]
  [] (
    "dest".[0] ::= !"v".[0] ;;
    "dest".[1] ::= !"v".[1] ;;
    "dest".[2] ::= !"v".[2] ;;
    "dest".[3] ::= !"v".[3]
  ).

(* vec4.h:174-184 *)
Definition glm_vec4_ucopy : fundef := Fun
  [("v", None); ("dest", None)]
  [] (
    "dest".[0] ::= !"v".[0] ;;
    "dest".[1] ::= !"v".[1] ;;
    "dest".[2] ::= !"v".[2] ;;
    "dest".[3] ::= !"v".[3]
  ).

(* vec4.h:193-206 *)
Definition glm_vec4_zero : fundef := Fun
  [("v", None)]
  [] (
    "v".[0] ::= (EF 0 1) ;;
    "v".[1] ::= (EF 0 1) ;;
    "v".[2] ::= (EF 0 1) ;;
    "v".[3] ::= (EF 0 1)
  ).

(* vec4.h:215-228 *)
Definition glm_vec4_one : fundef := Fun
  [("v", None)]
  [] (
    "v".[0] ::= (EF 1 1) ;;
    "v".[1] ::= (EF 1 1) ;;
    "v".[2] ::= (EF 1 1) ;;
    "v".[3] ::= (EF 1 1)
  ).

(* vec4.h:240-246 *)
Definition glm_vec4_dot : fundef := Fun
  [("a", None); ("b", None)]
  [] (
    SRet ((((!"a".[0] * !"b".[0]) + (!"a".[1] * !"b".[1])) + (!"a".[2] * !"b".[2])) + (!"a".[3] * !"b".[3]))
  ).

(* vec4.h:261-263 *)
Definition glm_vec4_norm2 : fundef := Fun
  [("v", None)]
  [] (
    SRet glm_vec4_dot$("v", "v")
  ).

(* vec4.h:275-281 *)
Definition glm_vec4_norm : fundef := Fun
  [("v", None)]
  [] (
    SRet builtin (PF1 OSqrt)$(glm_vec4_dot$("v", "v"))
  ).

(* vec4.h:299-307 *)
Definition glm_vec4_norm_one : fundef := Fun
  [("v", None)]
  [("t", Some 4%nat)] (
    SExp glm_vec4_abs$("v", "t") ;;
    SRet glm_vec4_hadd$("t")
  ).

(* vec4.h:324-332 *)
Definition glm_vec4_norm_inf : fundef := Fun
  [("v", None)]
  [("t", Some 4%nat)] (
    SExp glm_vec4_abs$("v", "t") ;;
    SRet glm_vec4_max$("t")
  ).

(* vec4.h:343-356 *)
Definition glm_vec4_add : fundef := Fun
  [("a", None); ("b", None); ("dest", None)]
  [] (
    "dest".[0] ::= (!"a".[0] + !"b".[0]) ;;
    "dest".[1] ::= (!"a".[1] + !"b".[1]) ;;
    "dest".[2] ::= (!"a".[2] + !"b".[2]) ;;
    "dest".[3] ::= (!"a".[3] + !"b".[3])
  ).

(* vec4.h:367-380 *)
Definition glm_vec4_adds : fundef := Fun
  [("v", None); ("s", None); ("dest", None)]
  [] (
    "dest".[0] ::= (!"v".[0] + "s") ;;
    "dest".[1] ::= (!"v".[1] + "s") ;;
    "dest".[2] ::= (!"v".[2] + "s") ;;
    "dest".[3] ::= (!"v".[3] + "s")
  ).

(* vec4.h:391-404 *)
Definition glm_vec4_sub : fundef := Fun
  [("a", None); ("b", None); ("dest", None)]
  [] (
    "dest".[0] ::= (!"a".[0] - !"b".[0]) ;;
    "dest".[1] ::= (!"a".[1] - !"b".[1]) ;;
    "dest".[2] ::= (!"a".[2] - !"b".[2]) ;;
    "dest".[3] ::= (!"a".[3] - !"b".[3])
  ).

(* vec4.h:415-428 *)
Definition glm_vec4_subs : fundef := Fun
  [("v", None); ("s", None); ("dest", None)]
  [] (
    "dest".[0] ::= (!"v".[0] - "s") ;;
    "dest".[1] ::= (!"v".[1] - "s") ;;
    "dest".[2] ::= (!"v".[2] - "s") ;;
    "dest".[3] ::= (!"v".[3] - "s")
  ).

(* vec4.h:439-452 *)
Definition glm_vec4_mul : fundef := Fun
  [("a", None); ("b", None); ("dest", None)]
  [] (
    "dest".[0] ::= (!"a".[0] * !"b".[0]) ;;
    "dest".[1] ::= (!"a".[1] * !"b".[1]) ;;
    "dest".[2] ::= (!"a".[2] * !"b".[2]) ;;
    "dest".[3] ::= (!"a".[3] * !"b".[3])
  ).

(* vec4.h:463-476 *)
Definition glm_vec4_scale : fundef := Fun
  [("v", None); ("s", None); ("dest", None)]
  [] (
    "dest".[0] ::= (!"v".[0] * "s") ;;
    "dest".[1] ::= (!"v".[1] * "s") ;;
    "dest".[2] ::= (!"v".[2] * "s") ;;
    "dest".[3] ::= (!"v".[3] * "s")
  ).

(* vec4.h:487-497 *)
Definition glm_vec4_scale_as : fundef := Fun
  [("v", None); ("s", None); ("dest", None)]
  [("norm", None)] (
    "norm" <~ glm_vec4_norm$("v") ;;
    (SIf ("norm" < (EF 1 8388608)) (
      SExp glm_vec4_zero$("dest") ;;
      SRet0
    ) (
      SSkip
    )) ;;
    SExp glm_vec4_scale$("v", ("s" / "norm"), "dest")
  ).

(* vec4.h:508-517 *)
Definition glm_vec4_div : fundef := Fun
  [("a", None); ("b", None); ("dest", None)]
  [] (
    "dest".[0] ::= (!"a".[0] / !"b".[0]) ;;
    "dest".[1] ::= (!"a".[1] / !"b".[1]) ;;
    "dest".[2] ::= (!"a".[2] / !"b".[2]) ;;
    "dest".[3] ::= (!"a".[3] / !"b".[3])
  ).

(* vec4.h:528-534 *)
Definition glm_vec4_divs : fundef := Fun
  [("v", None); ("s", None); ("dest", None)]
  [] (
    SExp glm_vec4_scale$("v", ((EF 1 1) / "s"), "dest")
  ).

(* vec4.h:547-566 *)
Definition glm_vec4_addadd : fundef := Fun
  [("a", None); ("b", None); ("dest", None)]
  [] (
    "dest".[0] ::= (!"dest".[0] + (!"a".[0] + !"b".[0])) ;;
    "dest".[1] ::= (!"dest".[1] + (!"a".[1] + !"b".[1])) ;;
    "dest".[2] ::= (!"dest".[2] + (!"a".[2] + !"b".[2])) ;;
    "dest".[3] ::= (!"dest".[3] + (!"a".[3] + !"b".[3]))
  ).

(* vec4.h:579-598 *)
Definition glm_vec4_subadd : fundef := Fun
  [("a", None); ("b", None); ("dest", None)]
  [] (
    "dest".[0] ::= (!"dest".[0] + (!"a".[0] - !"b".[0])) ;;
    "dest".[1] ::= (!"dest".[1] + (!"a".[1] - !"b".[1])) ;;
    "dest".[2] ::= (!"dest".[2] + (!"a".[2] - !"b".[2])) ;;
    "dest".[3] ::= (!"dest".[3] + (!"a".[3] - !"b".[3]))
  ).

(* vec4.h:611-620 *)
Definition glm_vec4_muladd : fundef := Fun
  [("a", None); ("b", None); ("dest", None)]
  [] (
    "dest".[0] ::= (!"dest".[0] + (!"a".[0] * !"b".[0])) ;;
    "dest".[1] ::= (!"dest".[1] + (!"a".[1] * !"b".[1])) ;;
    "dest".[2] ::= (!"dest".[2] + (!"a".[2] * !"b".[2])) ;;
    "dest".[3] ::= (!"dest".[3] + (!"a".[3] * !"b".[3]))
  ).

(* vec4.h:633-642 *)
Definition glm_vec4_muladds : fundef := Fun
  [("a", None); ("s", None); ("dest", None)]
  [] (
    "dest".[0] ::= (!"dest".[0] + (!"a".[0] * "s")) ;;
    "dest".[1] ::= (!"dest".[1] + (!"a".[1] * "s")) ;;
    "dest".[2] ::= (!"dest".[2] + (!"a".[2] * "s")) ;;
    "dest".[3] ::= (!"dest".[3] + (!"a".[3] * "s"))
  ).

(* vec4.h:655-671 *)
Definition glm_vec4_maxadd : fundef := Fun
  [("a", None); ("b", None); ("dest", None)]
  [] (
    "dest".[0] ::= (!"dest".[0] + glm_max$(!"a".[0], !"b".[0])) ;;
    "dest".[1] ::= (!"dest".[1] + glm_max$(!"a".[1], !"b".[1])) ;;
    "dest".[2] ::= (!"dest".[2] + glm_max$(!"a".[2], !"b".[2])) ;;
    "dest".[3] ::= (!"dest".[3] + glm_max$(!"a".[3], !"b".[3]))
  ).

(* vec4.h:684-700 *)
Definition glm_vec4_minadd : fundef := Fun
  [("a", None); ("b", None); ("dest", None)]
  [] (
    "dest".[0] ::= (!"dest".[0] + glm_min$(!"a".[0], !"b".[0])) ;;
    "dest".[1] ::= (!"dest".[1] + glm_min$(!"a".[1], !"b".[1])) ;;
    "dest".[2] ::= (!"dest".[2] + glm_min$(!"a".[2], !"b".[2])) ;;
    "dest".[3] ::= (!"dest".[3] + glm_min$(!"a".[3], !"b".[3]))
  ).

(* vec4.h:713-732 *)
Definition glm_vec4_subsub : fundef := Fun
  [("a", None); ("b", None); ("dest", None)]
  [] (
    "dest".[0] ::= (!"dest".[0] - (!"a".[0] - !"b".[0])) ;;
    "dest".[1] ::= (!"dest".[1] - (!"a".[1] - !"b".[1])) ;;
    "dest".[2] ::= (!"dest".[2] - (!"a".[2] - !"b".[2])) ;;
    "dest".[3] ::= (!"dest".[3] - (!"a".[3] - !"b".[3]))
  ).

(* vec4.h:745-764 *)
Definition glm_vec4_addsub : fundef := Fun
  [("a", None); ("b", None); ("dest", None)]
  [] (
    "dest".[0] ::= (!"dest".[0] - (!"a".[0] + !"b".[0])) ;;
    "dest".[1] ::= (!"dest".[1] - (!"a".[1] + !"b".[1])) ;;
    "dest".[2] ::= (!"dest".[2] - (!"a".[2] + !"b".[2])) ;;
    "dest".[3] ::= (!"dest".[3] - (!"a".[3] + !"b".[3]))
  ).

(* vec4.h:777-786 *)
Definition glm_vec4_mulsub : fundef := Fun
  [("a", None); ("b", None); ("dest", None)]
  [] (
    "dest".[0] ::= (!"dest".[0] - (!"a".[0] * !"b".[0])) ;;
    "dest".[1] ::= (!"dest".[1] - (!"a".[1] * !"b".[1])) ;;
    "dest".[2] ::= (!"dest".[2] - (!"a".[2] * !"b".[2])) ;;
    "dest".[3] ::= (!"dest".[3] - (!"a".[3] * !"b".[3]))
  ).

(* vec4.h:799-808 *)
Definition glm_vec4_mulsubs : fundef := Fun
  [("a", None); ("s", None); ("dest", None)]
  [] (
    "dest".[0] ::= (!"dest".[0] - (!"a".[0] * "s")) ;;
    "dest".[1] ::= (!"dest".[1] - (!"a".[1] * "s")) ;;
    "dest".[2] ::= (!"dest".[2] - (!"a".[2] * "s")) ;;
    "dest".[3] ::= (!"dest".[3] - (!"a".[3] * "s"))
  ).

(* vec4.h:821-837 *)
Definition glm_vec4_maxsub : fundef := Fun
  [("a", None); ("b", None); ("dest", None)]
  [] (
    "dest".[0] ::= (!"dest".[0] - glm_max$(!"a".[0], !"b".[0])) ;;
    "dest".[1] ::= (!"dest".[1] - glm_max$(!"a".[1], !"b".[1])) ;;
    "dest".[2] ::= (!"dest".[2] - glm_max$(!"a".[2], !"b".[2])) ;;
    "dest".[3] ::= (!"dest".[3] - glm_max$(!"a".[3], !"b".[3]))
  ).

(* vec4.h:850-866 *)
Definition glm_vec4_minsub : fundef := Fun
  [("a", None); ("b", None); ("dest", None)]
  [] (
    "dest".[0] ::= (!"dest".[0] - glm_min$(!"a".[0], !"b".[0])) ;;
    "dest".[1] ::= (!"dest".[1] - glm_min$(!"a".[1], !"b".[1])) ;;
    "dest".[2] ::= (!"dest".[2] - glm_min$(!"a".[2], !"b".[2])) ;;
    "dest".[3] ::= (!"dest".[3] - glm_min$(!"a".[3], !"b".[3]))
  ).

(* vec4.h:876-889 *)
Definition glm_vec4_negate_to : fundef := Fun
  [("v", None); ("dest", None)]
  [] (
    "dest".[0] ::= (- !"v".[0]) ;;
    "dest".[1] ::= (- !"v".[1]) ;;
    "dest".[2] ::= (- !"v".[2]) ;;
    "dest".[3] ::= (- !"v".[3])
  ).

(* vec4.h:898-900 *)
Definition glm_vec4_negate : fundef := Fun
  [("v", None)]
  [] (
    SExp glm_vec4_negate_to$("v", "v")
  ).

(* vec4.h:910-952 *)
Definition glm_vec4_normalize_to : fundef := Fun
  [("v", None); ("dest", None)]
  [("norm", None)] (
    "norm" <~ glm_vec4_norm$("v") ;;
    (SIf ("norm" < (EF 1 8388608)) (
      SExp glm_vec4_zero$("dest") ;;
      SRet0
    ) (
      SSkip
    )) ;;
    SExp glm_vec4_scale$("v", ((EF 1 1) / "norm"), "dest")
  ).

(* vec4.h:961-963 *)
Definition glm_vec4_normalize : fundef := Fun
  [("v", None)]
  [] (
    SExp glm_vec4_normalize_to$("v", "v")
  ).

(* vec4.h:974-987 *)
Definition glm_vec4_distance : fundef := Fun
  [("a", None); ("b", None)]
  [] (
    SRet builtin (PF1 OSqrt)$((((glm_pow2$((!"a".[0] - !"b".[0])) + glm_pow2$((!"a".[1] - !"b".[1]))) + glm_pow2$((!"a".[2] - !"b".[2]))) + glm_pow2$((!"a".[3] - !"b".[3]))))
  ).

(* vec4.h:998-1011 *)
Definition glm_vec4_distance2 : fundef := Fun
  [("a", None); ("b", None)]
  [] (
    SRet (((glm_pow2$((!"a".[0] - !"b".[0])) + glm_pow2$((!"a".[1] - !"b".[1]))) + glm_pow2$((!"a".[2] - !"b".[2]))) + glm_pow2$((!"a".[3] - !"b".[3])))
  ).

(* vec4.h:1022-1031 *)
Definition glm_vec4_maxv : fundef := Fun
  [("a", None); ("b", None); ("dest", None)]
  [] (
    "dest".[0] ::= glm_max$(!"a".[0], !"b".[0]) ;;
    "dest".[1] ::= glm_max$(!"a".[1], !"b".[1]) ;;
    "dest".[2] ::= glm_max$(!"a".[2], !"b".[2]) ;;
    "dest".[3] ::= glm_max$(!"a".[3], !"b".[3])
  ).

(* vec4.h:1042-1051 *)
Definition glm_vec4_minv : fundef := Fun
  [("a", None); ("b", None); ("dest", None)]
  [] (
    "dest".[0] ::= glm_min$(!"a".[0], !"b".[0]) ;;
    "dest".[1] ::= glm_min$(!"a".[1], !"b".[1]) ;;
    "dest".[2] ::= glm_min$(!"a".[2], !"b".[2]) ;;
    "dest".[3] ::= glm_min$(!"a".[3], !"b".[3])
  ).

(* vec4.h:1062-1078 *)
Definition glm_vec4_clamp : fundef := Fun
  [("v", None); ("minVal", None); ("maxVal", None)]
  [] (
    "v".[0] ::= glm_clamp$(!"v".[0], "minVal", "maxVal") ;;
    "v".[1] ::= glm_clamp$(!"v".[1], "minVal", "maxVal") ;;
    "v".[2] ::= glm_clamp$(!"v".[2], "minVal", "maxVal") ;;
    "v".[3] ::= glm_clamp$(!"v".[3], "minVal", "maxVal")
  ).

(* vec4.h:1092-1100 *)
Definition glm_vec4_lerp : fundef := Fun
  [("from", None); ("to", None); ("t", None); ("dest", None)]
  [("s", Some 4%nat); ("v", Some 4%nat)] (
    SExp glm_vec4_broadcast$("t", "s") ;;
    SExp glm_vec4_sub$("to", "from", "v") ;;
    SExp glm_vec4_mul$("s", "v", "v") ;;
    SExp glm_vec4_add$("from", "v", "dest")
  ).

(* vec4.h:1114-1116 *)
Definition glm_vec4_lerpc : fundef := Fun
  [("from", None); ("to", None); ("t", None); ("dest", None)]
  [] (
    SExp glm_vec4_lerp$("from", "to", glm_clamp_zo$("t"), "dest")
  ).

(* vec4.h:1130-1132 *)
Definition glm_vec4_mix : fundef := Fun
  [("from", None); ("to", None); ("t", None); ("dest", None)]
  [] (
    SExp glm_vec4_lerp$("from", "to", "t", "dest")
  ).

(* vec4.h:1146-1148 *)
Definition glm_vec4_mixc : fundef := Fun
  [("from", None); ("to", None); ("t", None); ("dest", None)]
  [] (
    SExp glm_vec4_lerpc$("from", "to", "t", "dest")
  ).

(* vec4.h:1159-1164 *)
Definition glm_vec4_step : fundef := Fun
  [("edge", None); ("x", None); ("dest", None)]
  [] (
    "dest".[0] ::= glm_step$(!"edge".[0], !"x".[0]) ;;
    "dest".[1] ::= glm_step$(!"edge".[1], !"x".[1]) ;;
    "dest".[2] ::= glm_step$(!"edge".[2], !"x".[2]) ;;
    "dest".[3] ::= glm_step$(!"edge".[3], !"x".[3])
  ).

(* vec4.h:1176-1181 *)
Definition glm_vec4_smoothstep_uni : fundef := Fun
  [("edge0", None); ("edge1", None); ("x", None); ("dest", None)]
  [] (
    "dest".[0] ::= glm_smoothstep$("edge0", "edge1", !"x".[0]) ;;
    "dest".[1] ::= glm_smoothstep$("edge0", "edge1", !"x".[1]) ;;
    "dest".[2] ::= glm_smoothstep$("edge0", "edge1", !"x".[2]) ;;
    "dest".[3] ::= glm_smoothstep$("edge0", "edge1", !"x".[3])
  ).

(* vec4.h:1193-1198 *)
Definition glm_vec4_smoothstep : fundef := Fun
  [("edge0", None); ("edge1", None); ("x", None); ("dest", None)]
  [] (
    "dest".[0] ::= glm_smoothstep$(!"edge0".[0], !"edge1".[0], !"x".[0]) ;;
    "dest".[1] ::= glm_smoothstep$(!"edge0".[1], !"edge1".[1], !"x".[1]) ;;
    "dest".[2] ::= glm_smoothstep$(!"edge0".[2], !"edge1".[2], !"x".[2]) ;;
    "dest".[3] ::= glm_smoothstep$(!"edge0".[3], !"edge1".[3], !"x".[3])
  ).

(* vec4.h:1212-1220 *)
Definition glm_vec4_smoothinterp : fundef := Fun
  [("from", None); ("to", None); ("t", None); ("dest", None)]
  [("s", Some 4%nat); ("v", Some 4%nat)] (
    SExp glm_vec4_broadcast$(glm_smooth$("t"), "s") ;;
    SExp glm_vec4_sub$("to", "from", "v") ;;
    SExp glm_vec4_mul$("s", "v", "v") ;;
    SExp glm_vec4_add$("from", "v", "dest")
  ).

(* vec4.h:1234-1236 *)
Definition glm_vec4_smoothinterpc : fundef := Fun
  [("from", None); ("to", None); ("t", None); ("dest", None)]
  [] (
    SExp glm_vec4_smoothinterp$("from", "to", glm_clamp_zo$("t"), "dest")
  ).

(* vec4.h:1246-1255 *)
Definition glm_vec4_cubic : fundef := Fun
  [("s", None); ("dest", None)]
  [("ss", None)] (
    "ss" <~ ("s" * "s") ;;
    "dest".[0] ::= ("ss" * "s") ;;
    "dest".[1] ::= "ss" ;;
    "dest".[2] ::= "s" ;;
    "dest".[3] ::= (EF 1 1)
  ).

(* vec4.h:1268-1277 *)
Definition glm_vec4_swizzle : fundef := Fun
  [("v", None); ("mask", None); ("dest", None)]
  [("t", Some 4%nat)] (
    "t".[0] ::= !(EIx "v" 1 (EBin (BArith IAnd) "mask" (EBin (BArith IShl) (EI 3) (EI 0)))) ;;
    "t".[1] ::= !(EIx "v" 1 (EBin (BArith IShr) (EBin (BArith IAnd) "mask" (EBin (BArith IShl) (EI 3) (EI 2))) (EI 2))) ;;
    "t".[2] ::= !(EIx "v" 1 (EBin (BArith IShr) (EBin (BArith IAnd) "mask" (EBin (BArith IShl) (EI 3) (EI 4))) (EI 4))) ;;
    "t".[3] ::= !(EIx "v" 1 (EBin (BArith IShr) (EBin (BArith IAnd) "mask" (EBin (BArith IShl) (EI 3) (EI 6))) (EI 6))) ;;
    SExp glm_vec4_copy$("t", "dest")
  ).

(* vec4.h:1287-1290 *)
Definition glm_vec4_make : fundef := Fun
  [("src", None); ("dest", None)]
  [] (
    "dest".[0] ::= !"src".[0] ;;
    "dest".[1] ::= !"src".[1] ;;
    "dest".[2] ::= !"src".[2] ;;
    "dest".[3] ::= !"src".[3]
  ).

(* vec4.h:1301-1309 *)
Definition glm_vec4_reflect : fundef := Fun
  [("v", None); ("n", None); ("dest", None)]
  [("temp", Some 4%nat)] (
    SExp glm_vec4_scale$("n", ((EF 2 1) * glm_vec4_dot$("v", "n")), "temp") ;;
    SExp glm_vec4_sub$("v", "temp", "dest") ;;
    "dest".[3] ::= !"v".[3]
  ).

(* vec4.h:1331-1346 *)
Definition glm_vec4_refract : fundef := Fun
  [("v", None); ("n", None); ("eta", None); ("dest", None)]
  [("ndi", None); ("eni", None); ("k", None)] (
    "ndi" <~ glm_vec4_dot$("n", "v") ;;
    "eni" <~ ("eta" * "ndi") ;;
    "k" <~ (((EF 1 1) - ("eta" * "eta")) + ("eni" * "eni")) ;;
    (SIf ("k" < (EF 0 1)) (
      SExp glm_vec4_zero$("dest") ;;
      SRet (EB false)
    ) (
      SSkip
    )) ;;
    SExp glm_vec4_scale$("v", "eta", "dest") ;;
    SExp glm_vec4_mulsubs$("n", ("eni" + builtin (PF1 OSqrt)$("k")), "dest") ;;
    SRet (EB true)
  ).

