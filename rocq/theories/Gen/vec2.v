(** Functions of include/cglm/vec2.h (configuration: scalar), written by tools/gen.py.
    The comment above each definition gives file and lines in /repo/include/cglm. *)
From Coq Require Import String List ZArith.
From Verif Require Import MiniC.
From Verif.Gen Require Import util vec2_ext.
Import ListNotations.
Open Scope string_scope.
Open Scope Z_scope.
Open Scope mc_scope.

(* vec2.h:85-88 *)
Definition glm_vec2 : fundef := Fun
  [("v", None); ("dest", None)]
  [] (
    "dest".[0] ::= !"v".[0] ;;
    "dest".[1] ::= !"v".[1]
  ).

(* vec2.h:98-101 *)
Definition glm_vec2_copy : fundef := Fun
  [("a", None); ("dest", None)]
  [] (
    "dest".[0] ::= !"a".[0] ;;
    "dest".[1] ::= !"a".[1]
  ).

(* vec2.h:110-112 *)
Definition glm_vec2_zero : fundef := Fun
  [("v", None)]
  [] (
    "v".[1] ::= (EF 0 1) ;;
    "v".[0] ::= !"v".[1]
  ).

(* vec2.h:121-123 *)
Definition glm_vec2_one : fundef := Fun
  [("v", None)]
  [] (
    "v".[1] ::= (EF 1 1) ;;
    "v".[0] ::= !"v".[1]
  ).

(* vec2.h:135-137 *)
Definition glm_vec2_dot : fundef := Fun
  [("a", None); ("b", None)]
  [] (
    SRet ((!"a".[0] * !"b".[0]) + (!"a".[1] * !"b".[1]))
  ).

(* vec2.h:151-154 *)
Definition glm_vec2_cross : fundef := Fun
  [("a", None); ("b", None)]
  [] (
    SRet ((!"a".[0] * !"b".[1]) - (!"a".[1] * !"b".[0]))
  ).

(* vec2.h:169-171 *)
Definition glm_vec2_norm2 : fundef := Fun
  [("v", None)]
  [] (
    SRet glm_vec2_dot$("v", "v")
  ).

(* vec2.h:182-184 *)
Definition glm_vec2_norm : fundef := Fun
  [("vec", None)]
  [] (
    SRet builtin (PF1 OSqrt)$(glm_vec2_norm2$("vec"))
  ).

(* vec2.h:195-198 *)
Definition glm_vec2_add : fundef := Fun
  [("a", None); ("b", None); ("dest", None)]
  [] (
    "dest".[0] ::= (!"a".[0] + !"b".[0]) ;;
    "dest".[1] ::= (!"a".[1] + !"b".[1])
  ).

(* vec2.h:209-212 *)
Definition glm_vec2_adds : fundef := Fun
  [("v", None); ("s", None); ("dest", None)]
  [] (
    "dest".[0] ::= (!"v".[0] + "s") ;;
    "dest".[1] ::= (!"v".[1] + "s")
  ).

(* vec2.h:223-226 *)
Definition glm_vec2_sub : fundef := Fun
  [("a", None); ("b", None); ("dest", None)]
  [] (
    "dest".[0] ::= (!"a".[0] - !"b".[0]) ;;
    "dest".[1] ::= (!"a".[1] - !"b".[1])
  ).

(* vec2.h:237-240 *)
Definition glm_vec2_subs : fundef := Fun
  [("v", None); ("s", None); ("dest", None)]
  [] (
    "dest".[0] ::= (!"v".[0] - "s") ;;
    "dest".[1] ::= (!"v".[1] - "s")
  ).

(* vec2.h:251-254 *)
Definition glm_vec2_mul : fundef := Fun
  [("a", None); ("b", None); ("dest", None)]
  [] (
    "dest".[0] ::= (!"a".[0] * !"b".[0]) ;;
    "dest".[1] ::= (!"a".[1] * !"b".[1])
  ).

(* vec2.h:265-268 *)
Definition glm_vec2_scale : fundef := Fun
  [("v", None); ("s", None); ("dest", None)]
  [] (
    "dest".[0] ::= (!"v".[0] * "s") ;;
    "dest".[1] ::= (!"v".[1] * "s")
  ).

(* vec2.h:279-289 *)
Definition glm_vec2_scale_as : fundef := Fun
  [("v", None); ("s", None); ("dest", None)]
  [("norm", None)] (
    "norm" <~ glm_vec2_norm$("v") ;;
    (SIf ("norm" < (EF 1 8388608)) (
      SExp glm_vec2_zero$("dest") ;;
      SRet0
    ) (
      SSkip
    )) ;;
    SExp glm_vec2_scale$("v", ("s" / "norm"), "dest")
  ).

(* vec2.h:300-303 *)
Definition glm_vec2_div : fundef := Fun
  [("a", None); ("b", None); ("dest", None)]
  [] (
    "dest".[0] ::= (!"a".[0] / !"b".[0]) ;;
    "dest".[1] ::= (!"a".[1] / !"b".[1])
  ).

(* vec2.h:314-317 *)
Definition glm_vec2_divs : fundef := Fun
  [("v", None); ("s", None); ("dest", None)]
  [] (
    "dest".[0] ::= (!"v".[0] / "s") ;;
    "dest".[1] ::= (!"v".[1] / "s")
  ).

(* vec2.h:330-333 *)
Definition glm_vec2_addadd : fundef := Fun
  [("a", None); ("b", None); ("dest", None)]
  [] (
    "dest".[0] ::= (!"dest".[0] + (!"a".[0] + !"b".[0])) ;;
    "dest".[1] ::= (!"dest".[1] + (!"a".[1] + !"b".[1]))
  ).

(* vec2.h:346-349 *)
Definition glm_vec2_subadd : fundef := Fun
  [("a", None); ("b", None); ("dest", None)]
  [] (
    "dest".[0] ::= (!"dest".[0] + (!"a".[0] - !"b".[0])) ;;
    "dest".[1] ::= (!"dest".[1] + (!"a".[1] - !"b".[1]))
  ).

(* vec2.h:362-365 *)
Definition glm_vec2_muladd : fundef := Fun
  [("a", None); ("b", None); ("dest", None)]
  [] (
    "dest".[0] ::= (!"dest".[0] + (!"a".[0] * !"b".[0])) ;;
    "dest".[1] ::= (!"dest".[1] + (!"a".[1] * !"b".[1]))
  ).

(* vec2.h:378-381 *)
Definition glm_vec2_muladds : fundef := Fun
  [("a", None); ("s", None); ("dest", None)]
  [] (
    "dest".[0] ::= (!"dest".[0] + (!"a".[0] * "s")) ;;
    "dest".[1] ::= (!"dest".[1] + (!"a".[1] * "s"))
  ).

(* vec2.h:394-397 *)
Definition glm_vec2_maxadd : fundef := Fun
  [("a", None); ("b", None); ("dest", None)]
  [] (
    "dest".[0] ::= (!"dest".[0] + glm_max$(!"a".[0], !"b".[0])) ;;
    "dest".[1] ::= (!"dest".[1] + glm_max$(!"a".[1], !"b".[1]))
  ).

(* vec2.h:410-413 *)
Definition glm_vec2_minadd : fundef := Fun
  [("a", None); ("b", None); ("dest", None)]
  [] (
    "dest".[0] ::= (!"dest".[0] + glm_min$(!"a".[0], !"b".[0])) ;;
    "dest".[1] ::= (!"dest".[1] + glm_min$(!"a".[1], !"b".[1]))
  ).

(* vec2.h:426-429 *)
Definition glm_vec2_subsub : fundef := Fun
  [("a", None); ("b", None); ("dest", None)]
  [] (
    "dest".[0] ::= (!"dest".[0] - (!"a".[0] - !"b".[0])) ;;
    "dest".[1] ::= (!"dest".[1] - (!"a".[1] - !"b".[1]))
  ).

(* vec2.h:442-445 *)
Definition glm_vec2_addsub : fundef := Fun
  [("a", None); ("b", None); ("dest", None)]
  [] (
    "dest".[0] ::= (!"dest".[0] - (!"a".[0] + !"b".[0])) ;;
    "dest".[1] ::= (!"dest".[1] - (!"a".[1] + !"b".[1]))
  ).

(* vec2.h:458-461 *)
Definition glm_vec2_mulsub : fundef := Fun
  [("a", None); ("b", None); ("dest", None)]
  [] (
    "dest".[0] ::= (!"dest".[0] - (!"a".[0] * !"b".[0])) ;;
    "dest".[1] ::= (!"dest".[1] - (!"a".[1] * !"b".[1]))
  ).

(* vec2.h:474-477 *)
Definition glm_vec2_mulsubs : fundef := Fun
  [("a", None); ("s", None); ("dest", None)]
  [] (
    "dest".[0] ::= (!"dest".[0] - (!"a".[0] * "s")) ;;
    "dest".[1] ::= (!"dest".[1] - (!"a".[1] * "s"))
  ).

(* vec2.h:490-493 *)
Definition glm_vec2_maxsub : fundef := Fun
  [("a", None); ("b", None); ("dest", None)]
  [] (
    "dest".[0] ::= (!"dest".[0] - glm_max$(!"a".[0], !"b".[0])) ;;
    "dest".[1] ::= (!"dest".[1] - glm_max$(!"a".[1], !"b".[1]))
  ).

(* vec2.h:506-509 *)
Definition glm_vec2_minsub : fundef := Fun
  [("a", None); ("b", None); ("dest", None)]
  [] (
    "dest".[0] ::= (!"dest".[0] - glm_min$(!"a".[0], !"b".[0])) ;;
    "dest".[1] ::= (!"dest".[1] - glm_min$(!"a".[1], !"b".[1]))
  ).

(* vec2.h:519-522 *)
Definition glm_vec2_negate_to : fundef := Fun
  [("v", None); ("dest", None)]
  [] (
    "dest".[0] ::= (- !"v".[0]) ;;
    "dest".[1] ::= (- !"v".[1])
  ).

(* vec2.h:531-533 *)
Definition glm_vec2_negate : fundef := Fun
  [("v", None)]
  [] (
    SExp glm_vec2_negate_to$("v", "v")
  ).

(* vec2.h:542-553 *)
Definition glm_vec2_normalize : fundef := Fun
  [("v", None)]
  [("norm", None)] (
    "norm" <~ glm_vec2_norm$("v") ;;
    (SIf ("norm" < (EF 1 8388608)) (
      "v".[1] ::= (EF 0 1) ;;
      "v".[0] ::= !"v".[1] ;;
      SRet0
    ) (
      SSkip
    )) ;;
    SExp glm_vec2_scale$("v", ((EF 1 1) / "norm"), "v")
  ).

(* vec2.h:563-574 *)
Definition glm_vec2_normalize_to : fundef := Fun
  [("v", None); ("dest", None)]
  [("norm", None)] (
    "norm" <~ glm_vec2_norm$("v") ;;
    (SIf ("norm" < (EF 1 8388608)) (
      SExp glm_vec2_zero$("dest") ;;
      SRet0
    ) (
      SSkip
    )) ;;
    SExp glm_vec2_scale$("v", ((EF 1 1) / "norm"), "dest")
  ).

(* vec2.h:589-600 *)
Definition glm_vec2_rotate : fundef := Fun
  [("v", None); ("angle", None); ("dest", None)]
  [("c", None); ("s", None); ("x1", None); ("y1", None)] (
    "c" <~ builtin (PF1 OCos)$("angle") ;;
    "s" <~ builtin (PF1 OSin)$("angle") ;;
    "x1" <~ !"v".[0] ;;
    "y1" <~ !"v".[1] ;;
    "dest".[0] ::= (("c" * "x1") - ("s" * "y1")) ;;
    "dest".[1] ::= (("s" * "x1") + ("c" * "y1"))
  ).

(* vec2.h:611-614 *)
Definition glm_vec2_center : fundef := Fun
  [("a", None); ("b", None); ("dest", None)]
  [] (
    SExp glm_vec2_add$("a", "b", "dest") ;;
    SExp glm_vec2_scale$("dest", (EF 1 2), "dest")
  ).

(* vec2.h:625-627 *)
Definition glm_vec2_distance2 : fundef := Fun
  [("a", None); ("b", None)]
  [] (
    SRet (glm_pow2$((!"b".[0] - !"a".[0])) + glm_pow2$((!"b".[1] - !"a".[1])))
  ).

(* vec2.h:638-640 *)
Definition glm_vec2_distance : fundef := Fun
  [("a", None); ("b", None)]
  [] (
    SRet builtin (PF1 OSqrt)$(glm_vec2_distance2$("a", "b"))
  ).

(* vec2.h:651-654 *)
Definition glm_vec2_maxv : fundef := Fun
  [("a", None); ("b", None); ("dest", None)]
  [] (
    "dest".[0] ::= glm_max$(!"a".[0], !"b".[0]) ;;
    "dest".[1] ::= glm_max$(!"a".[1], !"b".[1])
  ).

(* vec2.h:665-668 *)
Definition glm_vec2_minv : fundef := Fun
  [("a", None); ("b", None); ("dest", None)]
  [] (
    "dest".[0] ::= glm_min$(!"a".[0], !"b".[0]) ;;
    "dest".[1] ::= glm_min$(!"a".[1], !"b".[1])
  ).

(* vec2.h:679-682 *)
Definition glm_vec2_clamp : fundef := Fun
  [("v", None); ("minval", None); ("maxval", None)]
  [] (
    "v".[0] ::= glm_clamp$(!"v".[0], "minval", "maxval") ;;
    "v".[1] ::= glm_clamp$(!"v".[1], "minval", "maxval")
  ).

(* vec2.h:693-700 *)
Definition glm_vec2_swizzle : fundef := Fun
  [("v", None); ("mask", None); ("dest", None)]
  [("t", Some 2%nat)] (
    "t".[0] ::= !(EIx "v" 1 (EBin (BArith IAnd) "mask" (EBin (BArith IShl) (EI 3) (EI 0)))) ;;
    "t".[1] ::= !(EIx "v" 1 (EBin (BArith IShr) (EBin (BArith IAnd) "mask" (EBin (BArith IShl) (EI 3) (EI 2))) (EI 2))) ;;
    SExp glm_vec2_copy$("t", "dest")
  ).

(* vec2.h:714-722 *)
Definition glm_vec2_lerp : fundef := Fun
  [("from", None); ("to", None); ("t", None); ("dest", None)]
  [("s", Some 2%nat); ("v", Some 2%nat)] (
    SExp glm_vec2_fill$("s", glm_clamp_zo$("t")) ;;
    SExp glm_vec2_sub$("to", "from", "v") ;;
    SExp glm_vec2_mul$("s", "v", "v") ;;
    SExp glm_vec2_add$("from", "v", "dest")
  ).

(* vec2.h:733-736 *)
Definition glm_vec2_step : fundef := Fun
  [("edge", None); ("x", None); ("dest", None)]
  [] (
    "dest".[0] ::= glm_step$(!"edge".[0], !"x".[0]) ;;
    "dest".[1] ::= glm_step$(!"edge".[1], !"x".[1])
  ).

(* vec2.h:746-748 *)
Definition glm_vec2_make : fundef := Fun
  [("src", None); ("dest", None)]
  [] (
    "dest".[0] ::= !"src".[0] ;;
    "dest".[1] ::= !"src".[1]
  ).

(* vec2.h:759-763 *)
Definition glm_vec2_reflect : fundef := Fun
  [("v", None); ("n", None); ("dest", None)]
  [("temp", Some 2%nat)] (
    SExp glm_vec2_scale$("n", ((EF 2 1) * glm_vec2_dot$("v", "n")), "temp") ;;
    SExp glm_vec2_sub$("v", "temp", "dest")
  ).

(* vec2.h:781-796 *)
Definition glm_vec2_refract : fundef := Fun
  [("v", None); ("n", None); ("eta", None); ("dest", None)]
  [("ndi", None); ("eni", None); ("k", None)] (
    "ndi" <~ glm_vec2_dot$("n", "v") ;;
    "eni" <~ ("eta" * "ndi") ;;
    "k" <~ (((EF 1 1) - ("eta" * "eta")) + ("eni" * "eni")) ;;
    (SIf ("k" < (EF 0 1)) (
      SExp glm_vec2_zero$("dest") ;;
      SRet (EB false)
    ) (
      SSkip
    )) ;;
    SExp glm_vec2_scale$("v", "eta", "dest") ;;
    SExp glm_vec2_mulsubs$("n", ("eni" + builtin (PF1 OSqrt)$("k")), "dest") ;;
    SRet (EB true)
  ).

