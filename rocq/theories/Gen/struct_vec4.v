(** Functions of include/cglm/struct/vec4.h (configuration: scalar), written by tools/gen.py.
    The comment above each definition gives file and lines in /repo/include/cglm. *)
From Coq Require Import String List ZArith.
From Verif Require Import MiniC.
From Verif.Gen Require Import vec4.
Import ListNotations.
Open Scope string_scope.
Open Scope Z_scope.
Open Scope mc_scope.

(* struct/vec4.h:105-109 *)
Definition glms_vec4 : fundef := Fun
  [("v3", Some 3%nat); ("last", None)]
  [("r", Some 4%nat)] (
    SExp glm_vec4$("v3", "last", "r") ;;
    SRet (ELdA 4 "r")
  ).

(* struct/vec4.h:119-123 *)
Definition glms_vec4_copy3 : fundef := Fun
  [("v", Some 4%nat)]
  [("r", Some 3%nat)] (
    SExp glm_vec4_copy3$("v", "r") ;;
    SRet (ELdA 3 "r")
  ).

(* struct/vec4.h:133-137 *)
Definition glms_vec4_copy : fundef := Fun
  [("v", Some 4%nat)]
  [("r", Some 4%nat)] (
    SExp glm_vec4_copy$("v", "r") ;;
    SRet (ELdA 4 "r")
  ).

(* struct/vec4.h:149-153 *)
Definition glms_vec4_ucopy : fundef := Fun
  [("v", Some 4%nat)]
  [("r", Some 4%nat)] (
    SExp glm_vec4_ucopy$("v", "r") ;;
    SRet (ELdA 4 "r")
  ).

(* struct/vec4.h:164-170 *)
Definition glms_vec4_pack : fundef := Fun
  [("dst", None); ("src", None); ("len", None)]
  [("i", None)] (
    (SFor "i" (EI 0) "len" (
      SExp glm_vec4_copy$((EIx "src" 4 "i"), (EIx "dst" 4 "i"))
    ))
  ).

(* struct/vec4.h:181-187 *)
Definition glms_vec4_unpack : fundef := Fun
  [("dst", None); ("src", None); ("len", None)]
  [("i", None)] (
    (SFor "i" (EI 0) "len" (
      SExp glm_vec4_copy$((EIx "src" 4 "i"), (EIx "dst" 4 "i"))
    ))
  ).

(* struct/vec4.h:196-200 *)
Definition glms_vec4_zero : fundef := Fun
  []
  [("r", Some 4%nat)] (
    SExp glm_vec4_zero$("r") ;;
    SRet (ELdA 4 "r")
  ).

(* struct/vec4.h:209-213 *)
Definition glms_vec4_one : fundef := Fun
  []
  [("r", Some 4%nat)] (
    SExp glm_vec4_one$("r") ;;
    SRet (ELdA 4 "r")
  ).

(* struct/vec4.h:225-227 *)
Definition glms_vec4_dot : fundef := Fun
  [("a", Some 4%nat); ("b", Some 4%nat)]
  [] (
    SRet glm_vec4_dot$("a", "b")
  ).

(* struct/vec4.h:242-244 *)
Definition glms_vec4_norm2 : fundef := Fun
  [("v", Some 4%nat)]
  [] (
    SRet glm_vec4_norm2$("v")
  ).

(* struct/vec4.h:255-257 *)
Definition glms_vec4_norm : fundef := Fun
  [("v", Some 4%nat)]
  [] (
    SRet glm_vec4_norm$("v")
  ).

(* struct/vec4.h:275-277 *)
Definition glms_vec4_norm_one : fundef := Fun
  [("v", Some 4%nat)]
  [] (
    SRet glm_vec4_norm_one$("v")
  ).

(* struct/vec4.h:294-296 *)
Definition glms_vec4_norm_inf : fundef := Fun
  [("v", Some 4%nat)]
  [] (
    SRet glm_vec4_norm_inf$("v")
  ).

(* struct/vec4.h:307-311 *)
Definition glms_vec4_add : fundef := Fun
  [("a", Some 4%nat); ("b", Some 4%nat)]
  [("r", Some 4%nat)] (
    SExp glm_vec4_add$("a", "b", "r") ;;
    SRet (ELdA 4 "r")
  ).

(* struct/vec4.h:322-326 *)
Definition glms_vec4_adds : fundef := Fun
  [("v", Some 4%nat); ("s", None)]
  [("r", Some 4%nat)] (
    SExp glm_vec4_adds$("v", "s", "r") ;;
    SRet (ELdA 4 "r")
  ).

(* struct/vec4.h:337-341 *)
Definition glms_vec4_sub : fundef := Fun
  [("a", Some 4%nat); ("b", Some 4%nat)]
  [("r", Some 4%nat)] (
    SExp glm_vec4_sub$("a", "b", "r") ;;
    SRet (ELdA 4 "r")
  ).

(* struct/vec4.h:352-356 *)
Definition glms_vec4_subs : fundef := Fun
  [("v", Some 4%nat); ("s", None)]
  [("r", Some 4%nat)] (
    SExp glm_vec4_subs$("v", "s", "r") ;;
    SRet (ELdA 4 "r")
  ).

(* struct/vec4.h:367-371 *)
Definition glms_vec4_mul : fundef := Fun
  [("a", Some 4%nat); ("b", Some 4%nat)]
  [("r", Some 4%nat)] (
    SExp glm_vec4_mul$("a", "b", "r") ;;
    SRet (ELdA 4 "r")
  ).

(* struct/vec4.h:382-386 *)
Definition glms_vec4_scale : fundef := Fun
  [("v", Some 4%nat); ("s", None)]
  [("r", Some 4%nat)] (
    SExp glm_vec4_scale$("v", "s", "r") ;;
    SRet (ELdA 4 "r")
  ).

(* struct/vec4.h:397-401 *)
Definition glms_vec4_scale_as : fundef := Fun
  [("v", Some 4%nat); ("s", None)]
  [("r", Some 4%nat)] (
    SExp glm_vec4_scale_as$("v", "s", "r") ;;
    SRet (ELdA 4 "r")
  ).

(* struct/vec4.h:412-416 *)
Definition glms_vec4_div : fundef := Fun
  [("a", Some 4%nat); ("b", Some 4%nat)]
  [("r", Some 4%nat)] (
    SExp glm_vec4_div$("a", "b", "r") ;;
    SRet (ELdA 4 "r")
  ).

(* struct/vec4.h:427-431 *)
Definition glms_vec4_divs : fundef := Fun
  [("v", Some 4%nat); ("s", None)]
  [("r", Some 4%nat)] (
    SExp glm_vec4_divs$("v", "s", "r") ;;
    SRet (ELdA 4 "r")
  ).

(* struct/vec4.h:444-447 *)
Definition glms_vec4_addadd : fundef := Fun
  [("a", Some 4%nat); ("b", Some 4%nat); ("dest", Some 4%nat)]
  [] (
    SExp glm_vec4_addadd$("a", "b", "dest") ;;
    SRet (ELdA 4 "dest")
  ).

(* struct/vec4.h:460-463 *)
Definition glms_vec4_subadd : fundef := Fun
  [("a", Some 4%nat); ("b", Some 4%nat); ("dest", Some 4%nat)]
  [] (
    SExp glm_vec4_subadd$("a", "b", "dest") ;;
    SRet (ELdA 4 "dest")
  ).

(* struct/vec4.h:476-479 *)
Definition glms_vec4_muladd : fundef := Fun
  [("a", Some 4%nat); ("b", Some 4%nat); ("dest", Some 4%nat)]
  [] (
    SExp glm_vec4_muladd$("a", "b", "dest") ;;
    SRet (ELdA 4 "dest")
  ).

(* struct/vec4.h:492-495 *)
Definition glms_vec4_muladds : fundef := Fun
  [("a", Some 4%nat); ("s", None); ("dest", Some 4%nat)]
  [] (
    SExp glm_vec4_muladds$("a", "s", "dest") ;;
    SRet (ELdA 4 "dest")
  ).

(* struct/vec4.h:508-511 *)
Definition glms_vec4_maxadd : fundef := Fun
  [("a", Some 4%nat); ("b", Some 4%nat); ("dest", Some 4%nat)]
  [] (
    SExp glm_vec4_maxadd$("a", "b", "dest") ;;
    SRet (ELdA 4 "dest")
  ).

(* struct/vec4.h:524-527 *)
Definition glms_vec4_minadd : fundef := Fun
  [("a", Some 4%nat); ("b", Some 4%nat); ("dest", Some 4%nat)]
  [] (
    SExp glm_vec4_minadd$("a", "b", "dest") ;;
    SRet (ELdA 4 "dest")
  ).

(* struct/vec4.h:540-543 *)
Definition glms_vec4_subsub : fundef := Fun
  [("a", Some 4%nat); ("b", Some 4%nat); ("dest", Some 4%nat)]
  [] (
    SExp glm_vec4_subsub$("a", "b", "dest") ;;
    SRet (ELdA 4 "dest")
  ).

(* struct/vec4.h:556-559 *)
Definition glms_vec4_addsub : fundef := Fun
  [("a", Some 4%nat); ("b", Some 4%nat); ("dest", Some 4%nat)]
  [] (
    SExp glm_vec4_addsub$("a", "b", "dest") ;;
    SRet (ELdA 4 "dest")
  ).

(* struct/vec4.h:572-575 *)
Definition glms_vec4_mulsub : fundef := Fun
  [("a", Some 4%nat); ("b", Some 4%nat); ("dest", Some 4%nat)]
  [] (
    SExp glm_vec4_mulsub$("a", "b", "dest") ;;
    SRet (ELdA 4 "dest")
  ).

(* struct/vec4.h:588-591 *)
Definition glms_vec4_mulsubs : fundef := Fun
  [("a", Some 4%nat); ("s", None); ("dest", Some 4%nat)]
  [] (
    SExp glm_vec4_mulsubs$("a", "s", "dest") ;;
    SRet (ELdA 4 "dest")
  ).

(* struct/vec4.h:604-607 *)
Definition glms_vec4_maxsub : fundef := Fun
  [("a", Some 4%nat); ("b", Some 4%nat); ("dest", Some 4%nat)]
  [] (
    SExp glm_vec4_maxsub$("a", "b", "dest") ;;
    SRet (ELdA 4 "dest")
  ).

(* struct/vec4.h:620-623 *)
Definition glms_vec4_minsub : fundef := Fun
  [("a", Some 4%nat); ("b", Some 4%nat); ("dest", Some 4%nat)]
  [] (
    SExp glm_vec4_minsub$("a", "b", "dest") ;;
    SRet (ELdA 4 "dest")
  ).

(* struct/vec4.h:633-636 *)
Definition glms_vec4_negate : fundef := Fun
  [("v", Some 4%nat)]
  [] (
    SExp glm_vec4_negate$("v") ;;
    SRet (ELdA 4 "v")
  ).

(* struct/vec4.h:646-649 *)
Definition glms_vec4_normalize : fundef := Fun
  [("v", Some 4%nat)]
  [] (
    SExp glm_vec4_normalize$("v") ;;
    SRet (ELdA 4 "v")
  ).

(* struct/vec4.h:660-662 *)
Definition glms_vec4_distance : fundef := Fun
  [("a", Some 4%nat); ("b", Some 4%nat)]
  [] (
    SRet glm_vec4_distance$("a", "b")
  ).

(* struct/vec4.h:673-675 *)
Definition glms_vec4_distance2 : fundef := Fun
  [("a", Some 4%nat); ("b", Some 4%nat)]
  [] (
    SRet glm_vec4_distance2$("a", "b")
  ).

(* struct/vec4.h:686-690 *)
Definition glms_vec4_maxv : fundef := Fun
  [("a", Some 4%nat); ("b", Some 4%nat)]
  [("r", Some 4%nat)] (
    SExp glm_vec4_maxv$("a", "b", "r") ;;
    SRet (ELdA 4 "r")
  ).

(* struct/vec4.h:701-705 *)
Definition glms_vec4_minv : fundef := Fun
  [("a", Some 4%nat); ("b", Some 4%nat)]
  [("r", Some 4%nat)] (
    SExp glm_vec4_minv$("a", "b", "r") ;;
    SRet (ELdA 4 "r")
  ).

(* struct/vec4.h:717-720 *)
Definition glms_vec4_clamp : fundef := Fun
  [("v", Some 4%nat); ("minVal", None); ("maxVal", None)]
  [] (
    SExp glm_vec4_clamp$("v", "minVal", "maxVal") ;;
    SRet (ELdA 4 "v")
  ).

(* struct/vec4.h:734-738 *)
Definition glms_vec4_lerp : fundef := Fun
  [("from", Some 4%nat); ("to", Some 4%nat); ("t", None)]
  [("r", Some 4%nat)] (
    SExp glm_vec4_lerp$("from", "to", "t", "r") ;;
    SRet (ELdA 4 "r")
  ).

(* struct/vec4.h:752-756 *)
Definition glms_vec4_lerpc : fundef := Fun
  [("from", Some 4%nat); ("to", Some 4%nat); ("t", None)]
  [("r", Some 4%nat)] (
    SExp glm_vec4_lerpc$("from", "to", "t", "r") ;;
    SRet (ELdA 4 "r")
  ).

(* struct/vec4.h:770-774 *)
Definition glms_vec4_mix : fundef := Fun
  [("from", Some 4%nat); ("to", Some 4%nat); ("t", None)]
  [("r", Some 4%nat)] (
    SExp glm_vec4_mix$("from", "to", "t", "r") ;;
    SRet (ELdA 4 "r")
  ).

(* struct/vec4.h:788-792 *)
Definition glms_vec4_mixc : fundef := Fun
  [("from", Some 4%nat); ("to", Some 4%nat); ("t", None)]
  [("r", Some 4%nat)] (
    SExp glm_vec4_mixc$("from", "to", "t", "r") ;;
    SRet (ELdA 4 "r")
  ).

(* struct/vec4.h:803-807 *)
Definition glms_vec4_step : fundef := Fun
  [("edge", Some 4%nat); ("x", Some 4%nat)]
  [("r", Some 4%nat)] (
    SExp glm_vec4_step$("edge", "x", "r") ;;
    SRet (ELdA 4 "r")
  ).

(* struct/vec4.h:819-823 *)
Definition glms_vec4_smoothstep_uni : fundef := Fun
  [("edge0", None); ("edge1", None); ("x", Some 4%nat)]
  [("r", Some 4%nat)] (
    SExp glm_vec4_smoothstep_uni$("edge0", "edge1", "x", "r") ;;
    SRet (ELdA 4 "r")
  ).

(* struct/vec4.h:835-839 *)
Definition glms_vec4_smoothstep : fundef := Fun
  [("edge0", Some 4%nat); ("edge1", Some 4%nat); ("x", Some 4%nat)]
  [("r", Some 4%nat)] (
    SExp glm_vec4_smoothstep$("edge0", "edge1", "x", "r") ;;
    SRet (ELdA 4 "r")
  ).

(* struct/vec4.h:853-857 *)
Definition glms_vec4_smoothinterp : fundef := Fun
  [("from", Some 4%nat); ("to", Some 4%nat); ("t", None)]
  [("r", Some 4%nat)] (
    SExp glm_vec4_smoothinterp$("from", "to", "t", "r") ;;
    SRet (ELdA 4 "r")
  ).

(* struct/vec4.h:871-875 *)
Definition glms_vec4_smoothinterpc : fundef := Fun
  [("from", Some 4%nat); ("to", Some 4%nat); ("t", None)]
  [("r", Some 4%nat)] (
    SExp glm_vec4_smoothinterpc$("from", "to", "t", "r") ;;
    SRet (ELdA 4 "r")
  ).

(* struct/vec4.h:885-889 *)
Definition glms_vec4_cubic : fundef := Fun
  [("s", None)]
  [("r", Some 4%nat)] (
    SExp glm_vec4_cubic$("s", "r") ;;
    SRet (ELdA 4 "r")
  ).

(* struct/vec4.h:902-906 *)
Definition glms_vec4_swizzle : fundef := Fun
  [("v", Some 4%nat); ("mask", None)]
  [("dest", Some 4%nat)] (
    SExp glm_vec4_swizzle$("v", "mask", "dest") ;;
    SRet (ELdA 4 "dest")
  ).

(* struct/vec4.h:916-920 *)
Definition glms_vec4_make : fundef := Fun
  [("src", None)]
  [("dest", Some 4%nat)] (
    SExp glm_vec4_make$("src", "dest") ;;
    SRet (ELdA 4 "dest")
  ).

(* struct/vec4.h:931-935 *)
Definition glms_vec4_reflect : fundef := Fun
  [("v", Some 4%nat); ("n", Some 4%nat)]
  [("dest", Some 4%nat)] (
    SExp glm_vec4_reflect$("v", "n", "dest") ;;
    SRet (ELdA 4 "dest")
  ).

(* struct/vec4.h:957-959 *)
Definition glms_vec4_refract : fundef := Fun
  [("v", Some 4%nat); ("n", Some 4%nat); ("eta", None); ("dest", None)]
  [] (
    SRet glm_vec4_refract$("v", "n", "eta", "dest")
  ).

