(** Functions of include/cglm/struct/ivec3.h (configuration: scalar), written by tools/gen.py.
    The comment above each definition gives file and lines in /repo/include/cglm. *)
From Coq Require Import String List ZArith.
From Verif Require Import MiniC.
From Verif.Gen Require Import ivec3.
Import ListNotations.
Open Scope string_scope.
Open Scope Z_scope.
Open Scope mc_scope.

(* struct/ivec3.h:82-86 *)
Definition glms_ivec3 : fundef := Fun
  [("v4", Some 4%nat)]
  [("r", Some 3%nat)] (
    SExp glm_ivec3$("v4", "r") ;;
    SRet (ELdA 3 "r")
  ).

(* struct/ivec3.h:97-103 *)
Definition glms_ivec3_pack : fundef := Fun
  [("dst", None); ("src", None); ("len", None)]
  [("i", None)] (
    (SFor "i" (EI 0) "len" (
      SExp glm_ivec3_copy$((EIx "src" 3 "i"), (EIx "dst" 3 "i"))
    ))
  ).

(* struct/ivec3.h:114-120 *)
Definition glms_ivec3_unpack : fundef := Fun
  [("dst", None); ("src", None); ("len", None)]
  [("i", None)] (
    (SFor "i" (EI 0) "len" (
      SExp glm_ivec3_copy$((EIx "src" 3 "i"), (EIx "dst" 3 "i"))
    ))
  ).

(* struct/ivec3.h:129-133 *)
Definition glms_ivec3_zero : fundef := Fun
  []
  [("r", Some 3%nat)] (
    SExp glm_ivec3_zero$("r") ;;
    SRet (ELdA 3 "r")
  ).

(* struct/ivec3.h:142-146 *)
Definition glms_ivec3_one : fundef := Fun
  []
  [("r", Some 3%nat)] (
    SExp glm_ivec3_one$("r") ;;
    SRet (ELdA 3 "r")
  ).

(* struct/ivec3.h:158-160 *)
Definition glms_ivec3_dot : fundef := Fun
  [("a", Some 3%nat); ("b", Some 3%nat)]
  [] (
    SRet glm_ivec3_dot$("a", "b")
  ).

(* struct/ivec3.h:175-177 *)
Definition glms_ivec3_norm2 : fundef := Fun
  [("v", Some 3%nat)]
  [] (
    SRet glm_ivec3_norm2$("v")
  ).

(* struct/ivec3.h:189-191 *)
Definition glms_ivec3_norm : fundef := Fun
  [("v", Some 3%nat)]
  [] (
    SRet glm_ivec3_norm$("v")
  ).

(* struct/ivec3.h:202-206 *)
Definition glms_ivec3_add : fundef := Fun
  [("a", Some 3%nat); ("b", Some 3%nat)]
  [("r", Some 3%nat)] (
    SExp glm_ivec3_add$("a", "b", "r") ;;
    SRet (ELdA 3 "r")
  ).

(* struct/ivec3.h:217-221 *)
Definition glms_ivec3_adds : fundef := Fun
  [("v", Some 3%nat); ("s", None)]
  [("r", Some 3%nat)] (
    SExp glm_ivec3_adds$("v", "s", "r") ;;
    SRet (ELdA 3 "r")
  ).

(* struct/ivec3.h:232-236 *)
Definition glms_ivec3_sub : fundef := Fun
  [("a", Some 3%nat); ("b", Some 3%nat)]
  [("r", Some 3%nat)] (
    SExp glm_ivec3_sub$("a", "b", "r") ;;
    SRet (ELdA 3 "r")
  ).

(* struct/ivec3.h:247-251 *)
Definition glms_ivec3_subs : fundef := Fun
  [("v", Some 3%nat); ("s", None)]
  [("r", Some 3%nat)] (
    SExp glm_ivec3_subs$("v", "s", "r") ;;
    SRet (ELdA 3 "r")
  ).

(* struct/ivec3.h:262-266 *)
Definition glms_ivec3_mul : fundef := Fun
  [("a", Some 3%nat); ("b", Some 3%nat)]
  [("r", Some 3%nat)] (
    SExp glm_ivec3_mul$("a", "b", "r") ;;
    SRet (ELdA 3 "r")
  ).

(* struct/ivec3.h:277-281 *)
Definition glms_ivec3_scale : fundef := Fun
  [("v", Some 3%nat); ("s", None)]
  [("r", Some 3%nat)] (
    SExp glm_ivec3_scale$("v", "s", "r") ;;
    SRet (ELdA 3 "r")
  ).

(* struct/ivec3.h:292-296 *)
Definition glms_ivec3_div : fundef := Fun
  [("a", Some 3%nat); ("b", Some 3%nat)]
  [("r", Some 3%nat)] (
    SExp glm_ivec3_div$("a", "b", "r") ;;
    SRet (ELdA 3 "r")
  ).

(* struct/ivec3.h:307-311 *)
Definition glms_ivec3_divs : fundef := Fun
  [("v", Some 3%nat); ("s", None)]
  [("r", Some 3%nat)] (
    SExp glm_ivec3_divs$("v", "s", "r") ;;
    SRet (ELdA 3 "r")
  ).

(* struct/ivec3.h:324-328 *)
Definition glms_ivec3_mod : fundef := Fun
  [("a", Some 3%nat); ("b", Some 3%nat)]
  [("r", Some 3%nat)] (
    SExp glm_ivec3_mod$("a", "b", "r") ;;
    SRet (ELdA 3 "r")
  ).

(* struct/ivec3.h:342-345 *)
Definition glms_ivec3_addadd : fundef := Fun
  [("a", Some 3%nat); ("b", Some 3%nat); ("dest", Some 3%nat)]
  [] (
    SExp glm_ivec3_addadd$("a", "b", "dest") ;;
    SRet (ELdA 3 "dest")
  ).

(* struct/ivec3.h:359-362 *)
Definition glms_ivec3_addadds : fundef := Fun
  [("a", Some 3%nat); ("s", None); ("dest", Some 3%nat)]
  [] (
    SExp glm_ivec3_addadds$("a", "s", "dest") ;;
    SRet (ELdA 3 "dest")
  ).

(* struct/ivec3.h:376-379 *)
Definition glms_ivec3_subadd : fundef := Fun
  [("a", Some 3%nat); ("b", Some 3%nat); ("dest", Some 3%nat)]
  [] (
    SExp glm_ivec3_subadd$("a", "b", "dest") ;;
    SRet (ELdA 3 "dest")
  ).

(* struct/ivec3.h:393-396 *)
Definition glms_ivec3_subadds : fundef := Fun
  [("a", Some 3%nat); ("s", None); ("dest", Some 3%nat)]
  [] (
    SExp glm_ivec3_subadds$("a", "s", "dest") ;;
    SRet (ELdA 3 "dest")
  ).

(* struct/ivec3.h:410-413 *)
Definition glms_ivec3_muladd : fundef := Fun
  [("a", Some 3%nat); ("b", Some 3%nat); ("dest", Some 3%nat)]
  [] (
    SExp glm_ivec3_muladd$("a", "b", "dest") ;;
    SRet (ELdA 3 "dest")
  ).

(* struct/ivec3.h:427-430 *)
Definition glms_ivec3_muladds : fundef := Fun
  [("a", Some 3%nat); ("s", None); ("dest", Some 3%nat)]
  [] (
    SExp glm_ivec3_muladds$("a", "s", "dest") ;;
    SRet (ELdA 3 "dest")
  ).

(* struct/ivec3.h:444-447 *)
Definition glms_ivec3_maxadd : fundef := Fun
  [("a", Some 3%nat); ("b", Some 3%nat); ("dest", Some 3%nat)]
  [] (
    SExp glm_ivec3_maxadd$("a", "b", "dest") ;;
    SRet (ELdA 3 "dest")
  ).

(* struct/ivec3.h:461-464 *)
Definition glms_ivec3_minadd : fundef := Fun
  [("a", Some 3%nat); ("b", Some 3%nat); ("dest", Some 3%nat)]
  [] (
    SExp glm_ivec3_minadd$("a", "b", "dest") ;;
    SRet (ELdA 3 "dest")
  ).

(* struct/ivec3.h:478-481 *)
Definition glms_ivec3_subsub : fundef := Fun
  [("a", Some 3%nat); ("b", Some 3%nat); ("dest", Some 3%nat)]
  [] (
    SExp glm_ivec3_subsub$("a", "b", "dest") ;;
    SRet (ELdA 3 "dest")
  ).

(* struct/ivec3.h:495-498 *)
Definition glms_ivec3_subsubs : fundef := Fun
  [("a", Some 3%nat); ("s", None); ("dest", Some 3%nat)]
  [] (
    SExp glm_ivec3_subsubs$("a", "s", "dest") ;;
    SRet (ELdA 3 "dest")
  ).

(* struct/ivec3.h:512-515 *)
Definition glms_ivec3_addsub : fundef := Fun
  [("a", Some 3%nat); ("b", Some 3%nat); ("dest", Some 3%nat)]
  [] (
    SExp glm_ivec3_addsub$("a", "b", "dest") ;;
    SRet (ELdA 3 "dest")
  ).

(* struct/ivec3.h:529-532 *)
Definition glms_ivec3_addsubs : fundef := Fun
  [("a", Some 3%nat); ("s", None); ("dest", Some 3%nat)]
  [] (
    SExp glm_ivec3_addsubs$("a", "s", "dest") ;;
    SRet (ELdA 3 "dest")
  ).

(* struct/ivec3.h:546-549 *)
Definition glms_ivec3_mulsub : fundef := Fun
  [("a", Some 3%nat); ("b", Some 3%nat); ("dest", Some 3%nat)]
  [] (
    SExp glm_ivec3_mulsub$("a", "b", "dest") ;;
    SRet (ELdA 3 "dest")
  ).

(* struct/ivec3.h:563-566 *)
Definition glms_ivec3_mulsubs : fundef := Fun
  [("a", Some 3%nat); ("s", None); ("dest", Some 3%nat)]
  [] (
    SExp glm_ivec3_mulsubs$("a", "s", "dest") ;;
    SRet (ELdA 3 "dest")
  ).

(* struct/ivec3.h:580-583 *)
Definition glms_ivec3_maxsub : fundef := Fun
  [("a", Some 3%nat); ("b", Some 3%nat); ("dest", Some 3%nat)]
  [] (
    SExp glm_ivec3_maxsub$("a", "b", "dest") ;;
    SRet (ELdA 3 "dest")
  ).

(* struct/ivec3.h:597-600 *)
Definition glms_ivec3_minsub : fundef := Fun
  [("a", Some 3%nat); ("b", Some 3%nat); ("dest", Some 3%nat)]
  [] (
    SExp glm_ivec3_minsub$("a", "b", "dest") ;;
    SRet (ELdA 3 "dest")
  ).

(* struct/ivec3.h:611-613 *)
Definition glms_ivec3_distance2 : fundef := Fun
  [("a", Some 3%nat); ("b", Some 3%nat)]
  [] (
    SRet glm_ivec3_distance2$("a", "b")
  ).

(* struct/ivec3.h:624-626 *)
Definition glms_ivec3_distance : fundef := Fun
  [("a", Some 3%nat); ("b", Some 3%nat)]
  [] (
    SRet glm_ivec3_distance$("a", "b")
  ).

(* struct/ivec3.h:636-640 *)
Definition glms_ivec3_fill : fundef := Fun
  [("val", None)]
  [("r", Some 3%nat)] (
    SExp glm_ivec3_fill$("r", "val") ;;
    SRet (ELdA 3 "r")
  ).

(* struct/ivec3.h:650-652 *)
Definition glms_ivec3_eq : fundef := Fun
  [("v", Some 3%nat); ("val", None)]
  [] (
    SRet glm_ivec3_eq$("v", "val")
  ).

(* struct/ivec3.h:662-664 *)
Definition glms_ivec3_eqv : fundef := Fun
  [("a", Some 3%nat); ("b", Some 3%nat)]
  [] (
    SRet glm_ivec3_eqv$("a", "b")
  ).

(* struct/ivec3.h:675-679 *)
Definition glms_ivec3_maxv : fundef := Fun
  [("a", Some 3%nat); ("b", Some 3%nat)]
  [("r", Some 3%nat)] (
    SExp glm_ivec3_maxv$("a", "b", "r") ;;
    SRet (ELdA 3 "r")
  ).

(* struct/ivec3.h:690-694 *)
Definition glms_ivec3_minv : fundef := Fun
  [("a", Some 3%nat); ("b", Some 3%nat)]
  [("r", Some 3%nat)] (
    SExp glm_ivec3_minv$("a", "b", "r") ;;
    SRet (ELdA 3 "r")
  ).

(* struct/ivec3.h:706-709 *)
Definition glms_ivec3_clamp : fundef := Fun
  [("v", Some 3%nat); ("minVal", None); ("maxVal", None)]
  [] (
    SExp glm_ivec3_clamp$("v", "minVal", "maxVal") ;;
    SRet (ELdA 3 "v")
  ).

(* struct/ivec3.h:719-723 *)
Definition glms_ivec3_abs : fundef := Fun
  [("v", Some 3%nat)]
  [("r", Some 3%nat)] (
    SExp glm_ivec3_abs$("v", "r") ;;
    SRet (ELdA 3 "r")
  ).

