(** Functions of include/cglm/struct/ivec2.h (configuration: scalar), written by tools/gen.py.
    The comment above each definition gives file and lines in /repo/include/cglm. *)
From Coq Require Import String List ZArith.
From Verif Require Import MiniC.
From Verif.Gen Require Import ivec2.
Import ListNotations.
Open Scope string_scope.
Open Scope Z_scope.
Open Scope mc_scope.

(* struct/ivec2.h:82-86 *)
Definition glms_ivec2 : fundef := Fun
  [("v", None)]
  [("r", Some 2%nat)] (
    SExp glm_ivec2$("v", "r") ;;
    SRet (ELdA 2 "r")
  ).

(* struct/ivec2.h:97-103 *)
Definition glms_ivec2_pack : fundef := Fun
  [("dst", None); ("src", None); ("len", None)]
  [("i", None)] (
    (SFor "i" (EI 0) "len" (
      SExp glm_ivec2_copy$((EIx "src" 2 "i"), (EIx "dst" 2 "i"))
    ))
  ).

(* struct/ivec2.h:114-120 *)
Definition glms_ivec2_unpack : fundef := Fun
  [("dst", None); ("src", None); ("len", None)]
  [("i", None)] (
    (SFor "i" (EI 0) "len" (
      SExp glm_ivec2_copy$((EIx "src" 2 "i"), (EIx "dst" 2 "i"))
    ))
  ).

(* struct/ivec2.h:129-133 *)
Definition glms_ivec2_zero : fundef := Fun
  []
  [("r", Some 2%nat)] (
    SExp glm_ivec2_zero$("r") ;;
    SRet (ELdA 2 "r")
  ).

(* struct/ivec2.h:142-146 *)
Definition glms_ivec2_one : fundef := Fun
  []
  [("r", Some 2%nat)] (
    SExp glm_ivec2_one$("r") ;;
    SRet (ELdA 2 "r")
  ).

(* struct/ivec2.h:158-160 *)
Definition glms_ivec2_dot : fundef := Fun
  [("a", Some 2%nat); ("b", Some 2%nat)]
  [] (
    SRet glm_ivec2_dot$("a", "b")
  ).

(* struct/ivec2.h:174-176 *)
Definition glms_ivec2_cross : fundef := Fun
  [("a", Some 2%nat); ("b", Some 2%nat)]
  [] (
    SRet glm_ivec2_cross$("a", "b")
  ).

(* struct/ivec2.h:187-191 *)
Definition glms_ivec2_add : fundef := Fun
  [("a", Some 2%nat); ("b", Some 2%nat)]
  [("r", Some 2%nat)] (
    SExp glm_ivec2_add$("a", "b", "r") ;;
    SRet (ELdA 2 "r")
  ).

(* struct/ivec2.h:202-206 *)
Definition glms_ivec2_adds : fundef := Fun
  [("v", Some 2%nat); ("s", None)]
  [("r", Some 2%nat)] (
    SExp glm_ivec2_adds$("v", "s", "r") ;;
    SRet (ELdA 2 "r")
  ).

(* struct/ivec2.h:217-221 *)
Definition glms_ivec2_sub : fundef := Fun
  [("a", Some 2%nat); ("b", Some 2%nat)]
  [("r", Some 2%nat)] (
    SExp glm_ivec2_sub$("a", "b", "r") ;;
    SRet (ELdA 2 "r")
  ).

(* struct/ivec2.h:232-236 *)
Definition glms_ivec2_subs : fundef := Fun
  [("v", Some 2%nat); ("s", None)]
  [("r", Some 2%nat)] (
    SExp glm_ivec2_subs$("v", "s", "r") ;;
    SRet (ELdA 2 "r")
  ).

(* struct/ivec2.h:247-251 *)
Definition glms_ivec2_mul : fundef := Fun
  [("a", Some 2%nat); ("b", Some 2%nat)]
  [("r", Some 2%nat)] (
    SExp glm_ivec2_mul$("a", "b", "r") ;;
    SRet (ELdA 2 "r")
  ).

(* struct/ivec2.h:262-266 *)
Definition glms_ivec2_scale : fundef := Fun
  [("v", Some 2%nat); ("s", None)]
  [("r", Some 2%nat)] (
    SExp glm_ivec2_scale$("v", "s", "r") ;;
    SRet (ELdA 2 "r")
  ).

(* struct/ivec2.h:277-281 *)
Definition glms_ivec2_div : fundef := Fun
  [("a", Some 2%nat); ("b", Some 2%nat)]
  [("r", Some 2%nat)] (
    SExp glm_ivec2_div$("a", "b", "r") ;;
    SRet (ELdA 2 "r")
  ).

(* struct/ivec2.h:292-296 *)
Definition glms_ivec2_divs : fundef := Fun
  [("v", Some 2%nat); ("s", None)]
  [("r", Some 2%nat)] (
    SExp glm_ivec2_divs$("v", "s", "r") ;;
    SRet (ELdA 2 "r")
  ).

(* struct/ivec2.h:307-311 *)
Definition glms_ivec2_mod : fundef := Fun
  [("a", Some 2%nat); ("b", Some 2%nat)]
  [("r", Some 2%nat)] (
    SExp glm_ivec2_mod$("a", "b", "r") ;;
    SRet (ELdA 2 "r")
  ).

(* struct/ivec2.h:325-328 *)
Definition glms_ivec2_addadd : fundef := Fun
  [("a", Some 2%nat); ("b", Some 2%nat); ("dest", Some 2%nat)]
  [] (
    SExp glm_ivec2_addadd$("a", "b", "dest") ;;
    SRet (ELdA 2 "dest")
  ).

(* struct/ivec2.h:342-345 *)
Definition glms_ivec2_addadds : fundef := Fun
  [("a", Some 2%nat); ("s", None); ("dest", Some 2%nat)]
  [] (
    SExp glm_ivec2_addadds$("a", "s", "dest") ;;
    SRet (ELdA 2 "dest")
  ).

(* struct/ivec2.h:359-362 *)
Definition glms_ivec2_subadd : fundef := Fun
  [("a", Some 2%nat); ("b", Some 2%nat); ("dest", Some 2%nat)]
  [] (
    SExp glm_ivec2_subadd$("a", "b", "dest") ;;
    SRet (ELdA 2 "dest")
  ).

(* struct/ivec2.h:376-379 *)
Definition glms_ivec2_subadds : fundef := Fun
  [("a", Some 2%nat); ("s", None); ("dest", Some 2%nat)]
  [] (
    SExp glm_ivec2_subadds$("a", "s", "dest") ;;
    SRet (ELdA 2 "dest")
  ).

(* struct/ivec2.h:393-396 *)
Definition glms_ivec2_muladd : fundef := Fun
  [("a", Some 2%nat); ("b", Some 2%nat); ("dest", Some 2%nat)]
  [] (
    SExp glm_ivec2_muladd$("a", "b", "dest") ;;
    SRet (ELdA 2 "dest")
  ).

(* struct/ivec2.h:410-413 *)
Definition glms_ivec2_muladds : fundef := Fun
  [("a", Some 2%nat); ("s", None); ("dest", Some 2%nat)]
  [] (
    SExp glm_ivec2_muladds$("a", "s", "dest") ;;
    SRet (ELdA 2 "dest")
  ).

(* struct/ivec2.h:427-430 *)
Definition glms_ivec2_maxadd : fundef := Fun
  [("a", Some 2%nat); ("b", Some 2%nat); ("dest", Some 2%nat)]
  [] (
    SExp glm_ivec2_maxadd$("a", "b", "dest") ;;
    SRet (ELdA 2 "dest")
  ).

(* struct/ivec2.h:444-447 *)
Definition glms_ivec2_minadd : fundef := Fun
  [("a", Some 2%nat); ("b", Some 2%nat); ("dest", Some 2%nat)]
  [] (
    SExp glm_ivec2_minadd$("a", "b", "dest") ;;
    SRet (ELdA 2 "dest")
  ).

(* struct/ivec2.h:461-464 *)
Definition glms_ivec2_subsub : fundef := Fun
  [("a", Some 2%nat); ("b", Some 2%nat); ("dest", Some 2%nat)]
  [] (
    SExp glm_ivec2_subsub$("a", "b", "dest") ;;
    SRet (ELdA 2 "dest")
  ).

(* struct/ivec2.h:478-481 *)
Definition glms_ivec2_subsubs : fundef := Fun
  [("a", Some 2%nat); ("s", None); ("dest", Some 2%nat)]
  [] (
    SExp glm_ivec2_subsubs$("a", "s", "dest") ;;
    SRet (ELdA 2 "dest")
  ).

(* struct/ivec2.h:495-498 *)
Definition glms_ivec2_addsub : fundef := Fun
  [("a", Some 2%nat); ("b", Some 2%nat); ("dest", Some 2%nat)]
  [] (
    SExp glm_ivec2_addsub$("a", "b", "dest") ;;
    SRet (ELdA 2 "dest")
  ).

(* struct/ivec2.h:512-515 *)
Definition glms_ivec2_addsubs : fundef := Fun
  [("a", Some 2%nat); ("s", None); ("dest", Some 2%nat)]
  [] (
    SExp glm_ivec2_addsubs$("a", "s", "dest") ;;
    SRet (ELdA 2 "dest")
  ).

(* struct/ivec2.h:529-532 *)
Definition glms_ivec2_mulsub : fundef := Fun
  [("a", Some 2%nat); ("b", Some 2%nat); ("dest", Some 2%nat)]
  [] (
    SExp glm_ivec2_mulsub$("a", "b", "dest") ;;
    SRet (ELdA 2 "dest")
  ).

(* struct/ivec2.h:546-549 *)
Definition glms_ivec2_mulsubs : fundef := Fun
  [("a", Some 2%nat); ("s", None); ("dest", Some 2%nat)]
  [] (
    SExp glm_ivec2_mulsubs$("a", "s", "dest") ;;
    SRet (ELdA 2 "dest")
  ).

(* struct/ivec2.h:563-566 *)
Definition glms_ivec2_maxsub : fundef := Fun
  [("a", Some 2%nat); ("b", Some 2%nat); ("dest", Some 2%nat)]
  [] (
    SExp glm_ivec2_maxsub$("a", "b", "dest") ;;
    SRet (ELdA 2 "dest")
  ).

(* struct/ivec2.h:580-583 *)
Definition glms_ivec2_minsub : fundef := Fun
  [("a", Some 2%nat); ("b", Some 2%nat); ("dest", Some 2%nat)]
  [] (
    SExp glm_ivec2_minsub$("a", "b", "dest") ;;
    SRet (ELdA 2 "dest")
  ).

(* struct/ivec2.h:594-596 *)
Definition glms_ivec2_distance2 : fundef := Fun
  [("a", Some 2%nat); ("b", Some 2%nat)]
  [] (
    SRet glm_ivec2_distance2$("a", "b")
  ).

(* struct/ivec2.h:607-609 *)
Definition glms_ivec2_distance : fundef := Fun
  [("a", Some 2%nat); ("b", Some 2%nat)]
  [] (
    SRet glm_ivec2_distance$("a", "b")
  ).

(* struct/ivec2.h:619-623 *)
Definition glms_ivec2_fill : fundef := Fun
  [("val", None)]
  [("r", Some 2%nat)] (
    SExp glm_ivec2_fill$("r", "val") ;;
    SRet (ELdA 2 "r")
  ).

(* struct/ivec2.h:633-635 *)
Definition glms_ivec2_eq : fundef := Fun
  [("v", Some 2%nat); ("val", None)]
  [] (
    SRet glm_ivec2_eq$("v", "val")
  ).

(* struct/ivec2.h:645-647 *)
Definition glms_ivec2_eqv : fundef := Fun
  [("a", Some 2%nat); ("b", Some 2%nat)]
  [] (
    SRet glm_ivec2_eqv$("a", "b")
  ).

(* struct/ivec2.h:658-662 *)
Definition glms_ivec2_maxv : fundef := Fun
  [("a", Some 2%nat); ("b", Some 2%nat)]
  [("r", Some 2%nat)] (
    SExp glm_ivec2_maxv$("a", "b", "r") ;;
    SRet (ELdA 2 "r")
  ).

(* struct/ivec2.h:673-677 *)
Definition glms_ivec2_minv : fundef := Fun
  [("a", Some 2%nat); ("b", Some 2%nat)]
  [("r", Some 2%nat)] (
    SExp glm_ivec2_minv$("a", "b", "r") ;;
    SRet (ELdA 2 "r")
  ).

(* struct/ivec2.h:689-692 *)
Definition glms_ivec2_clamp : fundef := Fun
  [("v", Some 2%nat); ("minVal", None); ("maxVal", None)]
  [] (
    SExp glm_ivec2_clamp$("v", "minVal", "maxVal") ;;
    SRet (ELdA 2 "v")
  ).

(* struct/ivec2.h:702-706 *)
Definition glms_ivec2_abs : fundef := Fun
  [("v", Some 2%nat)]
  [("r", Some 2%nat)] (
    SExp glm_ivec2_abs$("v", "r") ;;
    SRet (ELdA 2 "r")
  ).

