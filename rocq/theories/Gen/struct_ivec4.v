(** Functions of include/cglm/struct/ivec4.h (configuration: scalar), written by tools/gen.py.
    The comment above each definition gives file and lines in /repo/include/cglm. *)
From Coq Require Import String List ZArith.
From Verif Require Import MiniC.
From Verif.Gen Require Import ivec4.
Import ListNotations.
Open Scope string_scope.
Open Scope Z_scope.
Open Scope mc_scope.

(* struct/ivec4.h:75-79 *)
Definition glms_ivec4 : fundef := Fun
  [("v3", Some 3%nat); ("last", None)]
  [("r", Some 4%nat)] (
    SExp glm_ivec4$("v3", "last", "r") ;;
    SRet (ELdA 4 "r")
  ).

(* struct/ivec4.h:90-96 *)
Definition glms_ivec4_pack : fundef := Fun
  [("dst", None); ("src", None); ("len", None)]
  [("i", None)] (
    (SFor "i" (EI 0) "len" (
      SExp glm_ivec4_copy$((EIx "src" 4 "i"), (EIx "dst" 4 "i"))
    ))
  ).

(* struct/ivec4.h:107-113 *)
Definition glms_ivec4_unpack : fundef := Fun
  [("dst", None); ("src", None); ("len", None)]
  [("i", None)] (
    (SFor "i" (EI 0) "len" (
      SExp glm_ivec4_copy$((EIx "src" 4 "i"), (EIx "dst" 4 "i"))
    ))
  ).

(* struct/ivec4.h:122-126 *)
Definition glms_ivec4_zero : fundef := Fun
  []
  [("r", Some 4%nat)] (
    SExp glm_ivec4_zero$("r") ;;
    SRet (ELdA 4 "r")
  ).

(* struct/ivec4.h:135-139 *)
Definition glms_ivec4_one : fundef := Fun
  []
  [("r", Some 4%nat)] (
    SExp glm_ivec4_one$("r") ;;
    SRet (ELdA 4 "r")
  ).

(* struct/ivec4.h:150-154 *)
Definition glms_ivec4_add : fundef := Fun
  [("a", Some 4%nat); ("b", Some 4%nat)]
  [("r", Some 4%nat)] (
    SExp glm_ivec4_add$("a", "b", "r") ;;
    SRet (ELdA 4 "r")
  ).

(* struct/ivec4.h:165-169 *)
Definition glms_ivec4_adds : fundef := Fun
  [("v", Some 4%nat); ("s", None)]
  [("r", Some 4%nat)] (
    SExp glm_ivec4_adds$("v", "s", "r") ;;
    SRet (ELdA 4 "r")
  ).

(* struct/ivec4.h:180-184 *)
Definition glms_ivec4_sub : fundef := Fun
  [("a", Some 4%nat); ("b", Some 4%nat)]
  [("r", Some 4%nat)] (
    SExp glm_ivec4_sub$("a", "b", "r") ;;
    SRet (ELdA 4 "r")
  ).

(* struct/ivec4.h:195-199 *)
Definition glms_ivec4_subs : fundef := Fun
  [("v", Some 4%nat); ("s", None)]
  [("r", Some 4%nat)] (
    SExp glm_ivec4_subs$("v", "s", "r") ;;
    SRet (ELdA 4 "r")
  ).

(* struct/ivec4.h:210-214 *)
Definition glms_ivec4_mul : fundef := Fun
  [("a", Some 4%nat); ("b", Some 4%nat)]
  [("r", Some 4%nat)] (
    SExp glm_ivec4_mul$("a", "b", "r") ;;
    SRet (ELdA 4 "r")
  ).

(* struct/ivec4.h:225-229 *)
Definition glms_ivec4_scale : fundef := Fun
  [("v", Some 4%nat); ("s", None)]
  [("r", Some 4%nat)] (
    SExp glm_ivec4_scale$("v", "s", "r") ;;
    SRet (ELdA 4 "r")
  ).

(* struct/ivec4.h:243-246 *)
Definition glms_ivec4_addadd : fundef := Fun
  [("a", Some 4%nat); ("b", Some 4%nat); ("dest", Some 4%nat)]
  [] (
    SExp glm_ivec4_addadd$("a", "b", "dest") ;;
    SRet (ELdA 4 "dest")
  ).

(* struct/ivec4.h:260-263 *)
Definition glms_ivec4_addadds : fundef := Fun
  [("a", Some 4%nat); ("s", None); ("dest", Some 4%nat)]
  [] (
    SExp glm_ivec4_addadds$("a", "s", "dest") ;;
    SRet (ELdA 4 "dest")
  ).

(* struct/ivec4.h:277-280 *)
Definition glms_ivec4_subadd : fundef := Fun
  [("a", Some 4%nat); ("b", Some 4%nat); ("dest", Some 4%nat)]
  [] (
    SExp glm_ivec4_subadd$("a", "b", "dest") ;;
    SRet (ELdA 4 "dest")
  ).

(* struct/ivec4.h:294-297 *)
Definition glms_ivec4_subadds : fundef := Fun
  [("a", Some 4%nat); ("s", None); ("dest", Some 4%nat)]
  [] (
    SExp glm_ivec4_subadds$("a", "s", "dest") ;;
    SRet (ELdA 4 "dest")
  ).

(* struct/ivec4.h:311-314 *)
Definition glms_ivec4_muladd : fundef := Fun
  [("a", Some 4%nat); ("b", Some 4%nat); ("dest", Some 4%nat)]
  [] (
    SExp glm_ivec4_muladd$("a", "b", "dest") ;;
    SRet (ELdA 4 "dest")
  ).

(* struct/ivec4.h:328-331 *)
Definition glms_ivec4_muladds : fundef := Fun
  [("a", Some 4%nat); ("s", None); ("dest", Some 4%nat)]
  [] (
    SExp glm_ivec4_muladds$("a", "s", "dest") ;;
    SRet (ELdA 4 "dest")
  ).

(* struct/ivec4.h:345-348 *)
Definition glms_ivec4_maxadd : fundef := Fun
  [("a", Some 4%nat); ("b", Some 4%nat); ("dest", Some 4%nat)]
  [] (
    SExp glm_ivec4_maxadd$("a", "b", "dest") ;;
    SRet (ELdA 4 "dest")
  ).

(* struct/ivec4.h:362-365 *)
Definition glms_ivec4_minadd : fundef := Fun
  [("a", Some 4%nat); ("b", Some 4%nat); ("dest", Some 4%nat)]
  [] (
    SExp glm_ivec4_minadd$("a", "b", "dest") ;;
    SRet (ELdA 4 "dest")
  ).

(* struct/ivec4.h:379-382 *)
Definition glms_ivec4_subsub : fundef := Fun
  [("a", Some 4%nat); ("b", Some 4%nat); ("dest", Some 4%nat)]
  [] (
    SExp glm_ivec4_subsub$("a", "b", "dest") ;;
    SRet (ELdA 4 "dest")
  ).

(* struct/ivec4.h:396-399 *)
Definition glms_ivec4_subsubs : fundef := Fun
  [("a", Some 4%nat); ("s", None); ("dest", Some 4%nat)]
  [] (
    SExp glm_ivec4_subsubs$("a", "s", "dest") ;;
    SRet (ELdA 4 "dest")
  ).

(* struct/ivec4.h:413-416 *)
Definition glms_ivec4_addsub : fundef := Fun
  [("a", Some 4%nat); ("b", Some 4%nat); ("dest", Some 4%nat)]
  [] (
    SExp glm_ivec4_addsub$("a", "b", "dest") ;;
    SRet (ELdA 4 "dest")
  ).

(* struct/ivec4.h:430-433 *)
Definition glms_ivec4_addsubs : fundef := Fun
  [("a", Some 4%nat); ("s", None); ("dest", Some 4%nat)]
  [] (
    SExp glm_ivec4_addsubs$("a", "s", "dest") ;;
    SRet (ELdA 4 "dest")
  ).

(* struct/ivec4.h:447-450 *)
Definition glms_ivec4_mulsub : fundef := Fun
  [("a", Some 4%nat); ("b", Some 4%nat); ("dest", Some 4%nat)]
  [] (
    SExp glm_ivec4_mulsub$("a", "b", "dest") ;;
    SRet (ELdA 4 "dest")
  ).

(* struct/ivec4.h:464-467 *)
Definition glms_ivec4_mulsubs : fundef := Fun
  [("a", Some 4%nat); ("s", None); ("dest", Some 4%nat)]
  [] (
    SExp glm_ivec4_mulsubs$("a", "s", "dest") ;;
    SRet (ELdA 4 "dest")
  ).

(* struct/ivec4.h:481-484 *)
Definition glms_ivec4_maxsub : fundef := Fun
  [("a", Some 4%nat); ("b", Some 4%nat); ("dest", Some 4%nat)]
  [] (
    SExp glm_ivec4_maxsub$("a", "b", "dest") ;;
    SRet (ELdA 4 "dest")
  ).

(* struct/ivec4.h:498-501 *)
Definition glms_ivec4_minsub : fundef := Fun
  [("a", Some 4%nat); ("b", Some 4%nat); ("dest", Some 4%nat)]
  [] (
    SExp glm_ivec4_minsub$("a", "b", "dest") ;;
    SRet (ELdA 4 "dest")
  ).

(* struct/ivec4.h:512-514 *)
Definition glms_ivec4_distance2 : fundef := Fun
  [("a", Some 4%nat); ("b", Some 4%nat)]
  [] (
    SRet glm_ivec4_distance2$("a", "b")
  ).

(* struct/ivec4.h:525-527 *)
Definition glms_ivec4_distance : fundef := Fun
  [("a", Some 4%nat); ("b", Some 4%nat)]
  [] (
    SRet glm_ivec4_distance$("a", "b")
  ).

(* struct/ivec4.h:538-542 *)
Definition glms_ivec4_maxv : fundef := Fun
  [("a", Some 4%nat); ("b", Some 4%nat)]
  [("r", Some 4%nat)] (
    SExp glm_ivec4_maxv$("a", "b", "r") ;;
    SRet (ELdA 4 "r")
  ).

(* struct/ivec4.h:553-557 *)
Definition glms_ivec4_minv : fundef := Fun
  [("a", Some 4%nat); ("b", Some 4%nat)]
  [("r", Some 4%nat)] (
    SExp glm_ivec4_minv$("a", "b", "r") ;;
    SRet (ELdA 4 "r")
  ).

(* struct/ivec4.h:569-572 *)
Definition glms_ivec4_clamp : fundef := Fun
  [("v", Some 4%nat); ("minVal", None); ("maxVal", None)]
  [] (
    SExp glm_ivec4_clamp$("v", "minVal", "maxVal") ;;
    SRet (ELdA 4 "v")
  ).

(* struct/ivec4.h:582-586 *)
Definition glms_ivec4_abs : fundef := Fun
  [("v", Some 4%nat)]
  [("r", Some 4%nat)] (
    SExp glm_ivec4_abs$("v", "r") ;;
    SRet (ELdA 4 "r")
  ).

