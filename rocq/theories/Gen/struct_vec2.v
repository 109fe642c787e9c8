(** Functions of include/cglm/struct/vec2.h (configuration: scalar), written by tools/gen.py.
    The comment above each definition gives file and lines in /repo/include/cglm. *)
From Coq Require Import String List ZArith.
From Verif Require Import MiniC.
From Verif.Gen Require Import vec2.
Import ListNotations.
Open Scope string_scope.
Open Scope Z_scope.
Open Scope mc_scope.

(* struct/vec2.h:85-89 *)
Definition glms_vec2 : fundef := Fun
  [("v3", Some 3%nat)]
  [("r", Some 2%nat)] (
    SExp glm_vec2$("v3", "r") ;;
    SRet (ELdA 2 "r")
  ).

(* struct/vec2.h:100-106 *)
Definition glms_vec2_pack : fundef := Fun
  [("dst", None); ("src", None); ("len", None)]
  [("i", None)] (
    (SFor "i" (EI 0) "len" (
      SExp glm_vec2_copy$((EIx "src" 2 "i"), (EIx "dst" 2 "i"))
    ))
  ).

(* struct/vec2.h:117-123 *)
Definition glms_vec2_unpack : fundef := Fun
  [("dst", None); ("src", None); ("len", None)]
  [("i", None)] (
    (SFor "i" (EI 0) "len" (
      SExp glm_vec2_copy$((EIx "src" 2 "i"), (EIx "dst" 2 "i"))
    ))
  ).

(* struct/vec2.h:132-136 *)
Definition glms_vec2_zero : fundef := Fun
  []
  [("r", Some 2%nat)] (
    SExp glm_vec2_zero$("r") ;;
    SRet (ELdA 2 "r")
  ).

(* struct/vec2.h:145-149 *)
Definition glms_vec2_one : fundef := Fun
  []
  [("r", Some 2%nat)] (
    SExp glm_vec2_one$("r") ;;
    SRet (ELdA 2 "r")
  ).

(* struct/vec2.h:161-163 *)
Definition glms_vec2_dot : fundef := Fun
  [("a", Some 2%nat); ("b", Some 2%nat)]
  [] (
    SRet glm_vec2_dot$("a", "b")
  ).

(* struct/vec2.h:177-179 *)
Definition glms_vec2_cross : fundef := Fun
  [("a", Some 2%nat); ("b", Some 2%nat)]
  [] (
    SRet glm_vec2_cross$("a", "b")
  ).

(* struct/vec2.h:194-196 *)
Definition glms_vec2_norm2 : fundef := Fun
  [("v", Some 2%nat)]
  [] (
    SRet glm_vec2_norm2$("v")
  ).

(* struct/vec2.h:207-209 *)
Definition glms_vec2_norm : fundef := Fun
  [("v", Some 2%nat)]
  [] (
    SRet glm_vec2_norm$("v")
  ).

(* struct/vec2.h:220-224 *)
Definition glms_vec2_add : fundef := Fun
  [("a", Some 2%nat); ("b", Some 2%nat)]
  [("r", Some 2%nat)] (
    SExp glm_vec2_add$("a", "b", "r") ;;
    SRet (ELdA 2 "r")
  ).

(* struct/vec2.h:235-239 *)
Definition glms_vec2_adds : fundef := Fun
  [("a", Some 2%nat); ("s", None)]
  [("r", Some 2%nat)] (
    SExp glm_vec2_adds$("a", "s", "r") ;;
    SRet (ELdA 2 "r")
  ).

(* struct/vec2.h:250-254 *)
Definition glms_vec2_sub : fundef := Fun
  [("a", Some 2%nat); ("b", Some 2%nat)]
  [("r", Some 2%nat)] (
    SExp glm_vec2_sub$("a", "b", "r") ;;
    SRet (ELdA 2 "r")
  ).

(* struct/vec2.h:265-269 *)
Definition glms_vec2_subs : fundef := Fun
  [("a", Some 2%nat); ("s", None)]
  [("r", Some 2%nat)] (
    SExp glm_vec2_subs$("a", "s", "r") ;;
    SRet (ELdA 2 "r")
  ).

(* struct/vec2.h:280-284 *)
Definition glms_vec2_mul : fundef := Fun
  [("a", Some 2%nat); ("b", Some 2%nat)]
  [("r", Some 2%nat)] (
    SExp glm_vec2_mul$("a", "b", "r") ;;
    SRet (ELdA 2 "r")
  ).

(* struct/vec2.h:295-299 *)
Definition glms_vec2_scale : fundef := Fun
  [("v", Some 2%nat); ("s", None)]
  [("r", Some 2%nat)] (
    SExp glm_vec2_scale$("v", "s", "r") ;;
    SRet (ELdA 2 "r")
  ).

(* struct/vec2.h:310-314 *)
Definition glms_vec2_scale_as : fundef := Fun
  [("v", Some 2%nat); ("s", None)]
  [("r", Some 2%nat)] (
    SExp glm_vec2_scale_as$("v", "s", "r") ;;
    SRet (ELdA 2 "r")
  ).

(* struct/vec2.h:325-329 *)
Definition glms_vec2_div : fundef := Fun
  [("a", Some 2%nat); ("b", Some 2%nat)]
  [("r", Some 2%nat)] (
    SExp glm_vec2_div$("a", "b", "r") ;;
    SRet (ELdA 2 "r")
  ).

(* struct/vec2.h:340-344 *)
Definition glms_vec2_divs : fundef := Fun
  [("a", Some 2%nat); ("s", None)]
  [("r", Some 2%nat)] (
    SExp glm_vec2_divs$("a", "s", "r") ;;
    SRet (ELdA 2 "r")
  ).

(* struct/vec2.h:357-360 *)
Definition glms_vec2_addadd : fundef := Fun
  [("a", Some 2%nat); ("b", Some 2%nat); ("dest", Some 2%nat)]
  [] (
    SExp glm_vec2_addadd$("a", "b", "dest") ;;
    SRet (ELdA 2 "dest")
  ).

(* struct/vec2.h:373-376 *)
Definition glms_vec2_subadd : fundef := Fun
  [("a", Some 2%nat); ("b", Some 2%nat); ("dest", Some 2%nat)]
  [] (
    SExp glm_vec2_subadd$("a", "b", "dest") ;;
    SRet (ELdA 2 "dest")
  ).

(* struct/vec2.h:389-392 *)
Definition glms_vec2_muladd : fundef := Fun
  [("a", Some 2%nat); ("b", Some 2%nat); ("dest", Some 2%nat)]
  [] (
    SExp glm_vec2_muladd$("a", "b", "dest") ;;
    SRet (ELdA 2 "dest")
  ).

(* struct/vec2.h:405-408 *)
Definition glms_vec2_muladds : fundef := Fun
  [("a", Some 2%nat); ("s", None); ("dest", Some 2%nat)]
  [] (
    SExp glm_vec2_muladds$("a", "s", "dest") ;;
    SRet (ELdA 2 "dest")
  ).

(* struct/vec2.h:421-424 *)
Definition glms_vec2_maxadd : fundef := Fun
  [("a", Some 2%nat); ("b", Some 2%nat); ("dest", Some 2%nat)]
  [] (
    SExp glm_vec2_maxadd$("a", "b", "dest") ;;
    SRet (ELdA 2 "dest")
  ).

(* struct/vec2.h:437-440 *)
Definition glms_vec2_minadd : fundef := Fun
  [("a", Some 2%nat); ("b", Some 2%nat); ("dest", Some 2%nat)]
  [] (
    SExp glm_vec2_minadd$("a", "b", "dest") ;;
    SRet (ELdA 2 "dest")
  ).

(* struct/vec2.h:453-456 *)
Definition glms_vec2_subsub : fundef := Fun
  [("a", Some 2%nat); ("b", Some 2%nat); ("dest", Some 2%nat)]
  [] (
    SExp glm_vec2_subsub$("a", "b", "dest") ;;
    SRet (ELdA 2 "dest")
  ).

(* struct/vec2.h:469-472 *)
Definition glms_vec2_addsub : fundef := Fun
  [("a", Some 2%nat); ("b", Some 2%nat); ("dest", Some 2%nat)]
  [] (
    SExp glm_vec2_addsub$("a", "b", "dest") ;;
    SRet (ELdA 2 "dest")
  ).

(* struct/vec2.h:485-488 *)
Definition glms_vec2_mulsub : fundef := Fun
  [("a", Some 2%nat); ("b", Some 2%nat); ("dest", Some 2%nat)]
  [] (
    SExp glm_vec2_mulsub$("a", "b", "dest") ;;
    SRet (ELdA 2 "dest")
  ).

(* struct/vec2.h:501-504 *)
Definition glms_vec2_mulsubs : fundef := Fun
  [("a", Some 2%nat); ("s", None); ("dest", Some 2%nat)]
  [] (
    SExp glm_vec2_mulsubs$("a", "s", "dest") ;;
    SRet (ELdA 2 "dest")
  ).

(* struct/vec2.h:517-520 *)
Definition glms_vec2_maxsub : fundef := Fun
  [("a", Some 2%nat); ("b", Some 2%nat); ("dest", Some 2%nat)]
  [] (
    SExp glm_vec2_maxsub$("a", "b", "dest") ;;
    SRet (ELdA 2 "dest")
  ).

(* struct/vec2.h:533-536 *)
Definition glms_vec2_minsub : fundef := Fun
  [("a", Some 2%nat); ("b", Some 2%nat); ("dest", Some 2%nat)]
  [] (
    SExp glm_vec2_minsub$("a", "b", "dest") ;;
    SRet (ELdA 2 "dest")
  ).

(* struct/vec2.h:546-549 *)
Definition glms_vec2_negate : fundef := Fun
  [("v", Some 2%nat)]
  [] (
    SExp glm_vec2_negate$("v") ;;
    SRet (ELdA 2 "v")
  ).

(* struct/vec2.h:559-562 *)
Definition glms_vec2_normalize : fundef := Fun
  [("v", Some 2%nat)]
  [] (
    SExp glm_vec2_normalize$("v") ;;
    SRet (ELdA 2 "v")
  ).

(* struct/vec2.h:573-577 *)
Definition glms_vec2_rotate : fundef := Fun
  [("v", Some 2%nat); ("angle", None)]
  [("r", Some 2%nat)] (
    SExp glm_vec2_rotate$("v", "angle", "r") ;;
    SRet (ELdA 2 "r")
  ).

(* struct/vec2.h:588-592 *)
Definition glms_vec2_center : fundef := Fun
  [("a", Some 2%nat); ("b", Some 2%nat)]
  [("r", Some 2%nat)] (
    SExp glm_vec2_center$("a", "b", "r") ;;
    SRet (ELdA 2 "r")
  ).

(* struct/vec2.h:603-605 *)
Definition glms_vec2_distance : fundef := Fun
  [("a", Some 2%nat); ("b", Some 2%nat)]
  [] (
    SRet glm_vec2_distance$("a", "b")
  ).

(* struct/vec2.h:616-618 *)
Definition glms_vec2_distance2 : fundef := Fun
  [("a", Some 2%nat); ("b", Some 2%nat)]
  [] (
    SRet glm_vec2_distance2$("a", "b")
  ).

(* struct/vec2.h:629-633 *)
Definition glms_vec2_maxv : fundef := Fun
  [("a", Some 2%nat); ("b", Some 2%nat)]
  [("r", Some 2%nat)] (
    SExp glm_vec2_maxv$("a", "b", "r") ;;
    SRet (ELdA 2 "r")
  ).

(* struct/vec2.h:644-648 *)
Definition glms_vec2_minv : fundef := Fun
  [("a", Some 2%nat); ("b", Some 2%nat)]
  [("r", Some 2%nat)] (
    SExp glm_vec2_minv$("a", "b", "r") ;;
    SRet (ELdA 2 "r")
  ).

(* struct/vec2.h:660-663 *)
Definition glms_vec2_clamp : fundef := Fun
  [("v", Some 2%nat); ("minVal", None); ("maxVal", None)]
  [] (
    SExp glm_vec2_clamp$("v", "minVal", "maxVal") ;;
    SRet (ELdA 2 "v")
  ).

(* struct/vec2.h:677-681 *)
Definition glms_vec2_lerp : fundef := Fun
  [("from", Some 2%nat); ("to", Some 2%nat); ("t", None)]
  [("r", Some 2%nat)] (
    SExp glm_vec2_lerp$("from", "to", "t", "r") ;;
    SRet (ELdA 2 "r")
  ).

(* struct/vec2.h:692-696 *)
Definition glms_vec2_step : fundef := Fun
  [("edge", Some 2%nat); ("x", Some 2%nat)]
  [("r", Some 2%nat)] (
    SExp glm_vec2_step$("edge", "x", "r") ;;
    SRet (ELdA 2 "r")
  ).

(* struct/vec2.h:706-710 *)
Definition glms_vec2_make : fundef := Fun
  [("src", None)]
  [("dest", Some 2%nat)] (
    SExp glm_vec2_make$("src", "dest") ;;
    SRet (ELdA 2 "dest")
  ).

(* struct/vec2.h:721-725 *)
Definition glms_vec2_reflect : fundef := Fun
  [("v", Some 2%nat); ("n", Some 2%nat)]
  [("dest", Some 2%nat)] (
    SExp glm_vec2_reflect$("v", "n", "dest") ;;
    SRet (ELdA 2 "dest")
  ).

(* struct/vec2.h:743-745 *)
Definition glms_vec2_refract : fundef := Fun
  [("v", Some 2%nat); ("n", Some 2%nat); ("eta", None); ("dest", None)]
  [] (
    SRet glm_vec2_refract$("v", "n", "eta", "dest")
  ).

