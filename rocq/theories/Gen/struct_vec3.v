(** Functions of include/cglm/struct/vec3.h (configuration: scalar), written by tools/gen.py.
    The comment above each definition gives file and lines in /repo/include/cglm. *)
From Coq Require Import String List ZArith.
From Verif Require Import MiniC.
From Verif.Gen Require Import vec3.
Import ListNotations.
Open Scope string_scope.
Open Scope Z_scope.
Open Scope mc_scope.

(* struct/vec3.h:121-125 *)
Definition glms_vec3 : fundef := Fun
  [("v4", Some 4%nat)]
  [("r", Some 3%nat)] (
    SExp glm_vec3$("v4", "r") ;;
    SRet (ELdA 3 "r")
  ).

(* struct/vec3.h:136-142 *)
Definition glms_vec3_pack : fundef := Fun
  [("dst", None); ("src", None); ("len", None)]
  [("i", None)] (
    (SFor "i" (EI 0) "len" (
      SExp glm_vec3_copy$((EIx "src" 3 "i"), (EIx "dst" 3 "i"))
    ))
  ).

(* struct/vec3.h:153-159 *)
Definition glms_vec3_unpack : fundef := Fun
  [("dst", None); ("src", None); ("len", None)]
  [("i", None)] (
    (SFor "i" (EI 0) "len" (
      SExp glm_vec3_copy$((EIx "src" 3 "i"), (EIx "dst" 3 "i"))
    ))
  ).

(* struct/vec3.h:168-172 *)
Definition glms_vec3_zero : fundef := Fun
  []
  [("r", Some 3%nat)] (
    SExp glm_vec3_zero$("r") ;;
    SRet (ELdA 3 "r")
  ).

(* struct/vec3.h:181-185 *)
Definition glms_vec3_one : fundef := Fun
  []
  [("r", Some 3%nat)] (
    SExp glm_vec3_one$("r") ;;
    SRet (ELdA 3 "r")
  ).

(* struct/vec3.h:197-199 *)
Definition glms_vec3_dot : fundef := Fun
  [("a", Some 3%nat); ("b", Some 3%nat)]
  [] (
    SRet glm_vec3_dot$("a", "b")
  ).

(* struct/vec3.h:214-216 *)
Definition glms_vec3_norm2 : fundef := Fun
  [("v", Some 3%nat)]
  [] (
    SRet glm_vec3_norm2$("v")
  ).

(* struct/vec3.h:227-229 *)
Definition glms_vec3_norm : fundef := Fun
  [("v", Some 3%nat)]
  [] (
    SRet glm_vec3_norm$("v")
  ).

(* struct/vec3.h:247-249 *)
Definition glms_vec3_norm_one : fundef := Fun
  [("v", Some 3%nat)]
  [] (
    SRet glm_vec3_norm_one$("v")
  ).

(* struct/vec3.h:266-268 *)
Definition glms_vec3_norm_inf : fundef := Fun
  [("v", Some 3%nat)]
  [] (
    SRet glm_vec3_norm_inf$("v")
  ).

(* struct/vec3.h:279-283 *)
Definition glms_vec3_add : fundef := Fun
  [("a", Some 3%nat); ("b", Some 3%nat)]
  [("r", Some 3%nat)] (
    SExp glm_vec3_add$("a", "b", "r") ;;
    SRet (ELdA 3 "r")
  ).

(* struct/vec3.h:294-298 *)
Definition glms_vec3_adds : fundef := Fun
  [("a", Some 3%nat); ("s", None)]
  [("r", Some 3%nat)] (
    SExp glm_vec3_adds$("a", "s", "r") ;;
    SRet (ELdA 3 "r")
  ).

(* struct/vec3.h:309-313 *)
Definition glms_vec3_sub : fundef := Fun
  [("a", Some 3%nat); ("b", Some 3%nat)]
  [("r", Some 3%nat)] (
    SExp glm_vec3_sub$("a", "b", "r") ;;
    SRet (ELdA 3 "r")
  ).

(* struct/vec3.h:324-328 *)
Definition glms_vec3_subs : fundef := Fun
  [("a", Some 3%nat); ("s", None)]
  [("r", Some 3%nat)] (
    SExp glm_vec3_subs$("a", "s", "r") ;;
    SRet (ELdA 3 "r")
  ).

(* struct/vec3.h:339-343 *)
Definition glms_vec3_mul : fundef := Fun
  [("a", Some 3%nat); ("b", Some 3%nat)]
  [("r", Some 3%nat)] (
    SExp glm_vec3_mul$("a", "b", "r") ;;
    SRet (ELdA 3 "r")
  ).

(* struct/vec3.h:354-358 *)
Definition glms_vec3_scale : fundef := Fun
  [("v", Some 3%nat); ("s", None)]
  [("r", Some 3%nat)] (
    SExp glm_vec3_scale$("v", "s", "r") ;;
    SRet (ELdA 3 "r")
  ).

(* struct/vec3.h:369-373 *)
Definition glms_vec3_scale_as : fundef := Fun
  [("v", Some 3%nat); ("s", None)]
  [("r", Some 3%nat)] (
    SExp glm_vec3_scale_as$("v", "s", "r") ;;
    SRet (ELdA 3 "r")
  ).

(* struct/vec3.h:384-388 *)
Definition glms_vec3_div : fundef := Fun
  [("a", Some 3%nat); ("b", Some 3%nat)]
  [("r", Some 3%nat)] (
    SExp glm_vec3_div$("a", "b", "r") ;;
    SRet (ELdA 3 "r")
  ).

(* struct/vec3.h:399-403 *)
Definition glms_vec3_divs : fundef := Fun
  [("a", Some 3%nat); ("s", None)]
  [("r", Some 3%nat)] (
    SExp glm_vec3_divs$("a", "s", "r") ;;
    SRet (ELdA 3 "r")
  ).

(* struct/vec3.h:416-419 *)
Definition glms_vec3_addadd : fundef := Fun
  [("a", Some 3%nat); ("b", Some 3%nat); ("dest", Some 3%nat)]
  [] (
    SExp glm_vec3_addadd$("a", "b", "dest") ;;
    SRet (ELdA 3 "dest")
  ).

(* struct/vec3.h:432-435 *)
Definition glms_vec3_subadd : fundef := Fun
  [("a", Some 3%nat); ("b", Some 3%nat); ("dest", Some 3%nat)]
  [] (
    SExp glm_vec3_subadd$("a", "b", "dest") ;;
    SRet (ELdA 3 "dest")
  ).

(* struct/vec3.h:448-451 *)
Definition glms_vec3_muladd : fundef := Fun
  [("a", Some 3%nat); ("b", Some 3%nat); ("dest", Some 3%nat)]
  [] (
    SExp glm_vec3_muladd$("a", "b", "dest") ;;
    SRet (ELdA 3 "dest")
  ).

(* struct/vec3.h:464-467 *)
Definition glms_vec3_muladds : fundef := Fun
  [("a", Some 3%nat); ("s", None); ("dest", Some 3%nat)]
  [] (
    SExp glm_vec3_muladds$("a", "s", "dest") ;;
    SRet (ELdA 3 "dest")
  ).

(* struct/vec3.h:480-483 *)
Definition glms_vec3_maxadd : fundef := Fun
  [("a", Some 3%nat); ("b", Some 3%nat); ("dest", Some 3%nat)]
  [] (
    SExp glm_vec3_maxadd$("a", "b", "dest") ;;
    SRet (ELdA 3 "dest")
  ).

(* struct/vec3.h:496-499 *)
Definition glms_vec3_minadd : fundef := Fun
  [("a", Some 3%nat); ("b", Some 3%nat); ("dest", Some 3%nat)]
  [] (
    SExp glm_vec3_minadd$("a", "b", "dest") ;;
    SRet (ELdA 3 "dest")
  ).

(* struct/vec3.h:512-515 *)
Definition glms_vec3_subsub : fundef := Fun
  [("a", Some 3%nat); ("b", Some 3%nat); ("dest", Some 3%nat)]
  [] (
    SExp glm_vec3_subsub$("a", "b", "dest") ;;
    SRet (ELdA 3 "dest")
  ).

(* struct/vec3.h:528-531 *)
Definition glms_vec3_addsub : fundef := Fun
  [("a", Some 3%nat); ("b", Some 3%nat); ("dest", Some 3%nat)]
  [] (
    SExp glm_vec3_addsub$("a", "b", "dest") ;;
    SRet (ELdA 3 "dest")
  ).

(* struct/vec3.h:544-547 *)
Definition glms_vec3_mulsub : fundef := Fun
  [("a", Some 3%nat); ("b", Some 3%nat); ("dest", Some 3%nat)]
  [] (
    SExp glm_vec3_mulsub$("a", "b", "dest") ;;
    SRet (ELdA 3 "dest")
  ).

(* struct/vec3.h:560-563 *)
Definition glms_vec3_mulsubs : fundef := Fun
  [("a", Some 3%nat); ("s", None); ("dest", Some 3%nat)]
  [] (
    SExp glm_vec3_mulsubs$("a", "s", "dest") ;;
    SRet (ELdA 3 "dest")
  ).

(* struct/vec3.h:576-579 *)
Definition glms_vec3_maxsub : fundef := Fun
  [("a", Some 3%nat); ("b", Some 3%nat); ("dest", Some 3%nat)]
  [] (
    SExp glm_vec3_maxsub$("a", "b", "dest") ;;
    SRet (ELdA 3 "dest")
  ).

(* struct/vec3.h:592-595 *)
Definition glms_vec3_minsub : fundef := Fun
  [("a", Some 3%nat); ("b", Some 3%nat); ("dest", Some 3%nat)]
  [] (
    SExp glm_vec3_minsub$("a", "b", "dest") ;;
    SRet (ELdA 3 "dest")
  ).

(* struct/vec3.h:605-608 *)
Definition glms_vec3_flipsign : fundef := Fun
  [("v", Some 3%nat)]
  [] (
    SExp glm_vec3_negate$("v") ;;
    SRet (ELdA 3 "v")
  ).

(* struct/vec3.h:618-621 *)
Definition glms_vec3_negate : fundef := Fun
  [("v", Some 3%nat)]
  [] (
    SExp glm_vec3_negate$("v") ;;
    SRet (ELdA 3 "v")
  ).

(* struct/vec3.h:631-634 *)
Definition glms_vec3_normalize : fundef := Fun
  [("v", Some 3%nat)]
  [] (
    SExp glm_vec3_normalize$("v") ;;
    SRet (ELdA 3 "v")
  ).

(* struct/vec3.h:645-649 *)
Definition glms_vec3_cross : fundef := Fun
  [("a", Some 3%nat); ("b", Some 3%nat)]
  [("r", Some 3%nat)] (
    SExp glm_vec3_cross$("a", "b", "r") ;;
    SRet (ELdA 3 "r")
  ).

(* struct/vec3.h:660-664 *)
Definition glms_vec3_crossn : fundef := Fun
  [("a", Some 3%nat); ("b", Some 3%nat)]
  [("r", Some 3%nat)] (
    SExp glm_vec3_crossn$("a", "b", "r") ;;
    SRet (ELdA 3 "r")
  ).

(* struct/vec3.h:676-678 *)
Definition glms_vec3_angle : fundef := Fun
  [("a", Some 3%nat); ("b", Some 3%nat)]
  [] (
    SRet glm_vec3_angle$("a", "b")
  ).

(* struct/vec3.h:690-693 *)
Definition glms_vec3_rotate : fundef := Fun
  [("v", Some 3%nat); ("angle", None); ("axis", Some 3%nat)]
  [] (
    SExp glm_vec3_rotate$("v", "angle", "axis") ;;
    SRet (ELdA 3 "v")
  ).

(* struct/vec3.h:710-714 *)
Definition glms_vec3_rotate_m4 : fundef := Fun
  [("m", Some 16%nat); ("v", Some 3%nat)]
  [("r", Some 3%nat)] (
    SExp glm_vec3_rotate_m4$("m", "v", "r") ;;
    SRet (ELdA 3 "r")
  ).

(* struct/vec3.h:725-729 *)
Definition glms_vec3_rotate_m3 : fundef := Fun
  [("m", Some 9%nat); ("v", Some 3%nat)]
  [("r", Some 3%nat)] (
    SExp glm_vec3_rotate_m3$("m", "v", "r") ;;
    SRet (ELdA 3 "r")
  ).

(* struct/vec3.h:740-744 *)
Definition glms_vec3_proj : fundef := Fun
  [("a", Some 3%nat); ("b", Some 3%nat)]
  [("r", Some 3%nat)] (
    SExp glm_vec3_proj$("a", "b", "r") ;;
    SRet (ELdA 3 "r")
  ).

(* struct/vec3.h:755-759 *)
Definition glms_vec3_center : fundef := Fun
  [("a", Some 3%nat); ("b", Some 3%nat)]
  [("r", Some 3%nat)] (
    SExp glm_vec3_center$("a", "b", "r") ;;
    SRet (ELdA 3 "r")
  ).

(* struct/vec3.h:770-772 *)
Definition glms_vec3_distance : fundef := Fun
  [("a", Some 3%nat); ("b", Some 3%nat)]
  [] (
    SRet glm_vec3_distance$("a", "b")
  ).

(* struct/vec3.h:783-785 *)
Definition glms_vec3_distance2 : fundef := Fun
  [("a", Some 3%nat); ("b", Some 3%nat)]
  [] (
    SRet glm_vec3_distance2$("a", "b")
  ).

(* struct/vec3.h:796-800 *)
Definition glms_vec3_maxv : fundef := Fun
  [("a", Some 3%nat); ("b", Some 3%nat)]
  [("r", Some 3%nat)] (
    SExp glm_vec3_maxv$("a", "b", "r") ;;
    SRet (ELdA 3 "r")
  ).

(* struct/vec3.h:811-815 *)
Definition glms_vec3_minv : fundef := Fun
  [("a", Some 3%nat); ("b", Some 3%nat)]
  [("r", Some 3%nat)] (
    SExp glm_vec3_minv$("a", "b", "r") ;;
    SRet (ELdA 3 "r")
  ).

(* struct/vec3.h:825-829 *)
Definition glms_vec3_ortho : fundef := Fun
  [("v", Some 3%nat)]
  [("r", Some 3%nat)] (
    SExp glm_vec3_ortho$("v", "r") ;;
    SRet (ELdA 3 "r")
  ).

(* struct/vec3.h:841-844 *)
Definition glms_vec3_clamp : fundef := Fun
  [("v", Some 3%nat); ("minVal", None); ("maxVal", None)]
  [] (
    SExp glm_vec3_clamp$("v", "minVal", "maxVal") ;;
    SRet (ELdA 3 "v")
  ).

(* struct/vec3.h:858-862 *)
Definition glms_vec3_lerp : fundef := Fun
  [("from", Some 3%nat); ("to", Some 3%nat); ("t", None)]
  [("r", Some 3%nat)] (
    SExp glm_vec3_lerp$("from", "to", "t", "r") ;;
    SRet (ELdA 3 "r")
  ).

(* struct/vec3.h:876-880 *)
Definition glms_vec3_lerpc : fundef := Fun
  [("from", Some 3%nat); ("to", Some 3%nat); ("t", None)]
  [("r", Some 3%nat)] (
    SExp glm_vec3_lerpc$("from", "to", "t", "r") ;;
    SRet (ELdA 3 "r")
  ).

(* struct/vec3.h:894-898 *)
Definition glms_vec3_mix : fundef := Fun
  [("from", Some 3%nat); ("to", Some 3%nat); ("t", None)]
  [("r", Some 3%nat)] (
    SExp glm_vec3_mix$("from", "to", "t", "r") ;;
    SRet (ELdA 3 "r")
  ).

(* struct/vec3.h:912-916 *)
Definition glms_vec3_mixc : fundef := Fun
  [("from", Some 3%nat); ("to", Some 3%nat); ("t", None)]
  [("r", Some 3%nat)] (
    SExp glm_vec3_mixc$("from", "to", "t", "r") ;;
    SRet (ELdA 3 "r")
  ).

(* struct/vec3.h:927-931 *)
Definition glms_vec3_step : fundef := Fun
  [("edge", Some 3%nat); ("x", Some 3%nat)]
  [("r", Some 3%nat)] (
    SExp glm_vec3_step$("edge", "x", "r") ;;
    SRet (ELdA 3 "r")
  ).

(* struct/vec3.h:943-947 *)
Definition glms_vec3_smoothstep_uni : fundef := Fun
  [("edge0", None); ("edge1", None); ("x", Some 3%nat)]
  [("r", Some 3%nat)] (
    SExp glm_vec3_smoothstep_uni$("edge0", "edge1", "x", "r") ;;
    SRet (ELdA 3 "r")
  ).

(* struct/vec3.h:959-963 *)
Definition glms_vec3_smoothstep : fundef := Fun
  [("edge0", Some 3%nat); ("edge1", Some 3%nat); ("x", Some 3%nat)]
  [("r", Some 3%nat)] (
    SExp glm_vec3_smoothstep$("edge0", "edge1", "x", "r") ;;
    SRet (ELdA 3 "r")
  ).

(* struct/vec3.h:977-981 *)
Definition glms_vec3_smoothinterp : fundef := Fun
  [("from", Some 3%nat); ("to", Some 3%nat); ("t", None)]
  [("r", Some 3%nat)] (
    SExp glm_vec3_smoothinterp$("from", "to", "t", "r") ;;
    SRet (ELdA 3 "r")
  ).

(* struct/vec3.h:995-999 *)
Definition glms_vec3_smoothinterpc : fundef := Fun
  [("from", Some 3%nat); ("to", Some 3%nat); ("t", None)]
  [("r", Some 3%nat)] (
    SExp glm_vec3_smoothinterpc$("from", "to", "t", "r") ;;
    SRet (ELdA 3 "r")
  ).

(* struct/vec3.h:1012-1016 *)
Definition glms_cross : fundef := Fun
  [("a", Some 3%nat); ("b", Some 3%nat)]
  [("r", Some 3%nat)] (
    SExp glm_cross$("a", "b", "r") ;;
    SRet (ELdA 3 "r")
  ).

(* struct/vec3.h:1029-1031 *)
Definition glms_dot : fundef := Fun
  [("a", Some 3%nat); ("b", Some 3%nat)]
  [] (
    SRet glm_dot$("a", "b")
  ).

(* struct/vec3.h:1043-1046 *)
Definition glms_normalize : fundef := Fun
  [("v", Some 3%nat)]
  [] (
    SExp glm_normalize$("v") ;;
    SRet (ELdA 3 "v")
  ).

(* struct/vec3.h:1059-1063 *)
Definition glms_vec3_swizzle : fundef := Fun
  [("v", Some 3%nat); ("mask", None)]
  [("dest", Some 3%nat)] (
    SExp glm_vec3_swizzle$("v", "mask", "dest") ;;
    SRet (ELdA 3 "dest")
  ).

(* struct/vec3.h:1073-1077 *)
Definition glms_vec3_make : fundef := Fun
  [("src", None)]
  [("dest", Some 3%nat)] (
    SExp glm_vec3_make$("src", "dest") ;;
    SRet (ELdA 3 "dest")
  ).

(* struct/vec3.h:1091-1095 *)
Definition glms_vec3_faceforward : fundef := Fun
  [("n", Some 3%nat); ("v", Some 3%nat); ("nref", Some 3%nat)]
  [("dest", Some 3%nat)] (
    SExp glm_vec3_faceforward$("n", "v", "nref", "dest") ;;
    SRet (ELdA 3 "dest")
  ).

(* struct/vec3.h:1106-1110 *)
Definition glms_vec3_reflect : fundef := Fun
  [("v", Some 3%nat); ("n", Some 3%nat)]
  [("dest", Some 3%nat)] (
    SExp glm_vec3_reflect$("v", "n", "dest") ;;
    SRet (ELdA 3 "dest")
  ).

(* struct/vec3.h:1128-1130 *)
Definition glms_vec3_refract : fundef := Fun
  [("v", Some 3%nat); ("n", Some 3%nat); ("eta", None); ("dest", None)]
  [] (
    SRet glm_vec3_refract$("v", "n", "eta", "dest")
  ).

