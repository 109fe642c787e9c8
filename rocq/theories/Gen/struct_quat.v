(** Functions of include/cglm/struct/quat.h (configuration: scalar), written by tools/gen.py.
    The comment above each definition gives file and lines in /repo/include/cglm. *)
From Coq Require Import String List ZArith.
From Verif Require Import MiniC.
From Verif.Gen Require Import quat vec3 vec4.
Import ListNotations.
Open Scope string_scope.
Open Scope Z_scope.
Open Scope mc_scope.

(* struct/quat.h:82-86 *)
Definition glms_quat_identity : fundef := Fun
  []
  [("dest", Some 4%nat)] (
    SExp glm_quat_identity$("dest") ;;
    SRet (ELdA 4 "dest")
  ).

(* struct/quat.h:98-105 *)
Definition glms_quat_identity_array : fundef := Fun
  [("q", None); ("count", None)]
  [("v", Some 4%nat); ("i", None)] (
    "v".[0] ::= (EF 0 1) ;;
    "v".[1] ::= (EF 0 1) ;;
    "v".[2] ::= (EF 0 1) ;;
    "v".[3] ::= (EF 1 1) ;;
    (SFor "i" (EI 0) "count" (
      SExp glm_vec4_copy$("v", (EIx "q" 4 "i"))
    ))
  ).

(* struct/quat.h:118-122 *)
Definition glms_quat_init : fundef := Fun
  [("x", None); ("y", None); ("z", None); ("w", None)]
  [("dest", Some 4%nat)] (
    SExp glm_quat_init$("dest", "x", "y", "z", "w") ;;
    SRet (ELdA 4 "dest")
  ).

(* struct/quat.h:133-137 *)
Definition glms_quatv : fundef := Fun
  [("angle", None); ("axis", Some 3%nat)]
  [("dest", Some 4%nat)] (
    SExp glm_quatv$("dest", "angle", "axis") ;;
    SRet (ELdA 4 "dest")
  ).

(* struct/quat.h:150-154 *)
Definition glms_quat : fundef := Fun
  [("angle", None); ("x", None); ("y", None); ("z", None)]
  [("dest", Some 4%nat)] (
    SExp glm_quat$("dest", "angle", "x", "y", "z") ;;
    SRet (ELdA 4 "dest")
  ).

(* struct/quat.h:165-169 *)
Definition glms_quat_from_vecs : fundef := Fun
  [("a", Some 3%nat); ("b", Some 3%nat)]
  [("dest", Some 4%nat)] (
    SExp glm_quat_from_vecs$("a", "b", "dest") ;;
    SRet (ELdA 4 "dest")
  ).

(* struct/quat.h:178-180 *)
Definition glms_quat_norm : fundef := Fun
  [("q", Some 4%nat)]
  [] (
    SRet glm_quat_norm$("q")
  ).

(* struct/quat.h:190-194 *)
Definition glms_quat_normalize : fundef := Fun
  [("q", Some 4%nat)]
  [("dest", Some 4%nat)] (
    SExp glm_quat_normalize_to$("q", "dest") ;;
    SRet (ELdA 4 "dest")
  ).

(* struct/quat.h:205-207 *)
Definition glms_quat_dot : fundef := Fun
  [("p", Some 4%nat); ("q", Some 4%nat)]
  [] (
    SRet glm_quat_dot$("p", "q")
  ).

(* struct/quat.h:217-221 *)
Definition glms_quat_conjugate : fundef := Fun
  [("q", Some 4%nat)]
  [("dest", Some 4%nat)] (
    SExp glm_quat_conjugate$("q", "dest") ;;
    SRet (ELdA 4 "dest")
  ).

(* struct/quat.h:231-235 *)
Definition glms_quat_inv : fundef := Fun
  [("q", Some 4%nat)]
  [("dest", Some 4%nat)] (
    SExp glm_quat_inv$("q", "dest") ;;
    SRet (ELdA 4 "dest")
  ).

(* struct/quat.h:246-250 *)
Definition glms_quat_add : fundef := Fun
  [("p", Some 4%nat); ("q", Some 4%nat)]
  [("dest", Some 4%nat)] (
    SExp glm_quat_add$("p", "q", "dest") ;;
    SRet (ELdA 4 "dest")
  ).

(* struct/quat.h:261-265 *)
Definition glms_quat_sub : fundef := Fun
  [("p", Some 4%nat); ("q", Some 4%nat)]
  [("dest", Some 4%nat)] (
    SExp glm_quat_sub$("p", "q", "dest") ;;
    SRet (ELdA 4 "dest")
  ).

(* struct/quat.h:274-278 *)
Definition glms_quat_imagn : fundef := Fun
  [("q", Some 4%nat)]
  [("dest", Some 3%nat)] (
    SExp glm_normalize_to$("q", "dest") ;;
    SRet (ELdA 3 "dest")
  ).

(* struct/quat.h:287-289 *)
Definition glms_quat_imaglen : fundef := Fun
  [("q", Some 4%nat)]
  [] (
    SRet glm_quat_imaglen$("q")
  ).

(* struct/quat.h:298-300 *)
Definition glms_quat_angle : fundef := Fun
  [("q", Some 4%nat)]
  [] (
    SRet glm_quat_angle$("q")
  ).

(* struct/quat.h:310-314 *)
Definition glms_quat_axis : fundef := Fun
  [("q", Some 4%nat)]
  [("dest", Some 3%nat)] (
    SExp glm_quat_axis$("q", "dest") ;;
    SRet (ELdA 3 "dest")
  ).

(* struct/quat.h:330-334 *)
Definition glms_quat_mul : fundef := Fun
  [("p", Some 4%nat); ("q", Some 4%nat)]
  [("dest", Some 4%nat)] (
    SExp glm_quat_mul$("p", "q", "dest") ;;
    SRet (ELdA 4 "dest")
  ).

(* struct/quat.h:344-348 *)
Definition glms_quat_mat4 : fundef := Fun
  [("q", Some 4%nat)]
  [("dest", Some 16%nat)] (
    SExp glm_quat_mat4$("q", "dest") ;;
    SRet (ELdA 16 "dest")
  ).

(* struct/quat.h:358-362 *)
Definition glms_quat_mat4t : fundef := Fun
  [("q", Some 4%nat)]
  [("dest", Some 16%nat)] (
    SExp glm_quat_mat4t$("q", "dest") ;;
    SRet (ELdA 16 "dest")
  ).

(* struct/quat.h:372-376 *)
Definition glms_quat_mat3 : fundef := Fun
  [("q", Some 4%nat)]
  [("dest", Some 9%nat)] (
    SExp glm_quat_mat3$("q", "dest") ;;
    SRet (ELdA 9 "dest")
  ).

(* struct/quat.h:386-390 *)
Definition glms_quat_mat3t : fundef := Fun
  [("q", Some 4%nat)]
  [("dest", Some 9%nat)] (
    SExp glm_quat_mat3t$("q", "dest") ;;
    SRet (ELdA 9 "dest")
  ).

(* struct/quat.h:403-407 *)
Definition glms_quat_lerp : fundef := Fun
  [("from", Some 4%nat); ("to", Some 4%nat); ("t", None)]
  [("dest", Some 4%nat)] (
    SExp glm_quat_lerp$("from", "to", "t", "dest") ;;
    SRet (ELdA 4 "dest")
  ).

(* struct/quat.h:420-424 *)
Definition glms_quat_lerpc : fundef := Fun
  [("from", Some 4%nat); ("to", Some 4%nat); ("t", None)]
  [("dest", Some 4%nat)] (
    SExp glm_quat_lerpc$("from", "to", "t", "dest") ;;
    SRet (ELdA 4 "dest")
  ).

(* struct/quat.h:438-442 *)
Definition glms_quat_nlerp : fundef := Fun
  [("from", Some 4%nat); ("to", Some 4%nat); ("t", None)]
  [("dest", Some 4%nat)] (
    SExp glm_quat_nlerp$("from", "to", "t", "dest") ;;
    SRet (ELdA 4 "dest")
  ).

(* struct/quat.h:455-459 *)
Definition glms_quat_slerp : fundef := Fun
  [("from", Some 4%nat); ("to", Some 4%nat); ("t", None)]
  [("dest", Some 4%nat)] (
    SExp glm_quat_slerp$("from", "to", "t", "dest") ;;
    SRet (ELdA 4 "dest")
  ).

(* struct/quat.h:472-476 *)
Definition glms_quat_slerp_longest : fundef := Fun
  [("from", Some 4%nat); ("to", Some 4%nat); ("t", None)]
  [("dest", Some 4%nat)] (
    SExp glm_quat_slerp_longest$("from", "to", "t", "dest") ;;
    SRet (ELdA 4 "dest")
  ).

(* struct/quat.h:487-491 *)
Definition glms_quat_look : fundef := Fun
  [("eye", Some 3%nat); ("ori", Some 4%nat)]
  [("dest", Some 16%nat)] (
    SExp glm_quat_look$("eye", "ori", "dest") ;;
    SRet (ELdA 16 "dest")
  ).

(* struct/quat.h:502-506 *)
Definition glms_quat_for : fundef := Fun
  [("dir", Some 3%nat); ("up", Some 3%nat)]
  [("dest", Some 4%nat)] (
    SExp glm_quat_for$("dir", "up", "dest") ;;
    SRet (ELdA 4 "dest")
  ).

(* struct/quat.h:519-523 *)
Definition glms_quat_forp : fundef := Fun
  [("from", Some 3%nat); ("to", Some 3%nat); ("up", Some 3%nat)]
  [("dest", Some 4%nat)] (
    SExp glm_quat_forp$("from", "to", "up", "dest") ;;
    SRet (ELdA 4 "dest")
  ).

(* struct/quat.h:534-538 *)
Definition glms_quat_rotatev : fundef := Fun
  [("q", Some 4%nat); ("v", Some 3%nat)]
  [("dest", Some 3%nat)] (
    SExp glm_quat_rotatev$("q", "v", "dest") ;;
    SRet (ELdA 3 "dest")
  ).

(* struct/quat.h:549-552 *)
Definition glms_quat_rotate : fundef := Fun
  [("m", Some 16%nat); ("q", Some 4%nat)]
  [] (
    SExp glm_quat_rotate$("m", "q", "m") ;;
    SRet (ELdA 16 "m")
  ).

(* struct/quat.h:563-566 *)
Definition glms_quat_rotate_at : fundef := Fun
  [("m", Some 16%nat); ("q", Some 4%nat); ("pivot", Some 3%nat)]
  [] (
    SExp glm_quat_rotate_at$("m", "q", "pivot") ;;
    SRet (ELdA 16 "m")
  ).

(* struct/quat.h:581-585 *)
Definition glms_quat_rotate_atm : fundef := Fun
  [("q", Some 4%nat); ("pivot", Some 3%nat)]
  [("dest", Some 16%nat)] (
    SExp glm_quat_rotate_atm$("dest", "q", "pivot") ;;
    SRet (ELdA 16 "dest")
  ).

(* struct/quat.h:595-599 *)
Definition glms_quat_make : fundef := Fun
  [("src", None)]
  [("dest", Some 4%nat)] (
    SExp glm_quat_make$("src", "dest") ;;
    SRet (ELdA 4 "dest")
  ).

