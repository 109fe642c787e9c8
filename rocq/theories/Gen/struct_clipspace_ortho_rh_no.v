(** Functions of include/cglm/struct/clipspace/ortho_rh_no.h (configuration: scalar), written by tools/gen.py.
    The comment above each definition gives file and lines in /repo/include/cglm. *)
From Coq Require Import String List ZArith.
From Verif Require Import MiniC.
From Verif.Gen Require Import clipspace_ortho_rh_no struct_vec3.
Import ListNotations.
Open Scope string_scope.
Open Scope Z_scope.
Open Scope mc_scope.

(* struct/clipspace/ortho_rh_no.h:45-51 *)
Definition glms_ortho_rh_no : fundef := Fun
  [("left", None); ("right", None); ("bottom", None); ("top", None); ("nearZ", None); ("farZ", None)]
  [("dest", Some 16%nat)] (
    SExp glm_ortho_rh_no$("left", "right", "bottom", "top", "nearZ", "farZ", "dest") ;;
    SRet (ELdA 16 "dest")
  ).

(* struct/clipspace/ortho_rh_no.h:65-73 *)
Definition glms_ortho_aabb_rh_no : fundef := Fun
  [("box", None)]
  [("dest", Some 16%nat); ("rawBox", Some 6%nat)] (
    SExp glms_vec3_unpack$("rawBox", "box", (EI 2)) ;;
    SExp glm_ortho_aabb_rh_no$("rawBox", "dest") ;;
    SRet (ELdA 16 "dest")
  ).

(* struct/clipspace/ortho_rh_no.h:88-96 *)
Definition glms_ortho_aabb_p_rh_no : fundef := Fun
  [("box", None); ("padding", None)]
  [("dest", Some 16%nat); ("rawBox", Some 6%nat)] (
    SExp glms_vec3_unpack$("rawBox", "box", (EI 2)) ;;
    SExp glm_ortho_aabb_p_rh_no$("rawBox", "padding", "dest") ;;
    SRet (ELdA 16 "dest")
  ).

(* struct/clipspace/ortho_rh_no.h:111-119 *)
Definition glms_ortho_aabb_pz_rh_no : fundef := Fun
  [("box", None); ("padding", None)]
  [("dest", Some 16%nat); ("rawBox", Some 6%nat)] (
    SExp glms_vec3_unpack$("rawBox", "box", (EI 2)) ;;
    SExp glm_ortho_aabb_pz_rh_no$("rawBox", "padding", "dest") ;;
    SRet (ELdA 16 "dest")
  ).

(* struct/clipspace/ortho_rh_no.h:131-135 *)
Definition glms_ortho_default_rh_no : fundef := Fun
  [("aspect", None)]
  [("dest", Some 16%nat)] (
    SExp glm_ortho_default_rh_no$("aspect", "dest") ;;
    SRet (ELdA 16 "dest")
  ).

(* struct/clipspace/ortho_rh_no.h:148-152 *)
Definition glms_ortho_default_s_rh_no : fundef := Fun
  [("aspect", None); ("size", None)]
  [("dest", Some 16%nat)] (
    SExp glm_ortho_default_s_rh_no$("aspect", "size", "dest") ;;
    SRet (ELdA 16 "dest")
  ).

