(** Functions of include/cglm/struct/box.h (configuration: scalar), written by tools/gen.py.
    The comment above each definition gives file and lines in /repo/include/cglm. *)
From Coq Require Import String List ZArith.
From Verif Require Import MiniC.
From Verif.Gen Require Import box struct_vec3_ext struct_vec3 struct_vec4 vec3.
Import ListNotations.
Open Scope string_scope.
Open Scope Z_scope.
Open Scope mc_scope.

(* struct/box.h:30-37 *)
Definition glms_aabb_transform : fundef := Fun
  [("box", None); ("m", Some 16%nat); ("dest", None)]
  [("rawBox", Some 6%nat); ("rawDest", Some 6%nat)] (
    SExp glms_vec3_unpack$("rawBox", "box", (EI 2)) ;;
    SExp glm_aabb_transform$("rawBox", "m", "rawDest") ;;
    SExp glms_vec3_pack$("dest", "rawDest", (EI 2))
  ).

(* struct/box.h:51-60 *)
Definition glms_aabb_merge : fundef := Fun
  [("box1", None); ("box2", None); ("dest", None)]
  [("rawBox1", Some 6%nat); ("rawBox2", Some 6%nat); ("rawDest", Some 6%nat)] (
    SExp glms_vec3_unpack$("rawBox1", "box1", (EI 2)) ;;
    SExp glms_vec3_unpack$("rawBox2", "box2", (EI 2)) ;;
    SExp glm_aabb_merge$("rawBox1", "rawBox2", "rawDest") ;;
    SExp glms_vec3_pack$("dest", "rawDest", (EI 2))
  ).

(* struct/box.h:75-84 *)
Definition glms_aabb_crop : fundef := Fun
  [("box", None); ("cropBox", None); ("dest", None)]
  [("rawBox", Some 6%nat); ("rawCropBox", Some 6%nat); ("rawDest", Some 6%nat)] (
    SExp glms_vec3_unpack$("rawBox", "box", (EI 2)) ;;
    SExp glms_vec3_unpack$("rawCropBox", "cropBox", (EI 2)) ;;
    SExp glm_aabb_crop$("rawBox", "rawCropBox", "rawDest") ;;
    SExp glms_vec3_pack$("dest", "rawDest", (EI 2))
  ).

(* struct/box.h:100-106 *)
Definition glms_aabb_crop_until : fundef := Fun
  [("box", None); ("cropBox", None); ("clampBox", None); ("dest", None)]
  [] (
    SExp glms_aabb_crop$("box", "cropBox", "dest") ;;
    SExp glms_aabb_merge$("clampBox", "dest", "dest")
  ).

(* struct/box.h:124-131 *)
Definition glms_aabb_frustum : fundef := Fun
  [("box", None); ("planes", None)]
  [("rawBox", Some 6%nat); ("rawPlanes", Some 24%nat)] (
    SExp glms_vec3_unpack$("rawBox", "box", (EI 2)) ;;
    SExp glms_vec4_unpack$("rawPlanes", "planes", (EI 6)) ;;
    SRet glm_aabb_frustum$("rawBox", "rawPlanes")
  ).

(* struct/box.h:140-143 *)
Definition glms_aabb_invalidate : fundef := Fun
  [("box", None)]
  [] (
    SStA 3 "box".[0:3] glms_vec3_broadcast$((EF 340282346638528859811704183484516925440 1)) ;;
    SStA 3 "box".[1:3] glms_vec3_broadcast$((- (EF 340282346638528859811704183484516925440 1)))
  ).

(* struct/box.h:152-156 *)
Definition glms_aabb_isvalid : fundef := Fun
  [("box", None)]
  [("rawBox", Some 6%nat)] (
    SExp glms_vec3_unpack$("rawBox", "box", (EI 2)) ;;
    SRet glm_aabb_isvalid$("rawBox")
  ).

(* struct/box.h:165-167 *)
Definition glms_aabb_size : fundef := Fun
  [("box", None)]
  [] (
    SRet glm_vec3_distance$("box".[0:3], "box".[1:3])
  ).

(* struct/box.h:176-178 *)
Definition glms_aabb_radius : fundef := Fun
  [("box", None)]
  [] (
    SRet (glms_aabb_size$("box") * (EF 1 2))
  ).

(* struct/box.h:188-190 *)
Definition glms_aabb_center : fundef := Fun
  [("box", None)]
  [] (
    SRet glms_vec3_center$((ELdA 3 "box".[0:3]), (ELdA 3 "box".[1:3]))
  ).

(* struct/box.h:200-207 *)
Definition glms_aabb_aabb : fundef := Fun
  [("box", None); ("other", None)]
  [("rawBox", Some 6%nat); ("rawOther", Some 6%nat)] (
    SExp glms_vec3_unpack$("rawBox", "box", (EI 2)) ;;
    SExp glms_vec3_unpack$("rawOther", "other", (EI 2)) ;;
    SRet glm_aabb_aabb$("rawBox", "rawOther")
  ).

(* struct/box.h:220-225 *)
Definition glms_aabb_sphere : fundef := Fun
  [("box", None); ("s", Some 4%nat)]
  [("rawBox", Some 6%nat)] (
    SExp glms_vec3_unpack$("rawBox", "box", (EI 2)) ;;
    SRet glm_aabb_sphere$("rawBox", "s")
  ).

(* struct/box.h:235-240 *)
Definition glms_aabb_point : fundef := Fun
  [("box", None); ("point", Some 3%nat)]
  [("rawBox", Some 6%nat)] (
    SExp glms_vec3_unpack$("rawBox", "box", (EI 2)) ;;
    SRet glm_aabb_point$("rawBox", "point")
  ).

(* struct/box.h:250-257 *)
Definition glms_aabb_contains : fundef := Fun
  [("box", None); ("other", None)]
  [("rawBox", Some 6%nat); ("rawOther", Some 6%nat)] (
    SExp glms_vec3_unpack$("rawBox", "box", (EI 2)) ;;
    SExp glms_vec3_unpack$("rawOther", "other", (EI 2)) ;;
    SRet glm_aabb_contains$("rawBox", "rawOther")
  ).

