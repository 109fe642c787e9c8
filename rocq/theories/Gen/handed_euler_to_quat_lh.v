(** Functions of include/cglm/handed/euler_to_quat_lh.h (configuration: scalar), written by tools/gen.py.
    The comment above each definition gives file and lines in /repo/include/cglm. *)
From Coq Require Import String List ZArith.
From Verif Require Import MiniC.
Import ListNotations.
Open Scope string_scope.
Open Scope Z_scope.
Open Scope mc_scope.

(* handed/euler_to_quat_lh.h:38-50 *)
Definition glm_euler_xyz_quat_lh : fundef := Fun
  [("angles", None); ("dest", None)]
  [("xc", None); ("yc", None); ("zc", None); ("xs", None); ("ys", None); ("zs", None)] (
    "xs" <~ builtin (PF1 OSin)$((!"angles".[0] * (EF 1 2))) ;;
    "xc" <~ builtin (PF1 OCos)$((!"angles".[0] * (EF 1 2))) ;;
    "ys" <~ builtin (PF1 OSin)$((!"angles".[1] * (EF 1 2))) ;;
    "yc" <~ builtin (PF1 OCos)$((!"angles".[1] * (EF 1 2))) ;;
    "zs" <~ (- builtin (PF1 OSin)$((!"angles".[2] * (EF 1 2)))) ;;
    "zc" <~ builtin (PF1 OCos)$((!"angles".[2] * (EF 1 2))) ;;
    "dest".[0] ::= ((("xc" * "ys") * "zs") + (("xs" * "yc") * "zc")) ;;
    "dest".[1] ::= ((("xc" * "ys") * "zc") - (("xs" * "yc") * "zs")) ;;
    "dest".[2] ::= ((("xc" * "yc") * "zs") + (("xs" * "ys") * "zc")) ;;
    "dest".[3] ::= ((("xc" * "yc") * "zc") - (("xs" * "ys") * "zs"))
  ).

(* handed/euler_to_quat_lh.h:61-73 *)
Definition glm_euler_xzy_quat_lh : fundef := Fun
  [("angles", None); ("dest", None)]
  [("xc", None); ("yc", None); ("zc", None); ("xs", None); ("ys", None); ("zs", None)] (
    "xs" <~ builtin (PF1 OSin)$((!"angles".[0] * (EF 1 2))) ;;
    "xc" <~ builtin (PF1 OCos)$((!"angles".[0] * (EF 1 2))) ;;
    "ys" <~ builtin (PF1 OSin)$((!"angles".[1] * (EF 1 2))) ;;
    "yc" <~ builtin (PF1 OCos)$((!"angles".[1] * (EF 1 2))) ;;
    "zs" <~ (- builtin (PF1 OSin)$((!"angles".[2] * (EF 1 2)))) ;;
    "zc" <~ builtin (PF1 OCos)$((!"angles".[2] * (EF 1 2))) ;;
    "dest".[0] ::= ((((- "xc") * "zs") * "ys") + (("xs" * "zc") * "yc")) ;;
    "dest".[1] ::= ((("xc" * "zc") * "ys") - (("xs" * "zs") * "yc")) ;;
    "dest".[2] ::= ((("xc" * "zs") * "yc") + (("xs" * "zc") * "ys")) ;;
    "dest".[3] ::= ((("xc" * "zc") * "yc") + (("xs" * "zs") * "ys"))
  ).

(* handed/euler_to_quat_lh.h:84-96 *)
Definition glm_euler_yxz_quat_lh : fundef := Fun
  [("angles", None); ("dest", None)]
  [("xc", None); ("yc", None); ("zc", None); ("xs", None); ("ys", None); ("zs", None)] (
    "xs" <~ builtin (PF1 OSin)$((!"angles".[0] * (EF 1 2))) ;;
    "xc" <~ builtin (PF1 OCos)$((!"angles".[0] * (EF 1 2))) ;;
    "ys" <~ builtin (PF1 OSin)$((!"angles".[1] * (EF 1 2))) ;;
    "yc" <~ builtin (PF1 OCos)$((!"angles".[1] * (EF 1 2))) ;;
    "zs" <~ (- builtin (PF1 OSin)$((!"angles".[2] * (EF 1 2)))) ;;
    "zc" <~ builtin (PF1 OCos)$((!"angles".[2] * (EF 1 2))) ;;
    "dest".[0] ::= ((("yc" * "xs") * "zc") + (("ys" * "xc") * "zs")) ;;
    "dest".[1] ::= ((((- "yc") * "xs") * "zs") + (("ys" * "xc") * "zc")) ;;
    "dest".[2] ::= ((("yc" * "xc") * "zs") - (("ys" * "xs") * "zc")) ;;
    "dest".[3] ::= ((("yc" * "xc") * "zc") + (("ys" * "xs") * "zs"))
  ).

(* handed/euler_to_quat_lh.h:107-119 *)
Definition glm_euler_yzx_quat_lh : fundef := Fun
  [("angles", None); ("dest", None)]
  [("xc", None); ("yc", None); ("zc", None); ("xs", None); ("ys", None); ("zs", None)] (
    "xs" <~ builtin (PF1 OSin)$((!"angles".[0] * (EF 1 2))) ;;
    "xc" <~ builtin (PF1 OCos)$((!"angles".[0] * (EF 1 2))) ;;
    "ys" <~ builtin (PF1 OSin)$((!"angles".[1] * (EF 1 2))) ;;
    "yc" <~ builtin (PF1 OCos)$((!"angles".[1] * (EF 1 2))) ;;
    "zs" <~ (- builtin (PF1 OSin)$((!"angles".[2] * (EF 1 2)))) ;;
    "zc" <~ builtin (PF1 OCos)$((!"angles".[2] * (EF 1 2))) ;;
    "dest".[0] ::= ((("yc" * "zc") * "xs") + (("ys" * "zs") * "xc")) ;;
    "dest".[1] ::= ((("yc" * "zs") * "xs") + (("ys" * "zc") * "xc")) ;;
    "dest".[2] ::= ((("yc" * "zs") * "xc") - (("ys" * "zc") * "xs")) ;;
    "dest".[3] ::= ((("yc" * "zc") * "xc") - (("ys" * "zs") * "xs"))
  ).

(* handed/euler_to_quat_lh.h:130-142 *)
Definition glm_euler_zxy_quat_lh : fundef := Fun
  [("angles", None); ("dest", None)]
  [("xc", None); ("yc", None); ("zc", None); ("xs", None); ("ys", None); ("zs", None)] (
    "xs" <~ builtin (PF1 OSin)$((!"angles".[0] * (EF 1 2))) ;;
    "xc" <~ builtin (PF1 OCos)$((!"angles".[0] * (EF 1 2))) ;;
    "ys" <~ builtin (PF1 OSin)$((!"angles".[1] * (EF 1 2))) ;;
    "yc" <~ builtin (PF1 OCos)$((!"angles".[1] * (EF 1 2))) ;;
    "zs" <~ (- builtin (PF1 OSin)$((!"angles".[2] * (EF 1 2)))) ;;
    "zc" <~ builtin (PF1 OCos)$((!"angles".[2] * (EF 1 2))) ;;
    "dest".[0] ::= ((("zc" * "xs") * "yc") - (("zs" * "xc") * "ys")) ;;
    "dest".[1] ::= ((("zc" * "xc") * "ys") + (("zs" * "xs") * "yc")) ;;
    "dest".[2] ::= ((("zc" * "xs") * "ys") + (("zs" * "xc") * "yc")) ;;
    "dest".[3] ::= ((("zc" * "xc") * "yc") - (("zs" * "xs") * "ys"))
  ).

(* handed/euler_to_quat_lh.h:153-165 *)
Definition glm_euler_zyx_quat_lh : fundef := Fun
  [("angles", None); ("dest", None)]
  [("xc", None); ("yc", None); ("zc", None); ("xs", None); ("ys", None); ("zs", None)] (
    "xs" <~ builtin (PF1 OSin)$((!"angles".[0] * (EF 1 2))) ;;
    "xc" <~ builtin (PF1 OCos)$((!"angles".[0] * (EF 1 2))) ;;
    "ys" <~ builtin (PF1 OSin)$((!"angles".[1] * (EF 1 2))) ;;
    "yc" <~ builtin (PF1 OCos)$((!"angles".[1] * (EF 1 2))) ;;
    "zs" <~ (- builtin (PF1 OSin)$((!"angles".[2] * (EF 1 2)))) ;;
    "zc" <~ builtin (PF1 OCos)$((!"angles".[2] * (EF 1 2))) ;;
    "dest".[0] ::= ((("zc" * "yc") * "xs") - (("zs" * "ys") * "xc")) ;;
    "dest".[1] ::= ((("zc" * "ys") * "xc") + (("zs" * "yc") * "xs")) ;;
    "dest".[2] ::= ((((- "zc") * "ys") * "xs") + (("zs" * "yc") * "xc")) ;;
    "dest".[3] ::= ((("zc" * "yc") * "xc") + (("zs" * "ys") * "xs"))
  ).

