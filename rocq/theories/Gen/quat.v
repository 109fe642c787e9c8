(** Functions of include/cglm/quat.h (configuration: scalar), written by tools/gen.py.
    The comment above each definition gives file and lines in /repo/include/cglm. *)
From Coq Require Import String List ZArith.
From Verif Require Import MiniC.
From Verif.Gen Require Import affine_mat affine_pre affine mat3 mat4 vec3 vec4.
Import ListNotations.
Open Scope string_scope.
Open Scope Z_scope.
Open Scope mc_scope.

(* quat.h:101-104 *)
Definition glm_quat_identity : fundef := Fun
  [("q", None)]
  [("v", Some 4%nat)] (
    "v".[0] ::= (EF 0 1) ;;
    "v".[1] ::= (EF 0 1) ;;
    "v".[2] ::= (EF 0 1) ;;
    "v".[3] ::= (EF 1 1) ;;
    SExp glm_vec4_copy$("v", "q")
  ).

(* quat.h:116-123 *)
Definition glm_quat_identity_array : fundef := Fun
  [("q", None); ("count", None)]
  [("v", Some 4%nat); ("i", None)] (
    "v".[0] ::= (EF 0 1) ;;
    "v".[1] ::= (EF 0 1) ;;
    "v".[2] ::= (EF 0 1) ;;
    "v".[3] ::= (EF 1 1) ;;
    (SFor "i" (EI 0) "count" (
      SExp glm_vec4_copy$("v", (EIx "q" 4 "i"))
    ))
  ).

(* quat.h:136-141 *)
Definition glm_quat_init : fundef := Fun
  [("q", None); ("x", None); ("y", None); ("z", None); ("w", None)]
  [] (
    "q".[0] ::= "x" ;;
    "q".[1] ::= "y" ;;
    "q".[2] ::= "z" ;;
    "q".[3] ::= "w"
  ).

(* quat.h:152-166 *)
Definition glm_quatv : fundef := Fun
  [("q", None); ("angle", None); ("axis", None)]
  [("k", Some 3%nat); ("a", None); ("c", None); ("s", None)] (
    "a" <~ ("angle" * (EF 1 2)) ;;
    "c" <~ builtin (PF1 OCos)$("a") ;;
    "s" <~ builtin (PF1 OSin)$("a") ;;
    SExp glm_normalize_to$("axis", "k") ;;
    "q".[0] ::= ("s" * !"k".[0]) ;;
    "q".[1] ::= ("s" * !"k".[1]) ;;
    "q".[2] ::= ("s" * !"k".[2]) ;;
    "q".[3] ::= "c"
  ).

(* quat.h:179-182 *)
Definition glm_quat : fundef := Fun
  [("q", None); ("angle", None); ("x", None); ("y", None); ("z", None)]
  [("axis", Some 3%nat)] (
    "axis".[0] ::= "x" ;;
    "axis".[1] ::= "y" ;;
    "axis".[2] ::= "z" ;;
    SExp glm_quatv$("q", "angle", "axis")
  ).

(* quat.h:192-194 *)
Definition glm_quat_copy : fundef := Fun
  [("q", None); ("dest", None)]
  [] (
    SExp glm_vec4_copy$("q", "dest")
  ).

(* quat.h:246-288 *)
Definition glm_quat_normalize_to : fundef := Fun
  [("q", None); ("dest", None)]
  [("dot", None)] (
    "dot" <~ glm_vec4_norm2$("q") ;;
    (SIf ("dot" <= (EF 0 1)) (
      SExp glm_quat_identity$("dest") ;;
      SRet0
    ) (
      SSkip
    )) ;;
    SExp glm_vec4_scale$("q", ((EF 1 1) / builtin (PF1 OSqrt)$("dot")), "dest")
  ).

(* quat.h:297-299 *)
Definition glm_quat_normalize : fundef := Fun
  [("q", None)]
  [] (
    SExp glm_quat_normalize_to$("q", "q")
  ).

(* quat.h:205-225 *)
Definition glm_quat_from_vecs : fundef := Fun
  [("a", None); ("b", None); ("dest", None)]
  [("axis", Some 3%nat); ("cos_theta", None); ("cos_half_theta", None)] (
    "cos_theta" <~ glm_vec3_dot$("a", "b") ;;
    (SIf ("cos_theta" >= ((EF 1 1) - (EF 1 100000))) (
      SExp glm_quat_identity$("dest") ;;
      SRet0
    ) (
      SSkip
    )) ;;
    (SIf ("cos_theta" < ((- (EF 1 1)) + (EF 1 100000))) (
      SExp glm_vec3_ortho$("a", "axis") ;;
      "cos_half_theta" <~ (EF 0 1)
    ) (
      SExp glm_vec3_cross$("a", "b", "axis") ;;
      "cos_half_theta" <~ ((EF 1 1) + "cos_theta")
    )) ;;
    SExp glm_quat_init$("dest", !"axis".[0], !"axis".[1], !"axis".[2], "cos_half_theta") ;;
    SExp glm_quat_normalize$("dest")
  ).

(* quat.h:234-236 *)
Definition glm_quat_norm : fundef := Fun
  [("q", None)]
  [] (
    SRet glm_vec4_norm$("q")
  ).

(* quat.h:309-311 *)
Definition glm_quat_dot : fundef := Fun
  [("p", None); ("q", None)]
  [] (
    SRet glm_vec4_dot$("p", "q")
  ).

(* quat.h:321-324 *)
Definition glm_quat_conjugate : fundef := Fun
  [("q", None); ("dest", None)]
  [] (
    SExp glm_vec4_negate_to$("q", "dest") ;;
    "dest".[3] ::= (- !"dest".[3])
  ).

(* quat.h:334-338 *)
Definition glm_quat_inv : fundef := Fun
  [("q", None); ("dest", None)]
  [("conj", Some 4%nat)] (
    SExp glm_quat_conjugate$("q", "conj") ;;
    SExp glm_vec4_scale$("conj", ((EF 1 1) / glm_vec4_norm2$("q")), "dest")
  ).

(* quat.h:349-351 *)
Definition glm_quat_add : fundef := Fun
  [("p", None); ("q", None); ("dest", None)]
  [] (
    SExp glm_vec4_add$("p", "q", "dest")
  ).

(* quat.h:362-364 *)
Definition glm_quat_sub : fundef := Fun
  [("p", None); ("q", None); ("dest", None)]
  [] (
    SExp glm_vec4_sub$("p", "q", "dest")
  ).

(* quat.h:373-375 *)
Definition glm_quat_real : fundef := Fun
  [("q", None)]
  [] (
    SRet !"q".[3]
  ).

(* quat.h:385-389 *)
Definition glm_quat_imag : fundef := Fun
  [("q", None); ("dest", None)]
  [] (
    "dest".[0] ::= !"q".[0] ;;
    "dest".[1] ::= !"q".[1] ;;
    "dest".[2] ::= !"q".[2]
  ).

(* quat.h:398-400 *)
Definition glm_quat_imagn : fundef := Fun
  [("q", None); ("dest", None)]
  [] (
    SExp glm_normalize_to$("q", "dest")
  ).

(* quat.h:409-411 *)
Definition glm_quat_imaglen : fundef := Fun
  [("q", None)]
  [] (
    SRet glm_vec3_norm$("q")
  ).

(* quat.h:420-427 *)
Definition glm_quat_angle : fundef := Fun
  [("q", None)]
  [] (
    SRet ((EF 2 1) * builtin (PF2 OAtan2)$(glm_quat_imaglen$("q"), glm_quat_real$("q")))
  ).

(* quat.h:437-439 *)
Definition glm_quat_axis : fundef := Fun
  [("q", None); ("dest", None)]
  [] (
    SExp glm_quat_imagn$("q", "dest")
  ).

(* quat.h:455-474 *)
Definition glm_quat_mul : fundef := Fun
  [("p", None); ("q", None); ("dest", None)]
  [] (
    "dest".[0] ::= ((((!"p".[3] * !"q".[0]) + (!"p".[0] * !"q".[3])) + (!"p".[1] * !"q".[2])) - (!"p".[2] * !"q".[1])) ;;
    "dest".[1] ::= ((((!"p".[3] * !"q".[1]) - (!"p".[0] * !"q".[2])) + (!"p".[1] * !"q".[3])) + (!"p".[2] * !"q".[0])) ;;
    "dest".[2] ::= ((((!"p".[3] * !"q".[2]) + (!"p".[0] * !"q".[1])) - (!"p".[1] * !"q".[0])) + (!"p".[2] * !"q".[3])) ;;
    "dest".[3] ::= ((((!"p".[3] * !"q".[3]) - (!"p".[0] * !"q".[0])) - (!"p".[1] * !"q".[1])) - (!"p".[2] * !"q".[2]))
  ).

(* quat.h:484-521 *)
Definition glm_quat_mat4 : fundef := Fun
  [("q", None); ("dest", None)]
  [("w", None); ("x", None); ("y", None); ("z", None); ("xx", None); ("yy", None); ("zz", None); ("xy", None); ("yz", None); ("xz", None); ("wx", None); ("wy", None); ("wz", None); ("norm", None); ("s", None)] (
    "norm" <~ glm_quat_norm$("q") ;;
    "s" <~ (ECond ("norm" > (EF 0 1)) ((EF 2 1) / "norm") (EF 0 1)) ;;
    "x" <~ !"q".[0] ;;
    "y" <~ !"q".[1] ;;
    "z" <~ !"q".[2] ;;
    "w" <~ !"q".[3] ;;
    "xx" <~ (("s" * "x") * "x") ;;
    "xy" <~ (("s" * "x") * "y") ;;
    "wx" <~ (("s" * "w") * "x") ;;
    "yy" <~ (("s" * "y") * "y") ;;
    "yz" <~ (("s" * "y") * "z") ;;
    "wy" <~ (("s" * "w") * "y") ;;
    "zz" <~ (("s" * "z") * "z") ;;
    "xz" <~ (("s" * "x") * "z") ;;
    "wz" <~ (("s" * "w") * "z") ;;
    "dest".[0:4].[0] ::= (((EF 1 1) - "yy") - "zz") ;;
    "dest".[1:4].[1] ::= (((EF 1 1) - "xx") - "zz") ;;
    "dest".[2:4].[2] ::= (((EF 1 1) - "xx") - "yy") ;;
    "dest".[0:4].[1] ::= ("xy" + "wz") ;;
    "dest".[1:4].[2] ::= ("yz" + "wx") ;;
    "dest".[2:4].[0] ::= ("xz" + "wy") ;;
    "dest".[1:4].[0] ::= ("xy" - "wz") ;;
    "dest".[2:4].[1] ::= ("yz" - "wx") ;;
    "dest".[0:4].[2] ::= ("xz" - "wy") ;;
    "dest".[0:4].[3] ::= (EF 0 1) ;;
    "dest".[1:4].[3] ::= (EF 0 1) ;;
    "dest".[2:4].[3] ::= (EF 0 1) ;;
    "dest".[3:4].[0] ::= (EF 0 1) ;;
    "dest".[3:4].[1] ::= (EF 0 1) ;;
    "dest".[3:4].[2] ::= (EF 0 1) ;;
    "dest".[3:4].[3] ::= (EF 1 1)
  ).

(* quat.h:531-568 *)
Definition glm_quat_mat4t : fundef := Fun
  [("q", None); ("dest", None)]
  [("w", None); ("x", None); ("y", None); ("z", None); ("xx", None); ("yy", None); ("zz", None); ("xy", None); ("yz", None); ("xz", None); ("wx", None); ("wy", None); ("wz", None); ("norm", None); ("s", None)] (
    "norm" <~ glm_quat_norm$("q") ;;
    "s" <~ (ECond ("norm" > (EF 0 1)) ((EF 2 1) / "norm") (EF 0 1)) ;;
    "x" <~ !"q".[0] ;;
    "y" <~ !"q".[1] ;;
    "z" <~ !"q".[2] ;;
    "w" <~ !"q".[3] ;;
    "xx" <~ (("s" * "x") * "x") ;;
    "xy" <~ (("s" * "x") * "y") ;;
    "wx" <~ (("s" * "w") * "x") ;;
    "yy" <~ (("s" * "y") * "y") ;;
    "yz" <~ (("s" * "y") * "z") ;;
    "wy" <~ (("s" * "w") * "y") ;;
    "zz" <~ (("s" * "z") * "z") ;;
    "xz" <~ (("s" * "x") * "z") ;;
    "wz" <~ (("s" * "w") * "z") ;;
    "dest".[0:4].[0] ::= (((EF 1 1) - "yy") - "zz") ;;
    "dest".[1:4].[1] ::= (((EF 1 1) - "xx") - "zz") ;;
    "dest".[2:4].[2] ::= (((EF 1 1) - "xx") - "yy") ;;
    "dest".[1:4].[0] ::= ("xy" + "wz") ;;
    "dest".[2:4].[1] ::= ("yz" + "wx") ;;
    "dest".[0:4].[2] ::= ("xz" + "wy") ;;
    "dest".[0:4].[1] ::= ("xy" - "wz") ;;
    "dest".[1:4].[2] ::= ("yz" - "wx") ;;
    "dest".[2:4].[0] ::= ("xz" - "wy") ;;
    "dest".[0:4].[3] ::= (EF 0 1) ;;
    "dest".[1:4].[3] ::= (EF 0 1) ;;
    "dest".[2:4].[3] ::= (EF 0 1) ;;
    "dest".[3:4].[0] ::= (EF 0 1) ;;
    "dest".[3:4].[1] ::= (EF 0 1) ;;
    "dest".[3:4].[2] ::= (EF 0 1) ;;
    "dest".[3:4].[3] ::= (EF 1 1)
  ).

(* quat.h:578-607 *)
Definition glm_quat_mat3 : fundef := Fun
  [("q", None); ("dest", None)]
  [("w", None); ("x", None); ("y", None); ("z", None); ("xx", None); ("yy", None); ("zz", None); ("xy", None); ("yz", None); ("xz", None); ("wx", None); ("wy", None); ("wz", None); ("norm", None); ("s", None)] (
    "norm" <~ glm_quat_norm$("q") ;;
    "s" <~ (ECond ("norm" > (EF 0 1)) ((EF 2 1) / "norm") (EF 0 1)) ;;
    "x" <~ !"q".[0] ;;
    "y" <~ !"q".[1] ;;
    "z" <~ !"q".[2] ;;
    "w" <~ !"q".[3] ;;
    "xx" <~ (("s" * "x") * "x") ;;
    "xy" <~ (("s" * "x") * "y") ;;
    "wx" <~ (("s" * "w") * "x") ;;
    "yy" <~ (("s" * "y") * "y") ;;
    "yz" <~ (("s" * "y") * "z") ;;
    "wy" <~ (("s" * "w") * "y") ;;
    "zz" <~ (("s" * "z") * "z") ;;
    "xz" <~ (("s" * "x") * "z") ;;
    "wz" <~ (("s" * "w") * "z") ;;
    "dest".[0:3].[0] ::= (((EF 1 1) - "yy") - "zz") ;;
    "dest".[1:3].[1] ::= (((EF 1 1) - "xx") - "zz") ;;
    "dest".[2:3].[2] ::= (((EF 1 1) - "xx") - "yy") ;;
    "dest".[0:3].[1] ::= ("xy" + "wz") ;;
    "dest".[1:3].[2] ::= ("yz" + "wx") ;;
    "dest".[2:3].[0] ::= ("xz" + "wy") ;;
    "dest".[1:3].[0] ::= ("xy" - "wz") ;;
    "dest".[2:3].[1] ::= ("yz" - "wx") ;;
    "dest".[0:3].[2] ::= ("xz" - "wy")
  ).

(* quat.h:617-646 *)
Definition glm_quat_mat3t : fundef := Fun
  [("q", None); ("dest", None)]
  [("w", None); ("x", None); ("y", None); ("z", None); ("xx", None); ("yy", None); ("zz", None); ("xy", None); ("yz", None); ("xz", None); ("wx", None); ("wy", None); ("wz", None); ("norm", None); ("s", None)] (
    "norm" <~ glm_quat_norm$("q") ;;
    "s" <~ (ECond ("norm" > (EF 0 1)) ((EF 2 1) / "norm") (EF 0 1)) ;;
    "x" <~ !"q".[0] ;;
    "y" <~ !"q".[1] ;;
    "z" <~ !"q".[2] ;;
    "w" <~ !"q".[3] ;;
    "xx" <~ (("s" * "x") * "x") ;;
    "xy" <~ (("s" * "x") * "y") ;;
    "wx" <~ (("s" * "w") * "x") ;;
    "yy" <~ (("s" * "y") * "y") ;;
    "yz" <~ (("s" * "y") * "z") ;;
    "wy" <~ (("s" * "w") * "y") ;;
    "zz" <~ (("s" * "z") * "z") ;;
    "xz" <~ (("s" * "x") * "z") ;;
    "wz" <~ (("s" * "w") * "z") ;;
    "dest".[0:3].[0] ::= (((EF 1 1) - "yy") - "zz") ;;
    "dest".[1:3].[1] ::= (((EF 1 1) - "xx") - "zz") ;;
    "dest".[2:3].[2] ::= (((EF 1 1) - "xx") - "yy") ;;
    "dest".[1:3].[0] ::= ("xy" + "wz") ;;
    "dest".[2:3].[1] ::= ("yz" + "wx") ;;
    "dest".[0:3].[2] ::= ("xz" + "wy") ;;
    "dest".[0:3].[1] ::= ("xy" - "wz") ;;
    "dest".[1:3].[2] ::= ("yz" - "wx") ;;
    "dest".[2:3].[0] ::= ("xz" - "wy")
  ).

(* quat.h:659-661 *)
Definition glm_quat_lerp : fundef := Fun
  [("from", None); ("to", None); ("t", None); ("dest", None)]
  [] (
    SExp glm_vec4_lerp$("from", "to", "t", "dest")
  ).

(* quat.h:674-676 *)
Definition glm_quat_lerpc : fundef := Fun
  [("from", None); ("to", None); ("t", None); ("dest", None)]
  [] (
    SExp glm_vec4_lerpc$("from", "to", "t", "dest")
  ).

(* quat.h:690-699 *)
Definition glm_quat_nlerp : fundef := Fun
  [("from", None); ("to", None); ("t", None); ("dest", None)]
  [("target", Some 4%nat); ("dot", None)] (
    "dot" <~ glm_vec4_dot$("from", "to") ;;
    SExp glm_vec4_scale$("to", (ECond ("dot" >= (ECast TyF (EI 0))) (EF 1 1) (- (EF 1 1))), "target") ;;
    SExp glm_quat_lerp$("from", "target", "t", "dest") ;;
    SExp glm_quat_normalize$("dest")
  ).

(* quat.h:712-744 *)
Definition glm_quat_slerp : fundef := Fun
  [("from", None); ("to", None); ("t", None); ("dest", None)]
  [("q1", Some 4%nat); ("q2", Some 4%nat); ("cosTheta", None); ("sinTheta", None); ("angle", None)] (
    "cosTheta" <~ glm_quat_dot$("from", "to") ;;
    SExp glm_quat_copy$("from", "q1") ;;
    (SIf (builtin (PF1 OAbs)$("cosTheta") >= (EF 1 1)) (
      SExp glm_quat_copy$("q1", "dest") ;;
      SRet0
    ) (
      SSkip
    )) ;;
    (SIf ("cosTheta" < (EF 0 1)) (
      SExp glm_vec4_negate$("q1") ;;
      "cosTheta" <~ (- "cosTheta")
    ) (
      SSkip
    )) ;;
    "sinTheta" <~ builtin (PF1 OSqrt)$(((EF 1 1) - ("cosTheta" * "cosTheta"))) ;;
    (SIf (builtin (PF1 OAbs)$("sinTheta") < (EF 1 1000)) (
      SExp glm_quat_lerp$("from", "to", "t", "dest") ;;
      SRet0
    ) (
      SSkip
    )) ;;
    "angle" <~ builtin (PF1 OAcos)$("cosTheta") ;;
    SExp glm_vec4_scale$("q1", builtin (PF1 OSin)$((((EF 1 1) - "t") * "angle")), "q1") ;;
    SExp glm_vec4_scale$("to", builtin (PF1 OSin)$(("t" * "angle")), "q2") ;;
    SExp glm_vec4_add$("q1", "q2", "q1") ;;
    SExp glm_vec4_scale$("q1", ((EF 1 1) / "sinTheta"), "dest")
  ).

(* quat.h:757-790 *)
Definition glm_quat_slerp_longest : fundef := Fun
  [("from", None); ("to", None); ("t", None); ("dest", None)]
  [("q1", Some 4%nat); ("q2", Some 4%nat); ("cosTheta", None); ("sinTheta", None); ("angle", None)] (
    "cosTheta" <~ glm_quat_dot$("from", "to") ;;
    SExp glm_quat_copy$("from", "q1") ;;
    (SIf (builtin (PF1 OAbs)$("cosTheta") >= (EF 1 1)) (
      SExp glm_quat_copy$("q1", "dest") ;;
      SRet0
    ) (
      SSkip
    )) ;;
    (SIf (ENot ("cosTheta" < (EF 0 1))) (
      SExp glm_vec4_negate$("q1") ;;
      "cosTheta" <~ (- "cosTheta")
    ) (
      SSkip
    )) ;;
    "sinTheta" <~ builtin (PF1 OSqrt)$(((EF 1 1) - ("cosTheta" * "cosTheta"))) ;;
    (SIf (builtin (PF1 OAbs)$("sinTheta") < (EF 1 1000)) (
      SExp glm_quat_lerp$("from", "to", "t", "dest") ;;
      SRet0
    ) (
      SSkip
    )) ;;
    "angle" <~ builtin (PF1 OAcos)$("cosTheta") ;;
    SExp glm_vec4_scale$("q1", builtin (PF1 OSin)$((((EF 1 1) - "t") * "angle")), "q1") ;;
    SExp glm_vec4_scale$("to", builtin (PF1 OSin)$(("t" * "angle")), "q2") ;;
    SExp glm_vec4_add$("q1", "q2", "q1") ;;
    SExp glm_vec4_scale$("q1", ((EF 1 1) / "sinTheta"), "dest")
  ).

(* quat.h:801-808 *)
Definition glm_quat_look : fundef := Fun
  [("eye", None); ("ori", None); ("dest", None)]
  [] (
    SExp glm_quat_mat4t$("ori", "dest") ;;
    SExp glm_mat4_mulv3$("dest", "eye", (EF 1 1), "dest".[3:4]) ;;
    SExp glm_vec3_negate$("dest".[3:4])
  ).

(* quat.h:819-831 *)
Definition glm_quat_for : fundef := Fun
  [("dir", None); ("up", None); ("dest", None)]
  [("m", Some 9%nat)] (
    SExp glm_vec3_normalize_to$("dir", "m".[2:3]) ;;
    SExp glm_vec3_negate$("m".[2:3]) ;;
    SExp glm_vec3_crossn$("up", "m".[2:3], "m".[0:3]) ;;
    SExp glm_vec3_cross$("m".[2:3], "m".[0:3], "m".[1:3]) ;;
    SExp glm_mat3_quat$("m", "dest")
  ).

(* quat.h:844-848 *)
Definition glm_quat_forp : fundef := Fun
  [("from", None); ("to", None); ("up", None); ("dest", None)]
  [("dir", Some 3%nat)] (
    SExp glm_vec3_sub$("to", "from", "dir") ;;
    SExp glm_quat_for$("dir", "up", "dest")
  ).

(* quat.h:859-876 *)
Definition glm_quat_rotatev : fundef := Fun
  [("q", None); ("v", None); ("dest", None)]
  [("p", Some 4%nat); ("u", Some 3%nat); ("v1", Some 3%nat); ("v2", Some 3%nat); ("s", None)] (
    SExp glm_quat_normalize_to$("q", "p") ;;
    SExp glm_quat_imag$("p", "u") ;;
    "s" <~ glm_quat_real$("p") ;;
    SExp glm_vec3_scale$("u", ((EF 2 1) * glm_vec3_dot$("u", "v")), "v1") ;;
    SExp glm_vec3_scale$("v", (("s" * "s") - glm_vec3_dot$("u", "u")), "v2") ;;
    SExp glm_vec3_add$("v1", "v2", "v1") ;;
    SExp glm_vec3_cross$("u", "v", "v2") ;;
    SExp glm_vec3_scale$("v2", ((EF 2 1) * "s"), "v2") ;;
    SExp glm_vec3_add$("v1", "v2", "dest")
  ).

(* quat.h:887-891 *)
Definition glm_quat_rotate : fundef := Fun
  [("m", None); ("q", None); ("dest", None)]
  [("rot", Some 16%nat)] (
    SExp glm_quat_mat4$("q", "rot") ;;
    SExp glm_mul_rot$("m", "rot", "dest")
  ).

(* quat.h:902-910 *)
Definition glm_quat_rotate_at : fundef := Fun
  [("m", None); ("q", None); ("pivot", None)]
  [("pivotInv", Some 3%nat)] (
    SExp glm_vec3_negate_to$("pivot", "pivotInv") ;;
    SExp glm_translate$("m", "pivot") ;;
    SExp glm_quat_rotate$("m", "q", "m") ;;
    SExp glm_translate$("m", "pivotInv")
  ).

(* quat.h:926-934 *)
Definition glm_quat_rotate_atm : fundef := Fun
  [("m", None); ("q", None); ("pivot", None)]
  [("pivotInv", Some 3%nat)] (
    SExp glm_vec3_negate_to$("pivot", "pivotInv") ;;
    SExp glm_translate_make$("m", "pivot") ;;
    SExp glm_quat_rotate$("m", "q", "m") ;;
    SExp glm_translate$("m", "pivotInv")
  ).

(* quat.h:944-947 *)
Definition glm_quat_make : fundef := Fun
  [("src", None); ("dest", None)]
  [] (
    "dest".[0] ::= !"src".[0] ;;
    "dest".[1] ::= !"src".[1] ;;
    "dest".[2] ::= !"src".[2] ;;
    "dest".[3] ::= !"src".[3]
  ).

