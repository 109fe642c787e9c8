(** The functions of include/cglm whose text differs in the eps build, or that call one,
    written by tools/gensimd.py.  Functions not listed read as in the scalar build (Gen/).
    The comment above each definition gives file and lines in /repo/include/cglm. *)
From Coq Require Import String List ZArith.
From Verif Require Import MiniC Cglm.
Import ListNotations.
Open Scope string_scope.
Open Scope Z_scope.
Open Scope mc_scope.

(* util.h:323-325 *)
Definition eps_glm_eq : fundef := Fun
  [("a", None); ("b", None)]
  [] (
    SRet (builtin (PF1 OAbs)$(("a" - "b")) <= (EF 1 8388608))
  ).

(* vec2-ext.h:72-75 *)
Definition eps_glm_vec2_eq_eps : fundef := Fun
  [("v", None); ("val", None)]
  [] (
    SRet (EAnd (builtin (PF1 OAbs)$((!"v".[0] - "val")) <= (EF 1 8388608)) (builtin (PF1 OAbs)$((!"v".[1] - "val")) <= (EF 1 8388608)))
  ).

(* vec2-ext.h:84-86 *)
Definition eps_glm_vec2_eq_all : fundef := Fun
  [("v", None)]
  [] (
    SRet eps_glm_vec2_eq_eps$("v", !"v".[0])
  ).

(* vec2-ext.h:108-111 *)
Definition eps_glm_vec2_eqv_eps : fundef := Fun
  [("a", None); ("b", None)]
  [] (
    SRet (EAnd (builtin (PF1 OAbs)$((!"a".[0] - !"b".[0])) <= (EF 1 8388608)) (builtin (PF1 OAbs)$((!"a".[1] - !"b".[1])) <= (EF 1 8388608)))
  ).

(* vec3-ext.h:87-91 *)
Definition eps_glm_vec3_eq_eps : fundef := Fun
  [("v", None); ("val", None)]
  [] (
    SRet (EAnd (EAnd (builtin (PF1 OAbs)$((!"v".[0] - "val")) <= (EF 1 8388608)) (builtin (PF1 OAbs)$((!"v".[1] - "val")) <= (EF 1 8388608))) (builtin (PF1 OAbs)$((!"v".[2] - "val")) <= (EF 1 8388608)))
  ).

(* vec3-ext.h:100-102 *)
Definition eps_glm_vec3_eq_all : fundef := Fun
  [("v", None)]
  [] (
    SRet eps_glm_vec3_eq_eps$("v", !"v".[0])
  ).

(* vec3-ext.h:126-130 *)
Definition eps_glm_vec3_eqv_eps : fundef := Fun
  [("a", None); ("b", None)]
  [] (
    SRet (EAnd (EAnd (builtin (PF1 OAbs)$((!"a".[0] - !"b".[0])) <= (EF 1 8388608)) (builtin (PF1 OAbs)$((!"a".[1] - !"b".[1])) <= (EF 1 8388608))) (builtin (PF1 OAbs)$((!"a".[2] - !"b".[2])) <= (EF 1 8388608)))
  ).

(* vec4-ext.h:102-107 *)
Definition eps_glm_vec4_eq_eps : fundef := Fun
  [("v", None); ("val", None)]
  [] (
    SRet (EAnd (EAnd (EAnd (builtin (PF1 OAbs)$((!"v".[0] - "val")) <= (EF 1 8388608)) (builtin (PF1 OAbs)$((!"v".[1] - "val")) <= (EF 1 8388608))) (builtin (PF1 OAbs)$((!"v".[2] - "val")) <= (EF 1 8388608))) (builtin (PF1 OAbs)$((!"v".[3] - "val")) <= (EF 1 8388608)))
  ).

(* vec4-ext.h:116-118 *)
Definition eps_glm_vec4_eq_all : fundef := Fun
  [("v", None)]
  [] (
    SRet eps_glm_vec4_eq_eps$("v", !"v".[0])
  ).

(* vec4-ext.h:143-148 *)
Definition eps_glm_vec4_eqv_eps : fundef := Fun
  [("a", None); ("b", None)]
  [] (
    SRet (EAnd (EAnd (EAnd (builtin (PF1 OAbs)$((!"a".[0] - !"b".[0])) <= (EF 1 8388608)) (builtin (PF1 OAbs)$((!"a".[1] - !"b".[1])) <= (EF 1 8388608))) (builtin (PF1 OAbs)$((!"a".[2] - !"b".[2])) <= (EF 1 8388608))) (builtin (PF1 OAbs)$((!"a".[3] - !"b".[3])) <= (EF 1 8388608)))
  ).

(* affine.h:174-178 *)
Definition eps_glm_uniscaled : fundef := Fun
  [("m", None)]
  [("s", Some 3%nat)] (
    SExp glm_decompose_scalev$("m", "s") ;;
    SRet eps_glm_vec3_eq_all$("s")
  ).

(* quat.h:205-225 *)
Definition eps_glm_quat_from_vecs : fundef := Fun
  [("a", None); ("b", None); ("dest", None)]
  [("axis", Some 3%nat); ("cos_theta", None); ("cos_half_theta", None)] (
    "cos_theta" <~ glm_vec3_dot$("a", "b") ;;
    (SIf ("cos_theta" >= ((EF 1 1) - (EF 1 8388608))) (
      SExp glm_quat_identity$("dest") ;;
      SRet0
    ) (
      SSkip
    )) ;;
    (SIf ("cos_theta" < ((- (EF 1 1)) + (EF 1 8388608))) (
      SExp glm_vec3_ortho$("a", "axis") ;;
      "cos_half_theta" <~ (EF 0 1)
    ) (
      SExp glm_vec3_cross$("a", "b", "axis") ;;
      "cos_half_theta" <~ ((EF 1 1) + "cos_theta")
    )) ;;
    SExp glm_quat_init$("dest", !"axis".[0], !"axis".[1], !"axis".[2], "cos_half_theta") ;;
    SExp glm_quat_normalize$("dest")
  ).

(* struct/vec2-ext.h:80-82 *)
Definition eps_glms_vec2_eq_eps : fundef := Fun
  [("v", Some 2%nat); ("val", None)]
  [] (
    SRet eps_glm_vec2_eq_eps$("v", "val")
  ).

(* struct/vec2-ext.h:91-93 *)
Definition eps_glms_vec2_eq_all : fundef := Fun
  [("v", Some 2%nat)]
  [] (
    SRet eps_glm_vec2_eq_all$("v")
  ).

(* struct/vec2-ext.h:115-117 *)
Definition eps_glms_vec2_eqv_eps : fundef := Fun
  [("a", Some 2%nat); ("b", Some 2%nat)]
  [] (
    SRet eps_glm_vec2_eqv_eps$("a", "b")
  ).

(* struct/vec3-ext.h:96-98 *)
Definition eps_glms_vec3_eq_eps : fundef := Fun
  [("v", Some 3%nat); ("val", None)]
  [] (
    SRet eps_glm_vec3_eq_eps$("v", "val")
  ).

(* struct/vec3-ext.h:107-109 *)
Definition eps_glms_vec3_eq_all : fundef := Fun
  [("v", Some 3%nat)]
  [] (
    SRet eps_glm_vec3_eq_all$("v")
  ).

(* struct/vec3-ext.h:131-133 *)
Definition eps_glms_vec3_eqv_eps : fundef := Fun
  [("a", Some 3%nat); ("b", Some 3%nat)]
  [] (
    SRet eps_glm_vec3_eqv_eps$("a", "b")
  ).

(* struct/vec4-ext.h:96-98 *)
Definition eps_glms_vec4_eq_eps : fundef := Fun
  [("v", Some 4%nat); ("val", None)]
  [] (
    SRet eps_glm_vec4_eq_eps$("v", "val")
  ).

(* struct/vec4-ext.h:107-109 *)
Definition eps_glms_vec4_eq_all : fundef := Fun
  [("v", Some 4%nat)]
  [] (
    SRet eps_glm_vec4_eq_all$("v")
  ).

(* struct/vec4-ext.h:131-133 *)
Definition eps_glms_vec4_eqv_eps : fundef := Fun
  [("a", Some 4%nat); ("b", Some 4%nat)]
  [] (
    SRet eps_glm_vec4_eqv_eps$("a", "b")
  ).

(* struct/affine.h:165-167 *)
Definition eps_glms_uniscaled : fundef := Fun
  [("m", Some 16%nat)]
  [] (
    SRet eps_glm_uniscaled$("m")
  ).

(* struct/quat.h:165-169 *)
Definition eps_glms_quat_from_vecs : fundef := Fun
  [("a", Some 3%nat); ("b", Some 3%nat)]
  [("dest", Some 4%nat)] (
    SExp eps_glm_quat_from_vecs$("a", "b", "dest") ;;
    SRet (ELdA 4 "dest")
  ).

