(** Functions of include/cglm/mat4.h (configuration: scalar), written by tools/gen.py.
    The comment above each definition gives file and lines in /repo/include/cglm. *)
From Coq Require Import String List ZArith.
From Verif Require Import MiniC.
From Verif.Gen Require Import vec3 vec4.
Import ListNotations.
Open Scope string_scope.
Open Scope Z_scope.
Open Scope mc_scope.

(* mat4.h:109-119 *)
Definition glm_mat4_ucopy : fundef := Fun
  [("mat", None); ("dest", None)]
  [] (
    "dest".[0:4].[0] ::= !"mat".[0:4].[0] ;;
    "dest".[1:4].[0] ::= !"mat".[1:4].[0] ;;
    "dest".[0:4].[1] ::= !"mat".[0:4].[1] ;;
    "dest".[1:4].[1] ::= !"mat".[1:4].[1] ;;
    "dest".[0:4].[2] ::= !"mat".[0:4].[2] ;;
    "dest".[1:4].[2] ::= !"mat".[1:4].[2] ;;
    "dest".[0:4].[3] ::= !"mat".[0:4].[3] ;;
    "dest".[1:4].[3] ::= !"mat".[1:4].[3] ;;
    "dest".[2:4].[0] ::= !"mat".[2:4].[0] ;;
    "dest".[3:4].[0] ::= !"mat".[3:4].[0] ;;
    "dest".[2:4].[1] ::= !"mat".[2:4].[1] ;;
    "dest".[3:4].[1] ::= !"mat".[3:4].[1] ;;
    "dest".[2:4].[2] ::= !"mat".[2:4].[2] ;;
    "dest".[3:4].[2] ::= !"mat".[3:4].[2] ;;
    "dest".[2:4].[3] ::= !"mat".[2:4].[3] ;;
    "dest".[3:4].[3] ::= !"mat".[3:4].[3]
  ).

(* mat4.h:129-151 *)
Definition glm_mat4_copy : fundef := Fun
  [("mat", None); ("dest", None)]
  [] (
    SExp glm_mat4_ucopy$("mat", "dest")
  ).

(* mat4.h:169-172 *)
Definition glm_mat4_identity : fundef := Fun
  [("mat", None)]
  [("t", Some 16%nat)] (
    "t".[0:4].[0] ::= (EF 1 1) ;;
    "t".[0:4].[1] ::= (EF 0 1) ;;
    "t".[0:4].[2] ::= (EF 0 1) ;;
    "t".[0:4].[3] ::= (EF 0 1) ;;
    "t".[1:4].[0] ::= (EF 0 1) ;;
    "t".[1:4].[1] ::= (EF 1 1) ;;
    "t".[1:4].[2] ::= (EF 0 1) ;;
    "t".[1:4].[3] ::= (EF 0 1) ;;
    "t".[2:4].[0] ::= (EF 0 1) ;;
    "t".[2:4].[1] ::= (EF 0 1) ;;
    "t".[2:4].[2] ::= (EF 1 1) ;;
    "t".[2:4].[3] ::= (EF 0 1) ;;
    "t".[3:4].[0] ::= (EF 0 1) ;;
    "t".[3:4].[1] ::= (EF 0 1) ;;
    "t".[3:4].[2] ::= (EF 0 1) ;;
    "t".[3:4].[3] ::= (EF 1 1) ;;
    SExp glm_mat4_copy$("t", "mat")
  ).

(* mat4.h:184-191 *)
Definition glm_mat4_identity_array : fundef := Fun
  [("mat", None); ("count", None)]
  [("t", Some 16%nat); ("i", None)] (
    "t".[0:4].[0] ::= (EF 1 1) ;;
    "t".[0:4].[1] ::= (EF 0 1) ;;
    "t".[0:4].[2] ::= (EF 0 1) ;;
    "t".[0:4].[3] ::= (EF 0 1) ;;
    "t".[1:4].[0] ::= (EF 0 1) ;;
    "t".[1:4].[1] ::= (EF 1 1) ;;
    "t".[1:4].[2] ::= (EF 0 1) ;;
    "t".[1:4].[3] ::= (EF 0 1) ;;
    "t".[2:4].[0] ::= (EF 0 1) ;;
    "t".[2:4].[1] ::= (EF 0 1) ;;
    "t".[2:4].[2] ::= (EF 1 1) ;;
    "t".[2:4].[3] ::= (EF 0 1) ;;
    "t".[3:4].[0] ::= (EF 0 1) ;;
    "t".[3:4].[1] ::= (EF 0 1) ;;
    "t".[3:4].[2] ::= (EF 0 1) ;;
    "t".[3:4].[3] ::= (EF 1 1) ;;
    (SFor "i" (EI 0) "count" (
      SExp glm_mat4_copy$("t", (EIx "mat" 16 "i"))
    ))
  ).

(* mat4.h:200-231 *)
Definition glm_mat4_zero : fundef := Fun
  [("mat", None)]
  [("t", Some 16%nat)] (
    "t".[0:4].[0] ::= (EF 0 1) ;;
    "t".[0:4].[1] ::= (EF 0 1) ;;
    "t".[0:4].[2] ::= (EF 0 1) ;;
    "t".[0:4].[3] ::= (EF 0 1) ;;
    "t".[1:4].[0] ::= (EF 0 1) ;;
    "t".[1:4].[1] ::= (EF 0 1) ;;
    "t".[1:4].[2] ::= (EF 0 1) ;;
    "t".[1:4].[3] ::= (EF 0 1) ;;
    "t".[2:4].[0] ::= (EF 0 1) ;;
    "t".[2:4].[1] ::= (EF 0 1) ;;
    "t".[2:4].[2] ::= (EF 0 1) ;;
    "t".[2:4].[3] ::= (EF 0 1) ;;
    "t".[3:4].[0] ::= (EF 0 1) ;;
    "t".[3:4].[1] ::= (EF 0 1) ;;
    "t".[3:4].[2] ::= (EF 0 1) ;;
    "t".[3:4].[3] ::= (EF 0 1) ;;
    SExp glm_mat4_copy$("t", "mat")
  ).

(* mat4.h:241-253 *)
Definition glm_mat4_pick3 : fundef := Fun
  [("mat", None); ("dest", None)]
  [] (
    "dest".[0:3].[0] ::= !"mat".[0:4].[0] ;;
    "dest".[0:3].[1] ::= !"mat".[0:4].[1] ;;
    "dest".[0:3].[2] ::= !"mat".[0:4].[2] ;;
    "dest".[1:3].[0] ::= !"mat".[1:4].[0] ;;
    "dest".[1:3].[1] ::= !"mat".[1:4].[1] ;;
    "dest".[1:3].[2] ::= !"mat".[1:4].[2] ;;
    "dest".[2:3].[0] ::= !"mat".[2:4].[0] ;;
    "dest".[2:3].[1] ::= !"mat".[2:4].[1] ;;
    "dest".[2:3].[2] ::= !"mat".[2:4].[2]
  ).

(* mat4.h:265-277 *)
Definition glm_mat4_pick3t : fundef := Fun
  [("mat", None); ("dest", None)]
  [] (
    "dest".[0:3].[0] ::= !"mat".[0:4].[0] ;;
    "dest".[0:3].[1] ::= !"mat".[1:4].[0] ;;
    "dest".[0:3].[2] ::= !"mat".[2:4].[0] ;;
    "dest".[1:3].[0] ::= !"mat".[0:4].[1] ;;
    "dest".[1:3].[1] ::= !"mat".[1:4].[1] ;;
    "dest".[1:3].[2] ::= !"mat".[2:4].[1] ;;
    "dest".[2:3].[0] ::= !"mat".[0:4].[2] ;;
    "dest".[2:3].[1] ::= !"mat".[1:4].[2] ;;
    "dest".[2:3].[2] ::= !"mat".[2:4].[2]
  ).

(* mat4.h:287-299 *)
Definition glm_mat4_ins3 : fundef := Fun
  [("mat", None); ("dest", None)]
  [] (
    "dest".[0:4].[0] ::= !"mat".[0:3].[0] ;;
    "dest".[0:4].[1] ::= !"mat".[0:3].[1] ;;
    "dest".[0:4].[2] ::= !"mat".[0:3].[2] ;;
    "dest".[1:4].[0] ::= !"mat".[1:3].[0] ;;
    "dest".[1:4].[1] ::= !"mat".[1:3].[1] ;;
    "dest".[1:4].[2] ::= !"mat".[1:3].[2] ;;
    "dest".[2:4].[0] ::= !"mat".[2:3].[0] ;;
    "dest".[2:4].[1] ::= !"mat".[2:3].[1] ;;
    "dest".[2:4].[2] ::= !"mat".[2:3].[2]
  ).

(* mat4.h:317-354 *)
Definition glm_mat4_mul : fundef := Fun
  [("m1", None); ("m2", None); ("dest", None)]
  [("a00", None); ("a01", None); ("a02", None); ("a03", None); ("a10", None); ("a11", None); ("a12", None); ("a13", None); ("a20", None); ("a21", None); ("a22", None); ("a23", None); ("a30", None); ("a31", None); ("a32", None); ("a33", None); ("b00", None); ("b01", None); ("b02", None); ("b03", None); ("b10", None); ("b11", None); ("b12", None); ("b13", None); ("b20", None); ("b21", None); ("b22", None); ("b23", None); ("b30", None); ("b31", None); ("b32", None); ("b33", None)] (
    "a00" <~ !"m1".[0:4].[0] ;;
    "a01" <~ !"m1".[0:4].[1] ;;
    "a02" <~ !"m1".[0:4].[2] ;;
    "a03" <~ !"m1".[0:4].[3] ;;
    "a10" <~ !"m1".[1:4].[0] ;;
    "a11" <~ !"m1".[1:4].[1] ;;
    "a12" <~ !"m1".[1:4].[2] ;;
    "a13" <~ !"m1".[1:4].[3] ;;
    "a20" <~ !"m1".[2:4].[0] ;;
    "a21" <~ !"m1".[2:4].[1] ;;
    "a22" <~ !"m1".[2:4].[2] ;;
    "a23" <~ !"m1".[2:4].[3] ;;
    "a30" <~ !"m1".[3:4].[0] ;;
    "a31" <~ !"m1".[3:4].[1] ;;
    "a32" <~ !"m1".[3:4].[2] ;;
    "a33" <~ !"m1".[3:4].[3] ;;
    "b00" <~ !"m2".[0:4].[0] ;;
    "b01" <~ !"m2".[0:4].[1] ;;
    "b02" <~ !"m2".[0:4].[2] ;;
    "b03" <~ !"m2".[0:4].[3] ;;
    "b10" <~ !"m2".[1:4].[0] ;;
    "b11" <~ !"m2".[1:4].[1] ;;
    "b12" <~ !"m2".[1:4].[2] ;;
    "b13" <~ !"m2".[1:4].[3] ;;
    "b20" <~ !"m2".[2:4].[0] ;;
    "b21" <~ !"m2".[2:4].[1] ;;
    "b22" <~ !"m2".[2:4].[2] ;;
    "b23" <~ !"m2".[2:4].[3] ;;
    "b30" <~ !"m2".[3:4].[0] ;;
    "b31" <~ !"m2".[3:4].[1] ;;
    "b32" <~ !"m2".[3:4].[2] ;;
    "b33" <~ !"m2".[3:4].[3] ;;
    "dest".[0:4].[0] ::= (((("a00" * "b00") + ("a10" * "b01")) + ("a20" * "b02")) + ("a30" * "b03")) ;;
    "dest".[0:4].[1] ::= (((("a01" * "b00") + ("a11" * "b01")) + ("a21" * "b02")) + ("a31" * "b03")) ;;
    "dest".[0:4].[2] ::= (((("a02" * "b00") + ("a12" * "b01")) + ("a22" * "b02")) + ("a32" * "b03")) ;;
    "dest".[0:4].[3] ::= (((("a03" * "b00") + ("a13" * "b01")) + ("a23" * "b02")) + ("a33" * "b03")) ;;
    "dest".[1:4].[0] ::= (((("a00" * "b10") + ("a10" * "b11")) + ("a20" * "b12")) + ("a30" * "b13")) ;;
    "dest".[1:4].[1] ::= (((("a01" * "b10") + ("a11" * "b11")) + ("a21" * "b12")) + ("a31" * "b13")) ;;
    "dest".[1:4].[2] ::= (((("a02" * "b10") + ("a12" * "b11")) + ("a22" * "b12")) + ("a32" * "b13")) ;;
    "dest".[1:4].[3] ::= (((("a03" * "b10") + ("a13" * "b11")) + ("a23" * "b12")) + ("a33" * "b13")) ;;
    "dest".[2:4].[0] ::= (((("a00" * "b20") + ("a10" * "b21")) + ("a20" * "b22")) + ("a30" * "b23")) ;;
    "dest".[2:4].[1] ::= (((("a01" * "b20") + ("a11" * "b21")) + ("a21" * "b22")) + ("a31" * "b23")) ;;
    "dest".[2:4].[2] ::= (((("a02" * "b20") + ("a12" * "b21")) + ("a22" * "b22")) + ("a32" * "b23")) ;;
    "dest".[2:4].[3] ::= (((("a03" * "b20") + ("a13" * "b21")) + ("a23" * "b22")) + ("a33" * "b23")) ;;
    "dest".[3:4].[0] ::= (((("a00" * "b30") + ("a10" * "b31")) + ("a20" * "b32")) + ("a30" * "b33")) ;;
    "dest".[3:4].[1] ::= (((("a01" * "b30") + ("a11" * "b31")) + ("a21" * "b32")) + ("a31" * "b33")) ;;
    "dest".[3:4].[2] ::= (((("a02" * "b30") + ("a12" * "b31")) + ("a22" * "b32")) + ("a32" * "b33")) ;;
    "dest".[3:4].[3] ::= (((("a03" * "b30") + ("a13" * "b31")) + ("a23" * "b32")) + ("a33" * "b33"))
  ).

(* mat4.h:377-388 *)
Definition glm_mat4_mulN : fundef := Fun
  [("matrices", None); ("len", None); ("dest", None)]
  [("i", None)] (
    SAssert ("len" > (EI 1)) ;;
    SExp glm_mat4_mul$(!"matrices".[0], !"matrices".[1], "dest") ;;
    (SFor "i" (EI 2) "len" (
      SExp glm_mat4_mul$("dest", !(EIx "matrices" 1 "i"), "dest")
    ))
  ).

(* mat4.h:399-414 *)
Definition glm_mat4_mulv : fundef := Fun
  [("m", None); ("v", None); ("dest", None)]
  [("res", Some 4%nat)] (
    "res".[0] ::= ((((!"m".[0:4].[0] * !"v".[0]) + (!"m".[1:4].[0] * !"v".[1])) + (!"m".[2:4].[0] * !"v".[2])) + (!"m".[3:4].[0] * !"v".[3])) ;;
    "res".[1] ::= ((((!"m".[0:4].[1] * !"v".[0]) + (!"m".[1:4].[1] * !"v".[1])) + (!"m".[2:4].[1] * !"v".[2])) + (!"m".[3:4].[1] * !"v".[3])) ;;
    "res".[2] ::= ((((!"m".[0:4].[2] * !"v".[0]) + (!"m".[1:4].[2] * !"v".[1])) + (!"m".[2:4].[2] * !"v".[2])) + (!"m".[3:4].[2] * !"v".[3])) ;;
    "res".[3] ::= ((((!"m".[0:4].[3] * !"v".[0]) + (!"m".[1:4].[3] * !"v".[1])) + (!"m".[2:4].[3] * !"v".[2])) + (!"m".[3:4].[3] * !"v".[3])) ;;
    SExp glm_vec4_copy$("res", "dest")
  ).

(* mat4.h:425-427 *)
Definition glm_mat4_trace : fundef := Fun
  [("m", None)]
  [] (
    SRet (((!"m".[0:4].[0] + !"m".[1:4].[1]) + !"m".[2:4].[2]) + !"m".[3:4].[3])
  ).

(* mat4.h:438-440 *)
Definition glm_mat4_trace3 : fundef := Fun
  [("m", None)]
  [] (
    SRet ((!"m".[0:4].[0] + !"m".[1:4].[1]) + !"m".[2:4].[2])
  ).

(* mat4.h:450-489 *)
Definition glm_mat4_quat : fundef := Fun
  [("m", None); ("dest", None)]
  [("trace", None); ("r", None); ("rinv", None)] (
    "trace" <~ ((!"m".[0:4].[0] + !"m".[1:4].[1]) + !"m".[2:4].[2]) ;;
    (SIf ("trace" >= (EF 0 1)) (
      "r" <~ builtin (PF1 OSqrt)$(((EF 1 1) + "trace")) ;;
      "rinv" <~ ((EF 1 2) / "r") ;;
      "dest".[0] ::= ("rinv" * (!"m".[1:4].[2] - !"m".[2:4].[1])) ;;
      "dest".[1] ::= ("rinv" * (!"m".[2:4].[0] - !"m".[0:4].[2])) ;;
      "dest".[2] ::= ("rinv" * (!"m".[0:4].[1] - !"m".[1:4].[0])) ;;
      "dest".[3] ::= ("r" * (EF 1 2))
    ) (
      (SIf (EAnd (!"m".[0:4].[0] >= !"m".[1:4].[1]) (!"m".[0:4].[0] >= !"m".[2:4].[2])) (
        "r" <~ builtin (PF1 OSqrt)$(((((EF 1 1) - !"m".[1:4].[1]) - !"m".[2:4].[2]) + !"m".[0:4].[0])) ;;
        "rinv" <~ ((EF 1 2) / "r") ;;
        "dest".[0] ::= ("r" * (EF 1 2)) ;;
        "dest".[1] ::= ("rinv" * (!"m".[0:4].[1] + !"m".[1:4].[0])) ;;
        "dest".[2] ::= ("rinv" * (!"m".[0:4].[2] + !"m".[2:4].[0])) ;;
        "dest".[3] ::= ("rinv" * (!"m".[1:4].[2] - !"m".[2:4].[1]))
      ) (
        (SIf (!"m".[1:4].[1] >= !"m".[2:4].[2]) (
          "r" <~ builtin (PF1 OSqrt)$(((((EF 1 1) - !"m".[0:4].[0]) - !"m".[2:4].[2]) + !"m".[1:4].[1])) ;;
          "rinv" <~ ((EF 1 2) / "r") ;;
          "dest".[0] ::= ("rinv" * (!"m".[0:4].[1] + !"m".[1:4].[0])) ;;
          "dest".[1] ::= ("r" * (EF 1 2)) ;;
          "dest".[2] ::= ("rinv" * (!"m".[1:4].[2] + !"m".[2:4].[1])) ;;
          "dest".[3] ::= ("rinv" * (!"m".[2:4].[0] - !"m".[0:4].[2]))
        ) (
          "r" <~ builtin (PF1 OSqrt)$(((((EF 1 1) - !"m".[0:4].[0]) - !"m".[1:4].[1]) + !"m".[2:4].[2])) ;;
          "rinv" <~ ((EF 1 2) / "r") ;;
          "dest".[0] ::= ("rinv" * (!"m".[0:4].[2] + !"m".[2:4].[0])) ;;
          "dest".[1] ::= ("rinv" * (!"m".[1:4].[2] + !"m".[2:4].[1])) ;;
          "dest".[2] ::= ("r" * (EF 1 2)) ;;
          "dest".[3] ::= ("rinv" * (!"m".[0:4].[1] - !"m".[1:4].[0]))
        ))
      ))
    ))
  ).

(* mat4.h:504-509 *)
Definition glm_mat4_mulv3 : fundef := Fun
  [("m", None); ("v", None); ("last", None); ("dest", None)]
  [("res", Some 4%nat)] (
    SExp glm_vec4$("v", "last", "res") ;;
    SExp glm_mat4_mulv$("m", "res", "res") ;;
    SExp glm_vec3$("res", "dest")
  ).

(* mat4.h:521-540 *)
Definition glm_mat4_transpose_to : fundef := Fun
  [("m", None); ("dest", None)]
  [] (
    "dest".[0:4].[0] ::= !"m".[0:4].[0] ;;
    "dest".[1:4].[0] ::= !"m".[0:4].[1] ;;
    "dest".[0:4].[1] ::= !"m".[1:4].[0] ;;
    "dest".[1:4].[1] ::= !"m".[1:4].[1] ;;
    "dest".[0:4].[2] ::= !"m".[2:4].[0] ;;
    "dest".[1:4].[2] ::= !"m".[2:4].[1] ;;
    "dest".[0:4].[3] ::= !"m".[3:4].[0] ;;
    "dest".[1:4].[3] ::= !"m".[3:4].[1] ;;
    "dest".[2:4].[0] ::= !"m".[0:4].[2] ;;
    "dest".[3:4].[0] ::= !"m".[0:4].[3] ;;
    "dest".[2:4].[1] ::= !"m".[1:4].[2] ;;
    "dest".[3:4].[1] ::= !"m".[1:4].[3] ;;
    "dest".[2:4].[2] ::= !"m".[2:4].[2] ;;
    "dest".[3:4].[2] ::= !"m".[2:4].[3] ;;
    "dest".[2:4].[3] ::= !"m".[3:4].[2] ;;
    "dest".[3:4].[3] ::= !"m".[3:4].[3]
  ).

(* mat4.h:549-563 *)
Definition glm_mat4_transpose : fundef := Fun
  [("m", None)]
  [("d", Some 16%nat)] (
    SExp glm_mat4_transpose_to$("m", "d") ;;
    SExp glm_mat4_ucopy$("d", "m")
  ).

(* mat4.h:575-580 *)
Definition glm_mat4_scale_p : fundef := Fun
  [("m", None); ("s", None)]
  [] (
    "m".[0:4].[0] ::= (!"m".[0:4].[0] * "s") ;;
    "m".[0:4].[1] ::= (!"m".[0:4].[1] * "s") ;;
    "m".[0:4].[2] ::= (!"m".[0:4].[2] * "s") ;;
    "m".[0:4].[3] ::= (!"m".[0:4].[3] * "s") ;;
    "m".[1:4].[0] ::= (!"m".[1:4].[0] * "s") ;;
    "m".[1:4].[1] ::= (!"m".[1:4].[1] * "s") ;;
    "m".[1:4].[2] ::= (!"m".[1:4].[2] * "s") ;;
    "m".[1:4].[3] ::= (!"m".[1:4].[3] * "s") ;;
    "m".[2:4].[0] ::= (!"m".[2:4].[0] * "s") ;;
    "m".[2:4].[1] ::= (!"m".[2:4].[1] * "s") ;;
    "m".[2:4].[2] ::= (!"m".[2:4].[2] * "s") ;;
    "m".[2:4].[3] ::= (!"m".[2:4].[3] * "s") ;;
    "m".[3:4].[0] ::= (!"m".[3:4].[0] * "s") ;;
    "m".[3:4].[1] ::= (!"m".[3:4].[1] * "s") ;;
    "m".[3:4].[2] ::= (!"m".[3:4].[2] * "s") ;;
    "m".[3:4].[3] ::= (!"m".[3:4].[3] * "s")
  ).

(* mat4.h:592-604 *)
Definition glm_mat4_scale : fundef := Fun
  [("m", None); ("s", None)]
  [] (
    SExp glm_mat4_scale_p$("m", "s")
  ).

(* mat4.h:615-642 *)
Definition glm_mat4_det : fundef := Fun
  [("mat", None)]
  [("t", Some 6%nat); ("a", None); ("b", None); ("c", None); ("d", None); ("e", None); ("f", None); ("g", None); ("h", None); ("i", None); ("j", None); ("k", None); ("l", None); ("m", None); ("n", None); ("o", None); ("p", None)] (
    "a" <~ !"mat".[0:4].[0] ;;
    "b" <~ !"mat".[0:4].[1] ;;
    "c" <~ !"mat".[0:4].[2] ;;
    "d" <~ !"mat".[0:4].[3] ;;
    "e" <~ !"mat".[1:4].[0] ;;
    "f" <~ !"mat".[1:4].[1] ;;
    "g" <~ !"mat".[1:4].[2] ;;
    "h" <~ !"mat".[1:4].[3] ;;
    "i" <~ !"mat".[2:4].[0] ;;
    "j" <~ !"mat".[2:4].[1] ;;
    "k" <~ !"mat".[2:4].[2] ;;
    "l" <~ !"mat".[2:4].[3] ;;
    "m" <~ !"mat".[3:4].[0] ;;
    "n" <~ !"mat".[3:4].[1] ;;
    "o" <~ !"mat".[3:4].[2] ;;
    "p" <~ !"mat".[3:4].[3] ;;
    "t".[0] ::= (("k" * "p") - ("o" * "l")) ;;
    "t".[1] ::= (("j" * "p") - ("n" * "l")) ;;
    "t".[2] ::= (("j" * "o") - ("n" * "k")) ;;
    "t".[3] ::= (("i" * "p") - ("m" * "l")) ;;
    "t".[4] ::= (("i" * "o") - ("m" * "k")) ;;
    "t".[5] ::= (("i" * "n") - ("m" * "j")) ;;
    SRet (((("a" * ((("f" * !"t".[0]) - ("g" * !"t".[1])) + ("h" * !"t".[2]))) - ("b" * ((("e" * !"t".[0]) - ("g" * !"t".[3])) + ("h" * !"t".[4])))) + ("c" * ((("e" * !"t".[1]) - ("f" * !"t".[3])) + ("h" * !"t".[5])))) - ("d" * ((("e" * !"t".[2]) - ("f" * !"t".[4])) + ("g" * !"t".[5]))))
  ).

(* mat4.h:652-692 *)
Definition glm_mat4_inv : fundef := Fun
  [("mat", None); ("dest", None)]
  [("a", None); ("b", None); ("c", None); ("d", None); ("e", None); ("f", None); ("g", None); ("h", None); ("i", None); ("j", None); ("k", None); ("l", None); ("m", None); ("n", None); ("o", None); ("p", None); ("c1", None); ("c2", None); ("c3", None); ("c4", None); ("c5", None); ("c6", None); ("c7", None); ("c8", None); ("c9", None); ("c10", None); ("c11", None); ("c12", None); ("idt", None); ("ndt", None)] (
    "a" <~ !"mat".[0:4].[0] ;;
    "b" <~ !"mat".[0:4].[1] ;;
    "c" <~ !"mat".[0:4].[2] ;;
    "d" <~ !"mat".[0:4].[3] ;;
    "e" <~ !"mat".[1:4].[0] ;;
    "f" <~ !"mat".[1:4].[1] ;;
    "g" <~ !"mat".[1:4].[2] ;;
    "h" <~ !"mat".[1:4].[3] ;;
    "i" <~ !"mat".[2:4].[0] ;;
    "j" <~ !"mat".[2:4].[1] ;;
    "k" <~ !"mat".[2:4].[2] ;;
    "l" <~ !"mat".[2:4].[3] ;;
    "m" <~ !"mat".[3:4].[0] ;;
    "n" <~ !"mat".[3:4].[1] ;;
    "o" <~ !"mat".[3:4].[2] ;;
    "p" <~ !"mat".[3:4].[3] ;;
    "c1" <~ (("k" * "p") - ("l" * "o")) ;;
    "c2" <~ (("c" * "h") - ("d" * "g")) ;;
    "c3" <~ (("i" * "p") - ("l" * "m")) ;;
    "c4" <~ (("a" * "h") - ("d" * "e")) ;;
    "c5" <~ (("j" * "p") - ("l" * "n")) ;;
    "c6" <~ (("b" * "h") - ("d" * "f")) ;;
    "c7" <~ (("i" * "n") - ("j" * "m")) ;;
    "c8" <~ (("a" * "f") - ("b" * "e")) ;;
    "c9" <~ (("j" * "o") - ("k" * "n")) ;;
    "c10" <~ (("b" * "g") - ("c" * "f")) ;;
    "c11" <~ (("i" * "o") - ("k" * "m")) ;;
    "c12" <~ (("a" * "g") - ("c" * "e")) ;;
    "idt" <~ ((EF 1 1) / (((((("c8" * "c1") + ("c4" * "c9")) + ("c10" * "c3")) + ("c2" * "c7")) - ("c12" * "c5")) - ("c6" * "c11"))) ;;
    "ndt" <~ (- "idt") ;;
    "dest".[0:4].[0] ::= (((("f" * "c1") - ("g" * "c5")) + ("h" * "c9")) * "idt") ;;
    "dest".[0:4].[1] ::= (((("b" * "c1") - ("c" * "c5")) + ("d" * "c9")) * "ndt") ;;
    "dest".[0:4].[2] ::= (((("n" * "c2") - ("o" * "c6")) + ("p" * "c10")) * "idt") ;;
    "dest".[0:4].[3] ::= (((("j" * "c2") - ("k" * "c6")) + ("l" * "c10")) * "ndt") ;;
    "dest".[1:4].[0] ::= (((("e" * "c1") - ("g" * "c3")) + ("h" * "c11")) * "ndt") ;;
    "dest".[1:4].[1] ::= (((("a" * "c1") - ("c" * "c3")) + ("d" * "c11")) * "idt") ;;
    "dest".[1:4].[2] ::= (((("m" * "c2") - ("o" * "c4")) + ("p" * "c12")) * "ndt") ;;
    "dest".[1:4].[3] ::= (((("i" * "c2") - ("k" * "c4")) + ("l" * "c12")) * "idt") ;;
    "dest".[2:4].[0] ::= (((("e" * "c5") - ("f" * "c3")) + ("h" * "c7")) * "idt") ;;
    "dest".[2:4].[1] ::= (((("a" * "c5") - ("b" * "c3")) + ("d" * "c7")) * "ndt") ;;
    "dest".[2:4].[2] ::= (((("m" * "c6") - ("n" * "c4")) + ("p" * "c8")) * "idt") ;;
    "dest".[2:4].[3] ::= (((("i" * "c6") - ("j" * "c4")) + ("l" * "c8")) * "ndt") ;;
    "dest".[3:4].[0] ::= (((("e" * "c9") - ("f" * "c11")) + ("g" * "c7")) * "ndt") ;;
    "dest".[3:4].[1] ::= (((("a" * "c9") - ("b" * "c11")) + ("c" * "c7")) * "idt") ;;
    "dest".[3:4].[2] ::= (((("m" * "c10") - ("n" * "c12")) + ("o" * "c8")) * "ndt") ;;
    "dest".[3:4].[3] ::= (((("i" * "c10") - ("j" * "c12")) + ("k" * "c8")) * "idt")
  ).

(* mat4.h:708-716 *)
Definition glm_mat4_inv_fast : fundef := Fun
  [("mat", None); ("dest", None)]
  [] (
    SExp glm_mat4_inv$("mat", "dest")
  ).

(* mat4.h:727-732 *)
Definition glm_mat4_swap_col : fundef := Fun
  [("mat", None); ("col1", None); ("col2", None)]
  [("tmp", Some 4%nat)] (
    SExp glm_vec4_copy$((EIx "mat" 4 "col1"), "tmp") ;;
    SExp glm_vec4_copy$((EIx "mat" 4 "col2"), (EIx "mat" 4 "col1")) ;;
    SExp glm_vec4_copy$("tmp", (EIx "mat" 4 "col2"))
  ).

(* mat4.h:743-759 *)
Definition glm_mat4_swap_row : fundef := Fun
  [("mat", None); ("row1", None); ("row2", None)]
  [("tmp", Some 4%nat)] (
    "tmp".[0] ::= !(EIx "mat".[0:4] 1 "row1") ;;
    "tmp".[1] ::= !(EIx "mat".[1:4] 1 "row1") ;;
    "tmp".[2] ::= !(EIx "mat".[2:4] 1 "row1") ;;
    "tmp".[3] ::= !(EIx "mat".[3:4] 1 "row1") ;;
    (EIx "mat".[0:4] 1 "row1") ::= !(EIx "mat".[0:4] 1 "row2") ;;
    (EIx "mat".[1:4] 1 "row1") ::= !(EIx "mat".[1:4] 1 "row2") ;;
    (EIx "mat".[2:4] 1 "row1") ::= !(EIx "mat".[2:4] 1 "row2") ;;
    (EIx "mat".[3:4] 1 "row1") ::= !(EIx "mat".[3:4] 1 "row2") ;;
    (EIx "mat".[0:4] 1 "row2") ::= !"tmp".[0] ;;
    (EIx "mat".[1:4] 1 "row2") ::= !"tmp".[1] ;;
    (EIx "mat".[2:4] 1 "row2") ::= !"tmp".[2] ;;
    (EIx "mat".[3:4] 1 "row2") ::= !"tmp".[3]
  ).

(* mat4.h:777-781 *)
Definition glm_mat4_rmc : fundef := Fun
  [("r", None); ("m", None); ("c", None)]
  [("tmp", Some 4%nat)] (
    SExp glm_mat4_mulv$("m", "c", "tmp") ;;
    SRet glm_vec4_dot$("r", "tmp")
  ).

(* mat4.h:791-801 *)
Definition glm_mat4_make : fundef := Fun
  [("src", None); ("dest", None)]
  [] (
    "dest".[0:4].[0] ::= !"src".[0] ;;
    "dest".[1:4].[0] ::= !"src".[4] ;;
    "dest".[0:4].[1] ::= !"src".[1] ;;
    "dest".[1:4].[1] ::= !"src".[5] ;;
    "dest".[0:4].[2] ::= !"src".[2] ;;
    "dest".[1:4].[2] ::= !"src".[6] ;;
    "dest".[0:4].[3] ::= !"src".[3] ;;
    "dest".[1:4].[3] ::= !"src".[7] ;;
    "dest".[2:4].[0] ::= !"src".[8] ;;
    "dest".[3:4].[0] ::= !"src".[12] ;;
    "dest".[2:4].[1] ::= !"src".[9] ;;
    "dest".[3:4].[1] ::= !"src".[13] ;;
    "dest".[2:4].[2] ::= !"src".[10] ;;
    "dest".[3:4].[2] ::= !"src".[14] ;;
    "dest".[2:4].[3] ::= !"src".[11] ;;
    "dest".[3:4].[3] ::= !"src".[15]
  ).

(* mat4.h:815-829 *)
Definition glm_mat4_textrans : fundef := Fun
  [("sx", None); ("sy", None); ("rot", None); ("tx", None); ("ty", None); ("dest", None)]
  [("c", None); ("s", None)] (
    "c" <~ builtin (PF1 OCos)$("rot") ;;
    "s" <~ builtin (PF1 OSin)$("rot") ;;
    SExp glm_mat4_identity$("dest") ;;
    "dest".[0:4].[0] ::= ("c" * "sx") ;;
    "dest".[0:4].[1] ::= ((- "s") * "sy") ;;
    "dest".[1:4].[0] ::= ("s" * "sx") ;;
    "dest".[1:4].[1] ::= ("c" * "sy") ;;
    "dest".[3:4].[0] ::= "tx" ;;
    "dest".[3:4].[1] ::= "ty"
  ).

