(** Functions of include/cglm/mat3.h (configuration: scalar), written by tools/gen.py.
    The comment above each definition gives file and lines in /repo/include/cglm. *)
From Coq Require Import String List ZArith.
From Verif Require Import MiniC.
From Verif.Gen Require Import vec3.
Import ListNotations.
Open Scope string_scope.
Open Scope Z_scope.
Open Scope mc_scope.

(* mat3.h:74-86 *)
Definition glm_mat3_copy : fundef := Fun
  [("mat", None); ("dest", None)]
  [] (
    "dest".[0:3].[0] ::= !"mat".[0:3].[0] ;;
    "dest".[0:3].[1] ::= !"mat".[0:3].[1] ;;
    "dest".[0:3].[2] ::= !"mat".[0:3].[2] ;;
    "dest".[1:3].[0] ::= !"mat".[1:3].[0] ;;
    "dest".[1:3].[1] ::= !"mat".[1:3].[1] ;;
    "dest".[1:3].[2] ::= !"mat".[1:3].[2] ;;
    "dest".[2:3].[0] ::= !"mat".[2:3].[0] ;;
    "dest".[2:3].[1] ::= !"mat".[2:3].[1] ;;
    "dest".[2:3].[2] ::= !"mat".[2:3].[2]
  ).

(* mat3.h:104-107 *)
Definition glm_mat3_identity : fundef := Fun
  [("mat", None)]
  [("t", Some 9%nat)] (
    "t".[0:3].[0] ::= (EF 1 1) ;;
    "t".[0:3].[1] ::= (EF 0 1) ;;
    "t".[0:3].[2] ::= (EF 0 1) ;;
    "t".[1:3].[0] ::= (EF 0 1) ;;
    "t".[1:3].[1] ::= (EF 1 1) ;;
    "t".[1:3].[2] ::= (EF 0 1) ;;
    "t".[2:3].[0] ::= (EF 0 1) ;;
    "t".[2:3].[1] ::= (EF 0 1) ;;
    "t".[2:3].[2] ::= (EF 1 1) ;;
    SExp glm_mat3_copy$("t", "mat")
  ).

(* mat3.h:119-126 *)
Definition glm_mat3_identity_array : fundef := Fun
  [("mat", None); ("count", None)]
  [("t", Some 9%nat); ("i", None)] (
    "t".[0:3].[0] ::= (EF 1 1) ;;
    "t".[0:3].[1] ::= (EF 0 1) ;;
    "t".[0:3].[2] ::= (EF 0 1) ;;
    "t".[1:3].[0] ::= (EF 0 1) ;;
    "t".[1:3].[1] ::= (EF 1 1) ;;
    "t".[1:3].[2] ::= (EF 0 1) ;;
    "t".[2:3].[0] ::= (EF 0 1) ;;
    "t".[2:3].[1] ::= (EF 0 1) ;;
    "t".[2:3].[2] ::= (EF 1 1) ;;
    (SFor "i" (EI 0) "count" (
      SExp glm_mat3_copy$("t", (EIx "mat" 9 "i"))
    ))
  ).

(* mat3.h:135-138 *)
Definition glm_mat3_zero : fundef := Fun
  [("mat", None)]
  [("t", Some 9%nat)] (
    "t".[0:3].[0] ::= (EF 0 1) ;;
    "t".[0:3].[1] ::= (EF 0 1) ;;
    "t".[0:3].[2] ::= (EF 0 1) ;;
    "t".[1:3].[0] ::= (EF 0 1) ;;
    "t".[1:3].[1] ::= (EF 0 1) ;;
    "t".[1:3].[2] ::= (EF 0 1) ;;
    "t".[2:3].[0] ::= (EF 0 1) ;;
    "t".[2:3].[1] ::= (EF 0 1) ;;
    "t".[2:3].[2] ::= (EF 0 1) ;;
    SExp glm_mat3_copy$("t", "mat")
  ).

(* mat3.h:156-180 *)
Definition glm_mat3_mul : fundef := Fun
  [("m1", None); ("m2", None); ("dest", None)]
  [("a00", None); ("a01", None); ("a02", None); ("a10", None); ("a11", None); ("a12", None); ("a20", None); ("a21", None); ("a22", None); ("b00", None); ("b01", None); ("b02", None); ("b10", None); ("b11", None); ("b12", None); ("b20", None); ("b21", None); ("b22", None)] (
    "a00" <~ !"m1".[0:3].[0] ;;
    "a01" <~ !"m1".[0:3].[1] ;;
    "a02" <~ !"m1".[0:3].[2] ;;
    "a10" <~ !"m1".[1:3].[0] ;;
    "a11" <~ !"m1".[1:3].[1] ;;
    "a12" <~ !"m1".[1:3].[2] ;;
    "a20" <~ !"m1".[2:3].[0] ;;
    "a21" <~ !"m1".[2:3].[1] ;;
    "a22" <~ !"m1".[2:3].[2] ;;
    "b00" <~ !"m2".[0:3].[0] ;;
    "b01" <~ !"m2".[0:3].[1] ;;
    "b02" <~ !"m2".[0:3].[2] ;;
    "b10" <~ !"m2".[1:3].[0] ;;
    "b11" <~ !"m2".[1:3].[1] ;;
    "b12" <~ !"m2".[1:3].[2] ;;
    "b20" <~ !"m2".[2:3].[0] ;;
    "b21" <~ !"m2".[2:3].[1] ;;
    "b22" <~ !"m2".[2:3].[2] ;;
    "dest".[0:3].[0] ::= ((("a00" * "b00") + ("a10" * "b01")) + ("a20" * "b02")) ;;
    "dest".[0:3].[1] ::= ((("a01" * "b00") + ("a11" * "b01")) + ("a21" * "b02")) ;;
    "dest".[0:3].[2] ::= ((("a02" * "b00") + ("a12" * "b01")) + ("a22" * "b02")) ;;
    "dest".[1:3].[0] ::= ((("a00" * "b10") + ("a10" * "b11")) + ("a20" * "b12")) ;;
    "dest".[1:3].[1] ::= ((("a01" * "b10") + ("a11" * "b11")) + ("a21" * "b12")) ;;
    "dest".[1:3].[2] ::= ((("a02" * "b10") + ("a12" * "b11")) + ("a22" * "b12")) ;;
    "dest".[2:3].[0] ::= ((("a00" * "b20") + ("a10" * "b21")) + ("a20" * "b22")) ;;
    "dest".[2:3].[1] ::= ((("a01" * "b20") + ("a11" * "b21")) + ("a21" * "b22")) ;;
    "dest".[2:3].[2] ::= ((("a02" * "b20") + ("a12" * "b21")) + ("a22" * "b22"))
  ).

(* mat3.h:192-202 *)
Definition glm_mat3_transpose_to : fundef := Fun
  [("m", None); ("dest", None)]
  [] (
    "dest".[0:3].[0] ::= !"m".[0:3].[0] ;;
    "dest".[0:3].[1] ::= !"m".[1:3].[0] ;;
    "dest".[0:3].[2] ::= !"m".[2:3].[0] ;;
    "dest".[1:3].[0] ::= !"m".[0:3].[1] ;;
    "dest".[1:3].[1] ::= !"m".[1:3].[1] ;;
    "dest".[1:3].[2] ::= !"m".[2:3].[1] ;;
    "dest".[2:3].[0] ::= !"m".[0:3].[2] ;;
    "dest".[2:3].[1] ::= !"m".[1:3].[2] ;;
    "dest".[2:3].[2] ::= !"m".[2:3].[2]
  ).

(* mat3.h:211-227 *)
Definition glm_mat3_transpose : fundef := Fun
  [("m", None)]
  [("tmp", Some 9%nat)] (
    "tmp".[0:3].[1] ::= !"m".[1:3].[0] ;;
    "tmp".[0:3].[2] ::= !"m".[2:3].[0] ;;
    "tmp".[1:3].[0] ::= !"m".[0:3].[1] ;;
    "tmp".[1:3].[2] ::= !"m".[2:3].[1] ;;
    "tmp".[2:3].[0] ::= !"m".[0:3].[2] ;;
    "tmp".[2:3].[1] ::= !"m".[1:3].[2] ;;
    "m".[0:3].[1] ::= !"tmp".[0:3].[1] ;;
    "m".[0:3].[2] ::= !"tmp".[0:3].[2] ;;
    "m".[1:3].[0] ::= !"tmp".[1:3].[0] ;;
    "m".[1:3].[2] ::= !"tmp".[1:3].[2] ;;
    "m".[2:3].[0] ::= !"tmp".[2:3].[0] ;;
    "m".[2:3].[1] ::= !"tmp".[2:3].[1]
  ).

(* mat3.h:238-244 *)
Definition glm_mat3_mulv : fundef := Fun
  [("m", None); ("v", None); ("dest", None)]
  [("res", Some 3%nat)] (
    "res".[0] ::= (((!"m".[0:3].[0] * !"v".[0]) + (!"m".[1:3].[0] * !"v".[1])) + (!"m".[2:3].[0] * !"v".[2])) ;;
    "res".[1] ::= (((!"m".[0:3].[1] * !"v".[0]) + (!"m".[1:3].[1] * !"v".[1])) + (!"m".[2:3].[1] * !"v".[2])) ;;
    "res".[2] ::= (((!"m".[0:3].[2] * !"v".[0]) + (!"m".[1:3].[2] * !"v".[1])) + (!"m".[2:3].[2] * !"v".[2])) ;;
    SExp glm_vec3_copy$("res", "dest")
  ).

(* mat3.h:255-257 *)
Definition glm_mat3_trace : fundef := Fun
  [("m", None)]
  [] (
    SRet ((!"m".[0:3].[0] + !"m".[1:3].[1]) + !"m".[2:3].[2])
  ).

(* mat3.h:267-306 *)
Definition glm_mat3_quat : fundef := Fun
  [("m", None); ("dest", None)]
  [("trace", None); ("r", None); ("rinv", None)] (
    "trace" <~ ((!"m".[0:3].[0] + !"m".[1:3].[1]) + !"m".[2:3].[2]) ;;
    (SIf ("trace" >= (EF 0 1)) (
      "r" <~ builtin (PF1 OSqrt)$(((EF 1 1) + "trace")) ;;
      "rinv" <~ ((EF 1 2) / "r") ;;
      "dest".[0] ::= ("rinv" * (!"m".[1:3].[2] - !"m".[2:3].[1])) ;;
      "dest".[1] ::= ("rinv" * (!"m".[2:3].[0] - !"m".[0:3].[2])) ;;
      "dest".[2] ::= ("rinv" * (!"m".[0:3].[1] - !"m".[1:3].[0])) ;;
      "dest".[3] ::= ("r" * (EF 1 2))
    ) (
      (SIf (EAnd (!"m".[0:3].[0] >= !"m".[1:3].[1]) (!"m".[0:3].[0] >= !"m".[2:3].[2])) (
        "r" <~ builtin (PF1 OSqrt)$(((((EF 1 1) - !"m".[1:3].[1]) - !"m".[2:3].[2]) + !"m".[0:3].[0])) ;;
        "rinv" <~ ((EF 1 2) / "r") ;;
        "dest".[0] ::= ("r" * (EF 1 2)) ;;
        "dest".[1] ::= ("rinv" * (!"m".[0:3].[1] + !"m".[1:3].[0])) ;;
        "dest".[2] ::= ("rinv" * (!"m".[0:3].[2] + !"m".[2:3].[0])) ;;
        "dest".[3] ::= ("rinv" * (!"m".[1:3].[2] - !"m".[2:3].[1]))
      ) (
        (SIf (!"m".[1:3].[1] >= !"m".[2:3].[2]) (
          "r" <~ builtin (PF1 OSqrt)$(((((EF 1 1) - !"m".[0:3].[0]) - !"m".[2:3].[2]) + !"m".[1:3].[1])) ;;
          "rinv" <~ ((EF 1 2) / "r") ;;
          "dest".[0] ::= ("rinv" * (!"m".[0:3].[1] + !"m".[1:3].[0])) ;;
          "dest".[1] ::= ("r" * (EF 1 2)) ;;
          "dest".[2] ::= ("rinv" * (!"m".[1:3].[2] + !"m".[2:3].[1])) ;;
          "dest".[3] ::= ("rinv" * (!"m".[2:3].[0] - !"m".[0:3].[2]))
        ) (
          "r" <~ builtin (PF1 OSqrt)$(((((EF 1 1) - !"m".[0:3].[0]) - !"m".[1:3].[1]) + !"m".[2:3].[2])) ;;
          "rinv" <~ ((EF 1 2) / "r") ;;
          "dest".[0] ::= ("rinv" * (!"m".[0:3].[2] + !"m".[2:3].[0])) ;;
          "dest".[1] ::= ("rinv" * (!"m".[1:3].[2] + !"m".[2:3].[1])) ;;
          "dest".[2] ::= ("r" * (EF 1 2)) ;;
          "dest".[3] ::= ("rinv" * (!"m".[0:3].[1] - !"m".[1:3].[0]))
        ))
      ))
    ))
  ).

(* mat3.h:318-322 *)
Definition glm_mat3_scale : fundef := Fun
  [("m", None); ("s", None)]
  [] (
    "m".[0:3].[0] ::= (!"m".[0:3].[0] * "s") ;;
    "m".[0:3].[1] ::= (!"m".[0:3].[1] * "s") ;;
    "m".[0:3].[2] ::= (!"m".[0:3].[2] * "s") ;;
    "m".[1:3].[0] ::= (!"m".[1:3].[0] * "s") ;;
    "m".[1:3].[1] ::= (!"m".[1:3].[1] * "s") ;;
    "m".[1:3].[2] ::= (!"m".[1:3].[2] * "s") ;;
    "m".[2:3].[0] ::= (!"m".[2:3].[0] * "s") ;;
    "m".[2:3].[1] ::= (!"m".[2:3].[1] * "s") ;;
    "m".[2:3].[2] ::= (!"m".[2:3].[2] * "s")
  ).

(* mat3.h:333-339 *)
Definition glm_mat3_det : fundef := Fun
  [("mat", None)]
  [("a", None); ("b", None); ("c", None); ("d", None); ("e", None); ("f", None); ("g", None); ("h", None); ("i", None)] (
    "a" <~ !"mat".[0:3].[0] ;;
    "b" <~ !"mat".[0:3].[1] ;;
    "c" <~ !"mat".[0:3].[2] ;;
    "d" <~ !"mat".[1:3].[0] ;;
    "e" <~ !"mat".[1:3].[1] ;;
    "f" <~ !"mat".[1:3].[2] ;;
    "g" <~ !"mat".[2:3].[0] ;;
    "h" <~ !"mat".[2:3].[1] ;;
    "i" <~ !"mat".[2:3].[2] ;;
    SRet ((("a" * (("e" * "i") - ("h" * "f"))) - ("d" * (("b" * "i") - ("h" * "c")))) + ("g" * (("b" * "f") - ("e" * "c"))))
  ).

(* mat3.h:349-366 *)
Definition glm_mat3_inv : fundef := Fun
  [("mat", None); ("dest", None)]
  [("a", None); ("b", None); ("c", None); ("d", None); ("e", None); ("f", None); ("g", None); ("h", None); ("i", None); ("c1", None); ("c2", None); ("c3", None); ("idt", None); ("ndt", None)] (
    "a" <~ !"mat".[0:3].[0] ;;
    "b" <~ !"mat".[0:3].[1] ;;
    "c" <~ !"mat".[0:3].[2] ;;
    "d" <~ !"mat".[1:3].[0] ;;
    "e" <~ !"mat".[1:3].[1] ;;
    "f" <~ !"mat".[1:3].[2] ;;
    "g" <~ !"mat".[2:3].[0] ;;
    "h" <~ !"mat".[2:3].[1] ;;
    "i" <~ !"mat".[2:3].[2] ;;
    "c1" <~ (("e" * "i") - ("f" * "h")) ;;
    "c2" <~ (("d" * "i") - ("g" * "f")) ;;
    "c3" <~ (("d" * "h") - ("g" * "e")) ;;
    "idt" <~ ((EF 1 1) / ((("a" * "c1") - ("b" * "c2")) + ("c" * "c3"))) ;;
    "ndt" <~ (- "idt") ;;
    "dest".[0:3].[0] ::= ("idt" * "c1") ;;
    "dest".[0:3].[1] ::= ("ndt" * (("b" * "i") - ("h" * "c"))) ;;
    "dest".[0:3].[2] ::= ("idt" * (("b" * "f") - ("e" * "c"))) ;;
    "dest".[1:3].[0] ::= ("ndt" * "c2") ;;
    "dest".[1:3].[1] ::= ("idt" * (("a" * "i") - ("g" * "c"))) ;;
    "dest".[1:3].[2] ::= ("ndt" * (("a" * "f") - ("d" * "c"))) ;;
    "dest".[2:3].[0] ::= ("idt" * "c3") ;;
    "dest".[2:3].[1] ::= ("ndt" * (("a" * "h") - ("g" * "b"))) ;;
    "dest".[2:3].[2] ::= ("idt" * (("a" * "e") - ("d" * "b")))
  ).

(* mat3.h:377-382 *)
Definition glm_mat3_swap_col : fundef := Fun
  [("mat", None); ("col1", None); ("col2", None)]
  [("tmp", Some 3%nat)] (
    SExp glm_vec3_copy$((EIx "mat" 3 "col1"), "tmp") ;;
    SExp glm_vec3_copy$((EIx "mat" 3 "col2"), (EIx "mat" 3 "col1")) ;;
    SExp glm_vec3_copy$("tmp", (EIx "mat" 3 "col2"))
  ).

(* mat3.h:393-406 *)
Definition glm_mat3_swap_row : fundef := Fun
  [("mat", None); ("row1", None); ("row2", None)]
  [("tmp", Some 3%nat)] (
    "tmp".[0] ::= !(EIx "mat".[0:3] 1 "row1") ;;
    "tmp".[1] ::= !(EIx "mat".[1:3] 1 "row1") ;;
    "tmp".[2] ::= !(EIx "mat".[2:3] 1 "row1") ;;
    (EIx "mat".[0:3] 1 "row1") ::= !(EIx "mat".[0:3] 1 "row2") ;;
    (EIx "mat".[1:3] 1 "row1") ::= !(EIx "mat".[1:3] 1 "row2") ;;
    (EIx "mat".[2:3] 1 "row1") ::= !(EIx "mat".[2:3] 1 "row2") ;;
    (EIx "mat".[0:3] 1 "row2") ::= !"tmp".[0] ;;
    (EIx "mat".[1:3] 1 "row2") ::= !"tmp".[1] ;;
    (EIx "mat".[2:3] 1 "row2") ::= !"tmp".[2]
  ).

(* mat3.h:424-428 *)
Definition glm_mat3_rmc : fundef := Fun
  [("r", None); ("m", None); ("c", None)]
  [("tmp", Some 3%nat)] (
    SExp glm_mat3_mulv$("m", "c", "tmp") ;;
    SRet glm_vec3_dot$("r", "tmp")
  ).

(* mat3.h:438-450 *)
Definition glm_mat3_make : fundef := Fun
  [("src", None); ("dest", None)]
  [] (
    "dest".[0:3].[0] ::= !"src".[0] ;;
    "dest".[0:3].[1] ::= !"src".[1] ;;
    "dest".[0:3].[2] ::= !"src".[2] ;;
    "dest".[1:3].[0] ::= !"src".[3] ;;
    "dest".[1:3].[1] ::= !"src".[4] ;;
    "dest".[1:3].[2] ::= !"src".[5] ;;
    "dest".[2:3].[0] ::= !"src".[6] ;;
    "dest".[2:3].[1] ::= !"src".[7] ;;
    "dest".[2:3].[2] ::= !"src".[8]
  ).

(* mat3.h:464-478 *)
Definition glm_mat3_textrans : fundef := Fun
  [("sx", None); ("sy", None); ("rot", None); ("tx", None); ("ty", None); ("dest", None)]
  [("c", None); ("s", None)] (
    "c" <~ builtin (PF1 OCos)$("rot") ;;
    "s" <~ builtin (PF1 OSin)$("rot") ;;
    SExp glm_mat3_identity$("dest") ;;
    "dest".[0:3].[0] ::= ("c" * "sx") ;;
    "dest".[0:3].[1] ::= ((- "s") * "sy") ;;
    "dest".[1:3].[0] ::= ("s" * "sx") ;;
    "dest".[1:3].[1] ::= ("c" * "sy") ;;
    "dest".[2:3].[0] ::= "tx" ;;
    "dest".[2:3].[1] ::= "ty"
  ).

