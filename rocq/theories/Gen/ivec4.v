(** Functions of include/cglm/ivec4.h (configuration: scalar), written by tools/gen.py.
    The comment above each definition gives file and lines in /repo/include/cglm. *)
From Coq Require Import String List ZArith.
From Verif Require Import MiniC.
From Verif.Gen Require Import util.
Import ListNotations.
Open Scope string_scope.
Open Scope Z_scope.
Open Scope mc_scope.

(* ivec4.h:71-76 *)
Definition glm_ivec4 : fundef := Fun
  [("v3", None); ("last", None); ("dest", None)]
  [] (
    "dest".[0] ::= !"v3".[0] ;;
    "dest".[1] ::= !"v3".[1] ;;
    "dest".[2] ::= !"v3".[2] ;;
    "dest".[3] ::= "last"
  ).

(* ivec4.h:86-91 *)
Definition glm_ivec4_copy : fundef := Fun
  [("a", None); ("dest", None)]
  [] (
    "dest".[0] ::= !"a".[0] ;;
    "dest".[1] ::= !"a".[1] ;;
    "dest".[2] ::= !"a".[2] ;;
    "dest".[3] ::= !"a".[3]
  ).

(* ivec4.h:100-102 *)
Definition glm_ivec4_zero : fundef := Fun
  [("v", None)]
  [] (
    "v".[3] ::= (EI 0) ;;
    "v".[2] ::= !"v".[3] ;;
    "v".[1] ::= !"v".[2] ;;
    "v".[0] ::= !"v".[1]
  ).

(* ivec4.h:111-113 *)
Definition glm_ivec4_one : fundef := Fun
  [("v", None)]
  [] (
    "v".[3] ::= (EI 1) ;;
    "v".[2] ::= !"v".[3] ;;
    "v".[1] ::= !"v".[2] ;;
    "v".[0] ::= !"v".[1]
  ).

(* ivec4.h:124-129 *)
Definition glm_ivec4_add : fundef := Fun
  [("a", None); ("b", None); ("dest", None)]
  [] (
    "dest".[0] ::= (!"a".[0] + !"b".[0]) ;;
    "dest".[1] ::= (!"a".[1] + !"b".[1]) ;;
    "dest".[2] ::= (!"a".[2] + !"b".[2]) ;;
    "dest".[3] ::= (!"a".[3] + !"b".[3])
  ).

(* ivec4.h:140-145 *)
Definition glm_ivec4_adds : fundef := Fun
  [("v", None); ("s", None); ("dest", None)]
  [] (
    "dest".[0] ::= (!"v".[0] + "s") ;;
    "dest".[1] ::= (!"v".[1] + "s") ;;
    "dest".[2] ::= (!"v".[2] + "s") ;;
    "dest".[3] ::= (!"v".[3] + "s")
  ).

(* ivec4.h:156-161 *)
Definition glm_ivec4_sub : fundef := Fun
  [("a", None); ("b", None); ("dest", None)]
  [] (
    "dest".[0] ::= (!"a".[0] - !"b".[0]) ;;
    "dest".[1] ::= (!"a".[1] - !"b".[1]) ;;
    "dest".[2] ::= (!"a".[2] - !"b".[2]) ;;
    "dest".[3] ::= (!"a".[3] - !"b".[3])
  ).

(* ivec4.h:172-177 *)
Definition glm_ivec4_subs : fundef := Fun
  [("v", None); ("s", None); ("dest", None)]
  [] (
    "dest".[0] ::= (!"v".[0] - "s") ;;
    "dest".[1] ::= (!"v".[1] - "s") ;;
    "dest".[2] ::= (!"v".[2] - "s") ;;
    "dest".[3] ::= (!"v".[3] - "s")
  ).

(* ivec4.h:188-193 *)
Definition glm_ivec4_mul : fundef := Fun
  [("a", None); ("b", None); ("dest", None)]
  [] (
    "dest".[0] ::= (!"a".[0] * !"b".[0]) ;;
    "dest".[1] ::= (!"a".[1] * !"b".[1]) ;;
    "dest".[2] ::= (!"a".[2] * !"b".[2]) ;;
    "dest".[3] ::= (!"a".[3] * !"b".[3])
  ).

(* ivec4.h:204-209 *)
Definition glm_ivec4_scale : fundef := Fun
  [("v", None); ("s", None); ("dest", None)]
  [] (
    "dest".[0] ::= (!"v".[0] * "s") ;;
    "dest".[1] ::= (!"v".[1] * "s") ;;
    "dest".[2] ::= (!"v".[2] * "s") ;;
    "dest".[3] ::= (!"v".[3] * "s")
  ).

(* ivec4.h:222-227 *)
Definition glm_ivec4_addadd : fundef := Fun
  [("a", None); ("b", None); ("dest", None)]
  [] (
    "dest".[0] ::= (!"dest".[0] + (!"a".[0] + !"b".[0])) ;;
    "dest".[1] ::= (!"dest".[1] + (!"a".[1] + !"b".[1])) ;;
    "dest".[2] ::= (!"dest".[2] + (!"a".[2] + !"b".[2])) ;;
    "dest".[3] ::= (!"dest".[3] + (!"a".[3] + !"b".[3]))
  ).

(* ivec4.h:240-245 *)
Definition glm_ivec4_addadds : fundef := Fun
  [("a", None); ("s", None); ("dest", None)]
  [] (
    "dest".[0] ::= (!"dest".[0] + (!"a".[0] + "s")) ;;
    "dest".[1] ::= (!"dest".[1] + (!"a".[1] + "s")) ;;
    "dest".[2] ::= (!"dest".[2] + (!"a".[2] + "s")) ;;
    "dest".[3] ::= (!"dest".[3] + (!"a".[3] + "s"))
  ).

(* ivec4.h:258-263 *)
Definition glm_ivec4_subadd : fundef := Fun
  [("a", None); ("b", None); ("dest", None)]
  [] (
    "dest".[0] ::= (!"dest".[0] + (!"a".[0] - !"b".[0])) ;;
    "dest".[1] ::= (!"dest".[1] + (!"a".[1] - !"b".[1])) ;;
    "dest".[2] ::= (!"dest".[2] + (!"a".[2] - !"b".[2])) ;;
    "dest".[3] ::= (!"dest".[3] + (!"a".[3] - !"b".[3]))
  ).

(* ivec4.h:276-281 *)
Definition glm_ivec4_subadds : fundef := Fun
  [("a", None); ("s", None); ("dest", None)]
  [] (
    "dest".[0] ::= (!"dest".[0] + (!"a".[0] - "s")) ;;
    "dest".[1] ::= (!"dest".[1] + (!"a".[1] - "s")) ;;
    "dest".[2] ::= (!"dest".[2] + (!"a".[2] - "s")) ;;
    "dest".[3] ::= (!"dest".[3] + (!"a".[3] - "s"))
  ).

(* ivec4.h:294-299 *)
Definition glm_ivec4_muladd : fundef := Fun
  [("a", None); ("b", None); ("dest", None)]
  [] (
    "dest".[0] ::= (!"dest".[0] + (!"a".[0] * !"b".[0])) ;;
    "dest".[1] ::= (!"dest".[1] + (!"a".[1] * !"b".[1])) ;;
    "dest".[2] ::= (!"dest".[2] + (!"a".[2] * !"b".[2])) ;;
    "dest".[3] ::= (!"dest".[3] + (!"a".[3] * !"b".[3]))
  ).

(* ivec4.h:312-317 *)
Definition glm_ivec4_muladds : fundef := Fun
  [("a", None); ("s", None); ("dest", None)]
  [] (
    "dest".[0] ::= (!"dest".[0] + (!"a".[0] * "s")) ;;
    "dest".[1] ::= (!"dest".[1] + (!"a".[1] * "s")) ;;
    "dest".[2] ::= (!"dest".[2] + (!"a".[2] * "s")) ;;
    "dest".[3] ::= (!"dest".[3] + (!"a".[3] * "s"))
  ).

(* ivec4.h:330-335 *)
Definition glm_ivec4_maxadd : fundef := Fun
  [("a", None); ("b", None); ("dest", None)]
  [] (
    "dest".[0] ::= (!"dest".[0] + glm_imax$(!"a".[0], !"b".[0])) ;;
    "dest".[1] ::= (!"dest".[1] + glm_imax$(!"a".[1], !"b".[1])) ;;
    "dest".[2] ::= (!"dest".[2] + glm_imax$(!"a".[2], !"b".[2])) ;;
    "dest".[3] ::= (!"dest".[3] + glm_imax$(!"a".[3], !"b".[3]))
  ).

(* ivec4.h:348-353 *)
Definition glm_ivec4_minadd : fundef := Fun
  [("a", None); ("b", None); ("dest", None)]
  [] (
    "dest".[0] ::= (!"dest".[0] + glm_imin$(!"a".[0], !"b".[0])) ;;
    "dest".[1] ::= (!"dest".[1] + glm_imin$(!"a".[1], !"b".[1])) ;;
    "dest".[2] ::= (!"dest".[2] + glm_imin$(!"a".[2], !"b".[2])) ;;
    "dest".[3] ::= (!"dest".[3] + glm_imin$(!"a".[3], !"b".[3]))
  ).

(* ivec4.h:366-371 *)
Definition glm_ivec4_subsub : fundef := Fun
  [("a", None); ("b", None); ("dest", None)]
  [] (
    "dest".[0] ::= (!"dest".[0] - (!"a".[0] - !"b".[0])) ;;
    "dest".[1] ::= (!"dest".[1] - (!"a".[1] - !"b".[1])) ;;
    "dest".[2] ::= (!"dest".[2] - (!"a".[2] - !"b".[2])) ;;
    "dest".[3] ::= (!"dest".[3] - (!"a".[3] - !"b".[3]))
  ).

(* ivec4.h:384-389 *)
Definition glm_ivec4_subsubs : fundef := Fun
  [("a", None); ("s", None); ("dest", None)]
  [] (
    "dest".[0] ::= (!"dest".[0] - (!"a".[0] - "s")) ;;
    "dest".[1] ::= (!"dest".[1] - (!"a".[1] - "s")) ;;
    "dest".[2] ::= (!"dest".[2] - (!"a".[2] - "s")) ;;
    "dest".[3] ::= (!"dest".[3] - (!"a".[3] - "s"))
  ).

(* ivec4.h:402-407 *)
Definition glm_ivec4_addsub : fundef := Fun
  [("a", None); ("b", None); ("dest", None)]
  [] (
    "dest".[0] ::= (!"dest".[0] - (!"a".[0] + !"b".[0])) ;;
    "dest".[1] ::= (!"dest".[1] - (!"a".[1] + !"b".[1])) ;;
    "dest".[2] ::= (!"dest".[2] - (!"a".[2] + !"b".[2])) ;;
    "dest".[3] ::= (!"dest".[3] - (!"a".[3] + !"b".[3]))
  ).

(* ivec4.h:420-425 *)
Definition glm_ivec4_addsubs : fundef := Fun
  [("a", None); ("s", None); ("dest", None)]
  [] (
    "dest".[0] ::= (!"dest".[0] - (!"a".[0] + "s")) ;;
    "dest".[1] ::= (!"dest".[1] - (!"a".[1] + "s")) ;;
    "dest".[2] ::= (!"dest".[2] - (!"a".[2] + "s")) ;;
    "dest".[3] ::= (!"dest".[3] - (!"a".[3] + "s"))
  ).

(* ivec4.h:438-443 *)
Definition glm_ivec4_mulsub : fundef := Fun
  [("a", None); ("b", None); ("dest", None)]
  [] (
    "dest".[0] ::= (!"dest".[0] - (!"a".[0] * !"b".[0])) ;;
    "dest".[1] ::= (!"dest".[1] - (!"a".[1] * !"b".[1])) ;;
    "dest".[2] ::= (!"dest".[2] - (!"a".[2] * !"b".[2])) ;;
    "dest".[3] ::= (!"dest".[3] - (!"a".[3] * !"b".[3]))
  ).

(* ivec4.h:456-461 *)
Definition glm_ivec4_mulsubs : fundef := Fun
  [("a", None); ("s", None); ("dest", None)]
  [] (
    "dest".[0] ::= (!"dest".[0] - (!"a".[0] * "s")) ;;
    "dest".[1] ::= (!"dest".[1] - (!"a".[1] * "s")) ;;
    "dest".[2] ::= (!"dest".[2] - (!"a".[2] * "s")) ;;
    "dest".[3] ::= (!"dest".[3] - (!"a".[3] * "s"))
  ).

(* ivec4.h:474-479 *)
Definition glm_ivec4_maxsub : fundef := Fun
  [("a", None); ("b", None); ("dest", None)]
  [] (
    "dest".[0] ::= (!"dest".[0] - glm_imax$(!"a".[0], !"b".[0])) ;;
    "dest".[1] ::= (!"dest".[1] - glm_imax$(!"a".[1], !"b".[1])) ;;
    "dest".[2] ::= (!"dest".[2] - glm_imax$(!"a".[2], !"b".[2])) ;;
    "dest".[3] ::= (!"dest".[3] - glm_imax$(!"a".[3], !"b".[3]))
  ).

(* ivec4.h:492-497 *)
Definition glm_ivec4_minsub : fundef := Fun
  [("a", None); ("b", None); ("dest", None)]
  [] (
    "dest".[0] ::= (!"dest".[0] - glm_imin$(!"a".[0], !"b".[0])) ;;
    "dest".[1] ::= (!"dest".[1] - glm_imin$(!"a".[1], !"b".[1])) ;;
    "dest".[2] ::= (!"dest".[2] - glm_imin$(!"a".[2], !"b".[2])) ;;
    "dest".[3] ::= (!"dest".[3] - glm_imin$(!"a".[3], !"b".[3]))
  ).

(* ivec4.h:508-515 *)
Definition glm_ivec4_distance2 : fundef := Fun
  [("a", None); ("b", None)]
  [("xd", None); ("yd", None); ("zd", None); ("wd", None)] (
    "xd" <~ (!"a".[0] - !"b".[0]) ;;
    "yd" <~ (!"a".[1] - !"b".[1]) ;;
    "zd" <~ (!"a".[2] - !"b".[2]) ;;
    "wd" <~ (!"a".[3] - !"b".[3]) ;;
    SRet (((("xd" * "xd") + ("yd" * "yd")) + ("zd" * "zd")) + ("wd" * "wd"))
  ).

(* ivec4.h:526-528 *)
Definition glm_ivec4_distance : fundef := Fun
  [("a", None); ("b", None)]
  [] (
    SRet builtin (PF1 OSqrt)$((ECast TyF glm_ivec4_distance2$("a", "b")))
  ).

(* ivec4.h:539-544 *)
Definition glm_ivec4_maxv : fundef := Fun
  [("a", None); ("b", None); ("dest", None)]
  [] (
    "dest".[0] ::= (ECond (!"a".[0] > !"b".[0]) !"a".[0] !"b".[0]) ;;
    "dest".[1] ::= (ECond (!"a".[1] > !"b".[1]) !"a".[1] !"b".[1]) ;;
    "dest".[2] ::= (ECond (!"a".[2] > !"b".[2]) !"a".[2] !"b".[2]) ;;
    "dest".[3] ::= (ECond (!"a".[3] > !"b".[3]) !"a".[3] !"b".[3])
  ).

(* ivec4.h:555-560 *)
Definition glm_ivec4_minv : fundef := Fun
  [("a", None); ("b", None); ("dest", None)]
  [] (
    "dest".[0] ::= (ECond (!"a".[0] < !"b".[0]) !"a".[0] !"b".[0]) ;;
    "dest".[1] ::= (ECond (!"a".[1] < !"b".[1]) !"a".[1] !"b".[1]) ;;
    "dest".[2] ::= (ECond (!"a".[2] < !"b".[2]) !"a".[2] !"b".[2]) ;;
    "dest".[3] ::= (ECond (!"a".[3] < !"b".[3]) !"a".[3] !"b".[3])
  ).

(* ivec4.h:571-591 *)
Definition glm_ivec4_clamp : fundef := Fun
  [("v", None); ("minVal", None); ("maxVal", None)]
  [] (
    (SIf (!"v".[0] < "minVal") (
      "v".[0] ::= "minVal"
    ) (
      (SIf (!"v".[0] > "maxVal") (
        "v".[0] ::= "maxVal"
      ) (
        SSkip
      ))
    )) ;;
    (SIf (!"v".[1] < "minVal") (
      "v".[1] ::= "minVal"
    ) (
      (SIf (!"v".[1] > "maxVal") (
        "v".[1] ::= "maxVal"
      ) (
        SSkip
      ))
    )) ;;
    (SIf (!"v".[2] < "minVal") (
      "v".[2] ::= "minVal"
    ) (
      (SIf (!"v".[2] > "maxVal") (
        "v".[2] ::= "maxVal"
      ) (
        SSkip
      ))
    )) ;;
    (SIf (!"v".[3] < "minVal") (
      "v".[3] ::= "minVal"
    ) (
      (SIf (!"v".[3] > "maxVal") (
        "v".[3] ::= "maxVal"
      ) (
        SSkip
      ))
    ))
  ).

(* ivec4.h:601-606 *)
Definition glm_ivec4_abs : fundef := Fun
  [("v", None); ("dest", None)]
  [] (
    "dest".[0] ::= builtin PAbsI$(!"v".[0]) ;;
    "dest".[1] ::= builtin PAbsI$(!"v".[1]) ;;
    "dest".[2] ::= builtin PAbsI$(!"v".[2]) ;;
    "dest".[3] ::= builtin PAbsI$(!"v".[3])
  ).

