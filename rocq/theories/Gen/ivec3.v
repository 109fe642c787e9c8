(** Functions of include/cglm/ivec3.h (configuration: scalar), written by tools/gen.py.
    The comment above each definition gives file and lines in /repo/include/cglm. *)
From Coq Require Import String List ZArith.
From Verif Require Import MiniC.
From Verif.Gen Require Import util.
Import ListNotations.
Open Scope string_scope.
Open Scope Z_scope.
Open Scope mc_scope.

(* ivec3.h:79-83 *)
Definition glm_ivec3 : fundef := Fun
  [("v4", None); ("dest", None)]
  [] (
    "dest".[0] ::= !"v4".[0] ;;
    "dest".[1] ::= !"v4".[1] ;;
    "dest".[2] ::= !"v4".[2]
  ).

(* ivec3.h:93-97 *)
Definition glm_ivec3_copy : fundef := Fun
  [("a", None); ("dest", None)]
  [] (
    "dest".[0] ::= !"a".[0] ;;
    "dest".[1] ::= !"a".[1] ;;
    "dest".[2] ::= !"a".[2]
  ).

(* ivec3.h:106-108 *)
Definition glm_ivec3_zero : fundef := Fun
  [("v", None)]
  [] (
    "v".[2] ::= (EI 0) ;;
    "v".[1] ::= !"v".[2] ;;
    "v".[0] ::= !"v".[1]
  ).

(* ivec3.h:117-119 *)
Definition glm_ivec3_one : fundef := Fun
  [("v", None)]
  [] (
    "v".[2] ::= (EI 1) ;;
    "v".[1] ::= !"v".[2] ;;
    "v".[0] ::= !"v".[1]
  ).

(* ivec3.h:131-133 *)
Definition glm_ivec3_dot : fundef := Fun
  [("a", None); ("b", None)]
  [] (
    SRet (((!"a".[0] * !"b".[0]) + (!"a".[1] * !"b".[1])) + (!"a".[2] * !"b".[2]))
  ).

(* ivec3.h:148-150 *)
Definition glm_ivec3_norm2 : fundef := Fun
  [("v", None)]
  [] (
    SRet glm_ivec3_dot$("v", "v")
  ).

(* ivec3.h:162-164 *)
Definition glm_ivec3_norm : fundef := Fun
  [("v", None)]
  [] (
    SRet (ECast TyI builtin (PF1 OSqrt)$((ECast TyF glm_ivec3_norm2$("v"))))
  ).

(* ivec3.h:175-179 *)
Definition glm_ivec3_add : fundef := Fun
  [("a", None); ("b", None); ("dest", None)]
  [] (
    "dest".[0] ::= (!"a".[0] + !"b".[0]) ;;
    "dest".[1] ::= (!"a".[1] + !"b".[1]) ;;
    "dest".[2] ::= (!"a".[2] + !"b".[2])
  ).

(* ivec3.h:190-194 *)
Definition glm_ivec3_adds : fundef := Fun
  [("v", None); ("s", None); ("dest", None)]
  [] (
    "dest".[0] ::= (!"v".[0] + "s") ;;
    "dest".[1] ::= (!"v".[1] + "s") ;;
    "dest".[2] ::= (!"v".[2] + "s")
  ).

(* ivec3.h:205-209 *)
Definition glm_ivec3_sub : fundef := Fun
  [("a", None); ("b", None); ("dest", None)]
  [] (
    "dest".[0] ::= (!"a".[0] - !"b".[0]) ;;
    "dest".[1] ::= (!"a".[1] - !"b".[1]) ;;
    "dest".[2] ::= (!"a".[2] - !"b".[2])
  ).

(* ivec3.h:220-224 *)
Definition glm_ivec3_subs : fundef := Fun
  [("v", None); ("s", None); ("dest", None)]
  [] (
    "dest".[0] ::= (!"v".[0] - "s") ;;
    "dest".[1] ::= (!"v".[1] - "s") ;;
    "dest".[2] ::= (!"v".[2] - "s")
  ).

(* ivec3.h:235-239 *)
Definition glm_ivec3_mul : fundef := Fun
  [("a", None); ("b", None); ("dest", None)]
  [] (
    "dest".[0] ::= (!"a".[0] * !"b".[0]) ;;
    "dest".[1] ::= (!"a".[1] * !"b".[1]) ;;
    "dest".[2] ::= (!"a".[2] * !"b".[2])
  ).

(* ivec3.h:250-254 *)
Definition glm_ivec3_scale : fundef := Fun
  [("v", None); ("s", None); ("dest", None)]
  [] (
    "dest".[0] ::= (!"v".[0] * "s") ;;
    "dest".[1] ::= (!"v".[1] * "s") ;;
    "dest".[2] ::= (!"v".[2] * "s")
  ).

(* ivec3.h:265-269 *)
Definition glm_ivec3_div : fundef := Fun
  [("a", None); ("b", None); ("dest", None)]
  [] (
    "dest".[0] ::= (!"a".[0] / !"b".[0]) ;;
    "dest".[1] ::= (!"a".[1] / !"b".[1]) ;;
    "dest".[2] ::= (!"a".[2] / !"b".[2])
  ).

(* ivec3.h:280-284 *)
Definition glm_ivec3_divs : fundef := Fun
  [("v", None); ("s", None); ("dest", None)]
  [] (
    "dest".[0] ::= (!"v".[0] / "s") ;;
    "dest".[1] ::= (!"v".[1] / "s") ;;
    "dest".[2] ::= (!"v".[2] / "s")
  ).

(* ivec3.h:297-301 *)
Definition glm_ivec3_mod : fundef := Fun
  [("a", None); ("b", None); ("dest", None)]
  [] (
    "dest".[0] ::= (EBin (BArith IRem) !"a".[0] !"b".[0]) ;;
    "dest".[1] ::= (EBin (BArith IRem) !"a".[1] !"b".[1]) ;;
    "dest".[2] ::= (EBin (BArith IRem) !"a".[2] !"b".[2])
  ).

(* ivec3.h:314-318 *)
Definition glm_ivec3_addadd : fundef := Fun
  [("a", None); ("b", None); ("dest", None)]
  [] (
    "dest".[0] ::= (!"dest".[0] + (!"a".[0] + !"b".[0])) ;;
    "dest".[1] ::= (!"dest".[1] + (!"a".[1] + !"b".[1])) ;;
    "dest".[2] ::= (!"dest".[2] + (!"a".[2] + !"b".[2]))
  ).

(* ivec3.h:331-335 *)
Definition glm_ivec3_addadds : fundef := Fun
  [("a", None); ("s", None); ("dest", None)]
  [] (
    "dest".[0] ::= (!"dest".[0] + (!"a".[0] + "s")) ;;
    "dest".[1] ::= (!"dest".[1] + (!"a".[1] + "s")) ;;
    "dest".[2] ::= (!"dest".[2] + (!"a".[2] + "s"))
  ).

(* ivec3.h:348-352 *)
Definition glm_ivec3_subadd : fundef := Fun
  [("a", None); ("b", None); ("dest", None)]
  [] (
    "dest".[0] ::= (!"dest".[0] + (!"a".[0] - !"b".[0])) ;;
    "dest".[1] ::= (!"dest".[1] + (!"a".[1] - !"b".[1])) ;;
    "dest".[2] ::= (!"dest".[2] + (!"a".[2] - !"b".[2]))
  ).

(* ivec3.h:365-369 *)
Definition glm_ivec3_subadds : fundef := Fun
  [("a", None); ("s", None); ("dest", None)]
  [] (
    "dest".[0] ::= (!"dest".[0] + (!"a".[0] - "s")) ;;
    "dest".[1] ::= (!"dest".[1] + (!"a".[1] - "s")) ;;
    "dest".[2] ::= (!"dest".[2] + (!"a".[2] - "s"))
  ).

(* ivec3.h:382-386 *)
Definition glm_ivec3_muladd : fundef := Fun
  [("a", None); ("b", None); ("dest", None)]
  [] (
    "dest".[0] ::= (!"dest".[0] + (!"a".[0] * !"b".[0])) ;;
    "dest".[1] ::= (!"dest".[1] + (!"a".[1] * !"b".[1])) ;;
    "dest".[2] ::= (!"dest".[2] + (!"a".[2] * !"b".[2]))
  ).

(* ivec3.h:399-403 *)
Definition glm_ivec3_muladds : fundef := Fun
  [("a", None); ("s", None); ("dest", None)]
  [] (
    "dest".[0] ::= (!"dest".[0] + (!"a".[0] * "s")) ;;
    "dest".[1] ::= (!"dest".[1] + (!"a".[1] * "s")) ;;
    "dest".[2] ::= (!"dest".[2] + (!"a".[2] * "s"))
  ).

(* ivec3.h:416-420 *)
Definition glm_ivec3_maxadd : fundef := Fun
  [("a", None); ("b", None); ("dest", None)]
  [] (
    "dest".[0] ::= (!"dest".[0] + glm_imax$(!"a".[0], !"b".[0])) ;;
    "dest".[1] ::= (!"dest".[1] + glm_imax$(!"a".[1], !"b".[1])) ;;
    "dest".[2] ::= (!"dest".[2] + glm_imax$(!"a".[2], !"b".[2]))
  ).

(* ivec3.h:433-437 *)
Definition glm_ivec3_minadd : fundef := Fun
  [("a", None); ("b", None); ("dest", None)]
  [] (
    "dest".[0] ::= (!"dest".[0] + glm_imin$(!"a".[0], !"b".[0])) ;;
    "dest".[1] ::= (!"dest".[1] + glm_imin$(!"a".[1], !"b".[1])) ;;
    "dest".[2] ::= (!"dest".[2] + glm_imin$(!"a".[2], !"b".[2]))
  ).

(* ivec3.h:450-454 *)
Definition glm_ivec3_subsub : fundef := Fun
  [("a", None); ("b", None); ("dest", None)]
  [] (
    "dest".[0] ::= (!"dest".[0] - (!"a".[0] - !"b".[0])) ;;
    "dest".[1] ::= (!"dest".[1] - (!"a".[1] - !"b".[1])) ;;
    "dest".[2] ::= (!"dest".[2] - (!"a".[2] - !"b".[2]))
  ).

(* ivec3.h:467-471 *)
Definition glm_ivec3_subsubs : fundef := Fun
  [("a", None); ("s", None); ("dest", None)]
  [] (
    "dest".[0] ::= (!"dest".[0] - (!"a".[0] - "s")) ;;
    "dest".[1] ::= (!"dest".[1] - (!"a".[1] - "s")) ;;
    "dest".[2] ::= (!"dest".[2] - (!"a".[2] - "s"))
  ).

(* ivec3.h:484-488 *)
Definition glm_ivec3_addsub : fundef := Fun
  [("a", None); ("b", None); ("dest", None)]
  [] (
    "dest".[0] ::= (!"dest".[0] - (!"a".[0] + !"b".[0])) ;;
    "dest".[1] ::= (!"dest".[1] - (!"a".[1] + !"b".[1])) ;;
    "dest".[2] ::= (!"dest".[2] - (!"a".[2] + !"b".[2]))
  ).

(* ivec3.h:501-505 *)
Definition glm_ivec3_addsubs : fundef := Fun
  [("a", None); ("s", None); ("dest", None)]
  [] (
    "dest".[0] ::= (!"dest".[0] - (!"a".[0] + "s")) ;;
    "dest".[1] ::= (!"dest".[1] - (!"a".[1] + "s")) ;;
    "dest".[2] ::= (!"dest".[2] - (!"a".[2] + "s"))
  ).

(* ivec3.h:518-522 *)
Definition glm_ivec3_mulsub : fundef := Fun
  [("a", None); ("b", None); ("dest", None)]
  [] (
    "dest".[0] ::= (!"dest".[0] - (!"a".[0] * !"b".[0])) ;;
    "dest".[1] ::= (!"dest".[1] - (!"a".[1] * !"b".[1])) ;;
    "dest".[2] ::= (!"dest".[2] - (!"a".[2] * !"b".[2]))
  ).

(* ivec3.h:535-539 *)
Definition glm_ivec3_mulsubs : fundef := Fun
  [("a", None); ("s", None); ("dest", None)]
  [] (
    "dest".[0] ::= (!"dest".[0] - (!"a".[0] * "s")) ;;
    "dest".[1] ::= (!"dest".[1] - (!"a".[1] * "s")) ;;
    "dest".[2] ::= (!"dest".[2] - (!"a".[2] * "s"))
  ).

(* ivec3.h:552-556 *)
Definition glm_ivec3_maxsub : fundef := Fun
  [("a", None); ("b", None); ("dest", None)]
  [] (
    "dest".[0] ::= (!"dest".[0] - glm_imax$(!"a".[0], !"b".[0])) ;;
    "dest".[1] ::= (!"dest".[1] - glm_imax$(!"a".[1], !"b".[1])) ;;
    "dest".[2] ::= (!"dest".[2] - glm_imax$(!"a".[2], !"b".[2]))
  ).

(* ivec3.h:569-573 *)
Definition glm_ivec3_minsub : fundef := Fun
  [("a", None); ("b", None); ("dest", None)]
  [] (
    "dest".[0] ::= (!"dest".[0] - glm_imin$(!"a".[0], !"b".[0])) ;;
    "dest".[1] ::= (!"dest".[1] - glm_imin$(!"a".[1], !"b".[1])) ;;
    "dest".[2] ::= (!"dest".[2] - glm_imin$(!"a".[2], !"b".[2]))
  ).

(* ivec3.h:584-590 *)
Definition glm_ivec3_distance2 : fundef := Fun
  [("a", None); ("b", None)]
  [("xd", None); ("yd", None); ("zd", None)] (
    "xd" <~ (!"a".[0] - !"b".[0]) ;;
    "yd" <~ (!"a".[1] - !"b".[1]) ;;
    "zd" <~ (!"a".[2] - !"b".[2]) ;;
    SRet ((("xd" * "xd") + ("yd" * "yd")) + ("zd" * "zd"))
  ).

(* ivec3.h:601-603 *)
Definition glm_ivec3_distance : fundef := Fun
  [("a", None); ("b", None)]
  [] (
    SRet builtin (PF1 OSqrt)$((ECast TyF glm_ivec3_distance2$("a", "b")))
  ).

(* ivec3.h:613-615 *)
Definition glm_ivec3_fill : fundef := Fun
  [("v", None); ("val", None)]
  [] (
    "v".[2] ::= "val" ;;
    "v".[1] ::= !"v".[2] ;;
    "v".[0] ::= !"v".[1]
  ).

(* ivec3.h:625-627 *)
Definition glm_ivec3_eq : fundef := Fun
  [("v", None); ("val", None)]
  [] (
    SRet (EAnd (EAnd (!"v".[0] == "val") (!"v".[0] == !"v".[1])) (!"v".[0] == !"v".[2]))
  ).

(* ivec3.h:637-641 *)
Definition glm_ivec3_eqv : fundef := Fun
  [("a", None); ("b", None)]
  [] (
    SRet (EAnd (EAnd (!"a".[0] == !"b".[0]) (!"a".[1] == !"b".[1])) (!"a".[2] == !"b".[2]))
  ).

(* ivec3.h:652-656 *)
Definition glm_ivec3_maxv : fundef := Fun
  [("a", None); ("b", None); ("dest", None)]
  [] (
    "dest".[0] ::= (ECond (!"a".[0] > !"b".[0]) !"a".[0] !"b".[0]) ;;
    "dest".[1] ::= (ECond (!"a".[1] > !"b".[1]) !"a".[1] !"b".[1]) ;;
    "dest".[2] ::= (ECond (!"a".[2] > !"b".[2]) !"a".[2] !"b".[2])
  ).

(* ivec3.h:667-671 *)
Definition glm_ivec3_minv : fundef := Fun
  [("a", None); ("b", None); ("dest", None)]
  [] (
    "dest".[0] ::= (ECond (!"a".[0] < !"b".[0]) !"a".[0] !"b".[0]) ;;
    "dest".[1] ::= (ECond (!"a".[1] < !"b".[1]) !"a".[1] !"b".[1]) ;;
    "dest".[2] ::= (ECond (!"a".[2] < !"b".[2]) !"a".[2] !"b".[2])
  ).

(* ivec3.h:682-697 *)
Definition glm_ivec3_clamp : fundef := Fun
  [("v", None); ("minVal", None); ("maxVal", None)]
  [] (
    (SIf (!"v".[0] < "minVal") (
      "v".[0] ::= "minVal"
    ) (
      (SIf (!"v".[0] > "maxVal") (
        "v".[0] ::= "maxVal"
      ) (
        SSkip
      ))
    )) ;;
    (SIf (!"v".[1] < "minVal") (
      "v".[1] ::= "minVal"
    ) (
      (SIf (!"v".[1] > "maxVal") (
        "v".[1] ::= "maxVal"
      ) (
        SSkip
      ))
    )) ;;
    (SIf (!"v".[2] < "minVal") (
      "v".[2] ::= "minVal"
    ) (
      (SIf (!"v".[2] > "maxVal") (
        "v".[2] ::= "maxVal"
      ) (
        SSkip
      ))
    ))
  ).

(* ivec3.h:707-711 *)
Definition glm_ivec3_abs : fundef := Fun
  [("v", None); ("dest", None)]
  [] (
    "dest".[0] ::= builtin PAbsI$(!"v".[0]) ;;
    "dest".[1] ::= builtin PAbsI$(!"v".[1]) ;;
    "dest".[2] ::= builtin PAbsI$(!"v".[2])
  ).

