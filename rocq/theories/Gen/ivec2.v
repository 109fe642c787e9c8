(** Functions of include/cglm/ivec2.h (configuration: scalar), written by tools/gen.py.
    The comment above each definition gives file and lines in /repo/include/cglm. *)
From Coq Require Import String List ZArith.
From Verif Require Import MiniC.
From Verif.Gen Require Import util.
Import ListNotations.
Open Scope string_scope.
Open Scope Z_scope.
Open Scope mc_scope.

(* ivec2.h:78-81 *)
Definition glm_ivec2 : fundef := Fun
  [("v", None); ("dest", None)]
  [] (
    "dest".[0] ::= !"v".[0] ;;
    "dest".[1] ::= !"v".[1]
  ).

(* ivec2.h:91-94 *)
Definition glm_ivec2_copy : fundef := Fun
  [("a", None); ("dest", None)]
  [] (
    "dest".[0] ::= !"a".[0] ;;
    "dest".[1] ::= !"a".[1]
  ).

(* ivec2.h:103-105 *)
Definition glm_ivec2_zero : fundef := Fun
  [("v", None)]
  [] (
    "v".[1] ::= (EI 0) ;;
    "v".[0] ::= !"v".[1]
  ).

(* ivec2.h:114-116 *)
Definition glm_ivec2_one : fundef := Fun
  [("v", None)]
  [] (
    "v".[1] ::= (EI 1) ;;
    "v".[0] ::= !"v".[1]
  ).

(* ivec2.h:128-130 *)
Definition glm_ivec2_dot : fundef := Fun
  [("a", None); ("b", None)]
  [] (
    SRet ((!"a".[0] * !"b".[0]) + (!"a".[1] * !"b".[1]))
  ).

(* ivec2.h:144-146 *)
Definition glm_ivec2_cross : fundef := Fun
  [("a", None); ("b", None)]
  [] (
    SRet ((!"a".[0] * !"b".[1]) - (!"a".[1] * !"b".[0]))
  ).

(* ivec2.h:157-160 *)
Definition glm_ivec2_add : fundef := Fun
  [("a", None); ("b", None); ("dest", None)]
  [] (
    "dest".[0] ::= (!"a".[0] + !"b".[0]) ;;
    "dest".[1] ::= (!"a".[1] + !"b".[1])
  ).

(* ivec2.h:171-174 *)
Definition glm_ivec2_adds : fundef := Fun
  [("v", None); ("s", None); ("dest", None)]
  [] (
    "dest".[0] ::= (!"v".[0] + "s") ;;
    "dest".[1] ::= (!"v".[1] + "s")
  ).

(* ivec2.h:185-188 *)
Definition glm_ivec2_sub : fundef := Fun
  [("a", None); ("b", None); ("dest", None)]
  [] (
    "dest".[0] ::= (!"a".[0] - !"b".[0]) ;;
    "dest".[1] ::= (!"a".[1] - !"b".[1])
  ).

(* ivec2.h:199-202 *)
Definition glm_ivec2_subs : fundef := Fun
  [("v", None); ("s", None); ("dest", None)]
  [] (
    "dest".[0] ::= (!"v".[0] - "s") ;;
    "dest".[1] ::= (!"v".[1] - "s")
  ).

(* ivec2.h:213-216 *)
Definition glm_ivec2_mul : fundef := Fun
  [("a", None); ("b", None); ("dest", None)]
  [] (
    "dest".[0] ::= (!"a".[0] * !"b".[0]) ;;
    "dest".[1] ::= (!"a".[1] * !"b".[1])
  ).

(* ivec2.h:227-230 *)
Definition glm_ivec2_scale : fundef := Fun
  [("v", None); ("s", None); ("dest", None)]
  [] (
    "dest".[0] ::= (!"v".[0] * "s") ;;
    "dest".[1] ::= (!"v".[1] * "s")
  ).

(* ivec2.h:241-244 *)
Definition glm_ivec2_div : fundef := Fun
  [("a", None); ("b", None); ("dest", None)]
  [] (
    "dest".[0] ::= (!"a".[0] / !"b".[0]) ;;
    "dest".[1] ::= (!"a".[1] / !"b".[1])
  ).

(* ivec2.h:255-258 *)
Definition glm_ivec2_divs : fundef := Fun
  [("v", None); ("s", None); ("dest", None)]
  [] (
    "dest".[0] ::= (!"v".[0] / "s") ;;
    "dest".[1] ::= (!"v".[1] / "s")
  ).

(* ivec2.h:269-272 *)
Definition glm_ivec2_mod : fundef := Fun
  [("a", None); ("b", None); ("dest", None)]
  [] (
    "dest".[0] ::= (EBin (BArith IRem) !"a".[0] !"b".[0]) ;;
    "dest".[1] ::= (EBin (BArith IRem) !"a".[1] !"b".[1])
  ).

(* ivec2.h:285-288 *)
Definition glm_ivec2_addadd : fundef := Fun
  [("a", None); ("b", None); ("dest", None)]
  [] (
    "dest".[0] ::= (!"dest".[0] + (!"a".[0] + !"b".[0])) ;;
    "dest".[1] ::= (!"dest".[1] + (!"a".[1] + !"b".[1]))
  ).

(* ivec2.h:301-304 *)
Definition glm_ivec2_addadds : fundef := Fun
  [("a", None); ("s", None); ("dest", None)]
  [] (
    "dest".[0] ::= (!"dest".[0] + (!"a".[0] + "s")) ;;
    "dest".[1] ::= (!"dest".[1] + (!"a".[1] + "s"))
  ).

(* ivec2.h:317-320 *)
Definition glm_ivec2_subadd : fundef := Fun
  [("a", None); ("b", None); ("dest", None)]
  [] (
    "dest".[0] ::= (!"dest".[0] + (!"a".[0] - !"b".[0])) ;;
    "dest".[1] ::= (!"dest".[1] + (!"a".[1] - !"b".[1]))
  ).

(* ivec2.h:333-336 *)
Definition glm_ivec2_subadds : fundef := Fun
  [("a", None); ("s", None); ("dest", None)]
  [] (
    "dest".[0] ::= (!"dest".[0] + (!"a".[0] - "s")) ;;
    "dest".[1] ::= (!"dest".[1] + (!"a".[1] - "s"))
  ).

(* ivec2.h:349-352 *)
Definition glm_ivec2_muladd : fundef := Fun
  [("a", None); ("b", None); ("dest", None)]
  [] (
    "dest".[0] ::= (!"dest".[0] + (!"a".[0] * !"b".[0])) ;;
    "dest".[1] ::= (!"dest".[1] + (!"a".[1] * !"b".[1]))
  ).

(* ivec2.h:365-368 *)
Definition glm_ivec2_muladds : fundef := Fun
  [("a", None); ("s", None); ("dest", None)]
  [] (
    "dest".[0] ::= (!"dest".[0] + (!"a".[0] * "s")) ;;
    "dest".[1] ::= (!"dest".[1] + (!"a".[1] * "s"))
  ).

(* ivec2.h:381-384 *)
Definition glm_ivec2_maxadd : fundef := Fun
  [("a", None); ("b", None); ("dest", None)]
  [] (
    "dest".[0] ::= (!"dest".[0] + glm_imax$(!"a".[0], !"b".[0])) ;;
    "dest".[1] ::= (!"dest".[1] + glm_imax$(!"a".[1], !"b".[1]))
  ).

(* ivec2.h:397-400 *)
Definition glm_ivec2_minadd : fundef := Fun
  [("a", None); ("b", None); ("dest", None)]
  [] (
    "dest".[0] ::= (!"dest".[0] + glm_imin$(!"a".[0], !"b".[0])) ;;
    "dest".[1] ::= (!"dest".[1] + glm_imin$(!"a".[1], !"b".[1]))
  ).

(* ivec2.h:413-416 *)
Definition glm_ivec2_subsub : fundef := Fun
  [("a", None); ("b", None); ("dest", None)]
  [] (
    "dest".[0] ::= (!"dest".[0] - (!"a".[0] - !"b".[0])) ;;
    "dest".[1] ::= (!"dest".[1] - (!"a".[1] - !"b".[1]))
  ).

(* ivec2.h:429-432 *)
Definition glm_ivec2_subsubs : fundef := Fun
  [("a", None); ("s", None); ("dest", None)]
  [] (
    "dest".[0] ::= (!"dest".[0] - (!"a".[0] - "s")) ;;
    "dest".[1] ::= (!"dest".[1] - (!"a".[1] - "s"))
  ).

(* ivec2.h:445-448 *)
Definition glm_ivec2_addsub : fundef := Fun
  [("a", None); ("b", None); ("dest", None)]
  [] (
    "dest".[0] ::= (!"dest".[0] - (!"a".[0] + !"b".[0])) ;;
    "dest".[1] ::= (!"dest".[1] - (!"a".[1] + !"b".[1]))
  ).

(* ivec2.h:461-464 *)
Definition glm_ivec2_addsubs : fundef := Fun
  [("a", None); ("s", None); ("dest", None)]
  [] (
    "dest".[0] ::= (!"dest".[0] - (!"a".[0] + "s")) ;;
    "dest".[1] ::= (!"dest".[1] - (!"a".[1] + "s"))
  ).

(* ivec2.h:477-480 *)
Definition glm_ivec2_mulsub : fundef := Fun
  [("a", None); ("b", None); ("dest", None)]
  [] (
    "dest".[0] ::= (!"dest".[0] - (!"a".[0] * !"b".[0])) ;;
    "dest".[1] ::= (!"dest".[1] - (!"a".[1] * !"b".[1]))
  ).

(* ivec2.h:493-496 *)
Definition glm_ivec2_mulsubs : fundef := Fun
  [("a", None); ("s", None); ("dest", None)]
  [] (
    "dest".[0] ::= (!"dest".[0] - (!"a".[0] * "s")) ;;
    "dest".[1] ::= (!"dest".[1] - (!"a".[1] * "s"))
  ).

(* ivec2.h:509-512 *)
Definition glm_ivec2_maxsub : fundef := Fun
  [("a", None); ("b", None); ("dest", None)]
  [] (
    "dest".[0] ::= (!"dest".[0] - glm_imax$(!"a".[0], !"b".[0])) ;;
    "dest".[1] ::= (!"dest".[1] - glm_imax$(!"a".[1], !"b".[1]))
  ).

(* ivec2.h:525-528 *)
Definition glm_ivec2_minsub : fundef := Fun
  [("a", None); ("b", None); ("dest", None)]
  [] (
    "dest".[0] ::= (!"dest".[0] - glm_imin$(!"a".[0], !"b".[0])) ;;
    "dest".[1] ::= (!"dest".[1] - glm_imin$(!"a".[1], !"b".[1]))
  ).

(* ivec2.h:539-544 *)
Definition glm_ivec2_distance2 : fundef := Fun
  [("a", None); ("b", None)]
  [("xd", None); ("yd", None)] (
    "xd" <~ (!"a".[0] - !"b".[0]) ;;
    "yd" <~ (!"a".[1] - !"b".[1]) ;;
    SRet (("xd" * "xd") + ("yd" * "yd"))
  ).

(* ivec2.h:555-557 *)
Definition glm_ivec2_distance : fundef := Fun
  [("a", None); ("b", None)]
  [] (
    SRet builtin (PF1 OSqrt)$((ECast TyF glm_ivec2_distance2$("a", "b")))
  ).

(* ivec2.h:568-570 *)
Definition glm_ivec2_fill : fundef := Fun
  [("v", None); ("val", None)]
  [] (
    "v".[1] ::= "val" ;;
    "v".[0] ::= !"v".[1]
  ).

(* ivec2.h:580-582 *)
Definition glm_ivec2_eq : fundef := Fun
  [("v", None); ("val", None)]
  [] (
    SRet (EAnd (!"v".[0] == "val") (!"v".[0] == !"v".[1]))
  ).

(* ivec2.h:592-595 *)
Definition glm_ivec2_eqv : fundef := Fun
  [("a", None); ("b", None)]
  [] (
    SRet (EAnd (!"a".[0] == !"b".[0]) (!"a".[1] == !"b".[1]))
  ).

(* ivec2.h:606-609 *)
Definition glm_ivec2_maxv : fundef := Fun
  [("a", None); ("b", None); ("dest", None)]
  [] (
    "dest".[0] ::= (ECond (!"a".[0] > !"b".[0]) !"a".[0] !"b".[0]) ;;
    "dest".[1] ::= (ECond (!"a".[1] > !"b".[1]) !"a".[1] !"b".[1])
  ).

(* ivec2.h:620-623 *)
Definition glm_ivec2_minv : fundef := Fun
  [("a", None); ("b", None); ("dest", None)]
  [] (
    "dest".[0] ::= (ECond (!"a".[0] < !"b".[0]) !"a".[0] !"b".[0]) ;;
    "dest".[1] ::= (ECond (!"a".[1] < !"b".[1]) !"a".[1] !"b".[1])
  ).

(* ivec2.h:634-644 *)
Definition glm_ivec2_clamp : fundef := Fun
  [("v", None); ("minVal", None); ("maxVal", None)]
  [] (
    (SIf (!"v".[0] < "minVal") (
      "v".[0] ::= "minVal"
    ) (
      (SIf (!"v".[0] > "maxVal") (
        "v".[0] ::= "maxVal"
      ) (
        SSkip
      ))
    )) ;;
    (SIf (!"v".[1] < "minVal") (
      "v".[1] ::= "minVal"
    ) (
      (SIf (!"v".[1] > "maxVal") (
        "v".[1] ::= "maxVal"
      ) (
        SSkip
      ))
    ))
  ).

(* ivec2.h:654-657 *)
Definition glm_ivec2_abs : fundef := Fun
  [("v", None); ("dest", None)]
  [] (
    "dest".[0] ::= builtin PAbsI$(!"v".[0]) ;;
    "dest".[1] ::= builtin PAbsI$(!"v".[1])
  ).

