(** Functions of include/cglm/util.h (configuration: scalar), written by tools/gen.py.
    The comment above each definition gives file and lines in /repo/include/cglm. *)
From Coq Require Import String List ZArith.
From Verif Require Import MiniC.
Import ListNotations.
Open Scope string_scope.
Open Scope Z_scope.
Open Scope mc_scope.

(* util.h:50-52 *)
Definition glm_sign : fundef := Fun
  [("val", None)]
  [] (
    SRet ((EBin (BArith IShr) "val" (EI 31)) - (EBin (BArith IShr) (- "val") (EI 31)))
  ).

(* util.h:63-65 *)
Definition glm_signf : fundef := Fun
  [("val", None)]
  [] (
    SRet (ECast TyF ((ECast TyI ("val" > (EF 0 1))) - (ECast TyI ("val" < (EF 0 1)))))
  ).

(* util.h:74-76 *)
Definition glm_rad : fundef := Fun
  [("deg", None)]
  [] (
    SRet (("deg" * (EPi 1 1)) / (EF 180 1))
  ).

(* util.h:85-87 *)
Definition glm_deg : fundef := Fun
  [("rad", None)]
  [] (
    SRet (("rad" * (EF 180 1)) / (EPi 1 1))
  ).

(* util.h:96-98 *)
Definition glm_make_rad : fundef := Fun
  [("deg", None)]
  [] (
    "deg" ::= ((!"deg" * (EPi 1 1)) / (EF 180 1))
  ).

(* util.h:107-109 *)
Definition glm_make_deg : fundef := Fun
  [("rad", None)]
  [] (
    "rad" ::= ((!"rad" * (EF 180 1)) / (EPi 1 1))
  ).

(* util.h:118-120 *)
Definition glm_pow2 : fundef := Fun
  [("x", None)]
  [] (
    SRet ("x" * "x")
  ).

(* util.h:130-134 *)
Definition glm_min : fundef := Fun
  [("a", None); ("b", None)]
  [] (
    (SIf ("a" < "b") (
      SRet "a"
    ) (
      SSkip
    )) ;;
    SRet "b"
  ).

(* util.h:144-148 *)
Definition glm_max : fundef := Fun
  [("a", None); ("b", None)]
  [] (
    (SIf ("a" > "b") (
      SRet "a"
    ) (
      SSkip
    )) ;;
    SRet "b"
  ).

(* util.h:160-164 *)
Definition glm_imin : fundef := Fun
  [("a", None); ("b", None)]
  [] (
    (SIf ("a" < "b") (
      SRet "a"
    ) (
      SSkip
    )) ;;
    SRet "b"
  ).

(* util.h:176-180 *)
Definition glm_imax : fundef := Fun
  [("a", None); ("b", None)]
  [] (
    (SIf ("a" > "b") (
      SRet "a"
    ) (
      SSkip
    )) ;;
    SRet "b"
  ).

(* util.h:191-193 *)
Definition glm_clamp : fundef := Fun
  [("val", None); ("minVal", None); ("maxVal", None)]
  [] (
    SRet glm_min$(glm_max$("val", "minVal"), "maxVal")
  ).

(* util.h:202-204 *)
Definition glm_clamp_zo : fundef := Fun
  [("val", None)]
  [] (
    SRet glm_clamp$("val", (EF 0 1), (EF 1 1))
  ).

(* util.h:217-219 *)
Definition glm_lerp : fundef := Fun
  [("from", None); ("to", None); ("t", None)]
  [] (
    SRet ("from" + ("t" * ("to" - "from")))
  ).

(* util.h:232-234 *)
Definition glm_lerpc : fundef := Fun
  [("from", None); ("to", None); ("t", None)]
  [] (
    SRet glm_lerp$("from", "to", glm_clamp_zo$("t"))
  ).

(* util.h:245-253 *)
Definition glm_step : fundef := Fun
  [("edge", None); ("x", None)]
  [] (
    SRet (ECond ("x" < "edge") (EF 0 1) (EF 1 1))
  ).

(* util.h:264-266 *)
Definition glm_smooth : fundef := Fun
  [("t", None)]
  [] (
    SRet (("t" * "t") * ((EF 3 1) - ((EF 2 1) * "t")))
  ).

(* util.h:279-283 *)
Definition glm_smoothstep : fundef := Fun
  [("edge0", None); ("edge1", None); ("x", None)]
  [("t", None)] (
    "t" <~ glm_clamp_zo$((("x" - "edge0") / ("edge1" - "edge0"))) ;;
    SRet glm_smooth$("t")
  ).

(* util.h:296-298 *)
Definition glm_smoothinterp : fundef := Fun
  [("from", None); ("to", None); ("t", None)]
  [] (
    SRet ("from" + (glm_smooth$("t") * ("to" - "from")))
  ).

(* util.h:311-313 *)
Definition glm_smoothinterpc : fundef := Fun
  [("from", None); ("to", None); ("t", None)]
  [] (
    SRet glm_smoothinterp$("from", "to", glm_clamp_zo$("t"))
  ).

(* util.h:323-325 *)
Definition glm_eq : fundef := Fun
  [("a", None); ("b", None)]
  [] (
    SRet (builtin (PF1 OAbs)$(("a" - "b")) <= (EF 1 100000))
  ).

(* util.h:338-345 *)
Definition glm_percent : fundef := Fun
  [("from", None); ("to", None); ("current", None)]
  [("t", None)] (
    "t" <~ ("to" - "from") ;;
    (SIf ("t" == (EF 0 1)) (
      SRet (EF 1 1)
    ) (
      SSkip
    )) ;;
    SRet (("current" - "from") / "t")
  ).

(* util.h:356-358 *)
Definition glm_percentc : fundef := Fun
  [("from", None); ("to", None); ("current", None)]
  [] (
    SRet glm_clamp_zo$(glm_percent$("from", "to", "current"))
  ).

(* util.h:368-373 *)
Definition glm_swapf : fundef := Fun
  [("a", None); ("b", None)]
  [("t", None)] (
    "t" <~ !"a" ;;
    "a" ::= !"b" ;;
    "b" ::= "t"
  ).

