(** Functions of include/cglm/bezier.h (configuration: scalar), written by tools/gen.py.
    The comment above each definition gives file and lines in /repo/include/cglm. *)
From Coq Require Import String List ZArith.
From Verif Require Import MiniC.
From Verif.Gen Require Import util.
Import ListNotations.
Open Scope string_scope.
Open Scope Z_scope.
Open Scope mc_scope.

(* bezier.h:50-60 *)
Definition glm_bezier : fundef := Fun
  [("s", None); ("p0", None); ("c0", None); ("c1", None); ("p1", None)]
  [("x", None); ("xx", None); ("ss", None); ("xs3", None); ("a", None)] (
    "x" <~ ((EF 1 1) - "s") ;;
    "xx" <~ ("x" * "x") ;;
    "ss" <~ ("s" * "s") ;;
    "xs3" <~ (("s" - "ss") * (EF 3 1)) ;;
    "a" <~ (("p0" * "xx") + ("c0" * "xs3")) ;;
    SRet ("a" + ("s" * ((("c1" * "xs3") + ("p1" * "ss")) - "a")))
  ).

(* bezier.h:84-96 *)
Definition glm_hermite : fundef := Fun
  [("s", None); ("p0", None); ("t0", None); ("t1", None); ("p1", None)]
  [("ss", None); ("d", None); ("a", None); ("b", None); ("c", None); ("e", None); ("f", None)] (
    "ss" <~ ("s" * "s") ;;
    "a" <~ ("ss" + "ss") ;;
    "c" <~ ("a" + "ss") ;;
    "b" <~ ("a" * "s") ;;
    "d" <~ ("s" * "ss") ;;
    "f" <~ ("d" - "ss") ;;
    "e" <~ ("b" - "c") ;;
    SRet (((("p0" * ("e" + (EF 1 1))) + ("t0" * (("f" - "ss") + "s"))) + ("t1" * "f")) - ("p1" * "e"))
  ).

(* bezier.h:111-152 *)
Definition glm_decasteljau : fundef := Fun
  [("prm", None); ("p0", None); ("c0", None); ("c1", None); ("p1", None)]
  [("u", None); ("v", None); ("a", None); ("b", None); ("c", None); ("d", None); ("e", None); ("f", None); ("i", None)] (
    (SIf (("prm" - "p0") < (EF 1 100000000000000000000)) (
      SRet (EF 0 1)
    ) (
      SSkip
    )) ;;
    (SIf (("p1" - "prm") < (EF 1 100000000000000000000)) (
      SRet (EF 1 1)
    ) (
      SSkip
    )) ;;
    "u" <~ (EF 0 1) ;;
    "v" <~ (EF 1 1) ;;
    (SFor "i" (EI 0) (EI 1000) (
      "a" <~ (("p0" + "c0") * (EF 1 2)) ;;
      "b" <~ (("c0" + "c1") * (EF 1 2)) ;;
      "c" <~ (("c1" + "p1") * (EF 1 2)) ;;
      "d" <~ (("a" + "b") * (EF 1 2)) ;;
      "e" <~ (("b" + "c") * (EF 1 2)) ;;
      "f" <~ (("d" + "e") * (EF 1 2)) ;;
      (SIf (builtin (PF1 OAbs)$(("f" - "prm")) < (EF 1 1000000000)) (
        SRet glm_clamp_zo$((("u" + "v") * (EF 1 2)))
      ) (
        SSkip
      )) ;;
      (SIf ("f" < "prm") (
        "p0" <~ "f" ;;
        "c0" <~ "e" ;;
        "c1" <~ "c" ;;
        "u" <~ (("u" + "v") * (EF 1 2))
      ) (
        "c0" <~ "a" ;;
        "c1" <~ "d" ;;
        "p1" <~ "f" ;;
        "v" <~ (("u" + "v") * (EF 1 2))
      ))
    )) ;;
    SRet glm_clamp_zo$((("u" + "v") * (EF 1 2)))
  ).

