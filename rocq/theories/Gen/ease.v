(** Functions of include/cglm/ease.h (configuration: scalar), written by tools/gen.py.
    The comment above each definition gives file and lines in /repo/include/cglm. *)
From Coq Require Import String List ZArith.
From Verif Require Import MiniC.
Import ListNotations.
Open Scope string_scope.
Open Scope Z_scope.
Open Scope mc_scope.

(* ease.h:15-17 *)
Definition glm_ease_linear : fundef := Fun
  [("t", None)]
  [] (
    SRet "t"
  ).

(* ease.h:21-23 *)
Definition glm_ease_sine_in : fundef := Fun
  [("t", None)]
  [] (
    SRet (builtin (PF1 OSin)$((("t" - (EF 1 1)) * (EPi 1 2))) + (EF 1 1))
  ).

(* ease.h:27-29 *)
Definition glm_ease_sine_out : fundef := Fun
  [("t", None)]
  [] (
    SRet builtin (PF1 OSin)$(("t" * (EPi 1 2)))
  ).

(* ease.h:33-35 *)
Definition glm_ease_sine_inout : fundef := Fun
  [("t", None)]
  [] (
    SRet ((EF 1 2) * ((EF 1 1) - builtin (PF1 OCos)$(("t" * (EPi 1 1)))))
  ).

(* ease.h:39-41 *)
Definition glm_ease_quad_in : fundef := Fun
  [("t", None)]
  [] (
    SRet ("t" * "t")
  ).

(* ease.h:45-47 *)
Definition glm_ease_quad_out : fundef := Fun
  [("t", None)]
  [] (
    SRet (- ("t" * ("t" - (EF 2 1))))
  ).

(* ease.h:51-59 *)
Definition glm_ease_quad_inout : fundef := Fun
  [("t", None)]
  [("tt", None)] (
    "tt" <~ ("t" * "t") ;;
    (SIf ("t" < (EF 1 2)) (
      SRet ((EF 2 1) * "tt")
    ) (
      SSkip
    )) ;;
    SRet ((((- (EF 2 1)) * "tt") + ((EF 4 1) * "t")) - (EF 1 1))
  ).

(* ease.h:63-65 *)
Definition glm_ease_cubic_in : fundef := Fun
  [("t", None)]
  [] (
    SRet (("t" * "t") * "t")
  ).

(* ease.h:69-73 *)
Definition glm_ease_cubic_out : fundef := Fun
  [("t", None)]
  [("f", None)] (
    "f" <~ ("t" - (EF 1 1)) ;;
    SRet ((("f" * "f") * "f") + (EF 1 1))
  ).

(* ease.h:77-86 *)
Definition glm_ease_cubic_inout : fundef := Fun
  [("t", None)]
  [("f", None)] (
    (SIf ("t" < (EF 1 2)) (
      SRet ((((EF 4 1) * "t") * "t") * "t")
    ) (
      SSkip
    )) ;;
    "f" <~ (((EF 2 1) * "t") - (EF 2 1)) ;;
    SRet (((((EF 1 2) * "f") * "f") * "f") + (EF 1 1))
  ).

(* ease.h:90-94 *)
Definition glm_ease_quart_in : fundef := Fun
  [("t", None)]
  [("f", None)] (
    "f" <~ ("t" * "t") ;;
    SRet ("f" * "f")
  ).

(* ease.h:98-104 *)
Definition glm_ease_quart_out : fundef := Fun
  [("t", None)]
  [("f", None)] (
    "f" <~ ("t" - (EF 1 1)) ;;
    SRet (((("f" * "f") * "f") * ((EF 1 1) - "t")) + (EF 1 1))
  ).

(* ease.h:108-120 *)
Definition glm_ease_quart_inout : fundef := Fun
  [("t", None)]
  [("f", None); ("g", None)] (
    (SIf ("t" < (EF 1 2)) (
      "f" <~ ("t" * "t") ;;
      SRet (((EF 8 1) * "f") * "f")
    ) (
      SSkip
    )) ;;
    "f" <~ ("t" - (EF 1 1)) ;;
    "g" <~ ("f" * "f") ;;
    SRet ((((- (EF 8 1)) * "g") * "g") + (EF 1 1))
  ).

(* ease.h:124-128 *)
Definition glm_ease_quint_in : fundef := Fun
  [("t", None)]
  [("f", None)] (
    "f" <~ ("t" * "t") ;;
    SRet (("f" * "f") * "t")
  ).

(* ease.h:132-139 *)
Definition glm_ease_quint_out : fundef := Fun
  [("t", None)]
  [("f", None); ("g", None)] (
    "f" <~ ("t" - (EF 1 1)) ;;
    "g" <~ ("f" * "f") ;;
    SRet ((("g" * "g") * "f") + (EF 1 1))
  ).

(* ease.h:143-155 *)
Definition glm_ease_quint_inout : fundef := Fun
  [("t", None)]
  [("f", None); ("g", None)] (
    (SIf ("t" < (EF 1 2)) (
      "f" <~ ("t" * "t") ;;
      SRet ((((EF 16 1) * "f") * "f") * "t")
    ) (
      SSkip
    )) ;;
    "f" <~ (((EF 2 1) * "t") - (EF 2 1)) ;;
    "g" <~ ("f" * "f") ;;
    SRet (((((EF 1 2) * "g") * "g") * "f") + (EF 1 1))
  ).

(* ease.h:159-164 *)
Definition glm_ease_exp_in : fundef := Fun
  [("t", None)]
  [] (
    (SIf ("t" == (EF 0 1)) (
      SRet "t"
    ) (
      SSkip
    )) ;;
    SRet builtin (PF2 OPow)$((EF 2 1), ((EF 10 1) * ("t" - (EF 1 1))))
  ).

(* ease.h:168-173 *)
Definition glm_ease_exp_out : fundef := Fun
  [("t", None)]
  [] (
    (SIf ("t" == (EF 1 1)) (
      SRet "t"
    ) (
      SSkip
    )) ;;
    SRet ((EF 1 1) - builtin (PF2 OPow)$((EF 2 1), ((- (EF 10 1)) * "t")))
  ).

(* ease.h:177-185 *)
Definition glm_ease_exp_inout : fundef := Fun
  [("t", None)]
  [] (
    (SIf (EOr ("t" == (EF 0 1)) ("t" == (EF 1 1))) (
      SRet "t"
    ) (
      SSkip
    )) ;;
    (SIf ("t" < (EF 1 2)) (
      SRet ((EF 1 2) * builtin (PF2 OPow)$((EF 2 1), (((EF 20 1) * "t") - (EF 10 1))))
    ) (
      SSkip
    )) ;;
    SRet (((- (EF 1 2)) * builtin (PF2 OPow)$((EF 2 1), (((- (EF 20 1)) * "t") + (EF 10 1)))) + (EF 1 1))
  ).

(* ease.h:189-191 *)
Definition glm_ease_circ_in : fundef := Fun
  [("t", None)]
  [] (
    SRet ((EF 1 1) - builtin (PF1 OSqrt)$(((EF 1 1) - ("t" * "t"))))
  ).

(* ease.h:195-197 *)
Definition glm_ease_circ_out : fundef := Fun
  [("t", None)]
  [] (
    SRet builtin (PF1 OSqrt)$((((EF 2 1) - "t") * "t"))
  ).

(* ease.h:201-206 *)
Definition glm_ease_circ_inout : fundef := Fun
  [("t", None)]
  [] (
    (SIf ("t" < (EF 1 2)) (
      SRet ((EF 1 2) * ((EF 1 1) - builtin (PF1 OSqrt)$(((EF 1 1) - ((EF 4 1) * ("t" * "t"))))))
    ) (
      SSkip
    )) ;;
    SRet ((EF 1 2) * (builtin (PF1 OSqrt)$(((- (((EF 2 1) * "t") - (EF 3 1))) * (((EF 2 1) * "t") - (EF 1 1)))) + (EF 1 1)))
  ).

(* ease.h:210-217 *)
Definition glm_ease_back_in : fundef := Fun
  [("t", None)]
  [("o", None); ("z", None)] (
    "o" <~ (EF 85079 50000) ;;
    "z" <~ ((("o" + (EF 1 1)) * "t") - "o") ;;
    SRet (("t" * "t") * "z")
  ).

(* ease.h:221-229 *)
Definition glm_ease_back_out : fundef := Fun
  [("t", None)]
  [("o", None); ("z", None); ("n", None)] (
    "o" <~ (EF 85079 50000) ;;
    "n" <~ ("t" - (EF 1 1)) ;;
    "z" <~ ((("o" + (EF 1 1)) * "n") + "o") ;;
    SRet ((("n" * "n") * "z") + (EF 1 1))
  ).

(* ease.h:233-252 *)
Definition glm_ease_back_inout : fundef := Fun
  [("t", None)]
  [("o", None); ("z", None); ("n", None); ("m", None); ("s", None); ("x", None)] (
    "o" <~ (EF 85079 50000) ;;
    "s" <~ ("o" * (EF 61 40)) ;;
    "x" <~ (EF 1 2) ;;
    "n" <~ ("t" / (EF 1 2)) ;;
    (SIf ("n" < (EF 1 1)) (
      "z" <~ ((("s" + (ECast TyF (EI 1))) * "n") - "s") ;;
      "m" <~ (("n" * "n") * "z") ;;
      SRet ("x" * "m")
    ) (
      SSkip
    )) ;;
    "n" <~ ("n" - (EF 2 1)) ;;
    "z" <~ ((("s" + (EF 1 1)) * "n") + "s") ;;
    "m" <~ ((("n" * "n") * "z") + (ECast TyF (EI 2))) ;;
    SRet ("x" * "m")
  ).

(* ease.h:256-258 *)
Definition glm_ease_elast_in : fundef := Fun
  [("t", None)]
  [] (
    SRet (builtin (PF1 OSin)$((((EF 13 1) * (EPi 1 2)) * "t")) * builtin (PF2 OPow)$((EF 2 1), ((EF 10 1) * ("t" - (EF 1 1)))))
  ).

(* ease.h:262-264 *)
Definition glm_ease_elast_out : fundef := Fun
  [("t", None)]
  [] (
    SRet ((builtin (PF1 OSin)$((((- (EF 13 1)) * (EPi 1 2)) * ("t" + (EF 1 1)))) * builtin (PF2 OPow)$((EF 2 1), ((- (EF 10 1)) * "t"))) + (EF 1 1))
  ).

(* ease.h:268-279 *)
Definition glm_ease_elast_inout : fundef := Fun
  [("t", None)]
  [("a", None)] (
    "a" <~ ((EF 2 1) * "t") ;;
    (SIf ("t" < (EF 1 2)) (
      SRet (((EF 1 2) * builtin (PF1 OSin)$((((EF 13 1) * (EPi 1 2)) * "a"))) * builtin (PF2 OPow)$((EF 2 1), ((EF 10 1) * ("a" - (EF 1 1)))))
    ) (
      SSkip
    )) ;;
    SRet ((EF 1 2) * ((builtin (PF1 OSin)$((((- (EF 13 1)) * (EPi 1 2)) * "a")) * builtin (PF2 OPow)$((EF 2 1), ((- (EF 10 1)) * ("a" - (EF 1 1))))) + (EF 2 1)))
  ).

(* ease.h:283-300 *)
Definition glm_ease_bounce_out : fundef := Fun
  [("t", None)]
  [("tt", None)] (
    "tt" <~ ("t" * "t") ;;
    (SIf ("t" < ((EF 4 1) / (EF 11 1))) (
      SRet (((EF 121 1) * "tt") / (EF 16 1))
    ) (
      SSkip
    )) ;;
    (SIf ("t" < ((EF 8 1) / (EF 11 1))) (
      SRet (((((EF 363 1) / (EF 40 1)) * "tt") - (((EF 99 1) / (EF 10 1)) * "t")) + ((EF 17 1) / (EF 5 1)))
    ) (
      SSkip
    )) ;;
    (SIf ("t" < ((EF 9 1) / (EF 10 1))) (
      SRet (((((EF 4356 1) / (EF 361 1)) * "tt") - (((EF 35442 1) / (EF 1805 1)) * "t")) + ((EF 16061 1) / (EF 1805 1)))
    ) (
      SSkip
    )) ;;
    SRet (((((EF 54 1) / (EF 5 1)) * "tt") - (((EF 513 1) / (EF 25 1)) * "t")) + ((EF 268 1) / (EF 25 1)))
  ).

(* ease.h:304-306 *)
Definition glm_ease_bounce_in : fundef := Fun
  [("t", None)]
  [] (
    SRet ((EF 1 1) - glm_ease_bounce_out$(((EF 1 1) - "t")))
  ).

(* ease.h:310-315 *)
Definition glm_ease_bounce_inout : fundef := Fun
  [("t", None)]
  [] (
    (SIf ("t" < (EF 1 2)) (
      SRet ((EF 1 2) * ((EF 1 1) - glm_ease_bounce_out$(("t" * (EF 2 1)))))
    ) (
      SSkip
    )) ;;
    SRet (((EF 1 2) * glm_ease_bounce_out$((("t" * (EF 2 1)) - (EF 1 1)))) + (EF 1 2))
  ).

