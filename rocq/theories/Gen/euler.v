(** Functions of include/cglm/euler.h (configuration: scalar), written by tools/gen.py.
    The comment above each definition gives file and lines in /repo/include/cglm. *)
From Coq Require Import String List ZArith.
From Verif Require Import MiniC.
From Verif.Gen Require Import handed_euler_to_quat_rh.
Import ListNotations.
Open Scope string_scope.
Open Scope Z_scope.
Open Scope mc_scope.

(* euler.h:107-109 *)
Definition glm_euler_order : fundef := Fun
  [("ord", None)]
  [] (
    SRet (EBin (BArith IOr) (EBin (BArith IOr) (EBin (BArith IShl) !"ord".[0] (EI 0)) (EBin (BArith IShl) !"ord".[1] (EI 2))) (EBin (BArith IShl) !"ord".[2] (EI 4)))
  ).

(* euler.h:119-147 *)
Definition glm_euler_angles : fundef := Fun
  [("m", None); ("dest", None)]
  [("m00", None); ("m01", None); ("m10", None); ("m11", None); ("m20", None); ("m21", None); ("m22", None); ("thetaX", None); ("thetaY", None); ("thetaZ", None)] (
    "m00" <~ !"m".[0:4].[0] ;;
    "m10" <~ !"m".[1:4].[0] ;;
    "m20" <~ !"m".[2:4].[0] ;;
    "m01" <~ !"m".[0:4].[1] ;;
    "m11" <~ !"m".[1:4].[1] ;;
    "m21" <~ !"m".[2:4].[1] ;;
    "m22" <~ !"m".[2:4].[2] ;;
    (SIf ("m20" < (EF 1 1)) (
      (SIf ("m20" > (- (EF 1 1))) (
        "thetaY" <~ builtin (PF1 OAsin)$("m20") ;;
        "thetaX" <~ builtin (PF2 OAtan2)$((- "m21"), "m22") ;;
        "thetaZ" <~ builtin (PF2 OAtan2)$((- "m10"), "m00")
      ) (
        "thetaY" <~ (- (EPi 1 2)) ;;
        "thetaX" <~ (- builtin (PF2 OAtan2)$("m01", "m11")) ;;
        "thetaZ" <~ (EF 0 1)
      ))
    ) (
      "thetaY" <~ (EPi 1 2) ;;
      "thetaX" <~ builtin (PF2 OAtan2)$("m01", "m11") ;;
      "thetaZ" <~ (EF 0 1)
    )) ;;
    "dest".[0] ::= "thetaX" ;;
    "dest".[1] ::= "thetaY" ;;
    "dest".[2] ::= "thetaZ"
  ).

(* euler.h:157-185 *)
Definition glm_euler_xyz : fundef := Fun
  [("angles", None); ("dest", None)]
  [("cx", None); ("cy", None); ("cz", None); ("sx", None); ("sy", None); ("sz", None); ("czsx", None); ("cxcz", None); ("sysz", None)] (
    "sx" <~ builtin (PF1 OSin)$(!"angles".[0]) ;;
    "cx" <~ builtin (PF1 OCos)$(!"angles".[0]) ;;
    "sy" <~ builtin (PF1 OSin)$(!"angles".[1]) ;;
    "cy" <~ builtin (PF1 OCos)$(!"angles".[1]) ;;
    "sz" <~ builtin (PF1 OSin)$(!"angles".[2]) ;;
    "cz" <~ builtin (PF1 OCos)$(!"angles".[2]) ;;
    "czsx" <~ ("cz" * "sx") ;;
    "cxcz" <~ ("cx" * "cz") ;;
    "sysz" <~ ("sy" * "sz") ;;
    "dest".[0:4].[0] ::= ("cy" * "cz") ;;
    "dest".[0:4].[1] ::= (("czsx" * "sy") + ("cx" * "sz")) ;;
    "dest".[0:4].[2] ::= (((- "cxcz") * "sy") + ("sx" * "sz")) ;;
    "dest".[1:4].[0] ::= ((- "cy") * "sz") ;;
    "dest".[1:4].[1] ::= ("cxcz" - ("sx" * "sysz")) ;;
    "dest".[1:4].[2] ::= ("czsx" + ("cx" * "sysz")) ;;
    "dest".[2:4].[0] ::= "sy" ;;
    "dest".[2:4].[1] ::= ((- "cy") * "sx") ;;
    "dest".[2:4].[2] ::= ("cx" * "cy") ;;
    "dest".[0:4].[3] ::= (EF 0 1) ;;
    "dest".[1:4].[3] ::= (EF 0 1) ;;
    "dest".[2:4].[3] ::= (EF 0 1) ;;
    "dest".[3:4].[0] ::= (EF 0 1) ;;
    "dest".[3:4].[1] ::= (EF 0 1) ;;
    "dest".[3:4].[2] ::= (EF 0 1) ;;
    "dest".[3:4].[3] ::= (EF 1 1)
  ).

(* euler.h:195-197 *)
Definition glm_euler : fundef := Fun
  [("angles", None); ("dest", None)]
  [] (
    SExp glm_euler_xyz$("angles", "dest")
  ).

(* euler.h:207-236 *)
Definition glm_euler_xzy : fundef := Fun
  [("angles", None); ("dest", None)]
  [("cx", None); ("cy", None); ("cz", None); ("sx", None); ("sy", None); ("sz", None); ("sxsy", None); ("cysx", None); ("cxsy", None); ("cxcy", None)] (
    "sx" <~ builtin (PF1 OSin)$(!"angles".[0]) ;;
    "cx" <~ builtin (PF1 OCos)$(!"angles".[0]) ;;
    "sy" <~ builtin (PF1 OSin)$(!"angles".[1]) ;;
    "cy" <~ builtin (PF1 OCos)$(!"angles".[1]) ;;
    "sz" <~ builtin (PF1 OSin)$(!"angles".[2]) ;;
    "cz" <~ builtin (PF1 OCos)$(!"angles".[2]) ;;
    "sxsy" <~ ("sx" * "sy") ;;
    "cysx" <~ ("cy" * "sx") ;;
    "cxsy" <~ ("cx" * "sy") ;;
    "cxcy" <~ ("cx" * "cy") ;;
    "dest".[0:4].[0] ::= ("cy" * "cz") ;;
    "dest".[0:4].[1] ::= ("sxsy" + ("cxcy" * "sz")) ;;
    "dest".[0:4].[2] ::= ((- "cxsy") + ("cysx" * "sz")) ;;
    "dest".[1:4].[0] ::= (- "sz") ;;
    "dest".[1:4].[1] ::= ("cx" * "cz") ;;
    "dest".[1:4].[2] ::= ("cz" * "sx") ;;
    "dest".[2:4].[0] ::= ("cz" * "sy") ;;
    "dest".[2:4].[1] ::= ((- "cysx") + ("cxsy" * "sz")) ;;
    "dest".[2:4].[2] ::= ("cxcy" + ("sxsy" * "sz")) ;;
    "dest".[0:4].[3] ::= (EF 0 1) ;;
    "dest".[1:4].[3] ::= (EF 0 1) ;;
    "dest".[2:4].[3] ::= (EF 0 1) ;;
    "dest".[3:4].[0] ::= (EF 0 1) ;;
    "dest".[3:4].[1] ::= (EF 0 1) ;;
    "dest".[3:4].[2] ::= (EF 0 1) ;;
    "dest".[3:4].[3] ::= (EF 1 1)
  ).

(* euler.h:246-275 *)
Definition glm_euler_yxz : fundef := Fun
  [("angles", None); ("dest", None)]
  [("cx", None); ("cy", None); ("cz", None); ("sx", None); ("sy", None); ("sz", None); ("cycz", None); ("sysz", None); ("czsy", None); ("cysz", None)] (
    "sx" <~ builtin (PF1 OSin)$(!"angles".[0]) ;;
    "cx" <~ builtin (PF1 OCos)$(!"angles".[0]) ;;
    "sy" <~ builtin (PF1 OSin)$(!"angles".[1]) ;;
    "cy" <~ builtin (PF1 OCos)$(!"angles".[1]) ;;
    "sz" <~ builtin (PF1 OSin)$(!"angles".[2]) ;;
    "cz" <~ builtin (PF1 OCos)$(!"angles".[2]) ;;
    "cycz" <~ ("cy" * "cz") ;;
    "sysz" <~ ("sy" * "sz") ;;
    "czsy" <~ ("cz" * "sy") ;;
    "cysz" <~ ("cy" * "sz") ;;
    "dest".[0:4].[0] ::= ("cycz" + ("sx" * "sysz")) ;;
    "dest".[0:4].[1] ::= ("cx" * "sz") ;;
    "dest".[0:4].[2] ::= ((- "czsy") + ("cysz" * "sx")) ;;
    "dest".[1:4].[0] ::= ((- "cysz") + ("czsy" * "sx")) ;;
    "dest".[1:4].[1] ::= ("cx" * "cz") ;;
    "dest".[1:4].[2] ::= (("cycz" * "sx") + "sysz") ;;
    "dest".[2:4].[0] ::= ("cx" * "sy") ;;
    "dest".[2:4].[1] ::= (- "sx") ;;
    "dest".[2:4].[2] ::= ("cx" * "cy") ;;
    "dest".[0:4].[3] ::= (EF 0 1) ;;
    "dest".[1:4].[3] ::= (EF 0 1) ;;
    "dest".[2:4].[3] ::= (EF 0 1) ;;
    "dest".[3:4].[0] ::= (EF 0 1) ;;
    "dest".[3:4].[1] ::= (EF 0 1) ;;
    "dest".[3:4].[2] ::= (EF 0 1) ;;
    "dest".[3:4].[3] ::= (EF 1 1)
  ).

(* euler.h:285-314 *)
Definition glm_euler_yzx : fundef := Fun
  [("angles", None); ("dest", None)]
  [("cx", None); ("cy", None); ("cz", None); ("sx", None); ("sy", None); ("sz", None); ("sxsy", None); ("cxcy", None); ("cysx", None); ("cxsy", None)] (
    "sx" <~ builtin (PF1 OSin)$(!"angles".[0]) ;;
    "cx" <~ builtin (PF1 OCos)$(!"angles".[0]) ;;
    "sy" <~ builtin (PF1 OSin)$(!"angles".[1]) ;;
    "cy" <~ builtin (PF1 OCos)$(!"angles".[1]) ;;
    "sz" <~ builtin (PF1 OSin)$(!"angles".[2]) ;;
    "cz" <~ builtin (PF1 OCos)$(!"angles".[2]) ;;
    "sxsy" <~ ("sx" * "sy") ;;
    "cxcy" <~ ("cx" * "cy") ;;
    "cysx" <~ ("cy" * "sx") ;;
    "cxsy" <~ ("cx" * "sy") ;;
    "dest".[0:4].[0] ::= ("cy" * "cz") ;;
    "dest".[0:4].[1] ::= "sz" ;;
    "dest".[0:4].[2] ::= ((- "cz") * "sy") ;;
    "dest".[1:4].[0] ::= ("sxsy" - ("cxcy" * "sz")) ;;
    "dest".[1:4].[1] ::= ("cx" * "cz") ;;
    "dest".[1:4].[2] ::= ("cysx" + ("cxsy" * "sz")) ;;
    "dest".[2:4].[0] ::= ("cxsy" + ("cysx" * "sz")) ;;
    "dest".[2:4].[1] ::= ((- "cz") * "sx") ;;
    "dest".[2:4].[2] ::= ("cxcy" - ("sxsy" * "sz")) ;;
    "dest".[0:4].[3] ::= (EF 0 1) ;;
    "dest".[1:4].[3] ::= (EF 0 1) ;;
    "dest".[2:4].[3] ::= (EF 0 1) ;;
    "dest".[3:4].[0] ::= (EF 0 1) ;;
    "dest".[3:4].[1] ::= (EF 0 1) ;;
    "dest".[3:4].[2] ::= (EF 0 1) ;;
    "dest".[3:4].[3] ::= (EF 1 1)
  ).

(* euler.h:324-352 *)
Definition glm_euler_zxy : fundef := Fun
  [("angles", None); ("dest", None)]
  [("cx", None); ("cy", None); ("cz", None); ("sx", None); ("sy", None); ("sz", None); ("cycz", None); ("sxsy", None); ("cysz", None)] (
    "sx" <~ builtin (PF1 OSin)$(!"angles".[0]) ;;
    "cx" <~ builtin (PF1 OCos)$(!"angles".[0]) ;;
    "sy" <~ builtin (PF1 OSin)$(!"angles".[1]) ;;
    "cy" <~ builtin (PF1 OCos)$(!"angles".[1]) ;;
    "sz" <~ builtin (PF1 OSin)$(!"angles".[2]) ;;
    "cz" <~ builtin (PF1 OCos)$(!"angles".[2]) ;;
    "cycz" <~ ("cy" * "cz") ;;
    "sxsy" <~ ("sx" * "sy") ;;
    "cysz" <~ ("cy" * "sz") ;;
    "dest".[0:4].[0] ::= ("cycz" - ("sxsy" * "sz")) ;;
    "dest".[0:4].[1] ::= (("cz" * "sxsy") + "cysz") ;;
    "dest".[0:4].[2] ::= ((- "cx") * "sy") ;;
    "dest".[1:4].[0] ::= ((- "cx") * "sz") ;;
    "dest".[1:4].[1] ::= ("cx" * "cz") ;;
    "dest".[1:4].[2] ::= "sx" ;;
    "dest".[2:4].[0] ::= (("cz" * "sy") + ("cysz" * "sx")) ;;
    "dest".[2:4].[1] ::= (((- "cycz") * "sx") + ("sy" * "sz")) ;;
    "dest".[2:4].[2] ::= ("cx" * "cy") ;;
    "dest".[0:4].[3] ::= (EF 0 1) ;;
    "dest".[1:4].[3] ::= (EF 0 1) ;;
    "dest".[2:4].[3] ::= (EF 0 1) ;;
    "dest".[3:4].[0] ::= (EF 0 1) ;;
    "dest".[3:4].[1] ::= (EF 0 1) ;;
    "dest".[3:4].[2] ::= (EF 0 1) ;;
    "dest".[3:4].[3] ::= (EF 1 1)
  ).

(* euler.h:362-390 *)
Definition glm_euler_zyx : fundef := Fun
  [("angles", None); ("dest", None)]
  [("cx", None); ("cy", None); ("cz", None); ("sx", None); ("sy", None); ("sz", None); ("czsx", None); ("cxcz", None); ("sysz", None)] (
    "sx" <~ builtin (PF1 OSin)$(!"angles".[0]) ;;
    "cx" <~ builtin (PF1 OCos)$(!"angles".[0]) ;;
    "sy" <~ builtin (PF1 OSin)$(!"angles".[1]) ;;
    "cy" <~ builtin (PF1 OCos)$(!"angles".[1]) ;;
    "sz" <~ builtin (PF1 OSin)$(!"angles".[2]) ;;
    "cz" <~ builtin (PF1 OCos)$(!"angles".[2]) ;;
    "czsx" <~ ("cz" * "sx") ;;
    "cxcz" <~ ("cx" * "cz") ;;
    "sysz" <~ ("sy" * "sz") ;;
    "dest".[0:4].[0] ::= ("cy" * "cz") ;;
    "dest".[0:4].[1] ::= ("cy" * "sz") ;;
    "dest".[0:4].[2] ::= (- "sy") ;;
    "dest".[1:4].[0] ::= (("czsx" * "sy") - ("cx" * "sz")) ;;
    "dest".[1:4].[1] ::= ("cxcz" + ("sx" * "sysz")) ;;
    "dest".[1:4].[2] ::= ("cy" * "sx") ;;
    "dest".[2:4].[0] ::= (("cxcz" * "sy") + ("sx" * "sz")) ;;
    "dest".[2:4].[1] ::= ((- "czsx") + ("cx" * "sysz")) ;;
    "dest".[2:4].[2] ::= ("cx" * "cy") ;;
    "dest".[0:4].[3] ::= (EF 0 1) ;;
    "dest".[1:4].[3] ::= (EF 0 1) ;;
    "dest".[2:4].[3] ::= (EF 0 1) ;;
    "dest".[3:4].[0] ::= (EF 0 1) ;;
    "dest".[3:4].[1] ::= (EF 0 1) ;;
    "dest".[3:4].[2] ::= (EF 0 1) ;;
    "dest".[3:4].[3] ::= (EF 1 1)
  ).

(* euler.h:401-495 *)
Definition glm_euler_by_order : fundef := Fun
  [("angles", None); ("ord", None); ("dest", None)]
  [("cx", None); ("cy", None); ("cz", None); ("sx", None); ("sy", None); ("sz", None); ("cycz", None); ("cysz", None); ("cysx", None); ("cxcy", None); ("czsy", None); ("cxcz", None); ("czsx", None); ("cxsz", None); ("sysz", None)] (
    "sx" <~ builtin (PF1 OSin)$(!"angles".[0]) ;;
    "cx" <~ builtin (PF1 OCos)$(!"angles".[0]) ;;
    "sy" <~ builtin (PF1 OSin)$(!"angles".[1]) ;;
    "cy" <~ builtin (PF1 OCos)$(!"angles".[1]) ;;
    "sz" <~ builtin (PF1 OSin)$(!"angles".[2]) ;;
    "cz" <~ builtin (PF1 OCos)$(!"angles".[2]) ;;
    "cycz" <~ ("cy" * "cz") ;;
    "cysz" <~ ("cy" * "sz") ;;
    "cysx" <~ ("cy" * "sx") ;;
    "cxcy" <~ ("cx" * "cy") ;;
    "czsy" <~ ("cz" * "sy") ;;
    "cxcz" <~ ("cx" * "cz") ;;
    "czsx" <~ ("cz" * "sx") ;;
    "cxsz" <~ ("cx" * "sz") ;;
    "sysz" <~ ("sy" * "sz") ;;
    (SIf ("ord" == (EI 24)) (
      "dest".[0:4].[0] ::= "cycz" ;;
      "dest".[0:4].[1] ::= (("sx" * "sy") + ("cx" * "cysz")) ;;
      "dest".[0:4].[2] ::= (((- "cx") * "sy") + ("cysx" * "sz")) ;;
      "dest".[1:4].[0] ::= (- "sz") ;;
      "dest".[1:4].[1] ::= "cxcz" ;;
      "dest".[1:4].[2] ::= "czsx" ;;
      "dest".[2:4].[0] ::= "czsy" ;;
      "dest".[2:4].[1] ::= ((- "cysx") + ("cx" * "sysz")) ;;
      "dest".[2:4].[2] ::= ("cxcy" + ("sx" * "sysz"))
    ) (
      (SIf ("ord" == (EI 36)) (
        "dest".[0:4].[0] ::= "cycz" ;;
        "dest".[0:4].[1] ::= (("czsx" * "sy") + "cxsz") ;;
        "dest".[0:4].[2] ::= (((- "cx") * "czsy") + ("sx" * "sz")) ;;
        "dest".[1:4].[0] ::= (- "cysz") ;;
        "dest".[1:4].[1] ::= ("cxcz" - ("sx" * "sysz")) ;;
        "dest".[1:4].[2] ::= ("czsx" + ("cx" * "sysz")) ;;
        "dest".[2:4].[0] ::= "sy" ;;
        "dest".[2:4].[1] ::= (- "cysx") ;;
        "dest".[2:4].[2] ::= "cxcy"
      ) (
        (SIf ("ord" == (EI 33)) (
          "dest".[0:4].[0] ::= ("cycz" + ("sx" * "sysz")) ;;
          "dest".[0:4].[1] ::= "cxsz" ;;
          "dest".[0:4].[2] ::= ((- "czsy") + ("cysx" * "sz")) ;;
          "dest".[1:4].[0] ::= (("czsx" * "sy") - "cysz") ;;
          "dest".[1:4].[1] ::= "cxcz" ;;
          "dest".[1:4].[2] ::= (("cycz" * "sx") + "sysz") ;;
          "dest".[2:4].[0] ::= ("cx" * "sy") ;;
          "dest".[2:4].[1] ::= (- "sx") ;;
          "dest".[2:4].[2] ::= "cxcy"
        ) (
          (SIf ("ord" == (EI 9)) (
            "dest".[0:4].[0] ::= "cycz" ;;
            "dest".[0:4].[1] ::= "sz" ;;
            "dest".[0:4].[2] ::= (- "czsy") ;;
            "dest".[1:4].[0] ::= (("sx" * "sy") - ("cx" * "cysz")) ;;
            "dest".[1:4].[1] ::= "cxcz" ;;
            "dest".[1:4].[2] ::= ("cysx" + ("cx" * "sysz")) ;;
            "dest".[2:4].[0] ::= (("cx" * "sy") + ("cysx" * "sz")) ;;
            "dest".[2:4].[1] ::= (- "czsx") ;;
            "dest".[2:4].[2] ::= ("cxcy" - ("sx" * "sysz"))
          ) (
            (SIf ("ord" == (EI 18)) (
              "dest".[0:4].[0] ::= ("cycz" - ("sx" * "sysz")) ;;
              "dest".[0:4].[1] ::= (("czsx" * "sy") + "cysz") ;;
              "dest".[0:4].[2] ::= ((- "cx") * "sy") ;;
              "dest".[1:4].[0] ::= (- "cxsz") ;;
              "dest".[1:4].[1] ::= "cxcz" ;;
              "dest".[1:4].[2] ::= "sx" ;;
              "dest".[2:4].[0] ::= ("czsy" + ("cysx" * "sz")) ;;
              "dest".[2:4].[1] ::= (((- "cycz") * "sx") + "sysz") ;;
              "dest".[2:4].[2] ::= "cxcy"
            ) (
              (SIf ("ord" == (EI 6)) (
                "dest".[0:4].[0] ::= "cycz" ;;
                "dest".[0:4].[1] ::= "cysz" ;;
                "dest".[0:4].[2] ::= (- "sy") ;;
                "dest".[1:4].[0] ::= (("czsx" * "sy") - "cxsz") ;;
                "dest".[1:4].[1] ::= ("cxcz" + ("sx" * "sysz")) ;;
                "dest".[1:4].[2] ::= "cysx" ;;
                "dest".[2:4].[0] ::= (("cx" * "czsy") + ("sx" * "sz")) ;;
                "dest".[2:4].[1] ::= ((- "czsx") + ("cx" * "sysz")) ;;
                "dest".[2:4].[2] ::= "cxcy"
              ) (
                SSkip
              ))
            ))
          ))
        ))
      ))
    )) ;;
    "dest".[0:4].[3] ::= (EF 0 1) ;;
    "dest".[1:4].[3] ::= (EF 0 1) ;;
    "dest".[2:4].[3] ::= (EF 0 1) ;;
    "dest".[3:4].[0] ::= (EF 0 1) ;;
    "dest".[3:4].[1] ::= (EF 0 1) ;;
    "dest".[3:4].[2] ::= (EF 0 1) ;;
    "dest".[3:4].[3] ::= (EF 1 1)
  ).

(* euler.h:507-513 *)
Definition glm_euler_xyz_quat : fundef := Fun
  [("angles", None); ("dest", None)]
  [] (
    SExp glm_euler_xyz_quat_rh$("angles", "dest")
  ).

(* euler.h:524-530 *)
Definition glm_euler_xzy_quat : fundef := Fun
  [("angles", None); ("dest", None)]
  [] (
    SExp glm_euler_xzy_quat_rh$("angles", "dest")
  ).

(* euler.h:541-547 *)
Definition glm_euler_yxz_quat : fundef := Fun
  [("angles", None); ("dest", None)]
  [] (
    SExp glm_euler_yxz_quat_rh$("angles", "dest")
  ).

(* euler.h:558-564 *)
Definition glm_euler_yzx_quat : fundef := Fun
  [("angles", None); ("dest", None)]
  [] (
    SExp glm_euler_yzx_quat_rh$("angles", "dest")
  ).

(* euler.h:575-581 *)
Definition glm_euler_zxy_quat : fundef := Fun
  [("angles", None); ("dest", None)]
  [] (
    SExp glm_euler_zxy_quat_rh$("angles", "dest")
  ).

(* euler.h:592-598 *)
Definition glm_euler_zyx_quat : fundef := Fun
  [("angles", None); ("dest", None)]
  [] (
    SExp glm_euler_zyx_quat_rh$("angles", "dest")
  ).

