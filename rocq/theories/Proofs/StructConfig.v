(** * The struct API of the builds with other macros (C66) *)

From Coq Require Import String List ZArith Bool Lia Reals.
From Verif Require Import MiniC Contract SymSound SymCall Tac RScalar.
From Verif.Config Require Import eps fast.
From Verif.Spec Require Import StructConfig Linear Geometry Close.
From Verif.Proofs Require Import Loop Layout Forward Struct Outcome Config.
Import ListNotations.
(* props: From Coq Require Import Reals. *)
(* props: From Verif.Config Require Import eps fast. *)
(* props: From Verif.Spec Require Import StructConfig Linear Geometry Close. *)

(** the contract of the array function carries over to the struct function *)
Lemma C66_struct_ok : Forall (fun t => transfers (fst (fst t)) (snd (fst t)) (snd t)) struct_config.
Proof. unfold struct_config. repeat (apply Forall_cons; [apply shape_ok; vm_compute; reflexivity|]). constructor. Qed.
Lemma C66_struct_ex : length struct_config = 20%nat /\ List.In (eps_glms_vec2_eq_eps, eps_glm_vec2_eq_eps, Returned) struct_config /\
  computes RS eps_glms_vec2_eq_eps [Val (VA (fl [1; 2]%R)); Val (VF 1%R)] (VB (all_within eps [1; 2]%R [1; 1]%R)) [].
Proof.
  split; [reflexivity|]. split; [left; reflexivity|].
  pose proof C66_struct_ok as H. unfold struct_config in H. apply Forall_inv in H. cbn [fst snd transfers] in H.
  refine (H RS [Val (VA (fl [1; 2]%R)); Val (VF 1%R)] [In (fl [1; 2]%R); Val (VF 1%R)] [] _ _ eq_refl _).
  - apply (ops_copy (fl [1; 2]%R)); [left; reflexivity|]. apply ops_same; [discriminate|discriminate|constructor].
  - exact (proj1 (proj2 (proj2 (proj2 (proj2 C66_eps_ok)))) [1; 2]%R 1%R eq_refl).
Qed.
