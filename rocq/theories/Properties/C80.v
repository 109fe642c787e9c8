(** C80: View matrices in single precision.

    In IEEE binary32, let the eye have components of magnitude at most B (1 <= B <= 2^40), the
    distance from eye to center be between 2^-20 and 2^58, the components of up be at most 1 in
    magnitude, and the exact cross product of the view direction and up have length at least d,
    2^-12 <= d <= 1. Then glm_lookat_rh and glm_lookat_lh write numbers such that the rows of
    the rotation are within 77 u/d, 199 u/d and 9 u (u = 2^-24) of the exact right, up and
    depth axes, the translation is within (3 times that + 10 u) B of minus the exact products
    of the axes with the eye, and the last row is exactly 0 0 0 1. *)

From Coq Require Import String List ZArith Bool Reals.
From Verif Require Import MiniC Contract RScalar Cglm.
From Coq Require Import Reals Floats.SpecFloat.
From Verif Require Import B32.
From Verif.Spec Require Import Float32 Linear Geometry Clip Camera View32.
From Verif.Spec Require Import Float32 Linear Geometry Clip Camera View32.
From Verif.Spec Require Import Float32 Linear Geometry Clip Camera View32.
From Verif.Proofs Require View32.
Import ListNotations.
Local Open Scope list_scope.
Local Open Scope R_scope.

Theorem C80_lookat : forall l lh eye center up d B, length eye = 3%nat -> length center = 3%nat -> length up = 3%nat ->
  Forall (fun x => number x /\ Rabs (rval x) <= B) eye -> Forall number center -> Forall (fun x => number x /\ Rabs (rval x) <= 1) up -> 1 <= B <= powerRZ 2 40 ->
  powerRZ 2 (-20) <= norm (vsub (map rval center) (map rval eye)) <= powerRZ 2 58 ->
  / 4096 <= d <= 1 -> d <= norm (vcross (forward (map rval eye) (map rval center)) (map rval up)) ->
  exists F, computes (B32 l) (lookat_fn lh) [In (fl eye); In (fl center); In (fl up); Out 16] VVoid [fl F] /\
    view_within [77 * u / d; 199 * u / d; 9 * u] B (view_axes lh (map rval eye) (map rval center) (map rval up)) (map rval eye) F.
Proof. exact View32.C80_lookat_ok. Qed.
Print Assumptions C80_lookat.

(** an eye at the origin looking along the x axis *)
Example C80_lookat_example : let eye := map (fun k => b_lit k 1) [0; 0; 0]%Z in let center := map (fun k => b_lit k 1) [2; 0; 0]%Z in let up := map (fun k => b_lit k 1) [0; 1; 0]%Z in
  Forall (fun x => number x /\ Rabs (rval x) <= 1) eye /\ Forall number center /\ Forall (fun x => number x /\ Rabs (rval x) <= 1) up /\
  norm (vsub (map rval center) (map rval eye)) = 2 /\ norm (vcross (forward (map rval eye) (map rval center)) (map rval up)) = 1.
Proof. exact View32.C80_lookat_ex. Qed.
