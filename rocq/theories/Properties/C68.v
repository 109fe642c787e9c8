(** C68: Outcome independent of the placement of the arguments.

    For every listed array and struct function except 25 named ones, and for every function of
    the six SIMD builds except five per build, and for every float arithmetic: the returned
    value and the contents left in the written objects (or the arithmetic error) depend only on
    the argument values - not on what the written objects held before, and not on which of the
    pointers that are read are equal to a pointer of the same size that is written. Each of the
    exceptions leaves different binary32 values in two placements of the same arguments. *)

From Coq Require Import String List ZArith Bool Reals.
From Verif Require Import MiniC Contract RScalar Cglm.
From Verif Require Import B32.
From Verif.Gen Require Import struct_box struct_ray.
From Verif.Simd Require sse2.
From Verif.Spec Require Import Types Agree Signatures Builds Placed.
From Verif.Proofs Require Alias.
Import ListNotations.
Local Open Scope list_scope.
Local Open Scope list_scope.

Theorem C68_placement_refuted : forall l, Forall (fun p => placement_matters (B32 l) (fst p) (snd p)) not_determined.
Proof. exact Alias.C68_placement_refuted_ok. Qed.
Print Assumptions C68_placement_refuted.

Theorem C68_simd_placement_refuted : forall l, Forall (fun p => placement_matters (B32 l) (fst p) (snd p)) simd_not_determined.
Proof. exact Alias.C68_simd_placement_refuted_ok. Qed.
Print Assumptions C68_simd_placement_refuted.

Theorem C68_determined : forall p, List.In p signatures -> determined (fst p) (snd p) \/ List.In p not_determined.
Proof. exact Alias.C68_determined_ok. Qed.
Print Assumptions C68_determined.

(** in-place cross product: one of the placements, and where the list has the function *)
Example C68_determined_example : length signatures = 1479%nat /\ length not_determined = 25%nat /\
  nth_error signatures 1350 = Some (glm_vec3_cross, [Reads Flt 3; Reads Flt 3; Writes 3]) /\
  forall l, let a := fl (map b_int [1; 2; 3]%Z) in let b := fl (map b_int [4; 5; 6]%Z) in
    layout [a; b] [InA a; InA b; Out 3] [(0%nat, 0%Z); (1%nat, 0%Z); (0%nat, 0%Z)] /\
    call (B32 l) glm_vec3_cross [VP 0 0; VP 1 0; VP 0 0] [a; b] = Ok (VVoid, [fl (map b_int [-3; 6; -3]%Z); b]).
Proof. exact Alias.C68_determined_ex. Qed.

Theorem C68_simd_determined : forall p, List.In p simd_signatures -> determined (fst p) (snd p) \/ List.In p simd_not_determined.
Proof. exact Alias.C68_simd_determined_ok. Qed.
Print Assumptions C68_simd_determined.

(** the in-place transposition and quaternion product of the SIMD builds are among the determined *)
Example C68_simd_determined_example : length simd_signatures = 1148%nat /\ length simd_not_determined = 30%nat /\
  forall l, let a := fl (map b_int [1; 0; 0; 1]%Z) in let b := fl (map b_int [0; 1; 0; 1]%Z) in
    call (B32 l) sse2.sse2_glm_quat_mul [VP 0 0; VP 1 0; VP 0 0] [a; b] = Ok (VVoid, [fl (map b_int [1; 1; 1; 1]%Z); b]) /\
    call (B32 l) glm_quat_mul [VP 0 0; VP 1 0; VP 0 0] [a; b] <> Ok (VVoid, [fl (map b_int [1; 1; 1; 1]%Z); b]).
Proof. exact Alias.C68_simd_determined_ex. Qed.
