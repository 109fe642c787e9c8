(** C58: Memory safety of the whole inline API.

    For every array or struct function of the library called with valid, same-or-disjoint
    objects of the declared types (and in-range indices), no read of uninitialised storage, no
    out-of-bounds access and no write outside the declared output objects happens, for every
    float arithmetic and every branch outcome; the one exception is glms_frustum_corners_at. *)

From Coq Require Import String List ZArith Bool Reals.
From Verif Require Import MiniC Contract RScalar Cglm.
From Verif.Spec Require Import Types Agree Builds.
From Verif.Proofs Require SimdBuilds.
Import ListNotations.
Local Open Scope list_scope.

(** The SIMD versions are memory safe for every arithmetic, all argument values and all
    addresses that fit the declared parameters. *)
Theorem C58_simd : Forall (fun p => safe (fst p) (snd p)) simd_signatures.
Proof. exact SimdBuilds.C58_simd_ok. Qed.
Print Assumptions C58_simd.
