(** C58: Memory safety of the whole inline API.

    For every array or struct function of the library called with valid, same-or-disjoint
    objects of the declared types (and in-range indices), no read of uninitialised storage, no
    out-of-bounds access and no write outside the declared output objects happens, for every
    float arithmetic and every branch outcome; the one exception is glms_frustum_corners_at. *)

From Coq Require Import String List ZArith Bool Reals.
From Verif Require Import MiniC Contract RScalar Cglm.
From Verif.Gen Require Import struct_ivec3.
From Verif.Spec Require Import Vec IntVec.
From Verif.Spec Require Import Types.
From Verif.Proofs Require SafeNorm.
Import ListNotations.
Local Open Scope list_scope.
Local Open Scope string_scope.
Local Open Scope list_scope.

(** The integer norm, whose result is a float converted to an integer. *)
Theorem C58_norm : safe glm_ivec3_norm [Reads Int 3] /\ safe glms_ivec3_norm [Struct Int 3].
Proof. exact SafeNorm.C58_norm_ok. Qed.
Print Assumptions C58_norm.
