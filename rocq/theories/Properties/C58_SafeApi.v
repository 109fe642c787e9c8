(** C58: Memory safety of the whole inline API.

    For every array or struct function of the library called with valid, same-or-disjoint
    objects of the declared types (and in-range indices), no read of uninitialised storage, no
    out-of-bounds access and no write outside the declared output objects happens, for every
    float arithmetic and every branch outcome; the one exception is glms_frustum_corners_at. *)

From Coq Require Import String List ZArith Bool Reals.
From Verif Require Import MiniC Contract RScalar Cglm.
From Verif.Gen Require Import struct_frustum.
From Verif.Spec Require Import Signatures.
From Verif.Proofs Require SafeApi.
Import ListNotations.
Local Open Scope list_scope.
Local Open Scope string_scope.
Local Open Scope list_scope.

(** For every arithmetic, all values and all addresses that fit the declared parameters, every
    listed function stays inside the objects it is given, reads nothing uninitialised and writes
    only to the objects declared as outputs. *)
Theorem C58_safe : Forall (fun p => safe (fst p) (snd p)) signatures.
Proof. exact SafeApi.C58_safe_ok. Qed.
Print Assumptions C58_safe.

(** the length of the list, one of its entries, and a memory with aliased arguments for it *)
Example C58_safe_example : length signatures = 1479%nat /\ List.In (glm_vec3_cross, [Reads Flt 3; Reads Flt 3; Writes 3]) signatures /\
  forall (F : Type) (x : F), exists m args ps, Forall2 fits [Reads Flt 3; Reads Flt 3; Writes 3] args /\ layout m args ps /\ nth_error ps 0 = nth_error ps 2 /\ m = [fl [x; x; x; x]; fl [x; x; x]].
Proof. exact SafeApi.C58_safe_ex. Qed.

(** De Casteljau's algorithm. *)
Theorem C58_decasteljau : safe glm_decasteljau [Float; Float; Float; Float; Float].
Proof. exact SafeApi.C58_decasteljau_ok. Qed.
Print Assumptions C58_decasteljau.

(** glms_frustum_corners_at reads past the end of a local array. *)
Theorem C58_frustum_corners_at_refuted : exists (S : Scalar) args m ps, Forall2 fits [Reads Flt 32; Float; Float; Writes 16] args /\ layout m args ps /\
  call S glms_frustum_corners_at (actuals args ps) m = Err XBounds.
Proof. exact SafeApi.C58_frustum_corners_at_refuted_ok. Qed.
Print Assumptions C58_frustum_corners_at_refuted.
