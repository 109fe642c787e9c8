(** C50: Swizzle.

    For every mask whose fields are valid component indices glm_vecN_swizzle
    permutes/duplicates components as the mask says, in place too; for vec2/vec3 a mask with a
    field beyond the dimension reads outside the vector. *)

From Coq Require Import String List ZArith Bool Reals.
From Verif Require Import MiniC Contract RScalar Cglm.
From Verif.Spec Require Import Swizzle.
From Verif.Proofs Require Swizzle.
Import ListNotations.
Local Open Scope list_scope.
Local Open Scope Z_scope.

(** every valid mask, for every arithmetic, in place too *)
Theorem C50_swizzle : forall (S : Scalar) n mask (d : T S) v, (2 <= n <= 4)%nat -> length v = n -> mask_ok n mask ->
  computes S (swizzle_fn n) [InA (fl v); Val (VI mask); Out n] VVoid [fl (swizzled n mask d v)].
Proof. exact Swizzle.C50_swizzle_ok. Qed.
Print Assumptions C50_swizzle.

(** a field beyond the dimension reads outside the vector: shown where nothing follows it in memory *)
Theorem C50_outside : forall (S : Scalar) n mask v, (2 <= n <= 3)%nat -> length v = n -> ~ mask_ok n mask -> exists m ps,
  layout m [InA (fl v); Val (VI mask); Out n] ps /\
  call S (swizzle_fn n) (actuals [InA (fl v); Val (VI mask); Out n] ps) m = Err XBounds.
Proof. exact Swizzle.C50_outside_ok. Qed.
Print Assumptions C50_outside.

(** GLM_ZYX reverses, GLM_WWWW of common.h on a vec3 is not valid *)
Example C50_swizzle_example : mask_ok 3 6 /\ swizzled 3 6 0 [1; 2; 3] = [3; 2; 1] /\ ~ mask_ok 3 255 /\ mask_ok 4 255.
Proof. exact Swizzle.C50_swizzle_ex. Qed.
